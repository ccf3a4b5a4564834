(** Multi-sector protection, for buffers of any number of sectors. *)
From Verif Require Import Base FrsSpec.

Definition all_intact (raw : list Z) (uo : Z) : Prop :=
  forall k, 0 <= k -> 512 * (k + 1) <= zlen raw -> intact raw uo k.

(** Everything but the sector tails is unchanged. *)
Definition same_body (raw out : list Z) : Prop :=
  zlen out = zlen raw /\ forall p, 0 <= p < zlen raw -> p mod 512 < 510 -> znth out p = znth raw p.

(** The tails are those saved in the array. *)
Definition tails_restored (raw out : list Z) (uo : Z) : Prop :=
  forall p, 0 <= p < zlen raw -> 510 <= p mod 512 ->
    znth out p = znth raw (uo + 2 * (p / 512 + 1) + (p mod 512 - 510)).
