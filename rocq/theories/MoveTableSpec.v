(** The slots of a move table. *)
From Verif Require Import Base.

(** [count] numbers from [start] on. *)
Fixpoint zseq (start : Z) (count : nat) : list Z :=
  match count with O => [] | S n => start :: zseq (start + 1) n end.

(** Entry slots of a sector of [size] bytes starting at [base]: four in a sector
    of 512 bytes, 32 in a sector of 4096. *)
Definition sector_slots (data : list Z) (base size : Z) : list (list Z) :=
  map (fun j => slice data (base + 124 * j) (base + 124 * j + 124)) (zseq 0 (if size =? 512 then 4%nat else 32%nat)).

(** All slots of the sectors after the first one.  A log in sectors of 4096 bytes
    may end with a sector of 512. *)
Definition mt_slots (data : list Z) (s : Z) : list (list Z) :=
  flat_map (fun i => sector_slots data (i * s) s) (zseq 1 (Z.to_nat (zlen data / s - 1))) ++
  (if (s =? 4096) && (zlen data mod 4096 =? 512) && (4096 <=? zlen data)
   then sector_slots data (zlen data - 512) 512 else []).

Definition known_type (e : list Z) : Prop := fld 4 e 8 = 1 \/ fld 4 e 8 = 2.
Definition used_slots (l : list (list Z)) : list (list Z) := filter (fun e => fld 4 e 8 =? 2) l.
