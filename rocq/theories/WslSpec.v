(** Specification of the WSL extended attributes. *)
From Verif Require Import Base.

(** One Linux extended attribute in the bytes from [pos] on; [next] is the stored
    relative offset of the next one (0: none), [len] how many bytes belong to it. *)
Definition lxx_at (v : list Z) (pos : Z) (name value : list Z) (next : Z) : Prop :=
  exists len,
  pos + 4 <= zlen v /\ next = fld 4 v pos /\
  len = (if next =? 0 then zlen v - pos else Z.min next (zlen v - pos)) /\ 9 <= len /\
  let n := fld 1 v (pos + 6) in
  n <> 0 /\ name = slice v (pos + 7) (pos + Z.min len (7 + n)) /\
  value = slice v (pos + 7 + n) (pos + Z.min len (7 + n + fld 2 v (pos + 4))).

Inductive lxx_walk (v : list Z) : Z -> list (list Z * list Z) -> Prop :=
| lxw_end : forall pos, (forall n x k, ~ lxx_at v pos n x k) -> lxx_walk v pos []
| lxw_last : forall pos n x, lxx_at v pos n x 0 -> lxx_walk v pos [(n, x)]
| lxw_more : forall pos n x k l,
    lxx_at v pos n x k -> 0 < k -> lxx_walk v (pos + k) l -> lxx_walk v pos ((n, x) :: l).

(** An attribute as a writer lays it out. *)
Record lxx_image : Type := mk_lxi { lxi_name : list Z; lxi_value : list Z; lxi_pad : list Z }.
Definition lxi_size (i : lxx_image) : Z := 7 + zlen (lxi_name i) + zlen (lxi_value i) + zlen (lxi_pad i).
Definition lxi_ok (i : lxx_image) : Prop :=
  0 < zlen (lxi_name i) < 256 /\ zlen (lxi_value i) < 65536 /\ 9 <= lxi_size i < 2 ^ 32.
Definition lxi_bytes (i : lxx_image) (next : Z) : list Z :=
  le_bytes 4 next ++ le_bytes 2 (zlen (lxi_value i)) ++ le_bytes 1 (zlen (lxi_name i)) ++
  lxi_name i ++ lxi_value i ++ lxi_pad i.
Fixpoint lxis_bytes (l : list lxx_image) (terminated : bool) : list Z :=
  match l with
  | [] => []
  | [i] => lxi_bytes i (if terminated then 0 else lxi_size i)
  | i :: t => lxi_bytes i (lxi_size i) ++ lxis_bytes t terminated
  end.
Definition lxi_entry (i : lxx_image) : list Z * list Z := (lxi_name i, lxi_value i).
(** Format 0, version 1. *)
Definition lxx_value (l : list lxx_image) (terminated : bool) : list Z :=
  [0; 0; 1; 0] ++ lxis_bytes l terminated.
