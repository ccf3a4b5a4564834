(** Specification of mapping pairs: the on-disk grammar, stated on its own. *)
From Verif Require Import Base.

(** [MP lcn first bytes runs]: [bytes] starts with a well-formed encoding of
    [runs]; [lcn] is the cluster the next delta is relative to and [first]
    tells that no run precedes.  Fields are little-endian two's complement of
    1..8 bytes; the header byte holds the two field lengths in its nibbles. *)
Inductive MP : Z -> bool -> list Z -> list (option Z * Z) -> Prop :=
| MP_end : forall lcn first rest, MP lcn first (0 :: rest) []
| MP_sparse : forall lcn first cnt rest runs,
    1 <= zlen cnt <= 8 -> 0 < le_sval cnt ->
    MP lcn false rest runs ->
    MP lcn first (zlen cnt :: cnt ++ rest) ((None, le_sval cnt) :: runs)
| MP_run : forall lcn first cnt off rest runs,
    1 <= zlen cnt <= 8 -> 0 < le_sval cnt ->
    1 <= zlen off <= 8 ->
    (lcn + le_sval off = 0 -> first = true) ->
    MP (lcn + le_sval off) false rest runs ->
    MP lcn first ((zlen cnt + 16 * zlen off) :: cnt ++ off ++ rest)
       ((Some (lcn + le_sval off), le_sval cnt) :: runs).

(** An encoder: fixed 8-byte fields. *)
Definition enc64 (v : Z) : list Z := le_bytes 8 (v mod 2 ^ 64).

Fixpoint mp_encode (lcn : Z) (runs : list (option Z * Z)) : list Z :=
  match runs with
  | [] => [0]
  | (None, c) :: t => 8 :: enc64 c ++ mp_encode lcn t
  | (Some o, c) :: t => (8 + 16 * 8) :: enc64 c ++ enc64 (o - lcn) ++ mp_encode o t
  end.

(** Run lists an encoder accepts: positive lengths below 2^63, deltas that fit
    64 bits, and no run other than the first placed at cluster 0. *)
Fixpoint runs_ok (lcn : Z) (first : bool) (runs : list (option Z * Z)) : Prop :=
  match runs with
  | [] => True
  | (None, c) :: t => 0 < c < 2 ^ 63 /\ runs_ok lcn false t
  | (Some o, c) :: t =>
    0 < c < 2 ^ 63 /\ - 2 ^ 63 <= o - lcn < 2 ^ 63 /\ (o = 0 -> first = true)
    /\ runs_ok o false t
  end.
