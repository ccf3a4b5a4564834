(** What the exFAT table and the allocation bitmap mean, independently of how the program reads them. *)
From Verif Require Import Base FatSpec.

(** Entries have 32 bits, all used: [packed_entry 32].  0xFFFFFFFF ends a
    chain, 0xFFFFFFF7 marks a bad cluster. *)
Definition x_end : Z := 2 ^ 32 - 1.
Definition x_bad : Z := 2 ^ 32 - 9.

Inductive xfollows (table : list Z) (last : Z) (seen : list Z) (c : Z) : after -> Prop :=
| xfo_next n : has_entry 32 table last c -> packed_entry 32 table c = n -> ~ In n (c :: seen) ->
    2 <= n -> n <> x_bad -> n <> x_end -> xfollows table last seen c (Next n)
| xfo_bad : has_entry 32 table last c -> packed_entry 32 table c = x_bad -> ~ In x_bad (c :: seen) ->
    xfollows table last seen c Bad
| xfo_stop n : has_entry 32 table last c -> packed_entry 32 table c = n -> In n (c :: seen) \/ n < 2 \/ n = x_end ->
    xfollows table last seen c Stop.

Inductive xchain_from (table : list Z) (last : Z) : list Z -> Z -> list (option Z) -> Prop :=
| xch_stop seen c : xfollows table last seen c Stop -> xchain_from table last seen c [Some c]
| xch_bad seen c : xfollows table last seen c Bad -> xchain_from table last seen c [Some c; None]
| xch_next seen c n l : xfollows table last seen c (Next n) -> xchain_from table last (c :: seen) n l ->
    xchain_from table last seen c (Some c :: l).

(** Bit [c - 2] of the bitmap, read as one little-endian number, is the state of cluster [c]. *)
Definition bit_of_cluster (bitmap : list Z) (c : Z) : bool := Z.testbit (le_val bitmap) (c - 2).

(** The clusters that an allocation bitmap image is written for: one bit each. *)
Definition bitmap_number (bits : list bool) : Z := fold_right (fun (b : bool) acc => (if b then 1 else 0) + 2 * acc) 0 bits.
