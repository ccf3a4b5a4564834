(** Reading a binary file object at a position taken from data. *)
From Verif Require Import Base.

(** [f.seek(off); f.read(n)] on a file with content [vol]: [seek] raises
    ValueError for a negative offset and OverflowError for one above 2^63 - 1;
    [read] raises OverflowError for such an [n] (an allocation failure for a
    smaller one is not modelled); fewer bytes are returned at the end. *)
Definition seek_read (vol : list Z) (off n : Z) : result (list Z) :=
  if off <? 0 then Err ValueError
  else if 2 ^ 63 <=? off then Err OverflowError
  else if 2 ^ 63 <=? n then Err OverflowError
  else Ok (slice vol off (off + n)).
