(** Model of the classes FAT and Bitmap of /repo/dfir_ntfs/addons/exFAT.py. *)
From Verif Require Import Base.

(** exFAT.py:605-612: the file object, the offset and size of the table, the last valid cluster. *)
Record xfat := mk_xfat { xf_data : list Z; xf_off : Z; xf_size : Z; xf_last : Z }.

(** exFAT.py:613-623. *)
Definition xfat_open (data : list Z) (off size last : Z) : result xfat :=
  if (0 <? off) && negb (off mod 512 =? 0) then Err FileAllocationTableException
  else if (size <? 512) || negb (size mod 512 =? 0) then Err FileAllocationTableException
  else Ok (mk_xfat data off size last).

(** exFAT.py:625-638. *)
Definition x_get_element (f : xfat) (n : Z) : result Z :=
  let off := n * 4 in
  if (xf_size f <? off + 4) || (xf_last f <? n) then Err FileAllocationTableException
  else
    let! raw := read_at (xf_data f) (xf_off f + off) 4 in
    if negb (zlen raw =? 4) then Err FileAllocationTableException
    else Ok (le_val raw).

(** exFAT.py:640-644. *)
Definition x_media_type (f : xfat) : result Z := let! v := x_get_element f 0 in Ok (Z.land v 0xFF).

(** exFAT.py:30-31 *)
Definition EXFAT_BAD : Z := 0xFFFFFFF7.
Definition EXFAT_EOC : Z := 0xFFFFFFFF.

(** exFAT.py:662-686.  [chain] is the chain so far, last first. *)
Fixpoint x_chain_loop (fuel : nat) (f : xfat) (chain : list Z) (curr : Z) : result (list (option Z)) :=
  match fuel with
  | O => Err OutOfFuel
  | S fuel =>
    let! next := x_get_element f curr in
    if zin next chain then Ok (map Some (rev chain))
    else if next =? EXFAT_EOC then Ok (map Some (rev chain))
    else if next =? EXFAT_BAD then Ok (map Some (rev chain) ++ [None])
    else if next =? 0 then Ok (map Some (rev chain))
    else if next =? 1 then Ok (map Some (rev chain))
    else x_chain_loop fuel f (next :: chain) next
  end.

(** exFAT.py:646-686.  The chain can have no more elements than the table. *)
Definition x_chain (f : xfat) (first : Z) : result (list (option Z)) :=
  if first =? 0 then Ok []
  else if first =? 1 then Ok []
  else if first =? EXFAT_BAD then Err FileAllocationTableException
  else x_chain_loop (S (S (Z.to_nat (xf_size f)))) f [first] first.

(** exFAT.py:1020-1045.  The inner option is the [None] of "not a cluster". *)
Definition x_is_allocated (buf : list Z) (last c : Z) : result (option bool) :=
  if c <? 2 then Ok None
  else if last <? c then Ok None
  else
    let! b := index buf ((c - 2) / 8) in
    Ok (Some (0 <? Z.land (Z.shiftr b ((c - 2) mod 8)) 1)).
