(** Model of the class FAT of /repo/dfir_ntfs/addons/FAT.py. *)
From Verif Require Import Base.

(** FAT.py:911-915: the volume, and the place and width of the table in it. *)
Record fat := mk_fat { f_data : list Z; f_off : Z; f_size : Z; f_last : Z; f_type : Z }.

(** FAT.py:921-948: the constructor. *)
Definition fat_open (data : list Z) (off size last type : Z) : result fat :=
  if negb (zin type [12; 16; 32]) then Err ValueError
  else if (0 <? off) && negb (off mod 512 =? 0) then Err FileAllocationTableException
  else if (size <? 512) || negb (size mod 512 =? 0) then Err FileAllocationTableException
  else Ok (mk_fat data off size last type).

(** FAT.py:931-942. *)
Definition fat_eoc (f : fat) : Z := if f_type f =? 32 then 0x0FFFFFF8 else if f_type f =? 16 then 0xFFF8 else 0x0FF8.
Definition fat_bad (f : fat) : Z := if f_type f =? 32 then 0x0FFFFFF7 else if f_type f =? 16 then 0xFFF7 else 0x0FF7.

(** FAT.py:950-983 get_element. *)
Definition get_element (f : fat) (n : Z) : result Z :=
  if f_type f =? 12 then
    let o := n + n / 2 in
    if (f_size f <? o + 2) || (f_last f <? n) then Err FileAllocationTableException
    else
      let! raw := read_at (f_data f) (f_off f + o) 2 in
      if negb (zlen raw =? 2) then Err FileAllocationTableException
      else
        let item := le_val raw in
        Ok (if n mod 2 =? 0 then Z.land item 0x0FFF else Z.shiftr item 4)
  else
    let es := if f_type f =? 32 then 4 else 2 in
    let o := n * es in
    if (f_size f <? o + es) || (f_last f <? n) then Err FileAllocationTableException
    else
      let! raw := read_at (f_data f) (f_off f + o) es in
      if negb (zlen raw =? es) then Err FileAllocationTableException
      else Ok (if es =? 4 then Z.land (le_val raw) 0x0FFFFFFF else le_val raw).

(** FAT.py:985-989. *)
Definition fat_media (f : fat) : result Z := let! v := get_element f 0 in Ok (Z.land v 0xFF).

(** FAT.py:1060-1084: the loop; [chain] holds the numbers so far, in reverse.
    An element None stands for a bad cluster. *)
Fixpoint chain_loop (fuel : nat) (f : fat) (chain : list Z) (curr : Z) : result (list (option Z)) :=
  match fuel with
  | O => Err OutOfFuel
  | S fuel =>
    let! next := get_element f curr in
    if zin next chain then Ok (map Some (rev chain))
    else if fat_eoc f <=? next then Ok (map Some (rev chain))
    else if next =? fat_bad f then Ok (map Some (rev chain) ++ [None])
    else if next =? 0 then Ok (map Some (rev chain))
    else if next =? 1 then Ok (map Some (rev chain))
    else chain_loop fuel f (next :: chain) next
  end.

(** FAT.py:1041-1084. *)
Definition fat_chain (f : fat) (first : Z) : result (list (option Z)) :=
  if first =? 0 then Ok []
  else if first =? 1 then Ok []
  else if first =? fat_bad f then Err FileAllocationTableException
  else chain_loop (S (S (Z.to_nat (f_size f)))) f [first] first.

(** FAT.py:1086-1092: None if the cluster is invalid. *)
Definition is_allocated (f : fat) (n : Z) : result (option bool) :=
  match get_element f n with
  | Ok v => Ok (Some (negb (v =? 0)))
  | Err FileAllocationTableException => Ok None
  | Err e => Err e
  end.
