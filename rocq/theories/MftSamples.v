(** A small file table used in examples and counterexamples. *)
From Verif Require Import Base BaseLemmas MappingPairs Frs FrsSpec FrsProofs FileRecord Mft MftSpec.
Local Set Warnings "-abstract-large-number".

Definition u16s (s : list Z) : list Z := flat_map (fun c => le_bytes 2 c) s.

(** A $FILE_NAME value. *)
Definition mk_name (parent seq : Z) (flags : Z) (name : list Z) : list Z :=
  le_bytes 8 (parent + seq * 2 ^ 48) ++ zeros 56 ++ [zlen name; flags] ++ u16s name.

(** A resident attribute record. *)
Definition mk_attr (ty : Z) (v : list Z) : list Z :=
  let len := (24 + zlen v + 7) / 8 * 8 in
  le_bytes 4 ty ++ le_bytes 4 len ++ [0; 0; 0; 0; 0; 0; 0; 0] ++ le_bytes 4 (zlen v) ++ [24; 0; 0; 0] ++ v
  ++ zeros (len - 24 - zlen v).

Definition mk_record (size num seq flags base : Z) (attrs : list Z) : list Z :=
  put (put (put (put (put (zeros size)
    0 [70; 73; 76; 69; 48; 0; size / 512 + 1; 0])
    16 (le_bytes 2 seq ++ [1; 0; 72; 0] ++ le_bytes 2 flags))
    24 (le_bytes 4 (80 + zlen attrs) ++ le_bytes 4 size ++ le_bytes 8 base))
    44 (le_bytes 4 num))
    72 (attrs ++ [255; 255; 255; 255]).

Definition name_x : list Z := [120].
Definition mk_volume (size : Z) : list Z :=
  mk_record size 3 3 1 0 (mk_attr 0x70 (zeros 8 ++ [3; 1; 0; 0])).

(** Slots 0 to 8: $MFT, free, free, $Volume, free, root, directories "a" and
    "b", the file "x" in both of them; then [more]. *)
Definition sample_table (size : Z) (flags_a : Z) (more : list Z) : list Z :=
  mk_record size 0 1 1 0 (mk_attr 0x30 (mk_name 5 5 3 [36; 77])) ++ zeros size ++ zeros size ++
  mk_volume size ++ zeros size ++
  mk_record size 5 5 3 0 (mk_attr 0x30 (mk_name 5 5 3 [46])) ++
  mk_record size 6 2 flags_a 0 (mk_attr 0x30 (mk_name 5 5 3 [97])) ++
  mk_record size 7 1 3 0 (mk_attr 0x30 (mk_name 5 5 3 [98])) ++
  mk_record size 8 1 1 0 (mk_attr 0x30 (mk_name 6 (if Z.odd flags_a then 2 else 1) 3 name_x) ++
                          mk_attr 0x30 (mk_name 7 1 3 name_x)) ++ more.

Definition path_ax : list Z := [47; 97; 47; 120].
Definition path_bx : list Z := [47; 98; 47; 120].
Definition same (s : list Z) : list Z := s.

(** Base number found by a lookup. *)
Definition found (r : result (option file_record)) : result (option Z) :=
  let! r := r in
  match r with
  | Some fr => Ok (frs_mft_number (fr_base fr))
  | None => Ok None
  end.
