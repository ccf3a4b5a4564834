(** Model of file references and mapping pairs (dfir_ntfs/MFT.py). *)
From Verif Require Import Base.

(** MFT.py:77-83 DecodeFileRecordSegmentReference. *)
Definition decode_ref (reference : Z) : Z * Z :=
  (Z.land reference 0xFFFFFFFFFFFF, Z.shiftr reference 48).

(** MFT.py:85-88 EncodeFileRecordSegmentReference. *)
Definition encode_ref (number sequence : Z) : Z :=
  Z.lor (Z.shiftl sequence 48) number.

(** A data run: (offset in clusters or None when sparse, length in clusters). *)
Definition run : Type := (option Z * Z)%type.

(** MFT.py:119-172, the [while True] loop of DecodeMappingPairs.  [i] is the
    position, [curr] is [curr_offset], [runs] is [data_runs]; the fuel bounds
    the number of iterations. *)
Fixpoint decode_mapping_pairs_loop (fuel : nat) (mp : list Z) (i curr : Z) (runs : list run)
  : result (list run) :=
  match fuel with
  | O => Err OutOfFuel
  | S fuel =>
    if zlen mp <=? i then Err MappingPairsException else
    let! header_byte := index mp i in
    if header_byte =? 0 then Ok runs else
    let i := i + 1 in
    let count_length := Z.land header_byte 15 in
    let offset_length := Z.shiftr header_byte 4 in
    if (count_length =? 0) || (8 <? count_length) || (8 <? offset_length)
    then Err MappingPairsException else
    let count_raw := slice mp i (i + count_length) in
    if negb (zlen count_raw =? count_length) then Err MappingPairsException else
    let i := i + count_length in
    let count := le_sval count_raw in
    if count <=? 0 then Err MappingPairsException else
    if 0 <? offset_length then
      let offset_raw := slice mp i (i + offset_length) in
      if negb (zlen offset_raw =? offset_length) then Err MappingPairsException else
      let i := i + offset_length in
      let curr := curr + le_sval offset_raw in
      if (curr =? 0) && (0 <? zlen runs) then Err MappingPairsException else
      decode_mapping_pairs_loop fuel mp i curr (runs ++ [(Some curr, count)])
    else
      decode_mapping_pairs_loop fuel mp i curr (runs ++ [(None, count)])
  end.

(** MFT.py:110-174 DecodeMappingPairs. *)
Definition decode_mapping_pairs (mp : list Z) : result (list run) :=
  decode_mapping_pairs_loop (S (length mp)) mp 0 0 [].
