(** Model of FileRecordSegment (dfir_ntfs/MFT.py:176-459). *)
From Verif Require Import Base MappingPairs.

(** MFT.py:10-13. *)
Definition frs_sizes : list Z := [1024; 4096].
Definition sig_FILE : list Z := [70; 73; 76; 69].
Definition sig_BAAD : list Z := [66; 65; 65; 68].
Definition sig_CHKD : list Z := [67; 72; 75; 68].
Definition frs_signatures : list (list Z) := [sig_FILE; sig_BAAD; sig_CHKD].
Definition stride : Z := 512.

Record frs : Type := mk_frs {
  frs_data : list Z;
  frs_usa_offset : Z;
  frs_usa_size : Z;
  frs_suggested : option Z
}.

(** Header getters, MFT.py:296-349.  The buffer of an existing object has 1024
    or 4096 bytes (lemma [frs_open_len]), so the unpack never fails. *)
Definition h_lsn (d : list Z) := fld 8 d 8.              (* 296-299 *)
Definition h_sequence (d : list Z) := fld 2 d 16.        (* 301-304 *)
Definition h_refcount (d : list Z) := fld 2 d 18.        (* 306-309 *)
Definition h_first_attr (d : list Z) := fld 2 d 20.      (* 311-314 *)
Definition h_flags (d : list Z) := fld 2 d 22.           (* 316-319 *)
Definition h_in_use (d : list Z) : bool := 0 <? Z.land (h_flags d) 1. (* 321-324 *)
Definition h_first_free (d : list Z) := fld 4 d 24.      (* 326-329 *)
Definition h_size (d : list Z) := fld 4 d 28.            (* 331-334 *)
Definition h_base_ref (d : list Z) := fld 8 d 32.        (* 336-339 *)
Definition h_is_base (d : list Z) : bool := h_base_ref d =? 0. (* 341-344 *)
Definition h_next_instance (d : list Z) := fld 2 d 40.   (* 346-349 *)
Definition h_is_bad (d : list Z) : bool := negb (zlist_eqb (slice d 0 4) sig_FILE). (* 291-294 *)

(** MFT.py:208 short_version. *)
Definition frs_short (f : frs) : bool := frs_usa_offset f <? 48.

(** MFT.py:351-361 get_master_file_table_number (None when no number was
    suggested for a short header). *)
Definition frs_mft_number (f : frs) : option Z :=
  if frs_short f then frs_suggested f
  else Some (Z.lor (Z.shiftl (fld 2 (frs_data f) 42) 32) (fld 4 (frs_data f) 44)).

(** MFT.py:218-238 parse_and_validate_multi_sector_header. *)
Definition parse_multi_sector_header (data : list Z) (validate : bool) : result (Z * Z) :=
  let signature := slice data 0 4 in
  let! usa_offset := u16 data 4 in
  let! usa_size := u16 data 6 in
  if negb (existsb (zlist_eqb signature) frs_signatures)
  then Err FileRecordSegmentSignatureException else
  if validate then
    if (usa_offset <? 42) || (stride - 6 <? usa_offset) then Err FileRecordSegmentException else
    if (usa_size <? 2) || negb ((usa_size - 1) * stride =? zlen data)
    then Err FileRecordSegmentException else
    if zlen data <=? usa_offset + usa_size * 2 then Err FileRecordSegmentException else
    Ok (usa_offset, usa_size)
  else Ok (usa_offset, usa_size).

(** MFT.py:247-266, the loop of apply_update_sequence_array. *)
Fixpoint apply_usa_loop (fuel : nat) (seqn : list Z) (usa_offset usa_size : Z)
    (data : list Z) (i applied : Z) : result (list Z * Z) :=
  match fuel with
  | O => Err OutOfFuel
  | S fuel =>
    if i <? usa_size then
      let offset_in_usa := i * 2 in
      let update_bytes := slice data (usa_offset + offset_in_usa) (usa_offset + offset_in_usa + 2) in
      let offset_in_frs := i * stride - 2 in
      let in_sector := slice data offset_in_frs (offset_in_frs + 2) in
      let mismatch := negb (zlist_eqb seqn in_sector) in
      if mismatch && (applied * stride <? h_first_free data) then Err FileRecordSegmentException else
      if mismatch && (0 <? applied) then Ok (data, applied) else
      let! b0 := index update_bytes 0 in
      let! b1 := index update_bytes 1 in
      let data := zset (zset data offset_in_frs b0) (offset_in_frs + 1) b1 in
      apply_usa_loop fuel seqn usa_offset usa_size data (i + 1) (applied + 1)
    else Ok (data, applied)
  end.

(** MFT.py:240-268 apply_update_sequence_array. *)
Definition apply_usa (data : list Z) (usa_offset usa_size : Z) : result (list Z * Z) :=
  let seqn := slice data usa_offset (usa_offset + 2) in
  apply_usa_loop (S (Z.to_nat usa_size)) seqn usa_offset usa_size data 1 0.

(** MFT.py:270-289 validate_file_record_segment_header. *)
Definition validate_frs_header (data : list Z) (usa_offset usa_size : Z) : result unit :=
  let size := h_size data in
  if negb (zin size frs_sizes) then Err FileRecordSegmentException else
  if zlen data <? size then Err FileRecordSegmentException else
  let first_free := h_first_free data in
  if (first_free <? 42) || (size <? first_free) then Err FileRecordSegmentException else
  let first_attr := h_first_attr data in
  if (first_attr <? 8) || negb (first_attr mod 8 =? 0) || (size - 24 <? first_attr)
     || (first_attr <? usa_offset + usa_size * 2)
  then Err FileRecordSegmentException else Ok tt.

(** MFT.py:197-216 FileRecordSegment.__init__. *)
Definition frs_open (buf : list Z) (apply : bool) (suggested : option Z) : result frs :=
  if negb (zin (zlen buf) frs_sizes) then Err FileRecordSegmentException else
  let! (usa_offset, usa_size) := parse_multi_sector_header buf apply in
  let! data :=
    (if apply then
       let! (data, applied) := apply_usa buf usa_offset usa_size in
       if applied =? 0 then Err FileRecordSegmentException else Ok data
     else Ok buf) in
  let! _ := validate_frs_header data usa_offset usa_size in
  Ok (mk_frs data usa_offset usa_size suggested).

(** MFT.py:485-598: attribute records.  A name is the list of code points of
    the decoded string.  [at_pairs] is None for a merged record. *)
Inductive attr : Type :=
| Resident (type_code : Z) (name : option (list Z)) (value : list Z)
| Nonresident (type_code : Z) (name : option (list Z)) (pairs : option (list Z))
    (data_runs : list run) (lowest_vcn highest_vcn file_size : Z).

Definition ATTR_TYPE_END : Z := 0xFFFFFFFF.

(** MFT.py:399-417: the name part of one iteration of attributes(). *)
Definition attribute_name_at (data : list Z) (ff pos form_code name_length name_offset : Z)
  : result (option (list Z)) :=
  if 0 <? name_length then
    let nl := name_length * 2 in
    if negb (name_offset mod 2 =? 0)
       || ((form_code =? 1) && (name_offset <? 64))
       || ((form_code =? 0) && (name_offset <? 24)) then Err AttributeException else
    if ff <? pos + name_offset + nl then Err AttributeException else
    let raw := slice data (pos + name_offset) (pos + name_offset + nl) in
    if zlen raw =? nl then Ok (Some (utf16le raw)) else Err AttributeException
  else Ok None.

(** MFT.py:380-459: one iteration of attributes() at [pos]; None is the end
    marker, otherwise the attribute and its record length.  [ff] is
    get_first_free_byte_offset(). *)
Definition attribute_step (data : list Z) (ff pos : Z) : result (option (attr * Z)) :=
  let hdr := slice data pos (pos + 16) in
  if (zlen hdr <? 4) then Err AttributeException else
  if (zlen hdr <? 16) then
    (if fld 4 hdr 0 =? ATTR_TYPE_END then Ok None else Err AttributeException) else
  let type_code := fld 4 hdr 0 in
  let record_length := fld 4 hdr 4 in
  let form_code := fld 1 hdr 8 in
  let name_length := fld 1 hdr 9 in
  let name_offset := fld 2 hdr 10 in
  if type_code =? ATTR_TYPE_END then Ok None else
  if (record_length <? 8) || negb (record_length mod 8 =? 0) || (ff <? pos + record_length)
  then Err AttributeException else
  let! name := attribute_name_at data ff pos form_code name_length name_offset in
  let nl := name_length * 2 in
  if form_code =? 1 then
    let rem := slice data (pos + 16) (pos + 64) in
    if negb (zlen rem =? 48) then Err AttributeException else
    let lowest := fld 8 rem 0 in
    let highest := fld 8 rem 8 in
    let mpo := fld 2 rem 16 in
    let allocated := to_signed 64 (fld 8 rem 24) in
    let file_size := to_signed 64 (fld 8 rem 32) in
    let valid := to_signed 64 (fld 8 rem 40) in
    if highest <? lowest then Err AttributeException else
    if (record_length <=? mpo) || ((name_length =? 0) && (mpo <? 64))
       || ((0 <? name_length) && (mpo <? name_offset + nl)) then Err AttributeException else
    if (valid <? 0) || (file_size <? valid) || (allocated <? file_size)
    then Err AttributeException else
    let mp := slice data (pos + mpo) (pos + record_length) in
    let! runs := decode_mapping_pairs mp in
    Ok (Some (Nonresident type_code name (Some mp) runs lowest highest file_size, record_length))
  else if form_code =? 0 then
    let rem := slice data (pos + 16) (pos + 24) in
    if negb (zlen rem =? 8) then Err AttributeException else
    let value_length := fld 4 rem 0 in
    let value_offset := fld 2 rem 4 in
    if (value_offset <? 8) || negb (value_offset mod 8 =? 0) then Err AttributeException else
    if (record_length <? value_offset + value_length)
       || ((name_length =? 0) && (value_offset <? 24))
       || ((0 <? name_length) && (value_offset <? name_offset + nl)) then Err AttributeException else
    let value := slice data (pos + value_offset) (pos + value_offset + value_length) in
    if negb (zlen value =? value_length) then Err AttributeException else
    Ok (Some (Resident type_code name value, record_length))
  else Err AttributeException.

(** Result of running attributes() to its end: items, status and the value
    left in [frs_real_size] by this run. *)
Record attr_run : Type := mk_attr_run {
  ar_items : list attr;
  ar_status : status;
  ar_real_size : option Z
}.

Definition ar_cons (a : attr) (r : attr_run) : attr_run :=
  mk_attr_run (a :: ar_items r) (ar_status r) (ar_real_size r).

(** MFT.py:378-459, the loop. *)
Fixpoint attributes_loop (fuel : nat) (data : list Z) (ff pos : Z) : attr_run :=
  match fuel with
  | O => mk_attr_run [] (Raised OutOfFuel) None
  | S fuel =>
    if pos <? ff then
      match attribute_step data ff pos with
      | Err e => mk_attr_run [] (Raised e) None
      | Ok None => mk_attr_run [] Done (Some (pos + 4))
      | Ok (Some (a, len)) => ar_cons a (attributes_loop fuel data ff (pos + len))
      end
    else mk_attr_run [] Done None
  end.

(** MFT.py:375-459 attributes. *)
Definition frs_attributes (f : frs) : attr_run :=
  let d := frs_data f in
  attributes_loop (S (length d)) d (h_first_free d) (h_first_attr d).

(** MFT.py:363-373 get_slack: the bytes after the end marker; None when no end
    marker was met; an exception of the enumeration escapes. *)
Definition frs_slack (f : frs) : result (option (list Z)) :=
  let r := frs_attributes f in
  match ar_status r with
  | Raised e => Err e
  | Done => match ar_real_size r with
            | None => Ok None
            | Some n => Ok (Some (zdrop n (frs_data f)))
            end
  end.
