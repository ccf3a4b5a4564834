(** Model of the volume parser: FileSystemParser.__init__ (dfir_ntfs/MFT.py:1503-1584)
    and AttributeRecordNonresident.value_decoded (565-590).  The volume object is
    its content; the position of the $MFT file object is set before every read,
    so it is left out until the end of the constructor. *)
From Verif Require Import Base FileObject MappingPairs Frs Sorting FileRecord FragmentedFile Attributes BootSector Mft.

Definition ATTR_TYPE_ATTRIBUTE_LIST : Z := 0x20. (* Attributes.py:13 *)

(** MFT.py:571-581: the loop reading the runs of an attribute list. *)
Fixpoint read_list_runs (vol : list Z) (voff cs : Z) (runs : list run) (value : list Z) : result (list Z) :=
  match runs with
  | [] => Ok value
  | (None, _) :: _ => Err MasterFileTableException
  | (Some o, n) :: t =>
    let! data := seek_read vol (voff + o * cs) (n * cs) in
    if negb (zlen data =? n * cs) then Err MasterFileTableException
    else read_list_runs vol voff cs t (value ++ data)
  end.

(** What value_decoded returns for a nonresident record. *)
Inductive decoded : Type :=
| DecodedList (value : list Z)       (* Attributes.AttributeList(value) *)
| DecodedIndex (f : ffile).          (* Attributes.IndexAllocation(fragmented_file) *)

(** MFT.py:565-590. *)
Definition nonresident_decoded (vol : list Z) (voff cs : Z) (ty : Z) (runs : list run) (size : Z)
  : result decoded :=
  if ty =? ATTR_TYPE_ATTRIBUTE_LIST then
    let! value := read_list_runs vol voff cs runs [] in
    Ok (DecodedList (slice value 0 size))
  else if ty =? ATTR_TYPE_INDEX_ALLOCATION then Ok (DecodedIndex (ff_open vol voff cs runs size))
  else Err NotImplementedError.

(** MFT.py:1524-1533: the value of the first attribute list of the record. *)
Definition find_list (vol : list Z) (voff cs : Z) (f : frs) : result (option (list Z)) :=
  gfirst (fun a =>
    if a_type a =? ATTR_TYPE_ATTRIBUTE_LIST then
      match a with
      | Resident _ _ v => Ok (Some v)
      | Nonresident ty _ _ runs _ _ size =>
        let! d := nonresident_decoded vol voff cs ty runs size in
        match d with DecodedList v => Ok (Some v) | DecodedIndex _ => Err AttributeError_py end
      end
    else Ok None) (frs_gen f).

(** MFT.py:995-1005 get_file_record_segment_by_number on the $MFT file of the
    volume. *)
Definition vol_frs (f : ffile) (size n : Z) : result frs :=
  let off := n * size in
  if ff_size f <? off then Err MasterFileTableException else
  let! buf := ff_pread f off size in
  frs_open buf true (Some n).

(** MFT.py:970-993: the tests of check_ntfs_version on the record found. *)
Definition version_check (f : frs) : result unit :=
  let! r := gfirst (fun a =>
      let! v := value_of_type ATTR_TYPE_VOLUME_INFORMATION a in
      match v with
      | None => Ok None
      | Some v => let! major := u8 v 8 in let! minor := u8 v 9 in Ok (Some (major, minor))
      end) (frs_gen f) in
  match r with
  | None => Err MasterFileTableException
  | Some (major, minor) =>
    if negb (major =? 3) then Err MasterFileTableException else
    if minor <? 1 then Err MasterFileTableException else Ok tt
  end.

(** MFT.py:936-962 MasterFileTableParser(self, False); the segment size. *)
Definition vol_parser (f : ffile) : result Z :=
  let! signature := ff_pread f 0 4 in
  if negb (zlist_eqb signature sig_FILE) then Err FileRecordSegmentSignatureException else
  let! b := ff_pread f 28 4 in
  if negb (zlen b =? 4) then Err FileRecordSegmentException else
  let size := fld 4 b 0 in
  if negb (zin size frs_sizes) then Err FileRecordSegmentException else
  let! fv := vol_frs f size FILE_NUMBER_VOLUME in
  let! _ := version_check fv in
  Ok size.

(** MFT.py:1570-1581: the loop over the entries after the first.  The run list
    is never None there, for the first record has one (lemma
    [main_stream_extends]). *)
Fixpoint add_pieces (vol : list Z) (voff cs fsize : Z) (base : frs) (children : list frs) (runs : list run)
    (es : list al_entry) : result (list run) :=
  match es with
  | [] => Ok runs
  | e :: t =>
    let f := ff_open vol voff cs runs fsize in
    let! size := vol_parser f in
    let! child := vol_frs f size (fst (decode_ref (al_segment e))) in
    let children := children ++ [child] in
    let! r := get_data_runs (mk_fr base children) None false in
    match r with
    | None => Err TypeError
    | Some runs => add_pieces vol voff cs fsize base children runs t
    end
  end.

(** MFT.py:1554-1559: the entries of the unnamed $DATA attribute. *)
Definition data_entry (e : al_entry) : bool :=
  (al_type e =? ATTR_TYPE_DATA) && (match al_name e with None => true | Some _ => false end).

(** MFT.py:1547-1581. *)
Definition all_runs (vol : list Z) (voff cs fsize : Z) (base : frs) (runs : list run)
    (attr_list : option (list Z)) : result (list run) :=
  match attr_list with
  | None => Ok runs
  | Some v =>
    let g := al_entries v in
    match snd g with
    | Raised e => Err e
    | Done =>
      match sort_by al_lowest (filter data_entry (fst g)) with
      | [] => Err MasterFileTableException
      | e0 :: es =>
        if negb (fst (decode_ref (al_segment e0)) =? 0) then Err MasterFileTableException
        else add_pieces vol voff cs fsize base [] runs es
      end
    end
  end.

(** The object: the boot sector and the file object for $MFT. *)
Record volume : Type := mk_volume { vo_boot : list Z; vo_file : ffile }.

(** MFT.py:1503-1584 __init__. *)
Definition volume_open (vol : list Z) (voff : Z) : result volume :=
  let! boot_buf := seek_read vol voff 512 in
  let! boot := bs_open boot_buf in
  let! spc := bs_sectors_per_cluster boot in
  let! bps := bs_bytes_per_sector boot in
  let cs := spc * bps in
  let! frs_size := bs_frs_size boot in
  let! cluster := bs_mft_cluster boot in
  let! first_buf := seek_read vol (voff + cluster * cs) frs_size in
  let! first := frs_open first_buf true (Some 0) in
  let! attr_list := find_list vol voff cs first in
  let! data_runs := get_data_runs (mk_fr first []) None false in
  match data_runs with
  | None => Err MasterFileTableException
  | Some runs =>
    let! size := get_data_size (mk_fr first []) None false in
    match size with
    | None => Err MasterFileTableException
    | Some fsize =>
      let! runs := all_runs vol voff cs fsize first runs attr_list in
      Ok (mk_volume boot (ff_open vol voff cs runs fsize))
    end
  end.
