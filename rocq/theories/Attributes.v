(** Model of the decoded attributes (dfir_ntfs/Attributes.py).  print_information
    methods are not modelled.  A GUID is its 16 bytes in the order stored. *)
From Verif Require Import Base MappingPairs FragmentedFile Filetime Usa.

(** ** Index sectors *)

Definition sig_INDX : list Z := [73; 78; 68; 88].
Definition UPDATE_SEQUENCE_STRIDE_INDEX : Z := 512. (* 138 *)

(** Attributes.py:175-218 VerifyAndUnprotectIndexSectors; the bytearray is also
    changed in place, the model only has the value returned. *)
Definition unprotect_index (buf : list Z) : result (option (list Z)) :=
  if (zlen buf <? 2 * UPDATE_SEQUENCE_STRIDE_INDEX)
     || negb (zlen buf mod UPDATE_SEQUENCE_STRIDE_INDEX =? 0) then Ok None else
  let! usa_offset := u16 buf 4 in
  let! usa_size := u16 buf 6 in
  if (usa_offset <? 40) || (UPDATE_SEQUENCE_STRIDE_INDEX - 6 <? usa_offset) then Ok None else
  if (usa_size <? 2) || negb ((usa_size - 1) * UPDATE_SEQUENCE_STRIDE_INDEX =? zlen buf) then Ok None else
  if zlen buf <=? usa_offset + usa_size * 2 then Ok None else
  let! r := usa_apply buf usa_offset usa_size in
  match r with
  | None => Ok None
  | Some out => if zlist_eqb (slice out 0 4) sig_INDX then Ok (Some out) else Ok None
  end.

(** ** $STANDARD_INFORMATION *)

(** Attributes.py:243-265, also 398-420 (on value_di): the timestamp at [off]. *)
Definition time_at (v : list Z) (off : Z) : result (option Z) :=
  let! t := u64 v off in decode_filetime t true.

Definition si_ctime (v : list Z) := time_at v 0.
Definition si_mtime (v : list Z) := time_at v 8.
Definition si_etime (v : list Z) := time_at v 16.
Definition si_atime (v : list Z) := time_at v 24.
Definition si_file_attributes (v : list Z) := u32 v 32.
Definition si_maximum_versions (v : list Z) := u32 v 36.
Definition si_version_number (v : list Z) := u32 v 40.
Definition si_extra_flags (v : list Z) := u32 v 40.
Definition si_case_sensitive (v : list Z) : result bool :=
  let! f := si_extra_flags v in Ok (0 <? Z.land f 1).                    (* 287-290 *)
Definition si_storage_reserve_id (v : list Z) : result Z :=
  let! f := si_extra_flags v in Ok (Z.land (Z.shiftr f 8) 0xF).          (* 292-295 *)
Definition si_known_folder (v : list Z) : result Z :=
  let! f := si_extra_flags v in Ok (Z.shiftr (Z.land f 0xE) 1).          (* 297-300 *)
Definition si_trust_level (v : list Z) : result Z :=
  let! f := si_extra_flags v in Ok (Z.shiftr (Z.land f 0x30) 4).         (* 302-305 *)
Definition si_class_id (v : list Z) := u32 v 44.

(** Attributes.py:312-338: fields absent from the short form. *)
Definition opt_at (w : Z) (v : list Z) (off : Z) : result (option Z) :=
  if zlen (slice v off (off + w)) =? w then let! x := unp w v off in Ok (Some x) else Ok None.
Definition si_owner_id (v : list Z) := opt_at 4 v 48.
Definition si_security_id (v : list Z) := opt_at 4 v 52.
Definition si_quota_charged (v : list Z) := opt_at 8 v 56.
Definition si_usn (v : list Z) := opt_at 8 v 64.

(** Attributes.py:357-390 StandardInformationPartial. *)
Record si_partial : Type := mk_sip { sip_value : list Z; sip_offset : Z }.

Definition sip_open (value : list Z) (offset : Z) : si_partial :=
  mk_sip (zeros offset ++ value) offset.

Definition sip_ctime (s : si_partial) : result (option Z) :=
  if (sip_offset s =? 0) && (8 <=? zlen (sip_value s)) then time_at (sip_value s) 0 else Ok None.
Definition sip_mtime (s : si_partial) : result (option Z) :=
  if (sip_offset s <=? 8) && (16 <=? zlen (sip_value s)) then time_at (sip_value s) 8 else Ok None.
Definition sip_etime (s : si_partial) : result (option Z) :=
  if (sip_offset s <=? 16) && (24 <=? zlen (sip_value s)) then time_at (sip_value s) 16 else Ok None.
Definition sip_atime (s : si_partial) : result (option Z) :=
  if (sip_offset s <=? 24) && (32 <=? zlen (sip_value s)) then time_at (sip_value s) 24 else Ok None.

(** ** $FILE_NAME: Attributes.py:392-477 (value_di = value[8:]). *)
Definition fnd (v : list Z) : list Z := zdrop 8 v.
Definition fna_ctime (v : list Z) := time_at (fnd v) 0.
Definition fna_mtime (v : list Z) := time_at (fnd v) 8.
Definition fna_etime (v : list Z) := time_at (fnd v) 16.
Definition fna_atime (v : list Z) := time_at (fnd v) 24.
Definition fna_allocated_length (v : list Z) := unp_s 8 (fnd v) 32.
Definition fna_file_size (v : list Z) := unp_s 8 (fnd v) 40.
Definition fna_file_attributes (v : list Z) := u32 (fnd v) 48.
Definition fna_packed_ea_size (v : list Z) := u16 (fnd v) 52.
Definition fna_unpacked_ea_diff (v : list Z) := u16 (fnd v) 54.
Definition fna_parent (v : list Z) := u64 v 0.
Definition fna_name_length (v : list Z) := u8 v 64.
Definition fna_flags (v : list Z) := u8 v 65.
Definition fna_name (v : list Z) : result (list Z) :=
  let! n := fna_name_length v in Ok (utf16le (slice v 66 (66 + 2 * n))).

(** ** $ATTRIBUTE_LIST: Attributes.py:538-584. *)
Record al_entry : Type := mk_al {
  al_type : Z; al_name : option (list Z); al_instance : Z; al_lowest : Z; al_segment : Z }.

Fixpoint al_loop (fuel : nat) (v : list Z) (pos : Z) : gen al_entry :=
  match fuel with
  | O => ([], Raised OutOfFuel)
  | S fuel =>
    if negb (pos <? zlen v) then ([], Done) else
    let h := slice v pos (pos + 26) in
    if negb (zlen h =? 26) then ([], Done) else
    let record_length := fld 2 h 4 in
    let name_length := fld 1 h 6 in
    let name_offset := fld 1 h 7 in
    if record_length <? 26 then ([], Done) else
    if (0 <? name_length) && (record_length <? name_offset + name_length * 2) then ([], Done) else
    let name :=
      if 0 <? name_length
      then Some (utf16le (slice v (pos + name_offset) (pos + name_offset + name_length * 2)))
      else None in
    gcons (mk_al (fld 4 h 0) name (fld 2 h 24) (fld 8 h 8) (fld 8 h 16))
          (al_loop fuel v (pos + align8 record_length))
  end.

Definition al_entries (v : list Z) : gen al_entry := al_loop (S (length v)) v 0.

(** Attributes.py:575-584 get_last_compacted_size; b'DC'. *)
Definition al_last_compacted (v : list Z) : result (option Z) :=
  if zlist_eqb (slice v 26 28) [68; 67] then let! x := u32 v 28 in Ok (Some x) else Ok None.

(** ** $VOLUME_INFORMATION: Attributes.py:637-652. *)
Definition vi_major (v : list Z) := u8 v 8.
Definition vi_minor (v : list Z) := u8 v 9.
Definition vi_flags (v : list Z) := u16 v 10.

(** ** Indexes *)

(** Attributes.py:660-684 IndexHeader, on the 16 bytes of the header. *)
Definition ih_first_entry (h : list Z) := u32 h 0.
Definition ih_first_free (h : list Z) := u32 h 4.
Definition ih_available (h : list Z) := u32 h 8.
Definition ih_flags (h : list Z) := u8 h 12.

Definition INDEX_ENTRY_NODE : Z := 1. (* 130 *)
Definition INDEX_ENTRY_END : Z := 2.  (* 131 *)

(** Attributes.py:686-726 IndexEntry: the bytes from its start to the end of the
    buffer. *)
Definition ie_reference (r : list Z) := u64 r 0.
Definition ie_length (r : list Z) := u16 r 8.
Definition ie_attribute_length (r : list Z) := u16 r 10.
Definition ie_flags (r : list Z) := u16 r 12.
Definition ie_attribute (r : list Z) : result (option (list Z)) :=
  let! n := ie_attribute_length r in
  let! f := ie_flags r in
  if (Z.land f INDEX_ENTRY_END =? 0) && (0 <? n) then Ok (Some (slice r 16 (16 + n))) else Ok None.
Definition ie_vcn (r : list Z) : result (option Z) :=
  let! n := ie_length r in
  let! f := ie_flags r in
  if (0 <? Z.land f INDEX_ENTRY_NODE) && (0 <? n - 8) then
    let! x := u64 (slice r (n - 8) n) 0 in Ok (Some x)
  else Ok None.

(** Attributes.py:756-780 (IndexRoot, [stop] = false, header at 16) and 847-875
    (IndexBuffer, [stop] = true, header at 24): the loops differ in the test of
    the end flag only.  [lim] is the header offset plus the first free byte. *)
Fixpoint index_loop (fuel : nat) (stop : bool) (v : list Z) (lim pos : Z) : gen (list Z) :=
  match fuel with
  | O => ([], Raised OutOfFuel)
  | S fuel =>
    if negb ((pos <? lim) && (pos <? zlen v)) then ([], Done) else
    let r := zdrop pos v in
    match ie_length r with
    | Err e => ([], Raised e)
    | Ok len =>
      if len <? 16 then ([], Done) else
      match ie_attribute_length r with
      | Err e => ([], Raised e)
      | Ok alen =>
        if alen =? 0 then ([], Done) else
        gcons r
          (if stop then
             match ie_flags r with
             | Err e => ([], Raised e)
             | Ok f =>
               if 0 <? Z.land f INDEX_ENTRY_END then ([], Done)
               else index_loop fuel stop v lim (pos + align8 len)
             end
           else index_loop fuel stop v lim (pos + align8 len))
      end
    end
  end.

Definition index_entries_at (hb : Z) (stop : bool) (v : list Z) : gen (list Z) :=
  let h := slice v hb (hb + 16) in
  match (let! a := ih_first_entry h in let! b := ih_first_free h in Ok (a, b)) with
  | Err e => ([], Raised e)
  | Ok (first, free) => index_loop (S (length v)) stop v (hb + free) (hb + first)
  end.

Definition ir_index_entries := index_entries_at 16 false.
Definition ib_index_entries := index_entries_at 24 true.

Definition ir_type_code (v : list Z) := u32 v 0.          (* 732-735 *)
Definition ir_collation (v : list Z) := u32 v 4.          (* 737-740 *)
Definition ir_bytes_per_buffer (v : list Z) := u32 v 8.   (* 742-745 *)
Definition ir_blocks_per_buffer (v : list Z) := u32 v 12. (* 747-750 *)
Definition ib_lsn (v : list Z) := u64 v 8.                (* 830-833 *)
Definition ib_this_block (v : list Z) := u64 v 16.        (* 835-838 *)

(** Attributes.py:872-876 IndexBuffer.get_slack. *)
Definition ib_slack (v : list Z) : result (list Z) :=
  let! free := ih_first_free (slice v 24 40) in Ok (zdrop (24 + free) v).

(** ** $INDEX_ALLOCATION: Attributes.py:878-936. *)

(** seek(off); read(n) on a fragmented file, without the new position: every
    read below is preceded by a seek. *)
Definition ff_pread (f : ffile) (off n : Z) : result (list Z) :=
  fst (ff_read (ff_set_pos f off) (Some n)).

(** 884-905 __init__: index_buffer_size. *)
Definition ia_buffer_size (f : ffile) : result (option Z) :=
  let! raw := ff_pread f 4 4 in
  if negb (zlen raw =? 4) then Ok None else
  let usa_size := fld 2 raw 2 in
  if usa_size - 1 <? 2 then Ok None else
  let size := (usa_size - 1) * UPDATE_SEQUENCE_STRIDE_INDEX in
  if (0 <? size) && (size mod 512 =? 0) && (size <=? 119808) then
    let! buf := ff_pread f 0 size in
    if negb (zlen buf =? size) then Ok None else
    let! out := unprotect_index buf in
    match out with None => Ok None | Some _ => Ok (Some size) end
  else Ok None.

(** 907-922 index_buffers; with their positions. *)
Fixpoint ia_loop (fuel : nat) (f : ffile) (size i : Z) : gen (Z * list Z) :=
  match fuel with
  | O => ([], Raised OutOfFuel)
  | S fuel =>
    match ff_pread f (i * size) size with
    | Err e => ([], Raised e)
    | Ok raw =>
      if negb (zlen raw =? size) then ([], Done) else
      match unprotect_index raw with
      | Err e => ([], Raised e)
      | Ok (Some buf) => gcons (i, buf) (ia_loop fuel f size (i + 1))
      | Ok None => ia_loop fuel f size (i + 1)
      end
    end
  end.

Definition ia_index_buffers (f : ffile) : gen (Z * list Z) :=
  match ia_buffer_size f with
  | Err e => ([], Raised e)
  | Ok None => ([], Done)
  | Ok (Some size) => ia_loop (S (S (Z.to_nat (ff_size f)))) f size 0
  end.

(** 924-936 get_slack. *)
Fixpoint ia_slack_loop (l : list (Z * list Z)) : result (list (list Z)) :=
  match l with
  | [] => Ok []
  | (_, b) :: t =>
    let! s := ib_slack b in
    let! r := ia_slack_loop t in
    Ok (if zlen s <=? 8 then r else s :: r)
  end.

Definition ia_slack (f : ffile) : result (list (list Z)) :=
  let (l, st) := ia_index_buffers f in
  let! r := ia_slack_loop l in
  match st with Done => Ok r | Raised e => Err e end.

(** ** $REPARSE_POINT and $EA_INFORMATION: Attributes.py:959-1015. *)
Definition rp_tag (v : list Z) := u32 v 0.
Definition rp_microsoft (v : list Z) : result bool :=
  let! t := rp_tag v in Ok (0 <? Z.land t 0x80000000).
Definition rp_length (v : list Z) := u16 v 4.
(** uuid.UUID(bytes_le = data) raises ValueError unless there are 16 bytes. *)
Definition rp_guid (v : list Z) : result (option (list Z)) :=
  let! m := rp_microsoft v in
  if m then Ok None else
  let data := slice v 8 24 in
  if zlen data =? 16 then Ok (Some data) else Err ValueError.
Definition rp_buffer (v : list Z) : result (list Z) :=
  let! m := rp_microsoft v in
  let! n := rp_length v in
  Ok (if m then slice v 8 (8 + n) else slice v 24 (24 + n)).

Definition eai_packed (v : list Z) := u16 v 0.
Definition eai_need (v : list Z) := u16 v 2.
Definition eai_unpacked (v : list Z) := u32 v 4.

(** ** $OBJECT_ID: Attributes.py:494-516.  The version and the time of a GUID are
    those of uuid.UUID: the version is the high nibble of time_hi (None unless the
    variant is RFC 4122), the time is time_hi:12, time_mid:16, time_low:32. *)
Definition oid_guid (v : list Z) : option (list Z) :=
  let d := slice v 0 16 in if zlen d =? 16 then Some d else None.
Definition guid_rfc4122 (g : list Z) : bool :=
  Z.land (fld 1 g 8) 0xC0 =? 0x80.
Definition guid_version (g : list Z) : Z := Z.shiftr (fld 2 g 6) 12.
Definition guid_time (g : list Z) : Z :=
  Z.lor (Z.lor (Z.shiftl (Z.land (fld 2 g 6) 0xFFF) 48) (Z.shiftl (fld 2 g 4) 32)) (fld 4 g 0).
Definition oid_timestamp (v : list Z) : result (option Z) :=
  match oid_guid v with
  | None => Ok None
  | Some g =>
    if guid_rfc4122 g && (guid_version g =? 1) then decode_guid_time (guid_time g) true else Ok None
  end.
Definition oid_extra (v : list Z) : list Z := zdrop 16 v.

(** ** $EA: Attributes.py:1025-1064. *)
Fixpoint ea_loop (fuel : nat) (buf : list Z) : gen (list Z * Z * list Z) :=
  match fuel with
  | O => ([], Raised OutOfFuel)
  | S fuel =>
    if zlen buf <=? 8 then ([], Done) else
    let next := fld 4 buf 0 in
    let flags := fld 1 buf 4 in
    let nlen := fld 1 buf 5 in
    let vlen := fld 2 buf 6 in
    if (zlen buf <? 9 + nlen + vlen) || (zlen buf <? next) then ([], Done) else
    let name := slice buf 8 (8 + nlen + 1) in
    let value := slice buf (8 + nlen + 1) (8 + nlen + 1 + vlen) in
    match index name (zlen name - 1) with
    | Err e => ([], Raised e)
    | Ok c =>
      if negb (c =? 0) then ([], Done) else
      if negb (zlen value =? vlen) then ([], Done) else
      gcons (name, flags, value)
        (if next =? 0 then ([], Done) else ea_loop fuel (zdrop next buf))
    end
  end.

Definition ea_data (v : list Z) : gen (list Z * Z * list Z) := ea_loop (S (length v)) v.
