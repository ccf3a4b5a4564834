(** The change journal: dfir_ntfs/USN.py:73-414. *)
From Coq Require Import String.
From Verif Require Import Base Filetime.
Local Open Scope list_scope.
Local Open Scope Z_scope.

(** ** Reason and source codes: USN.py:9-72.  A dictionary is the list of its
    items; [sorted(keys)] is the order used here (checked by [reasons_sorted]). *)
Definition reason_list : list (Z * string) := [
  (0x00000001, "USN_REASON_DATA_OVERWRITE"%string);
  (0x00000002, "USN_REASON_DATA_EXTEND"%string);
  (0x00000004, "USN_REASON_DATA_TRUNCATION"%string);
  (0x00000010, "USN_REASON_NAMED_DATA_OVERWRITE"%string);
  (0x00000020, "USN_REASON_NAMED_DATA_EXTEND"%string);
  (0x00000040, "USN_REASON_NAMED_DATA_TRUNCATION"%string);
  (0x00000100, "USN_REASON_FILE_CREATE"%string);
  (0x00000200, "USN_REASON_FILE_DELETE"%string);
  (0x00000400, "USN_REASON_EA_CHANGE"%string);
  (0x00000800, "USN_REASON_SECURITY_CHANGE"%string);
  (0x00001000, "USN_REASON_RENAME_OLD_NAME"%string);
  (0x00002000, "USN_REASON_RENAME_NEW_NAME"%string);
  (0x00004000, "USN_REASON_INDEXABLE_CHANGE"%string);
  (0x00008000, "USN_REASON_BASIC_INFO_CHANGE"%string);
  (0x00010000, "USN_REASON_HARD_LINK_CHANGE"%string);
  (0x00020000, "USN_REASON_COMPRESSION_CHANGE"%string);
  (0x00040000, "USN_REASON_ENCRYPTION_CHANGE"%string);
  (0x00080000, "USN_REASON_OBJECT_ID_CHANGE"%string);
  (0x00100000, "USN_REASON_REPARSE_POINT_CHANGE"%string);
  (0x00200000, "USN_REASON_STREAM_CHANGE"%string);
  (0x00400000, "USN_REASON_TRANSACTED_CHANGE"%string);
  (0x00800000, "USN_REASON_INTEGRITY_CHANGE"%string);
  (0x80000000, "USN_REASON_CLOSE"%string)].

Definition source_list : list (Z * string) := [
  (0x00000001, "USN_SOURCE_DATA_MANAGEMENT"%string);
  (0x00000002, "USN_SOURCE_AUXILIARY_DATA"%string);
  (0x00000004, "USN_SOURCE_REPLICATION_MANAGEMENT"%string);
  (0x00000008, "USN_SOURCE_CLIENT_REPLICATION_MANAGEMENT"%string)].

(** An element of [str_list]: a name, or [hex(n)] (kept as the number). *)
Inductive code_item : Type := Named (s : string) | Hex (n : Z).

Fixpoint resolve_loop (table : list (Z * string)) (codes left : Z) : list code_item * Z :=
  match table with
  | [] => ([], left)
  | (flag, name) :: t =>
    if 0 <? Z.land codes flag
    then let (l, r) := resolve_loop t codes (left - Z.land codes flag) in (Named name :: l, r)
    else resolve_loop t codes left
  end.

(** USN.py:73-88 ResolveReasonCodes, 90-105 ResolveSourceCodes; the items are
    joined with [' | '] by the code. *)
Definition resolve_codes (table : list (Z * string)) (codes : Z) : list code_item :=
  let (l, left) := resolve_loop table codes codes in
  if 0 <? left then l ++ [Hex left] else l.
Definition resolve_reason_codes := resolve_codes reason_list.
Definition resolve_source_codes := resolve_codes source_list.

(** ** Records: USN.py:131-166, 257-281.  [ur_version] tells the class: 2 and 3 for
    USN_RECORD_V2_OR_V3, 4 for USN_RECORD_V4. *)
Record usn_rec : Type := mk_ur { ur_version : Z; ur_raw : list Z }.

Definition ur_record_length (r : usn_rec) := u32 (ur_raw r) 0.
Definition ur_major (r : usn_rec) := u16 (ur_raw r) 4.
Definition ur_minor (r : usn_rec) := u16 (ur_raw r) 6.

(** The checks shared by the two constructors (146-158, 268-279). *)
Definition ur_check (r : usn_rec) : result usn_rec :=
  let! n := ur_record_length r in
  if (n <? 8) || negb (n mod 8 =? 0) then Err ValueError
  else if zlen (ur_raw r) <? n then Err ValueError
  else let! m := ur_major r in
       if negb (m =? ur_version r) then Err ValueError else Ok r.

Definition usn_v23_open (raw : list Z) (is3 : bool) : result usn_rec :=
  let inc := if is3 then 16 else 0 in
  if negb is3 && (zlen raw <? 62) then Err ValueError
  else if is3 && (zlen raw <? 62 + inc) then Err ValueError
  else ur_check (mk_ur (if is3 then 3 else 2) raw).

Definition usn_v4_open (raw : list Z) : result usn_rec :=
  if zlen raw <? 80 then Err ValueError else ur_check (mk_ur 4 raw).

(** USN.py:107-129 GetUsnRecord. *)
Definition get_usn_record (buf : list Z) : result usn_rec :=
  if zlen buf <? 8 then Err ValueError
  else
    let! n := u32 buf 0 in
    let! major := u16 buf 4 in
    if n <? 8 then Err ValueError
    else if major =? 2 then usn_v23_open (slice buf 0 n) false
    else if major =? 3 then usn_v23_open (slice buf 0 n) true
    else if major =? 4 then usn_v4_open (slice buf 0 n)
    else Err NotImplementedError.

(** ** Getters.  [inc]: USN.py:134-139 offset_increment. *)
Definition ur_inc (r : usn_rec) : Z := if ur_version r =? 3 then 16 else 0.

Definition wide_ref (raw : list Z) (off : Z) : result Z :=
  let! lo := u64 raw off in
  let! hi := u64 raw (off + 8) in
  Ok (Z.lor (Z.shiftl hi 64) lo).

(** 174-182, 291-297 *)
Definition ur_file_reference (r : usn_rec) : result Z :=
  if ur_version r =? 2 then u64 (ur_raw r) 8 else wide_ref (ur_raw r) 8.
(** 184-193, 299-305 *)
Definition ur_parent_reference (r : usn_rec) : result Z :=
  if ur_version r =? 2 then u64 (ur_raw r) 16 else wide_ref (ur_raw r) 24.
(** 195-198, 307-310 *)
Definition ur_usn (r : usn_rec) : result Z :=
  if ur_version r =? 4 then u64 (ur_raw r) 40 else u64 (ur_raw r) (24 + ur_inc r).
(** 206-209, 312-315 *)
Definition ur_reason (r : usn_rec) : result Z :=
  if ur_version r =? 4 then u32 (ur_raw r) 48 else u32 (ur_raw r) (40 + ur_inc r).
(** 211-214, 317-320 *)
Definition ur_source (r : usn_rec) : result Z :=
  if ur_version r =? 4 then u32 (ur_raw r) 52 else u32 (ur_raw r) (44 + ur_inc r).
(** Versions 2 and 3 only: 200-204, 216-247. *)
Definition ur_timestamp (r : usn_rec) : result (option Z) :=
  let! t := u64 (ur_raw r) (32 + ur_inc r) in decode_filetime t true.
Definition ur_security_id (r : usn_rec) := u32 (ur_raw r) (48 + ur_inc r).
Definition ur_file_attributes (r : usn_rec) := u32 (ur_raw r) (52 + ur_inc r).
Definition ur_name_length (r : usn_rec) := u16 (ur_raw r) (56 + ur_inc r).
Definition ur_name_offset (r : usn_rec) := u16 (ur_raw r) (58 + ur_inc r).
Definition ur_file_name (r : usn_rec) : result (list Z) :=
  let! off := ur_name_offset r in
  let! len := ur_name_length r in
  let raw := slice (ur_raw r) off (off + len) in
  if negb (zlen raw =? len) then Err ValueError else Ok (utf16le raw).
(** Version 4 only: 322-356. *)
Definition ur_remaining_extents (r : usn_rec) := u32 (ur_raw r) 56.
Definition ur_extent_count (r : usn_rec) := u16 (ur_raw r) 60.
Definition ur_extent_size (r : usn_rec) := u16 (ur_raw r) 62.

Inductive extent : Type := Extent (offset length : Z) | RawExtent (b : list Z).

Definition decode_extent (raw : list Z) : extent :=
  if zlen raw =? 16 then Extent (to_signed 64 (fld 8 raw 0)) (to_signed 64 (fld 8 raw 8))
  else RawExtent raw.

Fixpoint extents_loop (n : nat) (raw : list Z) (size pos : Z) : list extent :=
  match n with
  | O => []
  | S n =>
    let e := slice raw pos (pos + size) in
    if negb (zlen e =? size) then [] else decode_extent e :: extents_loop n raw size (pos + size)
  end.

Definition ur_extents (r : usn_rec) : gen extent :=
  match ur_extent_count r, ur_extent_size r with
  | Ok n, Ok s => (extents_loop (Z.to_nat n) (ur_raw r) s 64, Done)
  | Err e, _ | _, Err e => ([], Raised e)
  end.

(** ** ChangeJournalParser.usn_records: USN.py:380-414.  Each record is paired with
    its position in the journal (not yielded by the code).  [new_pos] is [pos], as
    [tmp_buf] is [buf]. *)
Fixpoint usn_loop (fuel : nat) (data : list Z) (pos : Z) : gen (Z * usn_rec) :=
  match fuel with
  | O => ([], Raised OutOfFuel)
  | S fuel =>
    if negb (pos <? zlen data) then ([], Done)
    else
      let buf := slice data pos (pos + 8192) in
      if forallb (Z.eqb 0) buf then usn_loop fuel data (pos + zlen buf)
      else
        let pos := if pos mod 8 =? 0 then pos else pos - pos mod 8 in
        let buf := slice data pos (pos + 8192) in
        match get_usn_record buf with
        | Ok r =>
          match ur_record_length r with
          | Ok n => gcons (pos, r) (usn_loop fuel data (pos + n))
          | Err e => ([(pos, r)], Raised e)
          end
        | Err ValueError | Err NotImplementedError => usn_loop fuel data (pos + 8)
        | Err e => ([], Raised e)
        end
  end.

Definition usn_records (data : list Z) : gen (Z * usn_rec) := usn_loop (S (length data)) data 0.
