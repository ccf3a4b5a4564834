(** Model of process_log (/repo/ntfs_parser:331-727) and of the texts it uses:
    ResolveNTFSOperation (LogFile.py:87-132), ResolveFileAttributes
    (Attributes.py:86-108, 143-151), the text of a list of codes (USN.py:73-105),
    the text of a GUID (Attributes.py:497-504, uuid.UUID.__str__) and the getters
    of NTFSRestartArea (LogFile.py:1458-1506).

    The report is the list of its blocks; each is written with '\n\n---\n\n' after
    it.  A block is a list of lines (joined by '\n'), a line a list of cells as in
    Report.v: the decimal text of a number and the calendar text of a time are not
    modelled.  A hexadecimal dump, which has several lines, is one line here. *)
From Coq Require Import String.
From Verif Require Import Base MappingPairs Frs FileRecord Filetime Attributes Mft Usn Report LogFile LogRecord LogParse.

Definition line : Type := list cell.
Definition block : Type := list line.
Definition ln (s : string) (c : list cell) : line := Txt (txt s) :: c.

(** ** Texts *)

(** Lower-case hexadecimal digits; hex(n) of a non-negative number. *)
Definition lower (c : Z) : Z := if 65 <=? c then c + 32 else c.
Definition py_hex (n : Z) : list Z := txt "0x" ++ map lower (hex n).

Fixpoint joined (sep : list Z) (l : list (list Z)) : list Z :=
  match l with [] => [] | [x] => x | x :: t => x ++ sep ++ joined sep t end.

(** LogFile.py:87-124; the codes are 0 to 37, in the order of the names. *)
Definition operation_names : list string := [
  "Noop"; "CompensationLogRecord"; "InitializeFileRecordSegment"; "DeallocateFileRecordSegment";
  "WriteEndOfFileRecordSegment"; "CreateAttribute"; "DeleteAttribute"; "UpdateResidentValue";
  "UpdateNonresidentValue"; "UpdateMappingPairs"; "DeleteDirtyClusters"; "SetNewAttributeSizes";
  "AddIndexEntryRoot"; "DeleteIndexEntryRoot"; "AddIndexEntryAllocation"; "DeleteIndexEntryAllocation";
  "WriteEndOfIndexBuffer"; "SetIndexEntryVcnRoot"; "SetIndexEntryVcnAllocation"; "UpdateFileNameRoot";
  "UpdateFileNameAllocation"; "SetBitsInNonresidentBitMap"; "ClearBitsInNonresidentBitMap"; "HotFix";
  "EndTopLevelAction"; "PrepareTransaction"; "CommitTransaction"; "ForgetTransaction";
  "OpenNonresidentAttribute"; "OpenAttributeTableDump"; "AttributeNamesDump"; "DirtyPageTableDump";
  "TransactionTableDump"; "UpdateRecordDataRoot"; "UpdateRecordDataAllocation"; "UpdateRelativeDataIndex";
  "UpdateRelativeDataAllocation"; "ZeroEndOfFileRecord"]%string.
(** LogFile.py:126-132 *)
Definition resolve_operation (code : Z) : list Z :=
  match znth operation_names code with Some s => txt s | None => py_hex code end.

(** Attributes.py:86-108, sorted by flag. *)
Definition file_attr_list : list (Z * string) := [
  (0x1, "READ_ONLY"); (0x2, "HIDDEN"); (0x4, "SYSTEM"); (0x10, "DIRECTORY"); (0x20, "ARCHIVE"); (0x40, "DEVICE");
  (0x80, "NORMAL"); (0x100, "TEMPORARY"); (0x200, "SPARSE"); (0x400, "REPARSE_POINT"); (0x800, "COMPRESSED");
  (0x1000, "OFFLINE"); (0x2000, "NOT_CONTENT_INDEXED"); (0x4000, "ENCRYPTED"); (0x8000, "INTEGRITY_STREAM");
  (0x10000, "VIRTUAL"); (0x20000, "NO_SCRUB_DATA"); (0x40000, "RECALL_ON_OPEN"); (0x80000, "PINNED");
  (0x100000, "UNPINNED"); (0x400000, "RECALL_ON_DATA_ACCESS")]%string.
Definition bar : list Z := txt " | ".
(** Attributes.py:143-151 *)
Definition resolve_file_attributes (n : Z) : list Z :=
  joined bar (map (fun x => txt (snd x)) (filter (fun x => 0 <? Z.land n (fst x)) file_attr_list)).

(** USN.py:73-105: the text of the items of [resolve_codes]. *)
Definition item_text (i : code_item) : list Z := match i with Named s => txt s | Hex n => py_hex n end.
Definition codes_text (l : list code_item) : list Z := joined bar (map item_text l).

(** str(uuid.UUID(bytes_le = g)), None for a value that is too short. *)
Definition hex_bytes (l : list Z) : list Z := map lower (concat (map int2hex l)).
Definition guid_text (g : option (list Z)) : list Z :=
  match g with
  | None => txt "None"
  | Some g => joined (txt "-") [hex_bytes (rev (slice g 0 4)); hex_bytes (rev (slice g 4 6)); hex_bytes (rev (slice g 6 8));
                                hex_bytes (slice g 8 10); hex_bytes (slice g 10 16)]
  end.

(** ' '.join(...) *)
Fixpoint spread (l : list cell) : line :=
  match l with [] => [] | [x] => [x] | x :: t => x :: Txt [32] :: spread t end.

(** ** Restart areas: 335-347, LogFile.py:1458-1506. *)
Definition area_block (b : list Z) (lsn : Z) : result block :=
  let! major := u32 b 0 in
  let! minor := u32 b 4 in
  let! start := u64 b 8 in
  let! oat_lsn := u64 b 16 in let! oat_len := u32 b 48 in
  let! names_lsn := u64 b 24 in let! names_len := u32 b 52 in
  let! dirty_lsn := u64 b 32 in let! dirty_len := u32 b 56 in
  let! trans_lsn := u64 b 40 in let! trans_len := u32 b 60 in
  let two s x y := ln s [Num x; Txt [32]; Num y] in
  Ok [ln "LSN: " [Num lsn];
      ln "Restart area, version: " [Num major; Txt (txt "."); Num minor];
      ln " Start of checkpoint LSN: " [Num start];
      ln " Tables (LSN and length):" [];
      two " * Open attribute table: "%string oat_lsn oat_len;
      two " * Attribute names: "%string names_lsn names_len;
      two " * Dirty page table: "%string dirty_lsn dirty_len;
      two " * Transaction table: "%string trans_lsn trans_len].

(** ** Attributes *)

Definition end_part : line := [Txt []].
Definition time_lines (m a c e : cell) : list line :=
  [ln " * M timestamp: " [m]; ln " * A timestamp: " [a]; ln " * C timestamp: " [c]; ln " * E timestamp: " [e]].
Definition times_of (m a c e : result (option Z)) : result (list line) :=
  let! m := m in let! a := a in let! c := c in let! e := e in
  Ok (time_lines (filetime_cell m) (filetime_cell a) (filetime_cell c) (filetime_cell e)).

(** A line for the path, if there is one. *)
Definition path_part (label : string) (s : option (list Z)) : list line :=
  match s with Some s => [ln label [Txt s]] | None => [] end.

(** 445-451, 527-534 *)
Definition si_lines (v : list Z) : result (list line) :=
  let! times := times_of (si_mtime v) (si_atime v) (si_ctime v) (si_etime v) in
  let! n := si_file_attributes v in
  Ok (ln "$STANDARD_INFORMATION:" [] :: times ++ [ln " * File attributes: " [Txt (resolve_file_attributes n)]; end_part]).

(** 461-483, 545-567, 617-640: the parent and its path. *)
Definition parent_lines (p : mft) (v : list Z) : result (list line) :=
  let! ref := fna_parent v in
  let! path := lookup_path p (fst (decode_ref ref)) (Some (snd (decode_ref ref))) in
  Ok (ln " * Parent (file reference number): " [Num ref] :: path_part " * Parent path (from $MFT): " path ++ [end_part]).

(** 453-483, 536-567 *)
Definition fn_lines (p : mft) (v : list Z) : result (list line) :=
  let! times := times_of (fna_mtime v) (fna_atime v) (fna_ctime v) (fna_etime v) in
  let! name := fna_name v in
  let! parent := parent_lines p v in
  Ok (ln "$FILE_NAME:" [] :: times ++ [ln " * File name: " [Txt name]] ++ parent).

(** 485-489, 569-575 *)
Definition oid_lines (v : list Z) : result (list line) :=
  let! t := oid_timestamp v in
  Ok [ln "$OBJECT_ID:" []; ln " * GUID: " [Txt (guid_text (oid_guid v))];
      ln " * Timestamp: " [format_timestamp ordinal_1582 t]; end_part].

(** The three types that are shown. *)
Definition value_lines (p : mft) (ty : Z) (v : list Z) : result (list line) :=
  if ty =? ATTR_TYPE_STANDARD_INFORMATION then si_lines v
  else if ty =? ATTR_TYPE_FILE_NAME then fn_lines p v
  else if ty =? ATTR_TYPE_OBJECT_ID then oid_lines v
  else Ok [].

(** ** Parts of a log record *)

(** 428-430, 578-580: the size of a file record. *)
Definition lr_frs_size (b : list Z) : result Z :=
  let! n := nr_block_size b in
  Ok (if n * 512 =? 0 then 1024 else n * 512).

(** 439-492: the attributes of a new file record; what was found before an error
    in the record stays.  value_decoded of a resident $INDEX_ALLOCATION fails. *)
Definition init_attr_lines (p : mft) (a : attr) : result (list line) :=
  match a with
  | Nonresident _ _ _ _ _ _ _ => Ok []
  | Resident ty _ v => if ty =? ATTR_TYPE_INDEX_ALLOCATION then Err AttributeError_py else value_lines p ty v
  end.
Fixpoint init_lines (p : mft) (l : list attr) (st : status) : result (list line) :=
  match l with
  | [] => match st with
          | Done => Ok []
          | Raised e => if is_mft_exn e then Ok [] else Err e
          end
  | a :: t => let! x := init_attr_lines p a in
              let! r := init_lines p t st in Ok (x ++ r)
  end.

(** 427-492; the exceptions of a segment are MasterFileTableExceptions. *)
Definition lr_new_record (p : mft) (b redo : list Z) : result (list line) :=
  let! size := lr_frs_size b in
  let buf := redo ++ zeros (size - zlen redo) in
  match frs_open buf false None with
  | Err e => if is_mft_exn e then Ok [] else Err e
  | Ok f => let run := frs_attributes f in init_lines p (ar_items run) (ar_status run)
  end.

Definition CreateAttribute : Z := 5. (* LogFile.py:38-75 *)
Definition WriteEndOfFileRecordSegment : Z := 4.
Definition InitializeFileRecordSegment : Z := 2.
Definition DeallocateFileRecordSegment : Z := 3.
Definition UpdateResidentValue : Z := 7.
Definition UpdateNonresidentValue : Z := 8.
Definition AddIndexEntryRoot : Z := 12.
Definition AddIndexEntryAllocation : Z := 14.
Definition WriteEndOfIndexBuffer : Z := 16.
Definition UpdateFileNameRoot : Z := 19.
Definition UpdateFileNameAllocation : Z := 20.

(** 494-575 *)
Definition lr_attribute (p : mft) (redo_op undo_op : Z) (redo undo : list Z) : result (list line) :=
  if (redo_op =? CreateAttribute) || (undo_op =? CreateAttribute)
     || (redo_op =? WriteEndOfFileRecordSegment) || (undo_op =? WriteEndOfFileRecordSegment) then
    let buf := if redo_op =? CreateAttribute then redo
               else if undo_op =? CreateAttribute then undo
               else if zlen undo <? zlen redo then redo else undo in
    if 24 <=? zlen buf then
      let! ty := u32 buf 0 in
      let! n := u32 buf 16 in
      let! off := u16 buf 20 in
      if (0 <? off) && (off mod 8 =? 0) && (0 <? n) then
        let v := slice buf off (off + n) in
        if zlen v =? n then value_lines p ty v else Ok []
      else Ok []
    else Ok []
  else Ok [].

(** 588-609: one buffer. *)
Definition partial_si (title : string) (buf : list Z) (off : Z) : result (list line) :=
  if 8 <=? zlen buf then
    let s := sip_open buf off in
    let! times := times_of (sip_mtime s) (sip_atime s) (sip_ctime s) (sip_etime s) in
    Ok (ln title [] :: times ++ [end_part])
  else Ok [].
(** 577-609 *)
Definition lr_resident (b : list Z) (offset : option Z) (redo_op undo_op : Z) (redo undo : list Z) : result (list line) :=
  match offset with
  | None => Ok []
  | Some off =>
    if (redo_op =? UpdateResidentValue) || (undo_op =? UpdateResidentValue) then
      let! size := lr_frs_size b in
      if (size =? 1024) || (size =? 4096) then
        let si := if size =? 4096 then 72 + 24 else 56 + 24 in
        if (si <=? off) && (off <=? si + 32) then
          let! x := partial_si "Possible update to $STANDARD_INFORMATION (redo data):" redo (off - si) in
          let! y := partial_si "Possible update to $STANDARD_INFORMATION (undo data):" undo (off - si) in
          Ok (x ++ y)
        else Ok []
      else Ok []
    else Ok []
  end.

(** 611-640; the getters in the try block raise nothing it catches. *)
Definition lr_index (p : mft) (redo_op undo_op : Z) (redo undo : list Z) : result (list line) :=
  let ops := [AddIndexEntryRoot; AddIndexEntryAllocation; WriteEndOfIndexBuffer] in
  if zin redo_op ops || zin undo_op ops then
    let! v := ie_attribute (if zin redo_op ops then redo else undo) in
    match v with
    | None => Ok []
    | Some v =>
      if 66 <? zlen v then
        let! times := times_of (fna_mtime v) (fna_atime v) (fna_ctime v) (fna_etime v) in
        let! name := fna_name v in
        let! parent := parent_lines p v in
        Ok (ln "$FILE_NAME in index:" [] :: times ++ [ln " * File name: " [Txt name]] ++ parent)
      else Ok []
    end
  else Ok [].

(** 642-663; DuplicatedInformation: Attributes.py:392-447. *)
Definition dup_lines (title : string) (v : list Z) : result (list line) :=
  if zlen v =? 56 then
    let! times := times_of (time_at v 8) (time_at v 24) (time_at v 0) (time_at v 16) in
    Ok (ln title [] :: times ++ [end_part])
  else Ok [].
Definition lr_dup (redo_op undo_op : Z) (redo undo : list Z) : result (list line) :=
  let ops := [UpdateFileNameRoot; UpdateFileNameAllocation] in
  let! x := (if zin redo_op ops then dup_lines "Update to duplicated information (redo data):" redo else Ok []) in
  let! y := (if zin undo_op ops then dup_lines "Update to duplicated information (undo data):" undo else Ok []) in
  Ok (x ++ y).

(** 674-698: a record of the change journal, if there is one. *)
Definition usn_lines (v : list Z) : result (list line) :=
  match get_usn_record v with
  | Err NotImplementedError | Err ValueError => Ok []
  | Err e => Err e
  | Ok r =>
    let! usn := ur_usn r in
    let! source := ur_source r in
    let! reason := ur_reason r in
    let! ref := ur_file_reference r in
    let! parent := ur_parent_reference r in
    let! last := (if ur_version r =? 4 then Ok [] else
                  let! t := ur_timestamp r in let! n := ur_file_name r in
                  Ok [ln " Timestamp: " [filetime_cell t]; ln " File name: " [Txt n]]) in
    Ok ([ln (if ur_version r =? 4 then "USN record (version 4):" else "USN record:") [];
         ln " Number: " [Num usn];
         ln " Source: " [Txt (codes_text (resolve_source_codes source))];
         ln " Reason: " [Txt (codes_text (resolve_reason_codes reason))];
         ln " File reference number: " [Num ref];
         ln " Parent file reference number: " [Num parent]] ++ last ++ [end_part])
  end.
(** 665-698 *)
Definition lr_usn (name : option (list Z)) (redo_op undo_op : Z) (redo undo : list Z) : result (list line) :=
  match name with
  | None => Ok []
  | Some n =>
    if zlist_eqb n (txt "$J") then
      let! x := (if redo_op =? UpdateNonresidentValue then usn_lines redo else Ok []) in
      let! y := (if undo_op =? UpdateNonresidentValue then usn_lines undo else Ok []) in
      Ok (x ++ y)
    else Ok []
  end.

(** 365-405: the lines on the target, and target_attribute_name. *)
Definition target_lines (p : mft) (b : list Z) (number : option Z) (t : oat) (od : option (list Z * Z)) (ad : option (list Z))
  : result (list line * option (list Z)) :=
  match number with
  | Some n =>
    let! path := lookup_path p n None in
    Ok (ln "Target (file number): " [Num n] ::
        path_part "Target path (from $MFT, likely wrong if the file was deleted later): " path, None)
  | None =>
    let! r := target_reference b t od ad in
    match r with
    | Some (ref, name) =>
      let name := match name with Some s => s | None => txt "-" end in
      let! path := lookup_path p (fst (decode_ref ref)) (Some (snd (decode_ref ref))) in
      Ok ([ln "Target (file reference number): " [Num ref]; ln "Target (attribute name): " [Txt name]] ++
          path_part "Target path (from $MFT): " path, Some name)
    | None =>
      let! n := nr_target b in
      Ok ([ln "Unknown target, target attribute: " [Num n]], None)
    end
  end.

(** 349-700 process_log_record: the block, and what it adds to deleted_files. *)
Definition log_record_block (p : mft) (b : list Z) (lsn tid cluster : Z) (t : oat) (od : option (list Z * Z)) (ad : option (list Z))
  : result (block * option cell) :=
  let! redo_op := nr_redo_op b in
  let! undo_op := nr_undo_op b in
  let! redo := nr_redo_data b in
  let! undo := nr_undo_data b in
  let! number := mft_target_number cluster b in
  let! (target, name) := target_lines p b number t od ad in
  let! offset := offset_in_target cluster b in
  let head :=
    [ln "LSN: " [Num lsn]; ln "Transaction ID: " [Num tid];
     ln "Log record, redo operation: " [Txt (resolve_operation redo_op); Txt (txt ", undo operation: "); Txt (resolve_operation undo_op)]]
    ++ target ++
    [match offset with Some o => ln "Offset in target: " [Num o] | None => ln "Unknown offset in target" [] end] in
  match nr_lcns_for_page b with
  | Err ClientException => Ok (head ++ [ln "Warning: truncated page" []], None)
  | Err e => Err e
  | Ok lcns =>
    let! redo_dump := hexdump redo in
    let! undo_dump := hexdump undo in
    let dumps :=
      (match lcns with [] => [] | _ => [ln "LCN(s): " (spread (map Num lcns))] end) ++
      [ln "Redo data:" []; [Txt redo_dump]; end_part; ln "Undo data:" []; [Txt undo_dump]; end_part] in
    let deleted := if redo_op =? DeallocateFileRecordSegment
                   then Some (match number with Some n => Num n | None => Txt (txt "unknown") end) else None in
    let! x1 := (if redo_op =? InitializeFileRecordSegment then lr_new_record p b redo else Ok []) in
    let! x2 := lr_attribute p redo_op undo_op redo undo in
    let! x3 := lr_resident b offset redo_op undo_op redo undo in
    let! x4 := lr_index p redo_op undo_op redo undo in
    let! x5 := lr_dup redo_op undo_op redo undo in
    let! x6 := lr_usn name redo_op undo_op redo undo in
    Ok (head ++ dumps ++ x1 ++ x2 ++ x3 ++ x4 ++ x5 ++ x6, deleted)
  end.

Definition item_block (p : mft) (i : item) : result (block * option cell) :=
  match i with
  | Area b lsn => let! l := area_block b lsn in Ok (l, None)
  | Rec b lsn tid cluster t od ad => log_record_block p b lsn tid cluster t od ad
  end.

Definition somes {A} (l : list (option A)) : list A :=
  flat_map (fun o => match o with Some x => [x] | None => [] end) l.

(** 719-726: the last block, only written after all others. *)
Definition deleted_block (l : list cell) : list block :=
  match l with
  | [] => []
  | _ => [[ln "Files and directories with these MFT numbers were deleted (in this order):" []; spread l]]
  end.

(** 703-726; [ord] gives the order in which sets are enumerated (LogFile.v). *)
Definition process_log (ord : nat -> list Z -> list Z) (data mft_data : list Z) : gen block :=
  grun (log_open data) (fun lf =>
  grun (mft_open mft_data true) (fun p =>
  let '(is, _, (_, st)) := parse_ntfs_records lf ord true (start_world data) in
  let (l, st) := grows (fun i => grun (item_block p i) (fun r => ([r], Done))) (is, st) in
  (map fst l ++ (match st with Done => deleted_block (somes (map snd l)) | Raised _ => [] end), st))).
