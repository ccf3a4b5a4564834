(** Specification of the report on the log: what the block of a restart area or
    of a log record has to show. *)
From Coq Require Import String.
From Verif Require Import Base MappingPairsSpec Frs FrsSpec FileRecord Mft MftSpec Filetime Usn UsnSpec UsnProofs Attributes
  Report ReportSpec ReportMoreSpec LogRecord LogParse LogParseSpec.
Local Open Scope Z_scope.

(** A line with a label, and the empty line after a part. *)
Definition text_line (s : string) (c : list cell) : list cell := Txt (txt s) :: c.
Definition gap : list cell := [Txt []].

(** ** Texts *)

(** Hexadecimal digits in lower case, read as a number. *)
Definition low_digit (c : Z) : option Z :=
  if (48 <=? c) && (c <=? 57) then Some (c - 48) else if (97 <=? c) && (c <=? 102) then Some (c - 87) else None.
Fixpoint low_number (acc : Z) (s : list Z) : option Z :=
  match s with
  | [] => Some acc
  | c :: s => match low_digit c with Some d => low_number (16 * acc + d) s | None => None end
  end.
(** "0x" and the digits, without zeros in front. *)
Definition hex_shown (n : Z) (s : list Z) : Prop :=
  exists d, s = [48; 120] ++ d /\ low_number 0 d = Some n /\ d <> [] /\ (znth d 0 = Some 48 -> n = 0 /\ d = [48]).

Inductive bars : list (list Z) -> list Z -> Prop :=
| bars_none : bars [] []
| bars_one : forall x, bars [x] x
| bars_more : forall x y l s, bars (y :: l) s -> bars (x :: y :: l) (x ++ [32; 124; 32] ++ s).

(** The operations of the log client. *)
Definition operations : list (Z * string) := [
  (0x00, "Noop"); (0x01, "CompensationLogRecord"); (0x02, "InitializeFileRecordSegment"); (0x03, "DeallocateFileRecordSegment");
  (0x04, "WriteEndOfFileRecordSegment"); (0x05, "CreateAttribute"); (0x06, "DeleteAttribute"); (0x07, "UpdateResidentValue");
  (0x08, "UpdateNonresidentValue"); (0x09, "UpdateMappingPairs"); (0x0A, "DeleteDirtyClusters"); (0x0B, "SetNewAttributeSizes");
  (0x0C, "AddIndexEntryRoot"); (0x0D, "DeleteIndexEntryRoot"); (0x0E, "AddIndexEntryAllocation"); (0x0F, "DeleteIndexEntryAllocation");
  (0x10, "WriteEndOfIndexBuffer"); (0x11, "SetIndexEntryVcnRoot"); (0x12, "SetIndexEntryVcnAllocation"); (0x13, "UpdateFileNameRoot");
  (0x14, "UpdateFileNameAllocation"); (0x15, "SetBitsInNonresidentBitMap"); (0x16, "ClearBitsInNonresidentBitMap"); (0x17, "HotFix");
  (0x18, "EndTopLevelAction"); (0x19, "PrepareTransaction"); (0x1A, "CommitTransaction"); (0x1B, "ForgetTransaction");
  (0x1C, "OpenNonresidentAttribute"); (0x1D, "OpenAttributeTableDump"); (0x1E, "AttributeNamesDump"); (0x1F, "DirtyPageTableDump");
  (0x20, "TransactionTableDump"); (0x21, "UpdateRecordDataRoot"); (0x22, "UpdateRecordDataAllocation"); (0x23, "UpdateRelativeDataIndex");
  (0x24, "UpdateRelativeDataAllocation"); (0x25, "ZeroEndOfFileRecord")]%string.
Definition operation_shown (code : Z) (s : list Z) : Prop :=
  (exists name, In (code, name) operations /\ s = txt name) \/
  ((forall name, ~ In (code, name) operations) /\ hex_shown code s).

(** The file attributes by bit number; other bits are not shown. *)
Definition attribute_bits : list (Z * string) := [
  (0, "READ_ONLY"); (1, "HIDDEN"); (2, "SYSTEM"); (4, "DIRECTORY"); (5, "ARCHIVE"); (6, "DEVICE"); (7, "NORMAL"); (8, "TEMPORARY");
  (9, "SPARSE"); (10, "REPARSE_POINT"); (11, "COMPRESSED"); (12, "OFFLINE"); (13, "NOT_CONTENT_INDEXED"); (14, "ENCRYPTED");
  (15, "INTEGRITY_STREAM"); (16, "VIRTUAL"); (17, "NO_SCRUB_DATA"); (18, "RECALL_ON_OPEN"); (19, "PINNED"); (20, "UNPINNED");
  (22, "RECALL_ON_DATA_ACCESS")]%string.
Definition attributes_shown (n : Z) (s : list Z) : Prop :=
  bars (map (fun x => txt (snd x)) (filter (fun x => Z.testbit n (fst x)) attribute_bits)) s.

(** The codes of a journal record: names, and what is left as a number; the
    items say all of [n]. *)
Definition item_shown (i : code_item) (s : list Z) : Prop :=
  match i with Named x => s = txt x | Hex n => hex_shown n s end.
Definition codes_shown (table : list (Z * string)) (n : Z) (s : list Z) : Prop :=
  exists items texts, items_value table items = Some n /\ Forall2 item_shown items texts /\ bars texts s.

(** A GUID: a number of four bytes, two of two bytes (least significant byte
    first), then two and six bytes in their order. *)
Definition guid_shown (v : list Z) (s : list Z) : Prop :=
  (zlen v < 16 /\ s = txt "None") \/
  (16 <= zlen v /\ exists a b c d e, s = a ++ [45] ++ b ++ [45] ++ c ++ [45] ++ d ++ [45] ++ e /\
     (zlen a = 8 /\ low_number 0 a = Some (fld 4 v 0)) /\ (zlen b = 4 /\ low_number 0 b = Some (fld 2 v 4)) /\
     (zlen c = 4 /\ low_number 0 c = Some (fld 2 v 6)) /\
     (zlen d = 4 /\ low_number 0 d = Some (256 * fld 1 v 8 + fld 1 v 9)) /\
     (zlen e = 12 /\ low_number 0 e = Some (le_val (rev (slice v 10 16))))).

(** ** Restart areas *)
Definition area_shown (b : list Z) (lsn : Z) (ls : list (list cell)) : Prop :=
  64 <= zlen b /\
  ls = [text_line "LSN: " [Num lsn];
        text_line "Restart area, version: " [Num (fld 4 b 0); Txt [46]; Num (fld 4 b 4)];
        text_line " Start of checkpoint LSN: " [Num (fld 8 b 8)];
        text_line " Tables (LSN and length):" [];
        text_line " * Open attribute table: " [Num (fld 8 b 16); Txt [32]; Num (fld 4 b 48)];
        text_line " * Attribute names: " [Num (fld 8 b 24); Txt [32]; Num (fld 4 b 52)];
        text_line " * Dirty page table: " [Num (fld 8 b 32); Txt [32]; Num (fld 4 b 56)];
        text_line " * Transaction table: " [Num (fld 8 b 40); Txt [32]; Num (fld 4 b 60)]].

(** ** Values *)
Definition four_lines (m a c e : cell) : list (list cell) :=
  [text_line " * M timestamp: " [m]; text_line " * A timestamp: " [a];
   text_line " * C timestamp: " [c]; text_line " * E timestamp: " [e]].
(** The times created, modified, entry modified and accessed, stored in this order
    from [o] on. *)
Definition times_shown (v : list Z) (o : Z) (ls : list (list cell)) : Prop :=
  exists m a c e, filetime_shown (fld 8 v o) c /\ filetime_shown (fld 8 v (o + 8)) m /\
    filetime_shown (fld 8 v (o + 16)) e /\ filetime_shown (fld 8 v (o + 24)) a /\ ls = four_lines m a c e.

Definition si_value (v : list Z) (ls : list (list cell)) : Prop :=
  36 <= zlen v /\ exists times s, times_shown v 0 times /\ attributes_shown (fld 4 v 32) s /\
    ls = text_line "$STANDARD_INFORMATION:" [] :: times ++ [text_line " * File attributes: " [Txt s]; gap].

Definition oid_value (v : list Z) (ls : list (list cell)) : Prop :=
  exists s c, guid_shown v s /\
    ((exists us, guid_dated v us /\ c = Stamp (86400000000 * 577736 + us)) \/ ((forall us, ~ guid_dated v us) /\ c = Txt (txt "N/A"))) /\
    ls = [text_line "$OBJECT_ID:" []; text_line " * GUID: " [Txt s]; text_line " * Timestamp: " [c]; gap].

(** A part of $STANDARD_INFORMATION that starts at [o]: the times that are
    completely in it. *)
Definition part_time (buf : list Z) (o k : Z) (c : cell) : Prop :=
  (o <= k /\ k + 8 <= o + zlen buf /\ filetime_shown (fld 8 buf (k - o)) c) \/
  (~ (o <= k /\ k + 8 <= o + zlen buf) /\ c = Txt (txt "N/A")).
Definition si_update (title : string) (buf : list Z) (o : Z) (ls : list (list cell)) : Prop :=
  (zlen buf < 8 /\ ls = []) \/
  (8 <= zlen buf /\ exists m a c e, part_time buf o 0 c /\ part_time buf o 8 m /\ part_time buf o 16 e /\ part_time buf o 24 a /\
     ls = text_line title [] :: four_lines m a c e ++ [gap]).

Definition dup_value (title : string) (buf : list Z) (ls : list (list cell)) : Prop :=
  (zlen buf <> 56 /\ ls = []) \/
  (zlen buf = 56 /\ exists times, times_shown buf 0 times /\ ls = text_line title [] :: times ++ [gap]).

(** A record of the change journal at the start of [v]: its bytes and version. *)
Definition usn_in (v u : list Z) (k : Z) : Prop :=
  2 <= k <= 4 /\ fld 2 v 4 = k /\ u = slice v 0 (fld 4 v 0) /\ zlen u = fld 4 v 0 /\ usn_min k <= zlen u /\ zlen u mod 8 = 0.
Definition usn_value (v : list Z) (ls : list (list cell)) : Prop :=
  ((forall u k, ~ usn_in v u k) /\ ls = []) \/
  exists u k source reason rest, usn_in v u k /\
    let w := if k =? 2 then 8 else 16 in
    let fixed := 8 + 2 * w in
    let codes := fixed + (if k =? 4 then 8 else 16) in
    codes_shown reason_list (fld 4 u codes) reason /\ codes_shown source_list (fld 4 u (codes + 4)) source /\
    (k = 4 -> rest = []) /\
    (k <> 4 -> exists time, filetime_shown (fld 8 u (fixed + 8)) time /\ name_fits u (fixed + 32) /\
       rest = [text_line " Timestamp: " [time];
               text_line " File name: " [Txt (utf16le (slice u (fld 2 u (fixed + 34)) (fld 2 u (fixed + 34) + fld 2 u (fixed + 32))))]]) /\
    ls = [text_line (if k =? 4 then "USN record (version 4):" else "USN record:") [];
          text_line " Number: " [Num (fld 8 u fixed)];
          text_line " Source: " [Txt source];
          text_line " Reason: " [Txt reason];
          text_line " File reference number: " [Num (fld w u 8)];
          text_line " Parent file reference number: " [Num (fld w u (8 + w))]] ++ rest ++ [gap].

Definition dump_is (buf s : list Z) : Prop := (buf = [] /\ s = [45]) \/ (buf <> [] /\ dump_of buf 0 s).

Section Table.
  Variable tb : list (Z * frs).
  Variable data : list Z.
  Variable size : Z.

  (** The record with this number (whatever its sequence number is), or the base
      record of the child segment with it, and its first path. *)
  Definition reached_any (n : Z) (fr : file_record) : Prop :=
    MftSpec.record_at tb data size n None fr \/
    exists f, segment_at data size n f /\ ~ is_base f /\ In (n, f) tb /\
      MftSpec.record_at tb data size (base_reference f mod 2 ^ 48) (Some (base_reference f / 2 ^ 48)) fr.
  Definition located_any (n : Z) (s : option (list Z)) : Prop :=
    let known s := exists fr v l, reached_any n fr /\ paths_are tb data size fr ((s, v) :: l) in
    match s with Some s => known s | None => forall s, ~ known s end.

  Definition path_line (label : string) (s : option (list Z)) : list (list cell) :=
    match s with Some s => [text_line label [Txt s]] | None => [] end.

  Definition fn_value (title : string) (v : list Z) (ls : list (list cell)) : Prop :=
    65 <= zlen v /\ exists times path, times_shown v 8 times /\ located tb data size (fld 8 v 0) path /\
      ls = text_line title [] :: times ++
           [text_line " * File name: " [Txt (name_in v)]; text_line " * Parent (file reference number): " [Num (fld 8 v 0)]] ++
           path_line " * Parent path (from $MFT): " path ++ [gap].

  Definition value_shown (ty : Z) (v : list Z) (ls : list (list cell)) : Prop :=
    (ty = 0x10 /\ si_value v ls) \/ (ty = 0x30 /\ fn_value "$FILE_NAME:" v ls) \/ (ty = 0x40 /\ oid_value v ls) \/
    (ty <> 0x10 /\ ty <> 0x30 /\ ty <> 0x40 /\ ls = []).

  (** ** A new file record: the redo data, filled up with zeros; the attributes up
      to the end or to the first malformed one. *)
  Definition attr_shown (a : attr) (ls : list (list cell)) : Prop :=
    match a with Resident ty _ v => ty <> 0xA0 /\ value_shown ty v ls | _ => ls = [] end.
  Definition attrs_of (d : list Z) (items : list attr) : Prop :=
    exists e, attr_seq d (first_free_off d) FrsSpec.shows (first_attr_off d) items e /\
      (first_free_off d <= e \/ end_at d e \/
       (forall len ty name c a, attr_at d (first_free_off d) e len ty name c -> ~ FrsSpec.shows a ty name c)).
  Definition filled (b redo : list Z) : list Z := redo ++ zeros (frs_size b - zlen redo).
  Definition new_record (b redo : list Z) (ls : list (list cell)) : Prop :=
    ((fld 2 b 0 <> 2 \/ ~ header_ok (filled b redo)) /\ ls = []) \/
    (fld 2 b 0 = 2 /\ header_ok (filled b redo) /\ exists items parts, attrs_of (filled b redo) items /\
       Forall2 attr_shown items parts /\ ls = concat parts).

  (** ** A new attribute: in the redo data if it is created, otherwise in the undo
      data if that creates it; for a change of the end of a record, in the longer
      one (the undo data if they have the same length). *)
  Definition created (b redo undo buf : list Z) : Prop :=
    let r := fld 2 b 0 in let u := fld 2 b 2 in
    (r = 5 /\ buf = redo) \/ (r <> 5 /\ u = 5 /\ buf = undo) \/
    (r <> 5 /\ u <> 5 /\ (r = 4 \/ u = 4) /\ ((zlen undo < zlen redo /\ buf = redo) \/ (zlen redo <= zlen undo /\ buf = undo))).
  Definition has_value (buf : list Z) (v : list Z) : Prop :=
    let off := fld 2 buf 20 in let n := fld 4 buf 16 in
    24 <= zlen buf /\ 0 < off /\ off mod 8 = 0 /\ 0 < n /\ off + n <= zlen buf /\ v = slice buf off (off + n).
  Definition new_attribute (b redo undo : list Z) (ls : list (list cell)) : Prop :=
    (exists buf v, created b redo undo buf /\ has_value buf v /\ value_shown (fld 4 buf 0) v ls) \/
    ((forall buf v, created b redo undo buf -> ~ has_value buf v) /\ ls = []).

  (** ** An update of a resident value that can be a part of $STANDARD_INFORMATION,
      the first attribute of a record. *)
  Definition si_start (b : list Z) (x : Z) : Prop := (frs_size b = 1024 /\ x = 80) \/ (frs_size b = 4096 /\ x = 96).
  Definition value_update (b redo undo : list Z) (ls : list (list cell)) : Prop :=
    let o := fld 2 b 16 + fld 2 b 18 in
    let meant x := (fld 2 b 0 = 7 \/ fld 2 b 2 = 7) /\ si_start b x /\ x <= o <= x + 32 in
    (exists x l1 l2, meant x /\ si_update "Possible update to $STANDARD_INFORMATION (redo data):" redo (o - x) l1 /\
       si_update "Possible update to $STANDARD_INFORMATION (undo data):" undo (o - x) l2 /\ ls = l1 ++ l2) \/
    ((forall x, ~ meant x) /\ ls = []).

  (** ** An index entry: the redo data if they are one, otherwise the undo data. *)
  Definition indexes (op : Z) : Prop := op = 12 \/ op = 14 \/ op = 16.
  Definition entry_in (b redo undo e : list Z) : Prop :=
    (indexes (fld 2 b 0) /\ e = redo) \/ (~ indexes (fld 2 b 0) /\ indexes (fld 2 b 2) /\ e = undo).
  Definition entry_key (e v : list Z) : Prop :=
    Z.testbit (fld 2 e 12) 1 = false /\ v = slice e 16 (16 + fld 2 e 10) /\ 66 < zlen v.
  Definition index_entry (b redo undo : list Z) (ls : list (list cell)) : Prop :=
    (exists e v, entry_in b redo undo e /\ entry_key e v /\ fn_value "$FILE_NAME in index:" v ls) \/
    ((forall e, entry_in b redo undo e -> 14 <= zlen e /\ forall v, ~ entry_key e v) /\ ls = []).

  (** ** An update of the times in an index entry. *)
  Definition name_update (b redo undo : list Z) (ls : list (list cell)) : Prop :=
    let renames op := op = 19 \/ op = 20 in
    exists l1 l2, ls = l1 ++ l2 /\
      ((renames (fld 2 b 0) /\ dup_value "Update to duplicated information (redo data):" redo l1) \/ (~ renames (fld 2 b 0) /\ l1 = [])) /\
      ((renames (fld 2 b 2) /\ dup_value "Update to duplicated information (undo data):" undo l2) \/ (~ renames (fld 2 b 2) /\ l2 = [])).

  (** ** A record written to the change journal. *)
  Definition journal_update (name : option (list Z)) (b redo undo : list Z) (ls : list (list cell)) : Prop :=
    (name <> Some (txt "$J") /\ ls = []) \/
    (name = Some (txt "$J") /\ exists l1 l2, ls = l1 ++ l2 /\
      ((fld 2 b 0 = 8 /\ usn_value redo l1) \/ (fld 2 b 0 <> 8 /\ l1 = [])) /\
      ((fld 2 b 2 = 8 /\ usn_value undo l2) \/ (fld 2 b 2 <> 8 /\ l2 = []))).

  (** ** The target: a file record by its number, another file by its reference and
      the name of the attribute ("-" if it is not known). *)
  Definition number_is (cluster : Z) (b : list Z) (n : Z) : Prop :=
    n * frs_size b <= target_byte cluster b < (n + 1) * frs_size b.
  Definition target_shown (cluster : Z) (b : list Z) (t : oat) (od : option (list Z * Z)) (ad : option (list Z))
      (ls : list (list cell)) (name : option (list Z)) : Prop :=
    (resident b /\ name = None /\ exists n path, number_is cluster b n /\ 0 <= n /\ located_any n path /\
       ls = text_line "Target (file number): " [Num n] ::
            path_line "Target path (from $MFT, likely wrong if the file was deleted later): " path) \/
    (~ resident b /\ exists ref nm path, target b t od ad (Some (ref, nm)) /\ located tb data size ref path /\
       name = Some (match nm with Some s => s | None => txt "-" end) /\
       ls = [text_line "Target (file reference number): " [Num ref];
             text_line "Target (attribute name): " [Txt (match nm with Some s => s | None => txt "-" end)]] ++
            path_line "Target path (from $MFT): " path) \/
    (~ resident b /\ target b t od ad None /\ name = None /\
       ls = [text_line "Unknown target, target attribute: " [Num (fld 2 b 12)]]).
  Definition offset_shown (cluster : Z) (b : list Z) (l : list cell) : Prop :=
    let o := fld 2 b 16 + fld 2 b 18 in
    (resident b /\ l = text_line "Offset in target: " [Num o]) \/
    (~ resident b /\ nonresident b /\ l = text_line "Offset in target: " [Num (target_byte cluster b + o)]) \/
    (~ resident b /\ ~ nonresident b /\ l = text_line "Unknown offset in target" []).

  (** The clusters of the page. *)
  Inductive spaced_cells : list cell -> list cell -> Prop :=
  | spaced_one : forall x, spaced_cells [x] [x]
  | spaced_more : forall x y l s, spaced_cells (y :: l) s -> spaced_cells (x :: y :: l) (x :: Txt [32] :: s).
  Definition cluster_cells (b : list Z) : list cell :=
    map (fun i => Num (to_signed 64 (fld 8 b (32 + 8 * Z.of_nat i)))) (seq 0 (Z.to_nat (fld 2 b 14))).
  Definition clusters_shown (b : list Z) (ls : list (list cell)) : Prop :=
    (fld 2 b 14 = 0 /\ ls = []) \/
    (fld 2 b 14 <> 0 /\ exists s, spaced_cells (cluster_cells b) s /\ ls = [text_line "LCN(s): " s]).

  (** ** The block of a log record, and the number of a record it deallocates.  A
      record without room for all its clusters is only announced. *)
  Definition record_shown (b : list Z) (lsn tid cluster : Z) (t : oat) (od : option (list Z * Z)) (ad : option (list Z))
      (ls : list (list cell)) (deleted : option cell) : Prop :=
    exists redo undo o1 o2 tl name ol rest,
      redo_part b redo /\ undo_part b undo /\
      operation_shown (fld 2 b 0) o1 /\ operation_shown (fld 2 b 2) o2 /\
      target_shown cluster b t od ad tl name /\ offset_shown cluster b ol /\
      ls = [text_line "LSN: " [Num lsn]; text_line "Transaction ID: " [Num tid];
            text_line "Log record, redo operation: " [Txt o1; Txt (txt ", undo operation: "); Txt o2]] ++ tl ++ [ol] ++ rest /\
      ((zlen b < 32 + 8 * fld 2 b 14 /\ rest = [text_line "Warning: truncated page" []] /\ deleted = None) \/
       (32 + 8 * fld 2 b 14 <= zlen b /\
        ((fld 2 b 0 = 3 /\ exists n, number_is cluster b n /\ deleted = Some (Num n)) \/ (fld 2 b 0 <> 3 /\ deleted = None)) /\
        exists lc d1 d2 x1 x2 x3 x4 x5 x6, clusters_shown b lc /\ dump_is redo d1 /\ dump_is undo d2 /\
          new_record b redo x1 /\ new_attribute b redo undo x2 /\ value_update b redo undo x3 /\ index_entry b redo undo x4 /\
          name_update b redo undo x5 /\ journal_update name b redo undo x6 /\
          rest = lc ++ [text_line "Redo data:" []; [Txt d1]; gap; text_line "Undo data:" []; [Txt d2]; gap] ++
                 x1 ++ x2 ++ x3 ++ x4 ++ x5 ++ x6)).

  Definition item_shown_as (i : item) (ls : list (list cell)) (deleted : option cell) : Prop :=
    match i with
    | Area b lsn => area_shown b lsn ls /\ deleted = None
    | Rec b lsn tid cluster t od ad => record_shown b lsn tid cluster t od ad ls deleted
    end.

  (** ** Undamaged items: the values are long enough for what is shown of them. *)
  Definition sound_value (ty : Z) (v : list Z) : Prop := (ty = 0x10 -> 36 <= zlen v) /\ (ty = 0x30 -> 65 <= zlen v).
  Definition sound_log_record (b : list Z) (cluster : Z) (t : oat) (od : option (list Z * Z)) (ad : option (list Z)) : Prop :=
    (resident b -> 0 <= target_byte cluster b) /\
    exists redo undo, redo_part b redo /\ undo_part b undo /\
    (32 + 8 * fld 2 b 14 <= zlen b ->
      (fld 2 b 0 = 2 -> header_ok (filled b redo) -> forall items, attrs_of (filled b redo) items ->
         Forall (fun a => match a with Resident ty _ v => ty <> 0xA0 /\ sound_value ty v | _ => True end) items) /\
      (forall buf v, created b redo undo buf -> has_value buf v -> sound_value (fld 4 buf 0) v) /\
      (forall e, entry_in b redo undo e -> 14 <= zlen e) /\
      (~ resident b -> forall ref, target b t od ad (Some (ref, Some (txt "$J"))) -> forall v u k, usn_in v u k -> k <> 4 ->
         (fld 2 b 0 = 8 /\ v = redo) \/ (fld 2 b 2 = 8 /\ v = undo) -> name_fits u (if k =? 2 then 56 else 72))).
  Definition sound_item (i : item) : Prop :=
    match i with Area _ _ => True | Rec b _ _ cluster t od ad => sound_log_record b cluster t od ad end.
End Table.

(** The last block. *)
Definition deleted_shown (l : list cell) (bs : list (list (list cell))) : Prop :=
  (l = [] /\ bs = []) \/
  (exists s, spaced_cells l s /\
     bs = [[text_line "Files and directories with these MFT numbers were deleted (in this order):" []; s]]).
Definition present {A} (l : list (option A)) : list A :=
  flat_map (fun o => match o with Some x => [x] | None => [] end) l.
