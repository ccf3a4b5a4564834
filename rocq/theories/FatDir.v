(** Model of FAT directories: /repo/dfir_ntfs/addons/FAT.py, class DirectoryEntries.

    The buffer is read in steps of 32 bytes; the constructor makes sure that it
    is a multiple of 512, so the model works on the list of its 32-byte slots.
    [dec] is [bytes.decode(encoding, errors = 'replace')] for the encoding given
    by the caller, [lower] is [str.lower]. *)
From Verif Require Import Base FatBasic.

Definition fat_date : Type := (Z * Z * Z)%type.
(** Year, month, day, hour, minute, second. *)
Definition fat_datetime : Type := (fat_date * (Z * Z * Z))%type.

(** FAT.py:1102 FileEntry.  [fe_deleted] is None for entries after a null entry;
    the milliseconds of [fe_ctime] are the last component. *)
Record file_entry := mk_file_entry {
  fe_deleted : option bool; fe_directory : bool; fe_short : list Z; fe_short_raw : list Z; fe_long : option (list Z);
  fe_atime : option fat_date; fe_mtime : option fat_datetime; fe_ctime : option (fat_datetime * Z);
  fe_size : Z; fe_attributes : Z; fe_ntbyte : Z; fe_first_cluster : Z; fe_encrypted : bool }.

(** FAT.py:1102-1104: FileEntry and OrphanLongEntry (whose name may be None). *)
Inductive dir_item := FileE (e : file_entry) | OrphanE (name : option (list Z)).

Definition unused (order : Z) : bool := zin order [0x00; 0xE5].

(** FAT.py:1160-1164. *)
Definition real_order (o : Z) : Z := if 0 <? Z.land o 0x40 then o - 0x40 else o.

(** FAT.py:1166-1202.  The previous order and checksum are set and cleared together. *)
Definition coherent (order ck : Z) (prev : option (Z * Z)) : bool :=
  match prev with
  | None =>
    if negb (unused order) then (0 <? Z.land order 0x40) && (order - 0x40 <=? 20) && (0 <? order - 0x40)
    else true
  | Some (porder, pck) =>
    if unused order && unused porder then ck =? pck
    else if negb (unused order) && negb (unused porder) then
      (ck =? pck) && (Z.land order 0x40 =? 0) && ((order <=? 20) && (0 <? order)) && (real_order porder =? order + 1)
    else false
  end.

Record dir_state := mk_dir_state { ds_stash : list (list Z); ds_prev : option (Z * Z); ds_null : bool }.
Definition dir_init : dir_state := mk_dir_state [] None false.

(** FAT.py:1234-1236, 1254-1256: the pieces in the order of appending. *)
Definition lfn_pieces (s : list Z) : list (list Z) := [slice s 28 32; slice s 14 26; slice s 1 11].

Definition orphan_if {A} (stash : list A) (name : option (list Z)) : list dir_item :=
  match stash with [] => [] | _ => [OrphanE name] end.
Definition orphan_some (name : option (list Z)) : list dir_item :=
  match name with None => [] | Some _ => [OrphanE name] end.

Definition byte_at (s : list Z) (i : Z) : Z := fld 1 s i.

Definition all_eq (v : Z) (l : list Z) : bool := forallb (fun c => c =? v) l.

(** [datetime + timedelta(milliseconds)]: the seconds are at most 58 and the
    milliseconds at most 1990, so nothing is carried beyond the seconds. *)
Definition add_ms (t : fat_datetime) (ms : Z) : fat_datetime * Z :=
  let '(d, (h, mi, s)) := t in ((d, (h, mi, s + ms / 1000)), ms mod 1000).

Definition both (d : option fat_date) (t : option (Z * Z * Z)) : option fat_datetime :=
  match d, t with Some d, Some t => Some (d, t) | _, _ => None end.

(** FAT.py:1357-1411: the fields after the names. *)
Definition build_entry (is_fat32 : bool) (s : list Z) (is_deleted : option bool) (is_directory : bool)
    (short raw : list Z) (long : option (list Z)) (attributes ntbyte : Z) (encrypted : bool) : file_entry :=
  let tenth := byte_at s 13 in
  let tenth := if 199 <? tenth then 0 else tenth in
  let ctime := both (decode_fat_date (fld 2 s 16)) (decode_fat_time (fld 2 s 14)) in
  let hi := if is_fat32 then fld 2 s 20 else 0 in
  mk_file_entry is_deleted is_directory short raw long
    (decode_fat_date (fld 2 s 18))
    (both (decode_fat_date (fld 2 s 24)) (decode_fat_time (fld 2 s 22)))
    (match ctime with None => None | Some t => Some (add_ms t (tenth * 10)) end)
    (fld 4 s 28) attributes ntbyte
    (Z.lor (Z.shiftl hi 16) (fld 2 s 26)) encrypted.

(** FAT.py:1277-1302: the names of a short entry: (bytes for the checksum, raw name, decoded name). *)
Definition short_names (dec lower : list Z -> list Z) (lb le : bool) (attributes : Z) (raw : list Z) : list Z * option (list Z) * option (list Z) :=
  if negb (is_volume_label attributes)
  then (raw, parse_short_name_raw raw, parse_short_name dec lower lb le raw)
  else
    let raw := fix_first raw in
    if forallb (fun c => negb (label_forbidden c)) raw
    then (raw, Some (rstrip_space raw), Some (dec (rstrip_space raw)))
    else (raw, None, None).

(** FAT.py:1212-1441: one iteration.  The result is the new state and what is yielded. *)
Definition dir_step (dec lower : list Z -> list Z) (is_fat32 short_only : bool) (st : dir_state) (s : list Z) : result (dir_state * list dir_item) :=
  let attributes := Z.land (byte_at s 11) 0x3F in
  let null := ds_null st || (byte_at s 0 =? 0) in
  if Z.land attributes 0x3F =? 0x0F then
    if short_only then Ok (mk_dir_state (ds_stash st) (ds_prev st) null, [])
    else if negb (byte_at s 12 =? 0) then Ok (mk_dir_state (ds_stash st) (ds_prev st) null, [])
    else
      let order := byte_at s 0 in
      let ck := byte_at s 13 in
      if negb (coherent order ck (ds_prev st)) then
        let out := orphan_if (ds_stash st) (build_long_name (ds_stash st)) in
        if coherent order ck None
        then Ok (mk_dir_state (lfn_pieces s) (Some (order, ck)) null, out)
        else Ok (mk_dir_state [] None null, out)
      else Ok (mk_dir_state (ds_stash st ++ lfn_pieces s) (Some (order, ck)) null, [])
  else
    let raw := slice s 0 11 in
    let ntbyte := byte_at s 12 in
    let! nt := parse_nt_byte ntbyte in
    let deleted := unused (byte_at s 0) in
    let '(ckraw, norm, short) := short_names dec lower (nt_lower_base nt) (nt_lower_ext nt) attributes raw in
    let '(long, out) :=
      (if negb deleted then
        if (match ds_prev st with None => false | Some (o, c) => (c =? build_checksum ckraw) && (real_order o =? 1) end)
        then (build_long_name (ds_stash st), [])
        else (None, orphan_if (ds_stash st) (build_long_name (ds_stash st)))
      else (build_long_name (ds_stash st), [])) in
    let st' := mk_dir_state [] None null in
    match short, norm with
    | Some short, Some norm =>
      let kind := Z.land attributes 0x18 in
      if negb ((kind =? 0x10) || (kind =? 0) || (kind =? 0x08)) then Ok (st', out ++ orphan_some long)
      else if all_eq 0xE5 s || all_eq 0 s then Ok (st', out ++ orphan_some long)
      else
        let deleted := if null && negb deleted then None else Some deleted in
        Ok (st', out ++ [FileE (build_entry is_fat32 s deleted (kind =? 0x10) short norm long attributes ntbyte (nt_encrypted nt))])
    | _, _ => Ok (st', out ++ orphan_some long)
    end.

(** FAT.py:1205-1448: the loop and the orphan name at the end. *)
Fixpoint dir_loop (dec lower : list Z -> list Z) (is_fat32 short_only : bool) (st : dir_state) (slots : list (list Z)) : gen dir_item :=
  match slots with
  | [] => (orphan_if (ds_stash st) (build_long_name (ds_stash st)), Done)
  | s :: rest =>
    match dir_step dec lower is_fat32 short_only st s with
    | Err e => ([], Raised e)
    | Ok (st', out) => gapp out (dir_loop dec lower is_fat32 short_only st' rest)
    end
  end.

Fixpoint cut_slots (n : nat) (buf : list Z) : list (list Z) :=
  match n with
  | O => []
  | S n => ztake 32 buf :: cut_slots n (zdrop 32 buf)
  end.

(** FAT.py:1146-1448: the constructor and the iteration. *)
Definition dir_entries (dec lower : list Z -> list Z) (is_fat32 short_only : bool) (buf : list Z) : gen dir_item :=
  if (zlen buf <? 512) || negb (zlen buf mod 512 =? 0) then ([], Raised DirectoryEntriesException)
  else dir_loop dec lower is_fat32 short_only dir_init (cut_slots (Z.to_nat (zlen buf / 32)) buf).
