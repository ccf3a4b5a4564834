(** NTFSLogRecord, open attribute entries and table dumps
    (LogFile.py:1553-1960). *)
From Verif Require Import Base.

(** LogFile.py:81-87 *)
Definition LOGGED_RESIDENT_UPDATES : list Z := [2; 3; 4; 5; 6; 7; 9; 11; 12; 13; 17; 19; 33; 35; 37].
Definition LOGGED_NONRESIDENT_UPDATES : list Z := [8; 14; 15; 16; 18; 20; 21; 22; 34; 36].
Definition OpenNonresidentAttribute : Z := 28. (* LogFile.py:66 *)
Definition OpenAttributeTableDump : Z := 29.
Definition AttributeNamesDump : Z := 30.
Definition FILE_RECORD_SEGMENT_SIZE_DEFAULT : Z := 1024. (* MFT constant imported by LogFile.py *)

(** LogFile.py:1575-1584, __init__ *)
Definition log_record (buf : list Z) : result (list Z) :=
  if zlen buf <? 32 then Err ClientException else Ok buf.

Definition nr_redo_op (b : list Z) := u16 b 0.          (* 1586-1589 *)
Definition nr_undo_op (b : list Z) := u16 b 2.          (* 1591-1594 *)
Definition nr_redo_offset (b : list Z) : result Z :=    (* 1596-1603 *)
  let! o := u16 b 4 in if (0 <? o) && (o <? 32) then Err ClientException else Ok o.
Definition nr_redo_length (b : list Z) := u16 b 6.      (* 1605-1608 *)
Definition nr_undo_offset (b : list Z) : result Z :=    (* 1610-1617 *)
  let! o := u16 b 8 in if (0 <? o) && (o <? 32) then Err ClientException else Ok o.
Definition nr_undo_length (b : list Z) := u16 b 10.     (* 1619-1622 *)
Definition nr_target (b : list Z) := u16 b 12.          (* 1624-1627 *)
Definition nr_lcns (b : list Z) := u16 b 14.            (* 1629-1632 *)
Definition nr_record_offset (b : list Z) := u16 b 16.   (* 1634-1637 *)
Definition nr_attr_offset (b : list Z) := u16 b 18.     (* 1639-1642 *)
Definition nr_block (b : list Z) := u16 b 20.           (* 1644-1647 *)
Definition nr_block_size (b : list Z) := u16 b 22.      (* 1649-1655 *)
Definition nr_vcn (b : list Z) := unp_s 8 b 24.         (* 1657-1660 *)

(** LogFile.py:1662-1677, get_lcns_for_page; the loop runs get_lcns_to_follow()
    times. *)
Fixpoint lcns_loop (n : nat) (b : list Z) (i : Z) : result (list Z) :=
  match n with
  | O => Ok []
  | S n =>
    let s := slice b (32 + i * 8) (40 + i * 8) in
    if negb (zlen s =? 8) then Err ClientException else
    let! v := unp_s 8 s 0 in
    let! r := lcns_loop n b (i + 1) in
    Ok (v :: r)
  end.

Definition nr_lcns_for_page (b : list Z) : result (list Z) :=
  let! n := nr_lcns b in lcns_loop (Z.to_nat n) b 0.

(** LogFile.py:1679-1687 and 1689-1697 *)
Definition nr_redo_data (b : list Z) : result (list Z) :=
  let! n := nr_redo_length b in
  if n =? 0 then Ok [] else
  let! o := nr_redo_offset b in
  Ok (slice b o (o + n)).

Definition nr_undo_data (b : list Z) : result (list Z) :=
  let! n := nr_undo_length b in
  if n =? 0 then Ok [] else
  let! o := nr_undo_offset b in
  Ok (slice b o (o + n)).

(** [self.get_redo_operation() in ops or self.get_undo_operation() in ops] *)
Definition nr_op_in (b : list Z) (ops : list Z) : result bool :=
  let! r := nr_redo_op b in
  if zin r ops then Ok true else
  let! u := nr_undo_op b in
  Ok (zin u ops).

(** LogFile.py:1699-1714, calculate_mft_target_number *)
Definition mft_target_number (cluster : Z) (b : list Z) : result (option Z) :=
  let! y := nr_op_in b LOGGED_RESIDENT_UPDATES in
  if y then
    let! vcn := nr_vcn b in
    let! block := nr_block b in
    let! bs := nr_block_size b in
    let frs := if 0 <? bs then bs * 512 else FILE_RECORD_SEGMENT_SIZE_DEFAULT in
    Ok (Some ((vcn * cluster + block * 512) / frs))
  else Ok None.

(** LogFile.py:1716-1723, calculate_offset_in_target *)
Definition offset_in_target (cluster : Z) (b : list Z) : result (option Z) :=
  let! y := nr_op_in b LOGGED_RESIDENT_UPDATES in
  if y then
    let! a := nr_attr_offset b in
    let! r := nr_record_offset b in
    Ok (Some (a + r))
  else
    let! y := nr_op_in b LOGGED_NONRESIDENT_UPDATES in
    if y then
      let! vcn := nr_vcn b in
      let! block := nr_block b in
      let! a := nr_attr_offset b in
      let! r := nr_record_offset b in
      Ok (Some (vcn * cluster + block * 512 + a + r))
    else Ok None.

(** OpenAttributeEntry1 (LogFile.py:1781-1820) and OpenAttributeEntry0
    (1822-1862): get_file_reference of an entry, after the length check of the
    constructor; the other getters are not called anywhere. *)
Definition entry_reference (version : Z) (buf : list Z) : result Z :=
  if 1 <=? version
  then if zlen buf <? 40 then Err ClientException else u64 buf 16
  else if zlen buf <? 44 then Err ClientException else u64 buf 8.

(** LogFile.py:1864-1897, AttributeNameEntry *)
Definition name_entry (buf : list Z) : result (list Z) :=
  if zlen buf <? 8 then Err ClientException else Ok buf.
Definition ne_index (b : list Z) := u16 b 0.
Definition ne_length (b : list Z) := u16 b 2.
Definition ne_name (b : list Z) : result (list Z) :=
  let! n := ne_length b in Ok (utf16le (slice b 4 (4 + n))).
Definition ne_sizeof (b : list Z) : result Z :=
  let! n := ne_length b in Ok (4 + n + 2).

(** LogFile.py:1908-1924, find_name_by_index; [None] when not found. *)
Fixpoint find_name_loop (fuel : nat) (dump : list Z) (index pos : Z) : result (option (list Z)) :=
  match fuel with
  | O => Err OutOfFuel
  | S fuel =>
    if pos <? zlen dump then
      match name_entry (zdrop pos dump) with
      | Err ClientException => Ok None
      | Err e => Err e
      | Ok e =>
        let! i := ne_index e in
        if i =? index then let! n := ne_name e in Ok (Some n) else
        let! s := ne_sizeof e in
        find_name_loop fuel dump index (pos + s)
      end
    else Ok None
  end.

(** Enough steps (proved): every entry has at least six bytes. *)
Definition find_name (dump : list Z) (index : Z) : result (option (list Z)) :=
  find_name_loop (S (length dump)) dump index 0.

(** LogFile.py:1926-1960; a dump is its bytes and the version chosen. *)
Definition find_reference (dump : list Z) (version index : Z) : result Z :=
  if zlen dump <=? index then Err ClientException else
  entry_reference version (zdrop index dump).

(** The open attribute table: a dictionary from indices to (reference, name),
    most recently set first. *)
Definition oat := list (Z * (Z * list Z)).

Definition oat_get (t : oat) (i : Z) : option (Z * list Z) :=
  match find (fun e => fst e =? i) t with Some e => Some (snd e) | None => None end.

(** LogFile.py:1725-1746, calculate_mft_target_reference_and_name, for a record
    whose [oat] was set; the name is [None] when the names dump does not have
    the index. *)
Definition target_reference (b : list Z) (t : oat) (oat_dump : option (list Z * Z)) (an_dump : option (list Z))
  : result (option (Z * option (list Z))) :=
  let! y := nr_op_in b LOGGED_NONRESIDENT_UPDATES in
  if y then
    let! i := nr_target b in
    match oat_get t i with
    | Some (r, n) => Ok (Some (r, Some n))
    | None =>
      match oat_dump, an_dump with
      | Some (d, v), Some names =>
        match find_reference d v i with
        | Err ClientException => Ok None
        | Err e => Err e
        | Ok r => let! n := find_name names i in Ok (Some (r, n))
        end
      | _, _ => Ok None
      end
    end
  else Ok None.
