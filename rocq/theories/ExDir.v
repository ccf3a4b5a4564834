(** Model of the class DirectoryEntries of /repo/dfir_ntfs/addons/exFAT.py.
    The buffer is cut into its slots of 32 bytes first (its size is a multiple
    of 512, and every position the program looks at is [32 * k + i] with
    [i < 32]).  Warnings are left out. *)
From Verif Require Import Base FatBasic FatDir ExBasic.

Definition x_time : Type := option (fat_datetime * Z).

(** exFAT.py:698 FileEntry. *)
Record xentry := mk_xentry {
  xe_deleted : bool; xe_directory : bool; xe_name : list Z;
  xe_atime : x_time; xe_atz : option Z; xe_mtime : x_time; xe_mtz : option Z; xe_ctime : x_time; xe_ctz : option Z;
  xe_size : Z; xe_valid : Z; xe_attributes : Z; xe_first : Z; xe_encrypted : bool; xe_no_chain : bool }.

(** exFAT.py:698-703. *)
Inductive x_item :=
| XFile (e : xentry)
| XOrphan (name : list Z)
| XLabel (label : list Z)
| XBitmap (id first size : Z).

(** exFAT.py:869-891: the values taken from a stream extension entry. *)
Record xstream := mk_xstream { xs_no_chain : bool; xs_name_len : Z; xs_valid : Z; xs_first : Z; xs_size : Z }.

(** exFAT.py:869-890.  None: the set is invalid. *)
Definition x_stream (s : list Z) : option xstream :=
  let '(possible, no_chain) := x_flags (byte_at s 1) in
  if negb possible then None
  else if byte_at s 3 =? 0 then None
  else Some (mk_xstream no_chain (byte_at s 3) (fld 8 s 8) (fld 4 s 20) (fld 8 s 24)).

(** exFAT.py:892-897. *)
Definition x_max_names (n : Z) : Z := if n <=? 15 then 1 else if n mod 15 =? 0 then n / 15 else n / 15 + 1.

Definition x_vendor (pure : Z) : bool := zin pure [0x60; 0x61].

(** exFAT.py:840-922: the loop over the secondary entries; [i] counts entries.
    None: the set is invalid.  (The stream is known when a name comes, because
    the first entry must be a stream.) *)
Fixpoint x_secondary (deleted : bool) (i : Z) (st : option xstream) (names : list (list Z)) (vendor : bool)
    (subs : list (list Z)) : option (option xstream * list (list Z)) :=
  match subs with
  | [] => Some (st, names)
  | s :: rest =>
    let t := byte_at s 0 in
    if zin t [0x00; 0x80] then None
    else if negb (x_category t =? 1) then None
    else if negb deleted && negb (x_in_use t) then None
    else
      let p := x_pure t in
      if (i =? 0) && negb (p =? 0x40) then None
      else if (i =? 1) && negb (p =? 0x41) then None
      else if (2 <=? i) && (p =? 0x40) then None
      else
        match (if p =? 0x40 then match x_stream s with None => None | Some x => Some (Some x) end else Some st) with
        | None => None
        | Some st =>
          match (if p =? 0x41 then
                   match st with
                   | None => None
                   | Some x => if (x_max_names (xs_name_len x) <? zlen names + 1) || (17 <? zlen names + 1) then None
                               else Some (names ++ [slice s 2 32])
                   end
                 else Some names) with
          | None => None
          | Some names =>
            if vendor && negb (x_vendor p) then None
            else x_secondary deleted (i + 1) st names (vendor || x_vendor p) rest
          end
        end
  end.

(** exFAT.py:800-938: a file entry [s] and the slots behind it.  The result is
    the entry and the number of secondary entries; None: the entry is skipped. *)
Definition x_file (s : list Z) (rest : list (list Z)) : option (xentry * Z) :=
  let count := byte_at s 1 in
  if (count <? 2) || (64 <? count) then None
  else
    let deleted := negb (x_in_use (byte_at s 0)) in
    let attributes := fld 2 s 4 in
    let subs := ztake count rest in
    if negb (zlen subs =? count) then None
    else if negb deleted && negb (match x_set_checksum (s ++ concat subs) with Ok c => fld 2 s 2 =? c | Err _ => false end) then None
    else
      match x_secondary deleted 0 None [] false subs with
      | Some (Some x, names) =>
        match x_build_name names (Some (xs_name_len x)) with
        | None => None
        | Some name =>
          Some (mk_xentry deleted (0 <? Z.land attributes 0x10) name
                  (x_decode_timestamp (fld 4 s 16) 0) (x_decode_timezone (byte_at s 24))
                  (x_decode_timestamp (fld 4 s 12) (byte_at s 21)) (x_decode_timezone (byte_at s 23))
                  (x_decode_timestamp (fld 4 s 8) (byte_at s 20)) (x_decode_timezone (byte_at s 22))
                  (xs_size x) (xs_valid x) attributes (xs_first x) (0 <? Z.land (fld 2 s 6) 0x8000) (xs_no_chain x), count)
        end
      | _ => None
      end.

(** exFAT.py:980-1005: the parts of an orphan name, from slot [i] on.  (The
    first slot has the type [t] that the following ones are compared with.) *)
Definition ends_null (l : list Z) : bool := match rev l with a :: b :: _ => (a =? 0) && (b =? 0) | _ => false end.
Fixpoint x_gather (t i : Z) (slots : list (list Z)) : list (list Z) :=
  match slots with
  | [] => []
  | s :: rest =>
    if negb (byte_at s 0 =? t) then []
    else if negb (byte_at s 1 =? 0) then []
    else
      let part := slice s 2 32 in
      part :: (if 17 <=? i + 1 then [] else if ends_null part then [] else x_gather t (i + 1) rest)
  end.

(** exFAT.py:979-1013. *)
Definition x_orphan (s : list Z) (rest : list (list Z)) : option (list Z * Z) :=
  let parts := x_gather (byte_at s 0) 0 (s :: rest) in
  match x_build_name parts None with
  | None => None
  | Some name => Some (name, zlen parts)
  end.

(** exFAT.py:762-1016.  [labels] and [bitmaps] are the counters, [skip] is the
    number of slots that belong to what was yielded last. *)
Fixpoint x_dir_loop (root : bool) (labels bitmaps skip : Z) (slots : list (list Z)) : gen x_item :=
  match slots with
  | [] => ([], Done)
  | s :: rest =>
    if 0 <? skip then x_dir_loop root labels bitmaps (skip - 1) rest
    else
      let t := byte_at s 0 in
      let p := x_pure t in
      if t =? 0x00 then ([], Done)
      else if t =? 0x80 then (if root then ([], Raised DirectoryEntriesException) else ([], Done))
      else if x_category t =? 0 then
        if negb root && x_in_use t && zin p [0x01; 0x02; 0x03] then ([], Done)
        else if negb root && x_in_use t && (p =? 0x20) then x_dir_loop root labels bitmaps 0 rest
        else if p =? 0x21 then x_dir_loop root labels bitmaps 0 rest
        else if p =? 0x22 then x_dir_loop root labels bitmaps 0 rest
        else if p =? 0x05 then
          match x_file s rest with
          | None => x_dir_loop root labels bitmaps 0 rest
          | Some (e, count) => gcons (XFile e) (x_dir_loop root labels bitmaps count rest)
          end
        else if root && (p =? 0x03) && x_in_use t then
          if 2 <=? labels + 1 then ([], Raised DirectoryEntriesException)
          else if 15 <? byte_at s 1 then ([], Raised DirectoryEntriesException)
          else if 0 <? byte_at s 1 then
            match x_build_label (slice s 2 (2 + byte_at s 1 * 2)) (byte_at s 1) with
            | None => ([], Raised DirectoryEntriesException)
            | Some l => gcons (XLabel l) (x_dir_loop root (labels + 1) bitmaps 0 rest)
            end
          else x_dir_loop root (labels + 1) bitmaps 0 rest
        else if root && (p =? 0x01) && x_in_use t then
          if 3 <=? bitmaps + 1 then ([], Raised DirectoryEntriesException)
          else gcons (XBitmap (Z.land (byte_at s 1) 1) (fld 4 s 20) (fld 8 s 24)) (x_dir_loop root labels (bitmaps + 1) 0 rest)
        else x_dir_loop root labels bitmaps 0 rest
      else if p =? 0x41 then
        match x_orphan s rest with
        | None => x_dir_loop root labels bitmaps 0 rest
        | Some (name, n) => gcons (XOrphan name) (x_dir_loop root labels bitmaps (n - 1) rest)
        end
      else x_dir_loop root labels bitmaps 0 rest
  end.

(** exFAT.py:744-1016: the constructor and the iteration. *)
Definition x_entries (root : bool) (buf : list Z) : gen x_item :=
  if (zlen buf <? 512) || negb (zlen buf mod 512 =? 0) then ([], Raised DirectoryEntriesException)
  else x_dir_loop root 0 0 0 (cut_slots (Z.to_nat (zlen buf / 32)) buf).

(** exFAT.py:706-742.  Paths are lists of characters; the separator is "/". *)
Definition x_expand (parent name : list Z) : list Z :=
  (match parent with [] => [47] | _ => if last parent 0 =? 47 then parent else parent ++ [47] end) ++ name.
