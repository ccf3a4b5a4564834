(** Model of the script /repo/fat_parser: the report on a FAT or exFAT volume.

    The texts of the fields are given; csv.writer turns them into the output file
    ([csv_text] of ReportText.v).  [dec] and [lower] are the decoder of short
    names and str.lower (FatDir.v).  The command line (60-72) and the warnings are
    left out. *)
From Coq Require Import String.
From Verif Require Import Base FatBasic FatDir FatFs ExDir ExFs Report ReportText.

Definition text_row : Type := list (list Z).

(** 16-29. *)
Definition tz_item (tz : option Z) : list Z :=
  match tz with
  | None => txt "?"
  | Some q => if q =? 0 then txt "0" else if 0 <? q then 43 :: number_text (q * 15) else 45 :: number_text (q * -15)
  end.
Definition tz_text (m a c : option Z) : list Z := tz_item m ++ [47] ++ tz_item a ++ [47] ++ tz_item c.

(** 31-38: a date and time with milliseconds, or a date. *)
Definition fat_time_text (t : option (fat_datetime * Z)) : list Z :=
  match t with
  | None => txt "N/A"
  | Some ((d, (h, mi, s)), ms) => datetime_text d h mi s (1000 * ms)
  end.
Definition fat_date_text (d : option fat_date) : list Z :=
  match d with None => txt "N/A" | Some d => date_text d end.

(** 40-47. *)
Definition boolean_text (b : option bool) : list Z :=
  match b with None => txt "?" | Some true => txt "Y" | Some false => txt "N" end.

(** ** FAT12, FAT16, FAT32 *)

(** 89. *)
Definition fat_header : text_row := map txt ["Is deleted"; "Is directory"; "Path"; "M timestamp"; "A timestamp"; "C/CH timestamp";
  "File size"; "Is encrypted"; "Short name (Python bytes)"]%string.

(** 98, 105. *)
Definition fat_row (path : list Z) (e : file_entry) : text_row :=
  [boolean_text (fe_deleted e); boolean_text (Some (fe_directory e)); path;
   fat_time_text (match fe_mtime e with Some t => Some (t, 0) | None => None end); fat_date_text (fe_atime e); fat_time_text (fe_ctime e);
   number_text (fe_size e); boolean_text (Some (fe_encrypted e)); bytes_text (fe_short_raw e)].
Definition q : list Z := txt "?".

(** 90-105. *)
Fixpoint fat_rows (found : bool) (items : list dir_item) (st : status) : gen text_row :=
  match items with
  | [] => ([], st)
  | OrphanE None :: _ => ([], Raised TypeError)
  | OrphanE (Some n) :: r => gcons [q; q; n ++ txt " (Partial Name)"; q; q; q; q; q; q] (fat_rows found r st)
  | FileE e :: r =>
    if negb found && negb (is_true (fe_deleted e)) && is_volume_label (fe_attributes e)
    then gcons (fat_row (fe_short e ++ txt " (Volume Label)") e) (fat_rows true r st)
    else gcons (fat_row (match fe_long e with Some n => n | None => fe_short e end) e) (fat_rows found r st)
  end.

(** ** exFAT *)

(** 109. *)
Definition x_header : text_row := map txt ["Is deleted"; "Is directory"; "Path"; "M timestamp"; "A timestamp"; "C timestamp";
  "M/A/C TZ (minutes)"; "File size"; "Is encrypted"]%string.
Definition no_tz : list Z := txt "?/?/?".

(** 110-122; other items have no name. *)
Fixpoint x_rows (items : list x_item) (st : status) : gen text_row :=
  match items with
  | [] => ([], st)
  | XLabel l :: r => gcons [txt "N"; txt "N"; l ++ txt " (Volume Label)"; q; q; q; no_tz; txt "0"; txt "N"] (x_rows r st)
  | XOrphan n :: r => gcons [q; q; n ++ txt " (Partial Name)"; q; q; q; no_tz; q; q] (x_rows r st)
  | XFile e :: r =>
    gcons [boolean_text (Some (xe_deleted e)); boolean_text (Some (xe_directory e)); xe_name e;
           fat_time_text (xe_mtime e); fat_time_text (xe_atime e); fat_time_text (xe_ctime e);
           tz_text (xe_mtz e) (xe_atz e) (xe_ctz e); number_text (xe_size e); boolean_text (Some (xe_encrypted e))] (x_rows r st)
  | XBitmap _ _ _ :: _ => ([], Raised AttributeError_py)
  end.

(** 76: FileSystemException and the classes derived from it (FAT.py:481-506). *)
Definition fs_exception (e : exn) : bool :=
  match e with
  | FileSystemException | BootSectorException | FSINFOException | FileAllocationTableException | DirectoryEntriesException => true
  | _ => false
  end.

(** 74-122: the rows that are written, with the header. *)
Definition fat_report (dec lower : list Z -> list Z) (vol : list Z) (voff : Z) : gen text_row :=
  match fat_fs_open vol voff None with
  | Ok fs => let (items, st) := fat_walk dec lower fs false in gcons fat_header (fat_rows false items st)
  | Err e =>
    if fs_exception e then
      match x_fs_open vol voff None with
      | Ok fs => let (items, st) := x_walk fs false in gcons x_header (x_rows items st)
      | Err e => ([], Raised e)
      end
    else ([], Raised e)
  end.
