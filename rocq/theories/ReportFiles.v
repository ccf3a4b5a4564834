(** Model of the files that /repo/ntfs_parser writes: the rows of Report.v as
    texts, with their headers.  csv.writer ([csv_text] of ReportText.v) joins them
    (976, 983, 1003, 1015, 1022). *)
From Coq Require Import String.
From Verif Require Import Base Mft Usn Report LogReport ReportText.

Definition gmap {A B} (f : A -> B) (g : gen A) : gen B := (map f (fst g), snd g).

(** Timestamps are shown by format_timestamp. *)
Definition row_texts (r : row) : list (list Z) := map (cell_text stamp_text) r.
(** Timestamps are shown by str. *)
Definition plain_texts (r : row) : list (list Z) := map (cell_text stamp_str) r.

(** 79-292, --mft. *)
Definition mft_file (data : list Z) (header : bool) (tag : option (list Z)) : gen (list (list Z)) := gmap row_texts (process_mft data header tag).

(** 300. *)
Definition usn_header : list (list Z) := map txt ["USN value"; "Source"; "Reason"; "MFT reference number"; "Parent MFT reference number"; "Timestamp";
  "File name"; "File path (from $MFT)"]%string.
Definition usn_texts (r : usn_row) : list (list Z) :=
  [number_text (uw_usn r); codes_text (uw_source r); codes_text (uw_reason r); number_text (uw_ref r); number_text (uw_parent r);
   cell_text stamp_text (uw_time r); uw_name r; uw_path r].
(** 294-329, --usn. *)
Definition usn_file (journal mft_data : list Z) : gen (list (list Z)) :=
  grun (mft_open mft_data true) (fun _ => gcons usn_header (gmap usn_texts (process_usn journal mft_data))).

(** 735. *)
Definition indx_header : list (list Z) := map txt ["Source"; "MFT reference number"; "Is directory"; "Path"; "$FN M timestamp"; "$FN A timestamp";
  "$FN C timestamp"; "$FN E timestamp"; "File size"]%string.
(** 729-861, --indx. *)
Definition indx_file (vol : list Z) (voff cs : Z) (mft_data : list Z) : gen (list (list Z)) :=
  grun (mft_open mft_data true) (fun _ => gcons indx_header (gmap row_texts (process_indx vol voff cs mft_data))).

(** 888. *)
Definition mem_header : list (list Z) := map txt ["Possible MFT reference number"; "M timestamp"; "A timestamp"; "C timestamp"; "E timestamp";
  "A timestamp (real)"]%string.
(** 883-891, --mem. *)
Definition mem_file (data : list Z) : gen (list (list Z)) := gcons mem_header (gmap plain_texts (process_mem data)).
