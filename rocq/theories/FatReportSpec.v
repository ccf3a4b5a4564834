(** What the rows of a report on a FAT or exFAT volume have to show. *)
From Verif Require Import Base FatSpec FatDir ExDir ReportTextSpec.

Definition na : list Z := [78; 47; 65].
Definition yes : list Z := [89].
Definition no : list Z := [78].
Definition unknown : list Z := [63].
Definition partial_name : list Z := [32; 40; 80; 97; 114; 116; 105; 97; 108; 32; 78; 97; 109; 101; 41].
Definition volume_label : list Z := [32; 40; 86; 111; 108; 117; 109; 101; 32; 76; 97; 98; 101; 108; 41].

Definition flag_text (b : option bool) (s : list Z) : Prop :=
  s = match b with None => unknown | Some true => yes | Some false => no end.
(** A date and time with milliseconds. *)
Definition time_text (t : option (fat_datetime * Z)) (s : list Z) : Prop :=
  match t with
  | None => s = na
  | Some (d, c, ms) => time_written false s (d, c, 1000 * ms)
  end.
Definition day_text (d : option fat_date) (s : list Z) : Prop :=
  match d with None => s = na | Some d => date_written s d end.

(** The eight fields beside the path. *)
Inductive entry_row (e : file_entry) (path : list Z) : list (list Z) -> Prop :=
| er del dir m a c size enc raw :
    flag_text (fe_deleted e) del -> flag_text (Some (fe_directory e)) dir ->
    time_text (match fe_mtime e with Some t => Some (t, 0) | None => None end) m -> day_text (fe_atime e) a -> time_text (fe_ctime e) c ->
    integer_text size (fe_size e) -> flag_text (Some (fe_encrypted e)) enc -> bytes_literal raw (fe_short_raw e) ->
    entry_row e path [del; dir; path; m; a; c; size; enc; raw].

(** A volume label that is not deleted: bit 3 without bit 4, not the mark of a long name. *)
Definition label_entry (e : file_entry) : Prop :=
  fe_deleted e <> Some true /\ Z.testbit (fe_attributes e) 3 = true /\ Z.testbit (fe_attributes e) 4 = false /\ fe_attributes e mod 64 <> 15.
Definition has_label (l : list dir_item) : Prop := exists e, In (FileE e) l /\ label_entry e.

(** The row for an item after the items [before]: only the first label counts as one. *)
Inductive fat_item_row (before : list dir_item) : dir_item -> list (list Z) -> Prop :=
| fi_orphan n : fat_item_row before (OrphanE (Some n))
    [unknown; unknown; n ++ partial_name; unknown; unknown; unknown; unknown; unknown; unknown]
| fi_label e r : label_entry e -> ~ has_label before -> entry_row e (fe_short e ++ volume_label) r -> fat_item_row before (FileE e) r
| fi_file e r path : ~ (label_entry e /\ ~ has_label before) ->
    path = match fe_long e with Some n => n | None => fe_short e end -> entry_row e path r -> fat_item_row before (FileE e) r.

(** Offsets from UTC, stored as quarters of an hour, in minutes. *)
Definition offset_text (t : option Z) (s : list Z) : Prop :=
  match t with
  | None => s = unknown
  | Some k => (0 < k /\ exists u, s = 43 :: u /\ integer_text u (15 * k)) \/ (k <= 0 /\ integer_text s (15 * k))
  end.
Inductive x_item_row : x_item -> list (list Z) -> Prop :=
| xi_label l : x_item_row (XLabel l) [no; no; l ++ volume_label; unknown; unknown; unknown; [63; 47; 63; 47; 63]; [48]; no]
| xi_orphan n : x_item_row (XOrphan n) [unknown; unknown; n ++ partial_name; unknown; unknown; unknown; [63; 47; 63; 47; 63]; unknown; unknown]
| xi_file e del dir m a c zm za zc size enc :
    flag_text (Some (xe_deleted e)) del -> flag_text (Some (xe_directory e)) dir ->
    time_text (xe_mtime e) m -> time_text (xe_atime e) a -> time_text (xe_ctime e) c ->
    offset_text (xe_mtz e) zm -> offset_text (xe_atz e) za -> offset_text (xe_ctz e) zc ->
    integer_text size (xe_size e) -> flag_text (Some (xe_encrypted e)) enc ->
    x_item_row (XFile e) [del; dir; xe_name e; m; a; c; zm ++ 47 :: za ++ 47 :: zc; size; enc].

(** The rows for the items, in their order. *)
Inductive fat_listing (before : list dir_item) : list dir_item -> list (list (list Z)) -> Prop :=
| fl_nil : fat_listing before [] []
| fl_cons i items r rows : fat_item_row before i r -> fat_listing (before ++ [i]) items rows -> fat_listing before (i :: items) (r :: rows).
