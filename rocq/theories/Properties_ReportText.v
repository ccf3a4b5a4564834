(** Properties of the texts in the reports (C78, C79). *)
From Coq Require Import String.
From Verif Require Import Base BaseLemmas FieldLemmas Frs FileRecord Carve Mft MftSamples Filetime FiletimeProofs Wsl Attributes Usn FatSpec Report LogReport ReportText ReportFiles ReportMoreSpec
  ReportTextSpec CalendarProofs ReportTextProofs CsvProofs Properties_Report.
Local Open Scope Z_scope.

(** ** C78: a file of comma-separated values holds exactly the rows that were
    written, whatever the texts in them are *)

Theorem C78_csv : forall rows, Forall (fun r => r <> []) rows -> forall rs, file_reads (csv_text rows) rs <-> rs = rows.
Proof.
  intros rows F rs. pose proof (csv_text_ok rows F) as R. split; [intros H; exact (file_unique _ _ _ H R)|intros ->; exact R].
Qed.
Print Assumptions C78_csv.

(** So it determines the rows. *)
Theorem C78_injective : forall rows rows', Forall (fun r => r <> []) rows -> Forall (fun r => r <> []) rows' -> csv_text rows = csv_text rows' -> rows = rows'.
Proof. intros rows rows' F F' E. apply (C78_csv rows' F'). rewrite <- E. now apply C78_csv. Qed.
Print Assumptions C78_injective.

(** Numbers and byte strings are read back too. *)
Theorem C78_numbers : forall n m, integer_text (number_text n) m <-> m = n.
Proof. intros n m. split; [intros H; exact (integer_text_unique _ _ _ H (number_text_ok n))|intros ->; apply number_text_ok]. Qed.
Theorem C78_bytes : forall b, bytes_ok b -> forall c, bytes_literal (bytes_text b) c <-> c = b.
Proof. intros b B c. split; [intros H; exact (bytes_literal_unique _ _ _ H (bytes_text_ok b B))|intros ->; now apply bytes_text_ok]. Qed.
Print Assumptions C78_numbers.
Print Assumptions C78_bytes.

(** The four reports: a header, then one record with the same number of fields
    for each row. *)
Definition holds (file : list (list (list Z))) (columns : Z) : Prop :=
  Forall (fun r => zlen r = columns) file /\ forall rs, file_reads (csv_text file) rs <-> rs = file.
Lemma holds_of file columns : 0 < columns -> Forall (fun r => zlen r = columns) file -> holds file columns.
Proof.
  intros C F. split; [exact F|]. apply C78_csv. eapply Forall_impl; [|exact F]. intros r L ->. change (zlen (@nil (list Z))) with 0 in L. lia.
Qed.
Lemma map_all {A B} (P : B -> Prop) (f : A -> B) l : Forall (fun x => P (f x)) l -> Forall P (map f l).
Proof. induction 1; constructor; auto. Qed.

Theorem C78_mft_file : forall data header tag, holds (fst (mft_file data header tag)) 21.
Proof.
  intros data header tag. apply holds_of; [lia|]. unfold mft_file, gmap. cbn [fst]. apply map_all. destruct (C71_columns data header tag) as [F _].
  eapply Forall_impl; [|exact F]. intros r L. unfold row_texts, zlen in *. rewrite map_length. exact L.
Qed.
Print Assumptions C78_mft_file.

Theorem C78_usn_file : forall journal data, holds (fst (usn_file journal data)) 8.
Proof.
  intros journal data. apply holds_of; [lia|]. unfold usn_file. apply grun_all. intros p _. unfold gcons, gmap. destruct (process_usn journal data) as [rows st]. cbn [fst].
  constructor; [reflexivity|]. apply map_all. apply Forall_forall. reflexivity.
Qed.
Print Assumptions C78_usn_file.

Theorem C78_indx_file : forall vol voff cs data, holds (fst (indx_file vol voff cs data)) 9.
Proof.
  intros vol voff cs data. apply holds_of; [lia|]. unfold indx_file. apply grun_all. intros p _.
  assert (F : Forall (fun r => zlen r = 9) (fst (process_indx vol voff cs data))).
  { unfold process_indx. apply grun_all. intros q _. unfold grows. apply grows_all. intros fr. unfold indx_record_rows.
    assert (IR : forall n seq paths source ref v r, indx_row q n seq paths source ref v = Ok r -> zlen r = 9).
    { intros n seq paths source ref v r H. unfold indx_row in H. do 3 apply bind_ok in H as (? & _ & H). apply bind_ok in H as (fn & E & H).
      unfold fn_cells in E. do 4 apply bind_ok in E as (? & _ & E). injection E as <-. apply bind_ok in H as (? & _ & H). injection H as <-. reflexivity. }
    destruct (build_full_paths q fr) as [paths|e]; [|destruct (is_mft_exn e); constructor]. destruct (frs_mft_number _) as [n|]; [|constructor].
    unfold grows. apply grows_all. intros a. unfold indx_attr_rows. destruct a; [constructor|]. destruct (_ && _); [|constructor]. cbv zeta. apply gseq_all.
    - unfold grows. apply grows_all. intros b. apply grows_all. intros e. unfold indx_entry_rows. apply grun_all. intros [v|] _; [|constructor].
      destruct (_ <=? _); [constructor|]. apply grun_all. intros r E. constructor; [|constructor]. eapply IR; eauto.
    - apply grun_all. intros l _. unfold grows. apply grows_all. intros [v|s]; cbn [indx_slack_rows]; [|constructor].
      apply grun_all. intros r E. constructor; [|constructor]. eapply IR; eauto. }
  unfold gcons, gmap. destruct (process_indx vol voff cs data) as [rows st]. cbn [fst] in *.
  constructor; [reflexivity|]. apply map_all. eapply Forall_impl; [|exact F]. intros r L. unfold row_texts, zlen in *. rewrite map_length. exact L.
Qed.
Print Assumptions C78_indx_file.

Theorem C78_mem_file : forall data, holds (fst (mem_file data)) 6.
Proof.
  intros data. apply holds_of; [lia|]. unfold mem_file, gcons, gmap, process_mem. destruct (fst (carve_fcb data None)) as [l st]. cbn [fst].
  constructor; [reflexivity|]. do 2 apply map_all. apply Forall_forall. reflexivity.
Qed.
Print Assumptions C78_mem_file.

(** The report on the log is not protected in this way: a file name with line
    feeds makes one block look like two. *)
Definition forged_name : list Z := [97] ++ separator ++ [98].
Definition forged_lines : list line :=
  match mft_open (sample_table 1024 3 []) true with
  | Ok p => match fn_lines p (mk_name 5 5 1 forged_name) with Ok l => l | Err _ => [] end
  | Err _ => []
  end.
Theorem C78_log_refuted : exists p v ls b1 b2, mft_open (sample_table 1024 3 []) true = Ok p /\ bytes_ok v /\ fn_lines p v = Ok ls /\
  b1 <> [] /\ b2 <> [] /\ log_text [ls] = log_text [b1; b2].
Proof.
  destruct (mft_open (sample_table 1024 3 []) true) as [p|] eqn:E; [|vm_compute in E; discriminate].
  exists p, (mk_name 5 5 1 forged_name), forged_lines, (firstn 5 forged_lines ++ [ln " * File name: " [Txt [97]]]), ([Txt [98]] :: skipn 6 forged_lines).
  split; [reflexivity|]. split; [apply bytes_okb_ok; vm_compute; reflexivity|].
  split; [unfold forged_lines; rewrite E; vm_compute in E; injection E as <-; vm_compute; reflexivity|].
  split; [vm_compute; discriminate|]. split; [discriminate|]. vm_compute. reflexivity.
Qed.
Print Assumptions C78_log_refuted.

(** ** C79: timestamps are written as the calendar says *)

(** Days: the calendar has one date for each day number, the one computed. *)
Theorem C79_days : forall n d, day_number n d <-> 1 <= n /\ d = civil n.
Proof.
  intros n d. split.
  - intros H. pose proof (day_number_pos _ _ H) as P. split; [exact P|]. exact (day_number_unique _ _ _ H (civil_correct n P)).
  - intros [P ->]. now apply civil_correct.
Qed.
Print Assumptions C79_days.
(** The epochs, and the last day that Python knows. *)
Theorem C79_epochs : day_number ordinal_1601 (1601, 1, 1) /\ day_number ordinal_1582 (1582, 10, 15) /\ day_number ordinal_1970 (1970, 1, 1) /\
  day_number ordinal_max (9999, 12, 31).
Proof. repeat split; apply C79_days; (split; [vm_compute; discriminate|vm_compute; reflexivity]). Qed.
Print Assumptions C79_epochs.

(** The text of a time in range is read as that time and no other; both forms. *)
Definition in_range (us : Z) : Prop := us_per_day <= us < (ordinal_max + 1) * us_per_day.
Theorem C79_text : forall us, in_range us -> forall us', reads_time false (stamp_text us) us' <-> us' = us.
Proof.
  intros us R us'. pose proof (stamp_text_ok us R) as H. split; [intros H'; exact (reads_time_unique _ _ _ _ H' H)|intros ->; exact H].
Qed.
Theorem C79_str : forall us, in_range us -> forall us', reads_time true (stamp_str us) us' <-> us' = us.
Proof.
  intros us R us'. pose proof (stamp_str_ok us R) as H. split; [intros H'; exact (reads_time_unique _ _ _ _ H' H)|intros ->; exact H].
Qed.
Print Assumptions C79_text.
Print Assumptions C79_str.

(** Every decoded time is in range, so a cell shows it; one that cannot be
    decoded is shown as a text that is no time. *)
Lemma decode_in_range epoch raw b us : 1 <= epoch -> 0 <= raw -> decode_time epoch raw b = Ok (Some us) -> in_range (epoch * us_per_day + us).
Proof.
  intros E R D. unfold decode_time in D. cbv zeta in D. pose proof (us_of_nonneg raw R) as N. unfold us_of in N.
  destruct (Z.ltb_spec (td_microseconds (py_div raw 10)) ((ordinal_max + 1 - epoch) * us_per_day)) as [L|L]; [|destruct b; discriminate].
  assert (us = td_microseconds (py_div raw 10)) as -> by congruence. unfold in_range. change us_per_day with 86400000000 in *. lia.
Qed.
Lemma na_no_time us : ~ reads_time false (txt "N/A") us.
Proof.
  intros (t & T & _). remember (txt "N/A") as s eqn:E. assert (L : zlen s = 3) by (rewrite E; reflexivity). clear E.
  destruct T as [short sd sc sf d c f D _ _|sd sc d c D _]; apply date_written_len in D; rewrite zlen_app in L.
  - pose proof (zlen_nonneg (32 :: sc ++ 46 :: sf)). lia.
  - pose proof (zlen_nonneg (32 :: sc)). lia.
Qed.
Theorem C79_decoded : forall epoch raw o, epoch = ordinal_1601 \/ epoch = ordinal_1582 -> 0 <= raw -> decode_time epoch raw true = Ok o ->
  forall us, reads_time false (cell_text stamp_text (format_timestamp epoch o)) us <-> exists t, o = Some t /\ us = epoch * us_per_day + t.
Proof.
  intros epoch raw o E R D us. destruct o as [t|]; cbn [format_timestamp cell_text].
  - rewrite C79_text.
    + split; [intros ->; eauto|intros (t' & T & ->); injection T as <-; reflexivity].
    + eapply decode_in_range; eauto. destruct E as [-> | ->]; vm_compute; discriminate.
  - split; [intros H; elim (na_no_time _ H)|intros (t & T & _); discriminate].
Qed.
Print Assumptions C79_decoded.
Lemma td_nonneg n d : 0 <= n -> 0 < d -> 0 <= td_microseconds (py_div n d).
Proof.
  intros N D. unfold py_div. destruct (n =? 0); [vm_compute; discriminate|]. cbv zeta. set (e := if _ <? _ then _ else _). clearbody e.
  assert (M : 0 <= rhe (scaled_num n e) (scaled_den d e)).
  { unfold scaled_num, scaled_den. pose proof (Z.pow_pos_nonneg 2 (Z.max 0 (- e)) ltac:(lia) ltac:(lia)). pose proof (Z.pow_pos_nonneg 2 (Z.max 0 e) ltac:(lia) ltac:(lia)). apply rhe_nonneg; nia. }
  unfold td_microseconds. destruct (Z.leb_spec 0 e) as [P|P].
  - pose proof (Z.pow_pos_nonneg 2 e ltac:(lia) P). nia.
  - apply rhe_nonneg; [exact M|]. apply Z.pow_pos_nonneg; lia.
Qed.
Theorem C79_unix : forall s ns t, 0 <= s -> 0 <= ns -> decode_unixtime s ns = Ok t ->
  forall us, reads_time false (cell_text stamp_text (format_timestamp ordinal_1970 (Some t))) us <-> us = ordinal_1970 * us_per_day + t.
Proof.
  intros s ns t S NS D us. cbn [format_timestamp cell_text]. apply C79_text. unfold decode_unixtime in D. destruct (_ <=? _); [|discriminate].
  cbv zeta in D. destruct (_ <? _); [|discriminate]. destruct (Z.ltb_spec (s * 1000000 + td_microseconds (py_div ns 1000)) ((ordinal_max + 1 - ordinal_1970) * us_per_day)) as [L|L]; [|discriminate].
  assert (t = s * 1000000 + td_microseconds (py_div ns 1000)) as -> by congruence.
  pose proof (td_nonneg ns 1000 NS ltac:(lia)).
  unfold in_range. change us_per_day with 86400000000 in *. change ordinal_1970 with 719163 in *. lia.
Qed.
Print Assumptions C79_unix.

(** The times of a memory image are shown by str, or left out. *)
Theorem C79_memory : forall raw c, 0 <= raw -> block_time raw c ->
  forall us, reads_time true (cell_text stamp_str c) us <-> exists t, decode_filetime raw true = Ok (Some t) /\ us = ordinal_1601 * us_per_day + t.
Proof.
  intros raw c R (o & D & ->) us. destruct o as [t|]; cbn [cell_text].
  - replace (86400000000 * 584389 + t) with (ordinal_1601 * us_per_day + t) by reflexivity. rewrite C79_str.
    + split; [intros ->; eauto|intros (t' & T & ->); congruence].
    + eapply (decode_in_range ordinal_1601); eauto. vm_compute. discriminate.
  - split; [|intros (t & T & _); congruence]. intros (t & T & _). remember (@nil Z) as s eqn:E. assert (L : zlen s = 0) by (rewrite E; reflexivity). clear E.
    destruct T as [short sd sc sf d c f DW _ _|sd sc d c DW _]; apply date_written_len in DW; rewrite zlen_app in L.
    + pose proof (zlen_nonneg (32 :: sc ++ 46 :: sf)). lia.
    + pose proof (zlen_nonneg (32 :: sc)). lia.
Qed.
Print Assumptions C79_memory.

(** ** Examples *)

(** A file name with a comma, quotes and the end of a line stays one field. *)
Example C78_example :
  let name := txt "a,""b""" ++ [13; 10] ++ txt "c" in
  csv_text [[txt "x"; name; []]; [[]]] = txt "x,""a,""""b""""" ++ [13; 10] ++ txt "c""," ++ [13; 10] ++ txt """""" ++ [13; 10] /\
  file_reads (csv_text [[txt "x"; name; []]; [[]]]) [[txt "x"; name; []]; [[]]] /\
  number_text (-120) = txt "-120" /\ bytes_text [39; 0; 255; 10; 65] = 98 :: 34 :: txt "'\x00\xff\nA" ++ [34].
Proof.
  cbv zeta. split; [vm_compute; reflexivity|]. split; [|split; vm_compute; reflexivity]. apply C78_csv; [|reflexivity]. repeat constructor; discriminate.
Qed.

(** The last second of the leap day of the year 2000. *)
Example C79_example :
  match decode_filetime 125963423990000000 true with
  | Ok o => cell_text stamp_text (format_timestamp ordinal_1601 o) = txt "2000-02-29 23:59:59.000000" /\
      cell_text stamp_str (format_timestamp ordinal_1601 o) = txt "2000-02-29 23:59:59"
  | Err _ => False
  end /\ cell_text stamp_text (format_timestamp ordinal_1601 None) = txt "N/A".
Proof. vm_compute. repeat split. Qed.
