(** Properties C70 to C74: the reports of ntfs_parser. *)
From Coq Require Import String Sorted.
From Verif Require Import Base BaseLemmas FieldLemmas MappingPairs Frs FrsSpec FrsProofs FileRecord FileRecordSpec Mft MftSpec MftProofs MftPathProofs
  MftSamples Filetime Usn UsnSpec UsnProofs Wsl UsaSpec Attributes AttributesSpec IndexProofs FragmentedFile Carve CarveSpec CarveProofs CarveFcb Properties_Mft Properties_Carve
  Report ReportSpec ReportProofs ReportTable ReportSound ReportMoreSpec ReportMore HexdumpProofs.
Local Open Scope Z_scope.
Local Set Warnings "-abstract-large-number".

(** The file records of a table with their slots: one for each whole slot with
    a valid base segment. *)
Definition records_of (data : list Z) (recs : list (Z * file_record)) : Prop :=
  let size := fld 4 data 28 in
  StronglySorted Z.lt (map fst recs) /\
  Forall (fun x => record_at (known data true) data size (fst x) None (snd x)) recs /\
  forall k, In k (map fst recs) <-> exists f, whole_slot data size k /\ segment_at data size k f /\ is_base f.

Lemma file_records_of data p : bytes_ok data -> fits data -> mft_open data true = Ok p ->
  exists recs, file_records p false = (map snd recs, Done) /\ records_of data recs.
Proof.
  intros B F H. destruct (C11_file_records data true p false B F H) as (items & ks & E & S & F2 & K).
  assert (Q : exists recs : list (Z * file_record), map fst recs = ks /\ map snd recs = items /\
    Forall (fun x => record_at (known data true) data (fld 4 data 28) (fst x) None (snd x)) recs).
  { clear - F2. induction F2 as [|k fr ks items R F2 (recs & <- & <- & IH)]; [exists []; auto|].
    exists ((k, fr) :: recs). cbn. split; [auto|]. split; [auto|]. constructor; auto. }
  destruct Q as (recs & <- & <- & R). exists recs. split; [exact E|]. split; [exact S|]. split; [exact R|].
  intro k. rewrite K. split; intros (f & W & G & X).
  - exists f. tauto.
  - exists f. split; [auto|]. split; [auto|]. split; [auto|discriminate].
Qed.

(** C70: the report has the rows of each file record in the order of their
    slots; it stops early only at a damaged record, after the rows of all
    records before it. *)
Theorem C70_mft_report : forall data header tag p rows st, bytes_ok data -> fits data -> mft_open data true = Ok p ->
  process_mft data header tag = (rows, st) ->
  let block x := record_block (known data true) data (fld 4 data 28) tag (fst x) (snd x) in
  exists recs body, records_of data recs /\ rows = (if header then [mft_header] else []) ++ body /\
  match st with
  | Done => exists parts, Forall2 block recs parts /\ body = concat parts
  | Raised _ => exists l1 x l2 parts part, recs = l1 ++ x :: l2 /\ Forall2 block l1 parts /\ body = concat parts ++ part /\
      ~ (all_clean (known data true) data (fld 4 data 28) /\ sound_record (snd x))
  end.
Proof.
  intros data header tag p rows st B F H E block. destruct (file_records_of data p B F H) as (recs & ER & RO).
  destruct (mft_open_spec _ _ _ B H) as [HP _]. fold (known data true) in HP.
  exists recs. unfold process_mft in E. rewrite H in E. cbn [grun] in E. rewrite ER in E. unfold grows in E. cbn [fst snd] in E.
  unfold gseq, gapp in E. cbn [fst snd] in E.
  assert (R : forall x, In x recs -> record_at (known data true) data (fld 4 data 28) (fst x) None (snd x)).
  { apply Forall_forall. apply RO. }
  assert (FB : forall l parts, incl l recs -> Forall2 (fun a r => mft_record_rows p tag a = (r, Done)) (map snd l) parts -> Forall2 block l parts).
  { induction l as [|x l IH]; intros parts I V; inversion V; subst; constructor.
    - eapply record_rows_block; eauto. apply R, I. now left.
    - apply IH; auto. intros z Y. apply I. now right. }
  destruct (grows_in (mft_record_rows p tag) (map snd recs) Done) as [body s] eqn:EG. cbn [fst snd] in E. injection E as <- <-.
  exists body. split; [exact RO|]. split; [reflexivity|]. destruct s as [|e].
  - apply grows_done in EG as (_ & parts & V & ->). exists parts. split; [|auto]. apply FB; [apply incl_refl|auto].
  - apply grows_raised in EG as (l1 & a & l2 & parts & part & EL & V & K & ->).
    destruct (map_eq_app snd _ _ _ EL) as (m1 & m2 & -> & <- & E2). destruct m2 as [|x m2]; [discriminate|]. injection E2 as <- <-.
    exists m1, x, m2, parts, part. split; [auto|]. split; [|split; [auto|]].
    + apply FB; [|auto]. intros y Y. apply in_or_app. now left.
    + intros [CL S]. destruct (record_block_total _ _ _ _ F HP CL tag (fst x) None (snd x)) as [r Er]; auto; [|congruence].
      apply R, in_or_app. right. now left.
Qed.
Print Assumptions C70_mft_report.

(** When no record is damaged the report is complete. *)
Theorem C70_complete : forall data header tag p, bytes_ok data -> fits data -> mft_open data true = Ok p ->
  (forall k seq fr, record_at (known data true) data (fld 4 data 28) k seq fr -> sound_record fr) ->
  snd (process_mft data header tag) = Done.
Proof.
  intros data header tag p B F H S. destruct (process_mft data header tag) as [rows st] eqn:E. cbn [snd].
  destruct (C70_mft_report data header tag p rows st B F H E) as (recs & body & (_ & R & _) & _ & K).
  destruct st as [|e]; [auto|]. destruct K as (l1 & x & l2 & parts & part & -> & _ & _ & N). exfalso. apply N. split.
  - intros k seq fr RA. eapply sound_names; eauto.
  - eapply S. eapply Forall_forall in R; [exact R|]. apply in_or_app. right. now left.
Qed.
Print Assumptions C70_complete.

(** A stream with a name (or without one). *)
Definition mk_stream (name v : list Z) : list Z :=
  let n := (2 * zlen name + 7) / 8 * 8 in
  let len := (24 + n + zlen v + 7) / 8 * 8 in
  le_bytes 4 0x80 ++ le_bytes 4 len ++ [0; zlen name; 24; 0; 0; 0; 0; 0] ++ le_bytes 4 (zlen v) ++ le_bytes 2 (24 + n) ++ [0; 0] ++
  u16s name ++ zeros (n - 2 * zlen name) ++ v ++ zeros (len - 24 - n - zlen v).
(** Times one, two and three microseconds after 1970 (decoded to the nearest
    double, so to an even number of microseconds), and one out of range. *)
Definition si_value : list Z :=
  le_bytes 8 116444736000000010 ++ le_bytes 8 116444736000000020 ++ le_bytes 8 116444736000000030 ++ le_bytes 8 (2 ^ 64 - 1) ++
  zeros 32 ++ le_bytes 8 4096.
Definition mk_file (num : Z) (name : list Z) (more : list Z) : list Z :=
  mk_record 1024 num 1 1 0 (mk_attr 0x10 si_value ++ mk_attr 0x30 (mk_name 7 1 1 name) ++ more).
Definition epoch_1970 : Z := 719163 * 86400000000.
Definition zero_time : cell := Stamp (584389 * 86400000000).

(** The file "c" in "b", with content and streams "q" and "p". *)
Example C70_case :
  let data := sample_table 1024 3 (mk_file 9 [99] (mk_stream [] [1; 2; 3] ++ mk_stream [113] [1; 2] ++ mk_stream [112] [])) in
  let (rows, st) := process_mft data true (Some [84]) in
  zlen rows = 9 /\ st = Done /\
  nth 8 rows [] = [Txt (txt "File record (T)"); Num (9 + 2 ^ 48); Txt [89]; Txt [78]; Num 0; Txt [47; 98; 47; 99];
    Stamp (epoch_1970 + 2); Txt (txt "N/A"); Stamp epoch_1970; Stamp (epoch_1970 + 4); Num 4096;
    zero_time; zero_time; zero_time; zero_time; Txt []; Num 3; Txt [112; 32; 113]; Txt []; Txt []; Txt []] /\
  nth 0 rows [] = mft_header /\ map (fun r => nth 5 r blank) (firstn 2 (skipn 6 rows)) = [Txt path_bx; Txt path_ax].
Proof. vm_compute. repeat split. Qed.

(** One damaged record ends the report: the intact records after it have no row. *)
Theorem C70_damaged_record_refuted : exists data p fr rows e, bytes_ok data /\ mft_open data true = Ok p /\
  by_number p 10 None false = Ok fr /\ fr_in_use fr = true /\ build_full_paths p fr = Ok [([47; 99], mk_name 5 5 1 [99])] /\
  process_mft data false None = (rows, Raised e) /\ Forall (fun r => nth 1 r blank <> Num (10 + 2 ^ 48)) rows.
Proof.
  exists (sample_table 1024 3 (mk_record 1024 9 1 1 0 (mk_attr 0x10 [1]) ++ mk_record 1024 10 1 1 0 (mk_attr 0x30 (mk_name 5 5 1 [99])))).
  do 4 eexists. split; [apply bytes_okb_ok; vm_compute; reflexivity|]. split; [vm_compute; reflexivity|].
  split; [vm_compute; reflexivity|]. split; [vm_compute; reflexivity|]. split; [vm_compute; reflexivity|].
  split; [vm_compute; reflexivity|]. repeat constructor; discriminate.
Qed.
Print Assumptions C70_damaged_record_refuted.

(** A file in a directory without a name has no row, though it is in use. *)
Theorem C70_omitted_refuted : exists data p fr, bytes_ok data /\ mft_open data true = Ok p /\
  by_number p 10 None false = Ok fr /\ fr_in_use fr = true /\
  snd (process_mft data false None) = Done /\ Forall (fun r => nth 1 r blank <> Num (10 + 2 ^ 48)) (fst (process_mft data false None)).
Proof.
  exists (sample_table 1024 3 (mk_record 1024 9 1 3 0 [] ++ mk_record 1024 10 1 1 0 (mk_attr 0x30 (mk_name 9 1 1 [99])))).
  do 2 eexists. split; [apply bytes_okb_ok; vm_compute; reflexivity|]. split; [vm_compute; reflexivity|].
  split; [vm_compute; reflexivity|]. split; [vm_compute; reflexivity|]. 
  match goal with |- context [process_mft ?d false None] => set (r := process_mft d false None) end. vm_compute in r. subst r. cbn [fst snd].
  split; [reflexivity|]. repeat constructor; discriminate.
Qed.
Print Assumptions C70_omitted_refuted.

(** The streams "a" and "b" are shown like one stream "a b". *)
Theorem C70_ads_refuted : exists items items' c, ads_shown items c /\ ads_shown items' c /\
  stream_name items [97] /\ ~ stream_name items' [97].
Proof.
  exists [Resident 0x80 (Some [97]) []; Resident 0x80 (Some [98]) []], [Resident 0x80 (Some [97; 32; 98]) []], (Txt [97; 32; 98]). split; [|split; [|split]].
  - exists [[97]; [98]]. split; [repeat constructor|]. split; [|reflexivity]. intro n. split.
    + intros [<-|[<-|[]]]; [exists (Resident 0x80 (Some [97]) [])|exists (Resident 0x80 (Some [98]) [])]; cbn; auto.
    + intros (a & [<-|[<-|[]]] & _ & E); cbn in E; injection E as <-; cbn; auto.
  - exists [[97; 32; 98]]. split; [repeat constructor|]. split; [|reflexivity]. intro n. split.
    + intros [<-|[]]. exists (Resident 0x80 (Some [97; 32; 98]) []). cbn. auto.
    + intros (a & [<-|[]] & _ & E); cbn in E; injection E as <-; cbn; auto.
  - eexists. split; [left; reflexivity|]. split; reflexivity.
  - intros (a & [<-|[]] & _ & E). discriminate.
Qed.
Print Assumptions C70_ads_refuted.

(** C71: every row of the report has the 21 columns of the header. *)
Lemma grows_all {A B} (P : B -> Prop) (f : A -> gen B) l st : (forall a, Forall P (fst (f a))) -> Forall P (fst (grows_in f l st)).
Proof.
  intro H. induction l as [|a l IH]; cbn [grows_in fst]; [constructor|]. pose proof (H a). destruct (f a) as [r [|e]]; [|auto].
  unfold gapp. cbn [fst snd]. destruct (grows_in f l st). now apply Forall_app.
Qed.
Lemma gseq_all {B} (P : B -> Prop) (g h : gen B) : Forall P (fst g) -> Forall P (fst h) -> Forall P (fst (gseq g h)).
Proof. unfold gseq. destruct g as [a [|e]]; [|auto]. intros. unfold gapp. destruct h. now apply Forall_app. Qed.
Lemma grun_all {A B} (P : B -> Prop) (r : result A) (k : A -> gen B) : (forall x, r = Ok x -> Forall P (fst (k x))) -> Forall P (fst (grun r k)).
Proof. destruct r; cbn [grun fst]; auto. Qed.

Theorem C71_columns : forall data header tag,
  Forall (fun r => zlen r = 21) (fst (process_mft data header tag)) /\ zlen mft_header = 21.
Proof.
  intros data header tag. split; [|reflexivity]. unfold process_mft. apply grun_all. intros p _.
  apply gseq_all; [destruct header; repeat constructor|]. unfold grows. apply grows_all. intro fr.
  assert (SI : forall s l, si_cells s = Ok l -> exists a b c d e, l = [a; b; c; d; e]).
  { intros [v|] l H; cbn [si_cells] in H; [|injection H as <-; repeat eexists].
    repeat (apply bind_ok in H as (? & _ & H)). injection H as <-. repeat eexists. }
  assert (FN : forall v l, fn_cells v = Ok l -> exists a b c d, l = [a; b; c; d]).
  { intros v l H. unfold fn_cells in H. repeat (apply bind_ok in H as (? & _ & H)). injection H as <-. repeat eexists. }
  assert (TL : forall fa, exists a b c d e f, tail_cells fa = [a; b; c; d; e; f]).
  { intro fa. unfold tail_cells. destruct (fa_wsl fa) as [[[? ?] ?]|]; repeat eexists. }
  assert (NR : forall s ref path v r, name_row s ref path v = Ok r -> zlen r = 21).
  { intros s ref path v r H. unfold name_row in H. apply bind_ok in H as (? & _ & H). apply bind_ok in H as (? & _ & H).
    apply bind_ok in H as (fn & E & H). apply FN in E as (? & ? & ? & ? & ->). apply bind_ok in H as (? & _ & H). injection H as <-. reflexivity. }
  unfold mft_record_rows. destruct (build_full_paths p fr) as [l|e]; [|destruct (is_mft_exn e); constructor].
  apply gseq_all; [|apply gseq_all].
  - unfold record_rows. apply grun_all. intros fa _. apply grun_all. intros si E. apply SI in E as (? & ? & ? & ? & ? & ->).
    apply grun_all. intros ref _. cbn zeta. destruct (TL fa) as (? & ? & ? & ? & ? & ? & ->). destruct l as [|y0 l]; [repeat constructor|].
    unfold grows. apply grows_all. intro y. apply grun_all. intros fn E. apply FN in E as (? & ? & ? & ? & ->). repeat constructor.
  - unfold index_rows. destruct (fr_directory fr); [|constructor]. apply grun_all. intros [v|] _; [|constructor].
    unfold grows. apply grows_all. intro e. unfold root_entry_rows. apply grun_all. intros [w|] _; [|constructor].
    apply grun_all. intros r E. do 2 apply bind_ok in E as (? & _ & E). constructor; [|constructor]. eapply NR; eauto.
  - unfold slack_rows. unfold grows at 1. apply grows_all. intro s. unfold grows. apply grows_all. intros [v|n]; cbn [slack_item_rows].
    + apply grun_all. intros r E. constructor; [|constructor]. eapply NR; eauto.
    + repeat constructor.
Qed.
Print Assumptions C71_columns.

(** C72: one row for each record of the journal, in order. *)
Theorem C72_usn_report : forall journal data p rows st, bytes_ok journal -> bytes_ok data -> fits data -> mft_open data true = Ok p ->
  process_usn journal data = (rows, st) ->
  let shown x := usn_shown (known data true) data (fld 4 data 28) (ur_raw (snd x)) (ur_version (snd x)) in
  exists recs, usn_walk journal 0 recs /\
  match st with
  | Done => Forall2 shown recs rows
  | Raised _ => exists l1 x l2, recs = l1 ++ x :: l2 /\ Forall2 shown l1 rows /\
      ~ (all_clean (known data true) data (fld 4 data 28) /\ usn_sound (ur_raw (snd x)) (ur_version (snd x)))
  end.
Proof.
  intros journal data p rows st BJ B F H E shown. destruct (mft_open_spec _ _ _ B H) as [HP _]. fold (known data true) in HP.
  destruct (usn_loop_walk journal BJ (S (length journal)) 0 ltac:(lia) ltac:(left; reflexivity) ltac:(unfold zlen; lia)) as (recs & EU & W).
  exists recs. split; [exact W|]. unfold process_usn in E. rewrite H in E. cbn [grun] in E. unfold usn_records in E. rewrite EU in E.
  unfold grows in E. cbn [fst snd] in E.
  assert (R : Forall (fun x => bytes_ok (ur_raw (snd x)) /\ usn_at (ur_raw (snd x)) 0 (zlen (ur_raw (snd x))) (ur_version (snd x))) recs).
  { clear - W BJ. assert (G : forall q, usn_walk journal q recs -> Forall (fun x => bytes_ok (ur_raw (snd x)) /\ usn_at (ur_raw (snd x)) 0 (zlen (ur_raw (snd x))) (ur_version (snd x))) recs); [|eauto].
    clear W. intros q W. induction W as [pos L|pos l L N W IH|pos n k l A W IH]; auto. constructor; [|auto]. cbn [snd ur_raw ur_version].
    split; [now apply bytes_ok_slice|]. destruct A as (A1 & A2 & A3 & A4 & A5 & A6 & A7).
    assert (Hn : 62 <= n). { unfold usn_min in A4. assert (k = 2 \/ k = 3 \/ k = 4) as [->|[->| ->]] by lia; cbn in A4; lia. }
    assert (L : zlen (slice journal pos (pos + n)) = n) by (rewrite zlen_slice; lia).
    unfold usn_at. rewrite L. rewrite !fld_slice by lia. rewrite Z.add_0_r. repeat split; auto; lia. }
  assert (SH : forall l parts, Forall (fun x => bytes_ok (ur_raw (snd x)) /\ usn_at (ur_raw (snd x)) 0 (zlen (ur_raw (snd x))) (ur_version (snd x))) l ->
    Forall2 (fun a r => grun (usn_row_of p (snd a)) (fun r => ([r], Done)) = (r, Done)) l parts -> Forall2 shown l (concat parts)).
  { intros l parts RL V. induction V as [|[pos [k v]] r l parts Ha V IH]; cbn [concat]; [constructor|]. inversion RL as [|? ? [B1 B2] RL']; subst.
    apply grun_done in Ha as (w & Ew & Ha). injection Ha as <-. cbn [app]. constructor; [|auto]. unfold shown. cbn [snd ur_raw ur_version] in *.
    eapply usn_row_shown; eauto. }
  destruct st as [|e].
  - apply grows_done in E as (_ & parts & V & ->). auto.
  - apply grows_raised in E as (l1 & x & l2 & parts & part & -> & V & K & ->). exists l1, x, l2. split; [auto|].
    apply Forall_app in R as [R1 R2]. inversion R2 as [|? ? [B1 B2] _]; subst. destruct x as [pos [k v]]. cbn [snd ur_raw ur_version] in *.
    destruct (usn_row_of p (mk_ur k v)) as [w|x] eqn:Ex; cbn [grun] in K; [discriminate|]. injection K as <- _. rewrite app_nil_r.
    split; [auto|]. intros [CL S]. destruct (usn_row_total _ _ _ _ F HP k v CL B1 B2 S) as [w Ew]. congruence.
Qed.
Print Assumptions C72_usn_report.

Theorem C72_complete : forall journal data p recs, bytes_ok journal -> bytes_ok data -> fits data -> mft_open data true = Ok p ->
  all_clean (known data true) data (fld 4 data 28) -> usn_walk journal 0 recs ->
  Forall (fun x => usn_sound (ur_raw (snd x)) (ur_version (snd x))) recs ->
  snd (process_usn journal data) = Done /\ zlen (fst (process_usn journal data)) = zlen recs.
Proof.
  intros journal data p recs BJ B F H CL W S. destruct (process_usn journal data) as [rows st] eqn:E. cbn [fst snd].
  destruct (C72_usn_report journal data p rows st BJ B F H E) as (recs' & W' & K). rewrite (usn_walk_fun _ _ _ W' _ W) in *.
  destruct st as [|e].
  - split; [auto|]. unfold zlen. f_equal. clear - K. induction K; cbn [length]; congruence.
  - exfalso. destruct K as (l1 & x & l2 & -> & _ & N). apply N. split; [auto|]. apply Forall_app in S as [_ S]. now inversion S.
Qed.
Print Assumptions C72_complete.

Definition usn_sample : list Z :=
  ui_bytes (mk_ui false 0 (8 + 2 ^ 48) (7 + 2 ^ 48) 3 116444736000000010 0x80000100 2 7 8 [] [65; 0] [0; 0]).
Example C72_case : process_usn (zeros 8 ++ usn_sample ++ zset usn_sample 8 9) (sample_table 1024 3 []) =
  ([mk_usn_row 3 [Named "USN_SOURCE_AUXILIARY_DATA"] [Named "USN_REASON_FILE_CREATE"; Named "USN_REASON_CLOSE"]
      (8 + 2 ^ 48) (7 + 2 ^ 48) (Stamp epoch_1970) [65] path_bx;
    mk_usn_row 3 [Named "USN_SOURCE_AUXILIARY_DATA"] [Named "USN_REASON_FILE_CREATE"; Named "USN_REASON_CLOSE"]
      (9 + 2 ^ 48) (7 + 2 ^ 48) (Stamp epoch_1970) [65] []], Done).
Proof. vm_compute; reflexivity. Qed.

(** A record with a name past its end hides the records after it. *)
Theorem C72_bad_name_refuted : exists journal data, bytes_ok journal /\ bytes_ok data /\
  zlen (fst (usn_records journal)) = 2 /\ process_usn journal data = ([], Raised ValueError).
Proof.
  exists (zset usn_sample 56 200 ++ usn_sample), (sample_table 1024 3 []). split; [apply bytes_okb_ok; vm_compute; reflexivity|].
  split; [apply bytes_okb_ok; vm_compute; reflexivity|]. split; vm_compute; reflexivity.
Qed.
Print Assumptions C72_bad_name_refuted.

(** C73: the rows of the index buffers of each file record. *)
Theorem C73_indx_report : forall vol voff cs data p rows st, bytes_ok vol -> bytes_ok data -> fits data -> mft_open data true = Ok p ->
  process_indx vol voff cs data = (rows, st) ->
  let block x := indx_block (known data true) data (fld 4 data 28) vol voff cs (fst x) (snd x) in
  exists recs, records_of data recs /\
  match st with
  | Done => exists parts, Forall2 block recs parts /\ rows = concat parts
  | Raised _ => exists l1 x l2 parts part, recs = l1 ++ x :: l2 /\ Forall2 block l1 parts /\ rows = concat parts ++ part /\
      ~ (all_clean (known data true) data (fld 4 data 28) /\ sound_directory vol voff cs (snd x))
  end.
Proof.
  intros vol voff cs data p rows st BV B F H E block. destruct (file_records_of data p B F H) as (recs & ER & RO).
  destruct (mft_open_spec _ _ _ B H) as [HP _]. fold (known data true) in HP.
  exists recs. split; [exact RO|]. unfold process_indx in E. rewrite H in E. cbn [grun] in E. rewrite ER in E. unfold grows in E. cbn [fst snd] in E.
  assert (R : forall x, In x recs -> record_at (known data true) data (fld 4 data 28) (fst x) None (snd x)).
  { apply Forall_forall. apply RO. }
  assert (FB : forall l parts, incl l recs -> Forall2 (fun a r => indx_record_rows vol voff cs p a = (r, Done)) (map snd l) parts -> Forall2 block l parts).
  { induction l as [|x l IH]; intros parts I V; inversion V; subst; constructor.
    - eapply indx_record_block; eauto. apply R, I. now left.
    - apply IH; auto. intros z Y. apply I. now right. }
  destruct st as [|e].
  - apply grows_done in E as (_ & parts & V & ->). exists parts. split; [|auto]. apply FB; [apply incl_refl|auto].
  - apply grows_raised in E as (l1 & a & l2 & parts & part & EL & V & K & ->).
    destruct (map_eq_app snd _ _ _ EL) as (m1 & m2 & -> & <- & E2). destruct m2 as [|x m2]; [discriminate|]. injection E2 as <- <-.
    exists m1, x, m2, parts, part. split; [auto|]. split; [|split; [auto|]].
    + apply FB; [|auto]. intros y Y. apply in_or_app. now left.
    + intros [CL S]. destruct (indx_record_total _ _ _ _ F HP vol voff cs BV (fst x) None (snd x)) as [r Er]; auto; [|congruence].
      apply R, in_or_app. right. now left.
Qed.
Print Assumptions C73_indx_report.

Theorem C73_complete : forall vol voff cs data p, bytes_ok vol -> bytes_ok data -> fits data -> mft_open data true = Ok p ->
  all_clean (known data true) data (fld 4 data 28) ->
  (forall k fr, record_at (known data true) data (fld 4 data 28) k None fr -> sound_directory vol voff cs fr) ->
  snd (process_indx vol voff cs data) = Done.
Proof.
  intros vol voff cs data p BV B F H CL S. destruct (process_indx vol voff cs data) as [rows st] eqn:E. cbn [snd].
  destruct (C73_indx_report vol voff cs data p rows st BV B F H E) as (recs & (_ & R & _) & K).
  destruct st as [|e]; [auto|]. destruct K as (l1 & x & l2 & parts & part & -> & _ & _ & N). exfalso. apply N. split; [auto|].
  eapply S. eapply Forall_forall in R; [exact R|]. apply in_or_app. right. now left.
Qed.
Print Assumptions C73_complete.

(** The directory "d" in "b" with a buffer in the first two clusters. *)
Definition i30_attr : list Z :=
  le_bytes 4 0xA0 ++ le_bytes 4 80 ++ [1; 4; 64; 0; 0; 0; 0; 0] ++ le_bytes 8 0 ++ le_bytes 8 1 ++ le_bytes 2 72 ++ zeros 6 ++
  le_bytes 8 1024 ++ le_bytes 8 1024 ++ le_bytes 8 1024 ++ u16s [36; 73; 51; 48] ++ [0x11; 2; 0; 0; 0; 0; 0; 0].
Definition i30_entry (ref : Z) (k : list Z) : ix_image := mk_ixi ref 0 k (zeros ((8 - zlen k mod 8) mod 8)).
Definition i30_volume (es : list ix_image) : list Z :=
  let body := ixis es ++ ixi_end 2 [] in
  protect ([73; 78; 68; 88] ++ le_bytes 2 40 ++ le_bytes 2 3 ++ zeros 16 ++ le_bytes 4 24 ++ le_bytes 4 (24 + zlen body) ++ zeros 16 ++
           body ++ zeros (1024 - 48 - zlen body)) [7; 9].
Definition i30_table : list Z :=
  sample_table 1024 3 (mk_record 1024 9 4 3 0 (mk_attr 0x30 (mk_name 7 1 1 [100]) ++ i30_attr)).

Example C73_case :
  process_indx (i30_volume [i30_entry 0x5000000000020 (mk_name 9 4 1 [101]); i30_entry 0x5000000000021 (mk_name 9 4 3 [102; 103])]) 0 512 i30_table =
  ([[Txt (txt "Index record"); Num 0x5000000000020; Txt [78]; Txt [47; 98; 47; 100; 47; 101]; zero_time; zero_time; zero_time; zero_time; Num 0];
    [Txt (txt "Index record"); Num 0x5000000000021; Txt [78]; Txt [47; 98; 47; 100; 47; 102; 103]; zero_time; zero_time; zero_time; zero_time; Num 0]], Done).
Proof. vm_compute; reflexivity. Qed.

(** A name that belongs to another directory ("b") is shown in the directory of
    the index ("d"), not in its own. *)
Theorem C73_real_parent_refuted : exists vol data p fr v r, bytes_ok vol /\ bytes_ok data /\ mft_open data true = Ok p /\
  v = mk_name 7 1 1 [102] /\ by_number p 7 (Some 1) true = Ok fr /\ build_full_paths p fr = Ok [([47; 98], mk_name 5 5 3 [98])] /\
  process_indx vol 0 512 data = ([r], Done) /\ nth 3 r blank = Txt [47; 98; 47; 100; 47; 102].
Proof.
  exists (i30_volume [i30_entry 0x5000000000021 (mk_name 7 1 1 [102])]), i30_table. do 4 eexists.
  split; [apply bytes_okb_ok; vm_compute; reflexivity|]. split; [apply bytes_okb_ok; vm_compute; reflexivity|].
  split; [vm_compute; reflexivity|]. split; [reflexivity|]. split; [vm_compute; reflexivity|]. split; [vm_compute; reflexivity|].
  split; [vm_compute; reflexivity|]. reflexivity.
Qed.
Print Assumptions C73_real_parent_refuted.

(** C74: a dump shows each byte in its place, and differs for different bytes. *)
Theorem C74_dump : forall buf, bytes_ok buf -> buf <> [] -> exists s, hexdump buf = Ok s /\ dump_of buf 0 s.
Proof. exact hexdump_shown. Qed.
Print Assumptions C74_dump.

Theorem C74_injective : forall a b, bytes_ok a -> bytes_ok b -> hexdump a = hexdump b -> a = b.
Proof. exact hexdump_inj. Qed.
Print Assumptions C74_injective.

Example C74_case :
  hexdump ([0; 65; 171; 66; 67; 68; 69; 126; 127; 72; 73; 74; 75; 76; 77; 78] ++ [10; 255]) =
  Ok (txt "00000000  00 41 AB 42 43 44 45 7E-7F 48 49 4A 4B 4C 4D 4E  .A.BCDE~.HIJKLMN" ++ [10] ++
      txt "00000010  0A FF                                            ..") /\
  hexdump [] = Ok (txt "-").
Proof. vm_compute; split; reflexivity. Qed.

(** C75: the rows of a memory image are those of the blocks found, in order. *)
Theorem C75_memory_report : forall data rows st, process_mem data = (rows, st) ->
  match st with
  | Done => exists d a blocks, snd (carve_fcb data None) = Some (d, a) /\ image_items data (Some (d, a)) 0 blocks /\
      Forall2 (fun x => block_shown data d a (fc_pos x)) blocks rows
  | Raised e => e = ValueError /\ rows = []
  end.
Proof.
  intros data rows st E. assert (G : guess_ok None) by (cbn; auto). destruct (C65_blocks data None G) as (l0 & _ & U). pose proof (proj2 (U l0) eq_refl) as I.
  destruct (C65_carve data None l0 G I) as [A B]. cbv zeta in A, B. unfold process_mem in E.
  destruct (Z.lt_ge_cases (zlen (ztake 100 l0)) 25) as [L|L].
  { rewrite (A L) in E. cbn [fst map] in E. injection E as <- <-. auto. }
  destruct (B L) as (kd & ka & F1 & F2 & G' & S & X & Y).
  destruct (Z.lt_ge_cases (occurs kd (map fc_dup (ztake 100 l0))) 20) as [Q|Q].
  { rewrite (X (or_introl Q)) in E. injection E as <- <-. auto. }
  destruct (Z.lt_ge_cases (occurs ka (map fc_atime_pos (ztake 100 l0))) 20) as [R|R].
  { rewrite (X (or_intror R)) in E. injection E as <- <-. auto. }
  destruct (Y Q R) as (r & Z1 & J). rewrite Z1 in E. injection E as <- <-. exists kd, ka, r. split; [auto|]. split; [auto|].
  assert (K : Forall (fun x => block_shown data kd ka (fc_pos x) [Num (fc_reference x); plain_time (fc_mtime x); plain_time (fc_atime x);
                  plain_time (fc_ctime x); plain_time (fc_etime x); plain_time (fc_real x)]) r).
  2:{ clear - K. induction K; cbn [map]; constructor; auto. }
  clear - J G'. apply Forall_forall. assert (H0 : 0 <= 0) by lia. revert J H0. generalize 0 at 1 3. intros fp J.
  induction J as [|fp l r H1 H2 H3 IH]; intros H0 x; [intros []|]. intro I. apply in_app_or in I as [I|I]; [|apply IH; auto; lia].
  clear IH H3 r. assert (S0 : 0 <= 0) by lia. revert H2 S0 I. generalize 0 at 1 3. intros s H2. revert x.
  set (page := slice data fp (fp + 4096)) in *.
  assert (LP : zlen page <= zlen data - fp) by (unfold page; rewrite zlen_slice by lia; lia).
  assert (FL : forall k, 0 <= k -> k + 8 <= zlen page -> fld 8 page k = fld 8 data (fp + k)).
  { intros k K1 K2. unfold page in K2 |- *. apply fld_sub; try lia. rewrite zlen_slice in K2 by lia. lia. }
  induction H2 as [|s p d a x l K1 K2 K3 K4 K5 K6 IH]; intros y S0; [intros []|]. destruct (block_bounds _ _ _ _ _ G' K3) as (B1 & B2 & B3 & B4).
  intros [<-|I]; [|apply IH; auto; lia]. destruct K3 as (_ & -> & -> & _). destruct K5 as (P1 & P2 & P3 & P4 & T1 & T2 & T3 & T4 & T5).
  rewrite P1, P4. rewrite !FL in * by lia.
  assert (PT : forall raw o, decode_filetime raw true = Ok o -> block_time raw (plain_time o)).
  { intros raw o D. exists o. split; [auto|]. destruct o; [|reflexivity]. cbn [plain_time]. f_equal. }
  replace (fp + (p + 8)) with (fp + p + 8) by lia.
  constructor; apply PT; [rewrite <- T2|rewrite <- T4|rewrite <- T1|rewrite <- T3|rewrite <- T5]; do 2 f_equal; lia.
Qed.
Print Assumptions C75_memory_report.

Example C75_case : fst (process_mem fcb_dump) = repeat [Num 1234; Stamp (584389 * 86400000000 + 13000000000000000);
    Stamp (584389 * 86400000000 + 13000000000000000); Stamp (584389 * 86400000000 + 13000000000000000);
    Stamp (584389 * 86400000000 + 13000000000000000); Stamp (584389 * 86400000000 + 13000001000000000)] 57.
Proof. vm_compute. reflexivity. Qed.
