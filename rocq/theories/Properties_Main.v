(** C86: what the main programs do to the files. *)
From Coq Require Import String.
From Verif Require Import Base BaseLemmas Utf16 Utf8 Utf8Spec Utf8Proofs Report LogReport ReportText ReportFiles MoveReport AllMft FatReport
  FatFs ExFs TextsMft TextsReport TextsLog TextsAll TextsFat Main MainSpec Properties_Texts.
Local Open Scope Z_scope.

(** ** Texts *)
Lemma encode_concat l : forall b, utf8_text (concat l) = Some b -> encode_all l = (b, true).
Proof.
  induction l as [|t l IH]; intros b E; cbn [concat encode_all] in *; [injection E as <-; reflexivity|]. rewrite utf8_app in E.
  destruct (utf8_text t) as [a|]; [|discriminate]. destruct (utf8_text (concat l)) as [c|]; [|discriminate]. injection E as <-. now rewrite (IH c eq_refl).
Qed.
(** A report given as texts, and as one text. *)
Definition same (g : gen (list Z)) (r : list Z * status) : Prop := concat (fst g) = fst r /\ snd g = snd r.
Lemma csv_same g : same (csv_rows g) (table_text g).
Proof. split; [|reflexivity]. unfold csv_rows, table_text, gmap, csv_text. cbn [fst]. now rewrite flat_map_concat_map. Qed.
Lemma log_same g : same (log_blocks g) (blocks_text g).
Proof. split; [|reflexivity]. unfold log_blocks, blocks_text, gmap, log_text. cbn [fst]. now rewrite flat_map_concat_map. Qed.

Lemma put_put m i a b : forall k, m_data (put (put m i a) i b) k = m_data (put m i b) k.
Proof. intros k. cbn [put m_data]. destruct (k =? i); reflexivity. Qed.
Lemma put_same m i d : m_data (put m i d) i = Some d.
Proof. cbn [put m_data]. now rewrite Z.eqb_refl. Qed.
Lemma put_other m i d k : k <> i -> m_data (put m i d) k = m_data m k.
Proof. intros N. cbn [put m_data]. now replace (k =? i) with false by lia. Qed.
Lemma content_other m i d k : k <> i -> content (put m i d) k = content m k.
Proof. intros N. unfold content. now rewrite put_other. Qed.

(** Writing changes nothing but the output file. *)
Lemma write_unchanged m path report m' o : write_report m path report = (m', o) -> unchanged_but m m' (m_file m path) /\ o <> Usage /\ o <> NoInput.
Proof.
  unfold write_report. cbv zeta. destruct (negb _); [intros H; injection H as <- <-; split; [repeat split|split; discriminate]|].
  destruct (report _) as [texts st]. destruct (encode_all texts) as [b ok]. intros H. injection H as <- <-.
  split; [|destruct ok; split; discriminate]. split; [reflexivity|]. split; [reflexivity|]. intros k N. now rewrite !put_other.
Qed.
(** What it leaves in the output file. *)
Lemma write_written m path report r : m_writable m (m_file m path) = true ->
  same (report (put m (m_file m path) [])) r -> writable (fst r) ->
  exists m', write_report m path report = (m', Ended (snd r)) /\ exists b, m_data m' (m_file m path) = Some b /\ holds_text b (fst r).
Proof.
  intros W (SC & SS) (b & E & H). unfold write_report. cbv zeta. rewrite W. cbn [negb].
  destruct (report _) as [texts st]. cbn [fst snd] in SC, SS. subst st. rewrite <- SC in E. rewrite (encode_concat _ _ E).
  eexists. split; [reflexivity|]. exists b. split; [apply put_same|]. now apply H.
Qed.

Definition machine_ok (m : machine) : Prop := forall i d, m_data m i = Some d -> bytes_ok d.
Lemma content_bytes m i : machine_ok m -> bytes_ok (content m i).
Proof. intros M. unfold content. destruct (m_data m i) eqn:E; [eapply M; exact E|constructor]. Qed.
Lemma put_ok m i d : machine_ok m -> bytes_ok d -> machine_ok (put m i d).
Proof. intros M B k e H. cbn [put m_data] in H. destruct (k =? i); [injection H as <-; exact B|eapply M; exact H]. Qed.

(** ** Jobs *)
(** The text of the report can be written whatever the inputs contain. *)
Definition job_ok (j : job) : Prop := forall ds, Forall bytes_ok ds -> writable (fst (j_report j ds)).
(** The contents after the output file has been opened. *)
Definition later (m : machine) (j : job) : list (list Z) :=
  map (fun p => content (put m (output_file m j) []) (m_file m p)) (j_inputs j).
(** The program [run] does the job [j] on [m], the inputs read after the output
    file has been opened. *)
Definition serves (run : machine -> machine * outcome) (j : job) (m : machine) : Prop :=
  ((exists p, In p (j_inputs j) /\ m_data m (m_file m p) = None) -> run m = (m, NoInput)) /\
  ((forall p, In p (j_inputs j) -> m_data m (m_file m p) <> None) -> exists report,
     run m = write_report m (j_output j) report /\ same (report (put m (output_file m j) [])) (j_report j (later m j))).

Lemma serves_does run j m : machine_ok m -> job_ok j -> serves run j m -> does m j (fst (run m)) (snd (run m)).
Proof.
  intros M J (S1 & S2).
  assert (P : forall ds, inputs_are m j ds -> forall p, In p (j_inputs j) -> m_data m (m_file m p) <> None).
  { intros ds F p. unfold inputs_are in F. revert F. generalize (j_inputs j). intros ps F.
    induction F as [|p' d ps ds E F IH]; intros I; [contradiction|]. destruct I as [->|I]; [congruence|exact (IH I)]. }
  split; [|split].
  - intros X. rewrite (S1 X). split; reflexivity.
  - intros ds F W. destruct (S2 (P ds F)) as (report & -> & _). unfold write_report. cbv zeta. unfold output_file in W. rewrite W. split; reflexivity.
  - intros ds F W A. destruct (S2 (P ds F)) as (report & E & SM).
    assert (LD : later m j = ds).
    { unfold later, inputs_are, apart in *. revert F A. generalize (j_inputs j). intros ps F. induction F as [|p d ps ds E' F IH]; intros A; [reflexivity|].
      inversion A as [|? ? N A']; subst. cbn [map]. rewrite (IH A'), content_other by exact N. unfold content. now rewrite E'. }
    rewrite LD in SM.
    assert (B : Forall bytes_ok ds).
    { unfold inputs_are in F. clear - F M. induction F as [|p d ps ds E' F IH]; constructor; [eapply M; exact E'|exact IH]. }
    destruct (write_written m (j_output j) report (j_report j ds) W SM (J ds B)) as (m' & EW & b & HB & HT).
    rewrite E, EW. cbn [fst snd]. split; [|split; [reflexivity|exists b; split; assumption]].
    exact (proj1 (write_unchanged _ _ _ _ _ EW)).
Qed.

Section Programs.
Variable int_of : list Z -> option Z.
Variable ord : nat -> list Z -> list Z.
Variables dec lower : list Z -> list Z.
Variables fuel depth : nat.
Hypothesis dec_ok : forall b, bytes_ok b -> Forall scalar (dec b).
Hypothesis lower_ok : forall s, Forall scalar s -> Forall scalar (lower s).

Notation ntfs := (ntfs_main int_of ord fuel depth).
Notation fat := (fat_main int_of dec lower).
Notation asks := (ntfs_asks int_of ord fuel depth).
Notation fasks := (fat_asks int_of dec lower).

Lemma hd_bytes l : Forall bytes_ok l -> bytes_ok (hd [] l).
Proof. intros F. destruct F; [constructor|assumption]. Qed.
Lemma tl_all {A} (P : A -> Prop) l : Forall P l -> Forall P (tl l).
Proof. intros F. destruct F; [constructor|assumption]. Qed.

Lemma ntfs_job_ok argv j : asks argv j -> job_ok j.
Proof.
  intros A ds B. destruct A; cbn [j_report]; unfold one, two, table_text, blocks_text; cbn [fst].
  - apply (C85_mft _ true None); [now apply hd_bytes|exact I].
  - apply C85_usn; apply hd_bytes; [now apply tl_all|assumption].
  - apply C85_log; apply hd_bytes; [now apply tl_all|assumption].
  - apply C85_indx. now apply hd_bytes.
  - apply C85_all. now apply hd_bytes.
  - apply C85_mem.
  - apply C85_move.
Qed.
Lemma fat_job_ok argv j : fasks argv j -> job_ok j.
Proof. intros A ds B. destruct A. apply C85_fat; [assumption|assumption|now apply hd_bytes]. Qed.

Lemma open_missing m p k : m_data m (m_file m p) = None -> open_input m p k = (m, NoInput).
Proof. intros E. unfold open_input. now rewrite E. Qed.
Lemma open_present m p k : m_data m (m_file m p) <> None -> open_input m p k = k (m_file m p).
Proof. intros E. unfold open_input. destruct (m_data m (m_file m p)); [reflexivity|now elim E]. Qed.

Lemma ntfs_serves argv j m : asks argv j -> serves (fun m => ntfs m argv) j m.
Proof.
  intros A. destruct A; unfold serves, ntfs_main; cbn [List.length Nat.eqb negb andb arg nth];
    match goal with |- context [mode_of (txt ?s)] => let k := eval vm_compute in (mode_of (txt s)) in change (mode_of (txt s)) with k end;
    cbn [arguments Nat.eqb negb j_inputs j_output j_report]; try match goal with H : int_of _ = Some _ |- _ => rewrite H end.
  1,4,5,6,7: split;
    [intros (x & [<-|[]] & E); now apply open_missing
    |intros P; rewrite open_present by (apply P; left; reflexivity); eexists; split; [reflexivity|];
     unfold later, one; cbn [j_inputs map hd]; first [apply csv_same|apply log_same]].
  - split.
    + intros (x & [<-|[<-|[]]] & E); [now apply open_missing|]. unfold open_input at 1. destruct (m_data m (m_file m a)); [|reflexivity]. now apply open_missing.
    + intros P. rewrite open_present by (apply P; left; reflexivity). rewrite open_present by (apply P; right; left; reflexivity).
      eexists. split; [reflexivity|]. unfold later, two; cbn [j_inputs map hd tl]. apply csv_same.
  - split.
    + intros (x & [<-|[<-|[]]] & E); [now apply open_missing|]. unfold open_input at 1. destruct (m_data m (m_file m a)); [|reflexivity]. now apply open_missing.
    + intros P. rewrite open_present by (apply P; left; reflexivity). rewrite open_present by (apply P; right; left; reflexivity).
      eexists. split; [reflexivity|]. unfold later, two; cbn [j_inputs map hd tl]. apply log_same.
Qed.
Lemma fat_serves argv j m : fasks argv j -> serves (fun m => fat m argv) j m.
Proof.
  intros A. destruct A as [p a o n z N]; unfold serves, fat_main; cbn [List.length Nat.eqb negb andb arg nth j_inputs j_output j_report]. rewrite N. split.
  - intros (x & [<-|[]] & E). now apply open_missing.
  - intros P. rewrite open_present by (apply P; left; reflexivity). eexists. split; [reflexivity|]. unfold later, one. cbn [j_inputs map hd]. apply csv_same.
Qed.

(** What is asked for is done. *)
Theorem C86_ntfs_report : forall m argv j, machine_ok m -> asks argv j -> does m j (fst (ntfs m argv)) (snd (ntfs m argv)).
Proof. intros m argv j M A. apply (serves_does (fun m => ntfs m argv)); [exact M|eapply ntfs_job_ok; exact A|now apply ntfs_serves]. Qed.
Theorem C86_fat_report : forall m argv j, machine_ok m -> fasks argv j -> does m j (fst (fat m argv)) (snd (fat m argv)).
Proof. intros m argv j M A. apply (serves_does (fun m => fat m argv)); [exact M|eapply fat_job_ok; exact A|now apply fat_serves]. Qed.

(** Nothing is done that has not been asked for: without a job, every file
    stays as it is, and the usage is shown, unless an input file is missing. *)
Lemma mode_text s k : mode_of s = Some k -> s = txt (match k with M_mft => "--mft" | M_usn => "--usn" | M_log => "--log" | M_indx => "--indx"
  | M_all => "--all-mft" | M_mem => "--mem" | M_move => "--move" end).
Proof.
  unfold mode_of. intros H.
  repeat match type of H with (if zlist_eqb s ?t then _ else _) = _ =>
    let X := fresh in destruct (zlist_eqb s t) eqn:X; [apply zlist_eqb_eq in X; injection H as <-; exact X|clear X] end.
  discriminate.
Qed.
Lemma ntfs_jobs m argv : (exists j, asks argv j) \/ ntfs m argv = (m, Usage) \/
  (ntfs m argv = (m, NoInput) /\ exists p k a o z, argv = [p; k; a; o; z] /\ int_of o = None /\ m_data m (m_file m a) = None).
Proof.
  unfold ntfs_main. destruct (_ && _); [right; left; reflexivity|].
  destruct (mode_of (arg argv 1)) as [k|] eqn:MO; [|right; left; reflexivity]. apply mode_text in MO.
  destruct (negb (Nat.eqb (List.length argv) (arguments k))) eqn:N; [right; left; reflexivity|]. apply negb_false_iff, Nat.eqb_eq in N.
  destruct k; cbn [arguments] in N.
  1,6,7: destruct argv as [|p [|q [|a [|z [|]]]]]; try discriminate; cbn [arg nth] in MO; subst q; left; eexists; constructor.
  1,2: destruct argv as [|p [|q [|a [|b [|z [|]]]]]]; try discriminate; cbn [arg nth] in MO; subst q; left; eexists; constructor.
  1,2: destruct argv as [|p [|q [|a [|o [|z [|]]]]]]; try discriminate; cbn [arg nth] in MO |- *; subst q; destruct (int_of o) as [n|] eqn:I;
    [left; eexists; constructor; exact I|right; unfold open_input; destruct (m_data m (m_file m a)) eqn:E; [left; reflexivity|right; split; [reflexivity|]]];
    repeat eexists; assumption.
Qed.
Theorem C86_ntfs_usage : forall m argv, (forall j, ~ asks argv j) ->
  fst (ntfs m argv) = m /\ (snd (ntfs m argv) = Usage \/
    snd (ntfs m argv) = NoInput /\ exists p k a o z, argv = [p; k; a; o; z] /\ int_of o = None /\ m_data m (m_file m a) = None).
Proof.
  intros m argv N. destruct (ntfs_jobs m argv) as [[j A]|[E|[E X]]]; [elim (N _ A)|rewrite E; auto|rewrite E; split; [reflexivity|right; split; [reflexivity|exact X]]].
Qed.
Theorem C86_fat_usage : forall m argv, (forall j, ~ fasks argv j) ->
  fst (fat m argv) = m /\ (snd (fat m argv) = Usage \/
    snd (fat m argv) = NoInput /\ exists p a o z, argv = [p; a; o; z] /\ int_of o = None /\ m_data m (m_file m a) = None).
Proof.
  intros m argv N. unfold fat_main. destruct (negb _) eqn:L; [auto|]. apply negb_false_iff, Nat.eqb_eq in L.
  destruct argv as [|p [|a [|o [|z [|]]]]]; try discriminate. cbn [arg nth]. destruct (int_of o) as [n|] eqn:I; [elim (N _ ltac:(constructor; exact I))|].
  unfold open_input. destruct (m_data m (m_file m a)) eqn:E; [auto|]. split; [reflexivity|]. right. split; [reflexivity|]. repeat eexists; assumption.
Qed.

(** Whatever happens, only the output file can change. *)
Theorem C86_only_output : forall m argv m' o, (ntfs m argv = (m', o) \/ fat m argv = (m', o)) ->
  m_file m' = m_file m /\ forall k, m_data m' k <> m_data m k ->
    exists j, (asks argv j \/ fasks argv j) /\ k = output_file m j /\ m_writable m k = true /\ forall p, In p (j_inputs j) -> m_data m (m_file m p) <> None.
Proof.
  assert (G : forall run j m, serves run j m -> forall m' o, run m = (m', o) ->
    m_file m' = m_file m /\ forall k, m_data m' k <> m_data m k -> k = output_file m j /\ m_writable m k = true /\ forall p, In p (j_inputs j) -> m_data m (m_file m p) <> None).
  { intros run j m (S1 & S2) m' o E.
    assert (D : (exists p, In p (j_inputs j) /\ m_data m (m_file m p) = None) \/ forall p, In p (j_inputs j) -> m_data m (m_file m p) <> None).
    { generalize (j_inputs j). intros l. induction l as [|p l [(q & I & X)|H]]; [right; contradiction|left; exists q; cbn [In]; auto|].
      destruct (m_data m (m_file m p)) eqn:X; [right; intros q [<-|I]; [congruence|auto]|left; exists p; cbn [In]; auto]. }
    destruct D as [D|D]; [rewrite (S1 D) in E; injection E as <- <-; split; [reflexivity|contradiction]|].
    destruct (S2 D) as (report & ER & _). rewrite ER in E. destruct (write_unchanged _ _ _ _ _ E) as ((U1 & U2 & U3) & _). split; [exact U1|].
    intros k K. assert (KO : k = output_file m j) by (destruct (Z.eq_dec k (output_file m j)); [assumption|elim K; now apply U3]). split; [exact KO|].
    split; [|exact D]. destruct (m_writable m k) eqn:W; [reflexivity|]. elim K. unfold write_report in E. cbv zeta in E. subst k. unfold output_file in W. rewrite W in E.
    injection E as <- <-. reflexivity. }
  intros m argv m' o [E|E].
  - destruct (ntfs_jobs m argv) as [[j A]|[E'|[E' _]]]; [|rewrite E' in E; injection E as <- <-; split; [reflexivity|contradiction]..].
    destruct (G _ _ _ (ntfs_serves _ _ m A) _ _ E) as [F H]. split; [exact F|]. intros k K. destruct (H k K) as (K1 & K2). exists j. auto.
  - destruct (Nat.eq_dec (List.length argv) 4) as [L|L].
    + destruct argv as [|p [|a [|x [|z [|]]]]]; try discriminate. destruct (int_of x) as [n|] eqn:I.
      * assert (A : fasks [p; a; x; z] (mk_job [a] z (one (fun vol => table_text (fat_report dec lower vol n))))) by (constructor; exact I).
        destruct (G _ _ _ (fat_serves _ _ m A) _ _ E) as [F H]. split; [exact F|]. intros k K. destruct (H k K) as (K1 & K2). eexists. split; [right; exact A|]. auto.
      * unfold fat_main in E. cbn [List.length Nat.eqb negb arg nth] in E. rewrite I in E. unfold open_input in E.
        destruct (m_data m (m_file m a)); injection E as <- <-; (split; [reflexivity|contradiction]).
    + unfold fat_main in E. replace (Nat.eqb (List.length argv) 4) with false in E by (symmetry; now apply Nat.eqb_neq). injection E as <- <-.
      split; [reflexivity|contradiction].
Qed.

(** If an input file is the output file, it is emptied before it is read: the
    report is on the empty file, and its content is lost. *)
Theorem C86_overwritten : forall m argv j, machine_ok m -> asks argv j -> m_writable m (output_file m j) = true ->
  (forall p, In p (j_inputs j) -> m_data m (m_file m p) <> None) ->
  let ds := map (fun p => if m_file m p =? output_file m j then [] else content m (m_file m p)) (j_inputs j) in
  exists m' b, ntfs m argv = (m', Ended (snd (j_report j ds))) /\ m_data m' (output_file m j) = Some b /\ holds_text b (fst (j_report j ds)).
Proof.
  intros m argv j M A W P ds. destruct (proj2 (ntfs_serves _ _ m A) P) as (report & E & SM).
  assert (LD : later m j = ds).
  { unfold later, ds. apply map_ext. intros p. destruct (Z.eqb_spec (m_file m p) (output_file m j)) as [X|X]; [rewrite X; unfold content; now rewrite put_same|].
    now apply content_other. }
  rewrite LD in SM. assert (B : Forall bytes_ok ds).
  { unfold ds. apply Forall_map, Forall_forall. intros p _. destruct (_ =? _); [constructor|now apply content_bytes]. }
  destruct (write_written m (j_output j) report _ W SM (ntfs_job_ok _ _ A ds B)) as (m' & EW & b & HB & HT). cbv beta in E. rewrite E. eauto.
Qed.
End Programs.

Print Assumptions C86_ntfs_report.
Print Assumptions C86_fat_report.
Print Assumptions C86_ntfs_usage.
Print Assumptions C86_fat_usage.
Print Assumptions C86_only_output.
Print Assumptions C86_overwritten.

(** ** A machine *)
(** Two files, 1 and 2, named by "a" and "b"; "l" is another name of file 1;
    every other name is that of a new file. *)
Definition desk : machine := mk_machine
  (fun p => match p with [97] => 1 | [98] => 2 | [108] => 1 | _ => 3 end)
  (fun i => if i =? 1 then Some (zeros 64) else if i =? 2 then Some [1; 2; 3] else None)
  (fun _ => true).
Definition no_int (s : list Z) : option Z := None.
Definition same_order (n : nat) (l : list Z) : list Z := l.
Definition ntfs_desk (argv : list (list Z)) : machine * outcome := ntfs_main no_int same_order 0 0 desk argv.

(** The carver finds too few blocks in 64 zero bytes and gives up; the new file
    has got the header before. *)
Example C86_example : let r := ntfs_desk [txt "ntfs_parser"; txt "--mem"; [97]; [99]] in
  snd r = Ended (Raised ValueError) /\ utf8_text (csv_text [mem_header]) = m_data (fst r) 3 /\ m_data (fst r) 1 = Some (zeros 64) /\ m_data (fst r) 2 = Some [1; 2; 3].
Proof. vm_compute. repeat split; reflexivity. Qed.
(** Refuted: the input files are never changed.  The output path is another name
    of the input file, whose content is replaced. *)
Theorem C86_evidence_refuted : exists m argv j i, machine_ok m /\ ntfs_asks no_int same_order 0 0 argv j /\
  In i (map (m_file m) (j_inputs j)) /\ m_data (fst (ntfs_main no_int same_order 0 0 m argv)) i <> m_data m i.
Proof.
  exists desk, [txt "ntfs_parser"; txt "--mft"; [97]; [108]]. eexists. exists 1. split; [|split; [constructor|split; [left; reflexivity|]]].
  - intros i d H. cbn [desk m_data] in H. destruct (i =? 1); [injection H as <-; unfold bytes_ok, zeros; apply Forall_forall; intros x X; apply repeat_spec in X as ->; unfold is_byte; lia|].
    destruct (i =? 2); [injection H as <-; repeat (constructor; [unfold is_byte; lia|]); constructor|discriminate].
  - vm_compute. discriminate.
Qed.
Print Assumptions C86_evidence_refuted.
(** No argument for the offset, an unknown mode, an offset that is no number, a
    file that does not exist. *)
Example C86_usage : map (fun argv => snd (ntfs_desk argv))
  [[txt "ntfs_parser"; txt "--indx"; [97]; [99]]; [txt "ntfs_parser"; txt "--dir"; [97]; [99]];
   [txt "ntfs_parser"; txt "--indx"; [97]; txt "0x10"; [99]]; [txt "ntfs_parser"; txt "--mft"; [100]; [99]]] = [Usage; Usage; Usage; NoInput].
Proof. vm_compute. reflexivity. Qed.
