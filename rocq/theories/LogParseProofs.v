(** Recovery of tail and fast pages, and parse_ntfs_records. *)
From Verif Require Import Base BaseLemmas FieldLemmas Sorting LogPage LogFile LogSpec LogPageProofs LogFileProofs
  LogReadProofs LogWalkProofs LogClientProofs LogCollectProofs LogRecord LogParse LogParseSpec LogRecordProofs.
From Coq Require Import Permutation Sorted.

(** ** Writes *)

Lemma zlen_zeros_max n : zlen (zeros n) = Z.max 0 n.
Proof. unfold zeros. rewrite zlen_repeat. lia. Qed.

Lemma znth_zeros n p : 0 <= p -> znth (zeros n) p = if p <? n then Some 0 else None.
Proof.
  intro Hp. destruct (Z.ltb_spec p n) as [L|L].
  - destruct (znth_some (zeros n) p) as [x E]; [rewrite zlen_zeros_max; lia|]. rewrite E. f_equal.
    apply znth_In in E. unfold zeros in E. apply repeat_spec in E. auto.
  - apply znth_none. rewrite zlen_zeros_max. lia.
Qed.

Lemma overwrite_written data off bs : 0 <= off -> 0 < zlen bs -> written data off bs (overwrite data off bs).
Proof.
  intros Ho Hb p Hp. unfold overwrite. pose proof (zlen_nonneg data).
  destruct (Z.ltb_spec p (Z.min off (zlen data))) as [L1|L1].
  { rewrite znth_app1 by (rewrite zlen_ztake; lia). rewrite znth_ztake by lia.
    replace (off <=? p) with false by lia. replace (p <? zlen data) with true by lia. reflexivity. }
  rewrite znth_app2 by (rewrite zlen_ztake; lia). rewrite zlen_ztake.
  replace (Z.max 0 (Z.min off (zlen data))) with (Z.min off (zlen data)) by lia.
  destruct (Z.ltb_spec p off) as [L2|L2].
  { rewrite znth_app1 by (rewrite zlen_zeros_max; lia). rewrite znth_zeros by lia.
    replace (off <=? p) with false by lia. replace (p <? zlen data) with false by lia.
    replace (p - Z.min off (zlen data) <? off - zlen data) with true by lia. reflexivity. }
  rewrite znth_app2 by (rewrite zlen_zeros_max; lia). rewrite zlen_zeros_max.
  replace (p - Z.min off (zlen data) - Z.max 0 (off - zlen data)) with (p - off) by lia.
  replace (off <=? p) with true by lia. cbn [andb].
  destruct (Z.ltb_spec p (off + zlen bs)) as [L3|L3].
  { apply znth_app1. lia. }
  rewrite znth_app2 by lia. rewrite znth_zdrop by lia.
  replace (off + zlen bs + (p - off - zlen bs)) with p by lia.
  destruct (Z.ltb_spec p (zlen data)); [reflexivity|]. apply znth_none. lia.
Qed.

Lemma overwrite_ok data off bs : bytes_ok data -> bytes_ok bs -> bytes_ok (overwrite data off bs).
Proof.
  intros B1 B2. unfold overwrite. apply bytes_ok_app. split; [apply bytes_ok_ztake; auto|].
  apply bytes_ok_app. split.
  { unfold zeros. apply Forall_forall. intros x Hx. apply repeat_spec in Hx. subst. unfold is_byte. lia. }
  apply bytes_ok_app. split; [auto|apply bytes_ok_zdrop; auto].
Qed.

Lemma written_fun old off bs a b : written old off bs a -> written old off bs b -> a = b.
Proof.
  intros HA HB.
  assert (N : forall p, 0 <= p -> znth a p = znth b p) by (intros; rewrite HA, HB; auto).
  assert (L : zlen a = zlen b).
  { pose proof (zlen_nonneg a). pose proof (zlen_nonneg b).
    destruct (Z.lt_trichotomy (zlen a) (zlen b)) as [L|[L|L]]; auto.
    - destruct (znth_some b (zlen a)) as [x E]; [lia|]. rewrite <- N, znth_none in E by lia. discriminate.
    - destruct (znth_some a (zlen b)) as [x E]; [lia|]. rewrite N, znth_none in E by lia. discriminate. }
  apply znth_ext; auto. intros; apply N; lia.
Qed.

(** ** The files *)

Lemma set_nth_other {A} (x d : A) : forall l i j, i <> j -> nth j (set_nth i x l) d = nth j l d.
Proof.
  induction l as [|y l IH]; intros i j N; destruct i, j; cbn; auto; try congruence.
Qed.

Lemma set_nth_same {A} (x d : A) : forall l i, (i < length l)%nat -> nth i (set_nth i x l) d = x.
Proof. induction l as [|y l IH]; intros [|i] L; cbn in *; auto; try lia. apply IH. lia. Qed.

Lemma set_nth_length {A} (x : A) : forall l i, length (set_nth i x l) = length l.
Proof. induction l as [|y l IH]; intros [|i]; cbn; auto. Qed.

(** Invariant of the files: the original is file 0 and is never the one written
    to. *)
Definition sound (data : list Z) (w : world) : Prop :=
  nth 0 (w_files w) [] = data /\ (w_cur w < length (w_files w))%nat /\
  (if w_writable w then w_cur w <> 0%nat /\ w_old w = 0%nat else w_cur w = 0%nat).

Lemma sound_start data : sound data (start_world data).
Proof. unfold sound. cbn. auto. Qed.

Lemma sound_prepare data w : sound data w -> sound data (prepare_for_writes w) /\ w_writable (prepare_for_writes w) = true.
Proof.
  unfold prepare_for_writes. destruct (w_writable w) eqn:E; [auto|]. unfold sound. rewrite E. intros (H1 & H2 & H3).
  cbn [w_files w_cur w_old w_writable]. split; [|auto]. rewrite app_length. cbn [length].
  split; [rewrite app_nth1; [auto|lia]|]. split; [lia|]. split; [lia|auto].
Qed.

Lemma sound_discard data w : sound data w -> sound data (discard_changes w) /\ w_writable (discard_changes w) = false.
Proof.
  unfold discard_changes. destruct (w_writable w) eqn:E; [|auto]. unfold sound. rewrite E. intros (H1 & H2 & H3 & H4).
  cbn [negb w_files w_cur w_old w_writable]. rewrite H4. split; [|auto]. split; [auto|]. split; [lia|auto].
Qed.

Lemma sound_write data w off bs w' : sound data w -> w_writable w = true -> write_at w off bs = Ok w' ->
  sound data w' /\ w_writable w' = true /\ 0 <= off /\ w_data w' = overwrite (w_data w) off bs /\ w_cfg w' = w_cfg w.
Proof.
  unfold sound, write_at. intros (H1 & H2 & H3) W E. rewrite W in H3. destruct H3 as [H3 H4].
  destruct (Z.ltb_spec off 0); [discriminate|]. destruct (_ <? _); [discriminate|]. injection E as <-.
  set (o := overwrite (w_data w) off bs). unfold w_data.
  cbn [w_files w_cur w_old w_writable w_cfg]. rewrite W, set_nth_length.
  rewrite set_nth_same by auto. rewrite set_nth_other by auto. auto 10.
Qed.

Lemma sound_data data w : sound data w -> w_writable w = false -> w_data w = data.
Proof. unfold sound, w_data. intros (H1 & H2 & H3) W. rewrite W in H3. rewrite H3. exact H1. Qed.

Lemma sound_config data w c : sound data w -> sound data (set_config w c).
Proof. auto. Qed.

Lemma sound_tail lf data w w' : sound data w -> w_writable w = true -> apply_tail_page lf w = Ok w' ->
  sound data w' /\ w_writable w' = true.
Proof.
  intros S W. unfold apply_tail_page. destruct (negb _); [discriminate|].
  destruct (page_by_number lf (w_data w) 2) as [p1|]; cbn [bind]; [|discriminate].
  destruct (page_by_number lf (w_data w) 3) as [p2|]; cbn [bind]; [|discriminate].
  match goal with |- bind ?x _ = _ -> _ => destruct x as [[p|]|]; cbn [bind]; [| |discriminate] end.
  - destruct (lp_file_offset_11 p) as [off|]; cbn [bind]; [|discriminate]. intro E.
    destruct (sound_write _ _ _ _ _ S W E) as (? & ? & _). auto.
  - intro E. injection E as <-. auto.
Qed.

Lemma sound_write_fast data : forall ps w w' st, sound data w -> w_writable w = true -> write_fast ps w = (w', st) ->
  sound data w' /\ w_writable w' = true.
Proof.
  induction ps as [|p ps IH]; intros w w' st S W E; cbn [write_fast] in E; [injection E as <- _; auto|].
  destruct (lp_file_offset_2x p) as [[off|]|e]; [|injection E as <- _; auto|injection E as <- _; auto].
  destruct (write_at w off (lp_raw p)) as [w1|e] eqn:E1; [|injection E as <- _; auto].
  destruct (sound_write _ _ _ _ _ S W E1) as (? & ? & _). eapply IH; eauto.
Qed.

Lemma sound_fast lf data w : sound data w -> w_writable w = true ->
  sound data (fst (apply_fast_pages lf w)) /\ w_writable (fst (apply_fast_pages lf w)) = true.
Proof.
  intros S W. unfold apply_fast_pages. destruct (_ <? _); [auto|]. destruct (fast_pages lf (w_data w)) as [ps|e]; [|auto].
  destruct (write_fast ps w) as [w' st] eqn:E. eapply sound_write_fast; eauto.
Qed.

Lemma sound_recover lf data w : sound data w -> sound data (fst (recover lf w)) /\ w_writable (fst (recover lf w)) = true.
Proof.
  intro S. destruct (sound_prepare _ _ S) as [S' W']. unfold recover. destruct (_ && _).
  - destruct (apply_tail_page lf (prepare_for_writes w)) as [w'|e] eqn:E; [|auto]. eapply sound_tail; eauto.
  - destruct (_ <=? _); [apply sound_fast; auto|auto].
Qed.

(** A parse: the world while the items are yielded and the one at the end. *)
Lemma sound_parse lf ord data r w is w' w'' st : sound data w -> parse_ntfs_records lf ord r w = (is, w', (w'', st)) ->
  sound data w' /\ sound data w'' /\ (st = Done -> r = true -> w_writable w'' = false) /\
  (r = false -> w_writable w' = w_writable w /\ w_writable w'' = w_writable w).
Proof.
  intros S. unfold parse_ntfs_records.
  destruct (if r then recover lf w else (w, Done)) as [w1 st1] eqn:E1.
  assert (S1 : sound data w1 /\ (r = false -> w_writable w1 = w_writable w)).
  { destruct r.
    - pose proof (sound_recover lf data w S) as [H _]. rewrite E1 in H. split; [exact H|discriminate].
    - injection E1 as <- _. auto. }
  clear E1. destruct S1 as [S1 R1].
  destruct st1 as [|e]. 2:{ intro E. injection E as _ <- <- <-. do 2 (split; [exact S1|]). split; [discriminate|auto]. }
  destruct (collect_lsns lf (w_data w1) ord (w_cfg w1)) as [[lsns c]|e].
  2:{ intro E. injection E as _ <- <- <-. do 2 (split; [exact S1|]). split; [discriminate|auto]. }
  cbv zeta. set (w2 := set_config w1 c). assert (S2 : sound data w2) by exact S1.
  assert (R2 : r = false -> w_writable w2 = w_writable w) by exact R1. clearbody w2.
  destruct (sort_lsns lf (w_data w2) lsns) as [d|e].
  2:{ intro E. injection E as _ <- <- <-. do 2 (split; [exact S2|]). split; [discriminate|auto]. }
  destruct (clients_parse lf c (w_data w2) d) as [js [|e]].
  2:{ intro E. injection E as _ <- <- <-. do 2 (split; [exact S2|]). split; [discriminate|auto]. }
  intro E. injection E as _ <- <- <-. destruct (sound_discard _ _ S2) as [S3 W3]. split; [exact S2|]. destruct r.
  - split; [exact S3|]. split; [auto|discriminate].
  - split; [exact S2|]. split; [discriminate|auto].
Qed.

Lemma reach_sound lf ord data w : reach lf ord data w -> sound data w.
Proof.
  induction 1 as [|w o R S P]; [apply sound_start|]. destruct o; cbn [op_step].
  - apply sound_prepare; auto.
  - apply sound_discard; auto.
  - destruct (apply_tail_page lf w) as [w'|e] eqn:E; [|auto]. eapply sound_tail; eauto.
  - apply sound_fast; auto.
  - destruct (parse_ntfs_records lf ord recover_log_data w) as [[is w'] [w'' st]] eqn:E.
    destruct (sound_parse _ _ _ _ _ _ _ _ _ S E) as (S1 & S2 & _). destruct (_ && _); [auto|]. destruct (_ <? _)%nat; auto.
  - destruct recover_log_data; [apply sound_discard; auto|auto].
Qed.

(** ** Tail pages *)
Section Pages.
  Variable lf : log_file.
  Variable K : lf_ok lf.

  Lemma shows_lens data n p : bytes_ok data -> page_shows lf data n p ->
    bytes_ok (lp_buf p) /\ zlen (lp_buf p) = 4096 /\ bytes_ok (lp_raw p) /\ zlen (lp_raw p) = 4096 /\
    lp_last_lsn p = Ok (last_lsn (lp_buf p)) /\ lp_last_end_lsn p = Ok (last_end_lsn (lp_buf p)) /\
    lp_file_offset_11 p = Ok (to_signed 64 (fld 8 (lp_buf p) 8)).
  Proof.
    intros B (L & R & _). destruct (log_page_facts _ _ _ _ _ B L) as (BB & LB & _). destruct L as (_ & LR & _).
    split; [auto|]. split; [auto|]. rewrite R. split; [apply bytes_ok_slice; auto|]. split; [exact LR|].
    unfold lp_last_lsn, lp_last_end_lsn, lp_file_offset_11. rewrite !u64_ok, s64_ok by lia. auto.
  Qed.

  Lemma no_second data k buf e : bytes_ok data -> page_by_number lf data k = Ok None -> 0 <= k -> log_page_at lf data k buf e -> False.
  Proof.
    intros B E Hk L. pose proof (page_by_number_spec lf data k K B Hk) as H. rewrite E in H. exact (H _ _ L).
  Qed.

  (** What [single_tail_page] is. *)
  Lemma apply_tail_spec w : bytes_ok (w_data w) -> lf_major lf = 1 ->
    match apply_tail_page lf w with
    | Ok w' => (w' = w /\ forall k buf e, k = 2 \/ k = 3 -> ~ log_page_at lf (w_data w) k buf e) \/
        exists k buf, tail_page lf (w_data w) k buf /\
          write_at w (to_signed 64 (last_lsn buf)) (slice (w_data w) (4096 * k) (4096 * k + 4096)) = Ok w'
    | Err e => exists k buf, tail_page lf (w_data w) k buf /\
          write_at w (to_signed 64 (last_lsn buf)) (slice (w_data w) (4096 * k) (4096 * k + 4096)) = Err e
    end.
  Proof.
    intros B M. set (data := w_data w) in *. unfold apply_tail_page. fold data.
    assert (V : lf_minor lf = 1) by (destruct K as (_ & _ & _ & _ & [V|[V|V]] & _); lia).
    rewrite M, V. cbn [Z.eqb andb negb].
    replace (negb _) with false by reflexivity.
    pose proof (page_by_number_spec lf data 2 K B ltac:(lia)) as P1.
    pose proof (page_by_number_spec lf data 3 K B ltac:(lia)) as P2.
    assert (FIN : forall k p, page_shows lf data k p -> tail_page lf data k (lp_buf p) ->
      match (let! off := lp_file_offset_11 p in write_at w off (lp_raw p)) with
      | Ok w' => (w' = w /\ forall k buf e, k = 2 \/ k = 3 -> ~ log_page_at lf data k buf e) \/
          exists k buf, tail_page lf data k buf /\
            write_at w (to_signed 64 (last_lsn buf)) (slice data (4096 * k) (4096 * k + 4096)) = Ok w'
      | Err e => exists k buf, tail_page lf data k buf /\
            write_at w (to_signed 64 (last_lsn buf)) (slice data (4096 * k) (4096 * k + 4096)) = Err e
      end).
    { intros k p S T. destruct (shows_lens _ _ _ B S) as (_ & _ & _ & _ & _ & _ & ->). cbn [bind].
      destruct S as (_ & R & _). rewrite R.
      destruct (write_at w _ _) as [w'|e] eqn:E; [right|]; exists k, (lp_buf p); auto. }
    destruct (page_by_number lf data 2) as [[p1|]|e1] eqn:E1; [| |contradiction];
    destruct (page_by_number lf data 3) as [[p2|]|e2] eqn:E2; cbn [bind]; try contradiction.
    - destruct (shows_lens _ _ _ B P1) as (_ & _ & _ & _ & _ & -> & _).
      destruct (shows_lens _ _ _ B P2) as (_ & _ & _ & _ & _ & -> & _). cbn [bind].
      destruct (Z.ltb_spec (last_end_lsn (lp_buf p2)) (last_end_lsn (lp_buf p1))) as [L|L].
      + apply (FIN 2 p1 P1). split; [exists (lp_end p1); apply P1|]. left. split; [auto|]. intros buf' e' L'.
        destruct P2 as (P2 & _). destruct (log_page_at_fun _ _ _ _ _ _ _ P2 L') as [<- _]. exact L.
      + apply (FIN 3 p2 P2). split; [exists (lp_end p2); apply P2|]. right. split; [auto|]. intros buf' e' L'.
        destruct P1 as (P1 & _). destruct (log_page_at_fun _ _ _ _ _ _ _ P1 L') as [<- _]. exact L.
    - apply (FIN 2 p1 P1). split; [exists (lp_end p1); apply P1|]. left. split; [auto|]. intros buf' e' L'. destruct (P2 _ _ L').
    - apply (FIN 3 p2 P2). split; [exists (lp_end p2); apply P2|]. right. split; [auto|]. intros buf' e' L'. destruct (P1 _ _ L').
    - left. split; [auto|]. intros k buf e [->| ->]; auto.
  Qed.

  (** ** Fast pages *)
  Lemma highest_spec : forall ps h, Forall (fun p => 16 <= zlen (lp_buf p)) ps ->
    exists h', highest_lsn ps h = Ok h' /\ h <= h' /\ Forall (fun p => last_lsn (lp_buf p) <= h') ps /\
      (h' = h \/ exists p, In p ps /\ last_lsn (lp_buf p) = h').
  Proof.
    induction ps as [|p ps IH]; intros h F; cbn [highest_lsn]; [exists h; split; auto; split; [lia|]; auto|].
    inversion F as [|? ? Fp F']; subst. unfold lp_last_lsn. rewrite u64_ok by lia. cbn [bind].
    destruct (IH (if h <? fld 8 (lp_buf p) 8 then fld 8 (lp_buf p) 8 else h) F') as (h' & -> & L & A & X).
    exists h'. split; [auto|]. unfold last_lsn in *. destruct (Z.ltb_spec h (fld 8 (lp_buf p) 8)).
    - split; [lia|]. split; [constructor; [lia|auto]|]. destruct X as [->|(q & Hq & E)]; right; [exists p|exists q]; cbn; auto.
    - split; [lia|]. split; [constructor; [lia|auto]|]. destruct X as [->|(q & Hq & E)]; [auto|]. right. exists q. cbn. auto.
  Qed.

  Lemma fast_loop_spec data h : bytes_ok data -> forall n i, 0 <= i ->
    exists l, fast_loop lf n data h i = Ok l /\
      Forall (fun e => snd e = last_lsn (lp_buf (fst e))) l /\
      (forall p, In p (map fst l) <-> exists k, i <= k < i + Z.of_nat n /\ page_shows lf data k p /\ h < last_lsn (lp_buf p)) /\
      StronglySorted (fun a b => lp_number a < lp_number b) (map fst l).
  Proof.
    intro B. induction n as [|n IH]; intros i Hi; cbn [fast_loop].
    { exists []. split; [auto|]. split; [constructor|]. split; [|constructor]. intro p. split; [intros []|].
      intros (k & Hk & _). lia. }
    pose proof (page_by_number_spec lf data i K B Hi) as P.
    destruct (IH (i + 1) ltac:(lia)) as (l & E & F & I & SS).
    destruct (page_by_number lf data i) as [[p|]|x]; [| |contradiction]; cbn [bind].
    - destruct (shows_lens _ _ _ B P) as (_ & _ & _ & _ & -> & _). cbn [bind]. rewrite E. cbn [bind].
      assert (U : forall q k, k = i -> page_shows lf data k q -> q = p).
      { intros q k -> (L1 & R1 & N1 & O1). destruct P as (L2 & R2 & N2 & O2).
        destruct (log_page_at_fun _ _ _ _ _ _ _ L1 L2) as [E1 E2]. destruct p, q; cbn in *. congruence. }
      destruct (Z.ltb_spec h (last_lsn (lp_buf p))) as [L|L].
      + exists ((p, last_lsn (lp_buf p)) :: l). split; [auto|]. split; [constructor; auto|]. cbn [map fst In].
        split.
        * intro q. rewrite I. split.
          -- intros [<-|(k & Hk & S & Q)]; [exists i|exists k]; split; auto; lia.
          -- intros (k & Hk & S & Q). destruct (Z.eq_dec k i) as [EK|NK]; [left; symmetry; eauto|].
             right. exists k. split; [lia|auto].
        * constructor; [exact SS|]. apply Forall_forall. intros q Hq. apply I in Hq. destruct Hq as (k & Hk & S & _).
          destruct S as (_ & _ & S & _). destruct P as (_ & _ & P & _). lia.
      + exists l. split; [auto|]. split; [auto|]. split; [|exact SS]. intro q. rewrite I. split.
        * intros (k & Hk & S & Q). exists k. split; [lia|auto].
        * intros (k & Hk & S & Q). destruct (Z.eq_dec k i) as [EK|NK]; [rewrite (U q k EK S) in Q; lia|].
          exists k. split; [lia|auto].
    - exists l. split; [auto|]. split; [auto|]. split; [|exact SS]. intro q. rewrite I. split.
      + intros (k & Hk & S & Q). exists k. split; [lia|auto].
      + intros (k & Hk & S & Q). destruct (Z.eq_dec k i) as [->|NK].
        * destruct S as (S & _). destruct (P _ _ S).
        * exists k. split; [lia|auto].
  Qed.

  Lemma fast_pages_spec data : bytes_ok data -> 2 <= lf_major lf ->
    exists ps, fast_pages lf data = Ok ps /\
      (forall p, In p ps <-> exists k, fast_page lf data k p /\ lp_off p = lf_doff lf) /\
      StronglySorted (fun a b => last_lsn (lp_buf a) < last_lsn (lp_buf b) \/
        (last_lsn (lp_buf a) = last_lsn (lp_buf b) /\ lp_number a < lp_number b)) ps.
  Proof.
    intros B M. unfold fast_pages, wrapped_page. replace (lf_major lf =? 1) with false by lia. cbn [andb].
    replace (2 <=? lf_major lf) with true by lia. cbn [bind]. unfold pages_from.
    destruct (pages_loop_spec lf data K B (Z.to_nat (lf_size lf / lf_psize lf - 34)) 34 ltac:(lia)) as (qs & -> & Q1 & Q2).
    assert (EP : lf_psize lf = 4096) by apply K. rewrite EP in *.
    assert (FQ : Forall (fun p => 16 <= zlen (lp_buf p)) qs).
    { apply Forall_forall. intros q Hq. destruct (Q1 q Hq) as (k & _ & S). destruct (shows_lens _ _ _ B S) as (_ & L & _). lia. }
    destruct (highest_spec qs 0 FQ) as (h & -> & H0 & HA & HX). cbn [bind].
    destruct (fast_loop_spec data h B 32 2 ltac:(lia)) as (l & -> & F & I & SS). cbn [bind].
    eexists. split; [reflexivity|].
    destruct (sort_by_stable (@snd log_page Z) l) as (PM & SO & ST).
    split.
    - intro p. rewrite <- (Permutation_in' eq_refl (Permutation_map fst PM)). rewrite I. split.
      + intros (k & Hk & S & L). pose proof S as (S1 & S2 & S3 & S4). exists k. split; [|exact S4]. unfold fast_page.
        split; [lia|]. do 3 (split; [assumption|]). split; [lia|]. intros n buf e Hn Lp.
        destruct (Q2 n buf e ltac:(lia) Lp) as (q & Hq & <- & _). rewrite Forall_forall in HA. specialize (HA q Hq). lia.
      + intros (k & (Hk & S1 & S2 & S3 & S5 & S6) & S4). exists k. split; [lia|]. split; [unfold page_shows; auto|].
        destruct HX as [->|(q & Hq & <-)]; [lia|]. destruct (Q1 q Hq) as (n & Hn & (Sq & _)). eapply S6; [|exact Sq]. lia.
    - (* order *)
      set (key := @snd log_page Z) in *. set (l' := sort_by key l) in *.
      assert (F' : Forall (fun e => snd e = last_lsn (lp_buf (fst e))) l') by (eapply Permutation_Forall; [exact PM|exact F]).
      assert (SK : forall k, StronglySorted (fun a b => lp_number (fst a) < lp_number (fst b)) (filter (fun x => key x =? k) l')).
      { intro k. rewrite ST. clear -SS. induction l as [|a l IH]; [constructor|]. cbn [map] in SS.
        inversion SS as [|? ? H1 H2]; subst. cbn [filter]. destruct (_ =? k); [|auto]. constructor; [auto|].
        apply Forall_forall. intros x Hx. apply filter_In in Hx. rewrite Forall_forall in H2. apply H2, in_map, Hx. }
      clear -F' SO SK. clearbody l'. unfold key in *. clear key l. induction l' as [|a l IH]; [constructor|]. cbn [map].
      inversion SO as [|? ? O1 O2]; subst. inversion F' as [|? ? F1 F2]; subst. constructor.
      + apply IH; auto. intro k. specialize (SK k). cbn [filter] in SK. destruct (_ =? k); [|auto]. inversion SK; auto.
      + apply Forall_forall. intros p Hp. apply in_map_iff in Hp. destruct Hp as (b & <- & Hb).
        rewrite Forall_forall in O2, F2. specialize (O2 b Hb). specialize (F2 b Hb).
        destruct (Z.eq_dec (snd a) (snd b)) as [E|E]; [|left; lia]. right. split; [lia|].
        specialize (SK (snd a)). cbn [filter] in SK. rewrite Z.eqb_refl in SK. inversion SK as [|? ? _ S2]; subst.
        rewrite Forall_forall in S2. apply S2. apply filter_In. split; [auto|]. lia.
  Qed.

  (** Writing them. *)
  Lemma write_fast_spec data0 : forall ps w, sound data0 w -> w_writable w = true ->
    Forall (fun p => bytes_ok (lp_buf p) /\ zlen (lp_buf p) = 4096 /\ zlen (lp_raw p) = 4096) ps ->
    match write_fast ps w with
    | (w', Done) => pages_written (w_data w) ps (w_data w') /\ Forall (fun p => lp_end p <= 60) ps
    | (w', Raised e) => e = TypeError /\ exists p1 p p2, ps = p1 ++ p :: p2 /\ pages_written (w_data w) p1 (w_data w') /\ 60 < lp_end p
    end.
  Proof.
    induction ps as [|p ps IH]; intros w S W F; cbn [write_fast].
    { split; [constructor|constructor]. }
    inversion F as [|? ? (F1 & F2 & F3) F']; subst. unfold lp_file_offset_2x.
    destruct (Z.leb_spec (lp_end p) 60) as [L|L].
    2:{ split; [auto|]. exists [], p, ps. split; [auto|]. split; [constructor|auto]. }
    unfold u32. rewrite unp_ok by lia. cbn [bind]. change (fld 4 (lp_buf p) 60) with (home p).
    assert (HB : 0 <= home p < 256 ^ 4) by (apply fld_bound; auto; lia).
    destruct (write_at w (home p) (lp_raw p)) as [w1|e] eqn:E.
    2:{ exfalso. unfold write_at in E. replace (home p <? 0) with false in E by lia.
        replace (9223372036854775807 <? home p + zlen (lp_raw p)) with false in E by lia. discriminate. }
    destruct (sound_write _ _ _ _ _ S W E) as (S1 & W1 & H0 & D1 & _).
    assert (WR : written (w_data w) (home p) (lp_raw p) (w_data w1)) by (rewrite D1; apply overwrite_written; lia).
    specialize (IH w1 S1 W1 F'). destruct (write_fast ps w1) as [w' [|e]]; cbv beta iota in IH |- *.
    - destruct IH as [I1 I2]. split; [econstructor; eauto|constructor; auto].
    - destruct IH as (-> & p1 & q & p2 & -> & I1 & I2). split; [auto|]. exists (p :: p1), q, p2. split; [auto|].
      split; [econstructor; eauto|auto].
  Qed.
End Pages.
