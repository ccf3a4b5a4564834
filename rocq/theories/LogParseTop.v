(** Facts about whole parses: bytes, written pages, composition. *)
From Verif Require Import Base BaseLemmas FieldLemmas Sorting LogPage LogFile LogSpec LogPageProofs LogFileProofs
  LogReadProofs LogWalkProofs LogClientProofs LogCollectProofs LogRecord LogParse LogParseSpec LogRecordProofs LogParseProofs LogItemsProofs.
From Coq Require Import Permutation Sorted.

(** ** The files hold bytes *)
Definition files_ok (w : world) : Prop := Forall bytes_ok (w_files w).

Lemma files_data w : files_ok w -> bytes_ok (w_data w).
Proof.
  unfold files_ok, w_data. intro F. generalize (w_cur w) as n.
  induction F as [|x l Hx _ IH]; intros [|n]; cbn; auto; constructor.
Qed.

Lemma files_set w w' : files_ok w -> bytes_ok w' -> forall n, Forall bytes_ok (set_nth n w' (w_files w)).
Proof.
  unfold files_ok. intros F B. generalize dependent (w_files w).
  induction l as [|x l IH]; intros F n; [destruct n; constructor|]. inversion F; subst. destruct n; constructor; auto.
Qed.

Lemma files_write w off bs w' : files_ok w -> bytes_ok bs -> write_at w off bs = Ok w' -> files_ok w'.
Proof.
  unfold write_at. intros F B. destruct (_ <? _); [discriminate|]. destruct (_ <? _); [discriminate|].
  intro E. injection E as <-. unfold files_ok. cbn [w_files]. apply files_set; auto. apply overwrite_ok; auto. apply files_data; auto.
Qed.

Lemma files_prepare w : files_ok w -> files_ok (prepare_for_writes w).
Proof.
  intro F. unfold prepare_for_writes. destruct (w_writable w); [auto|]. unfold files_ok. cbn [w_files]. apply Forall_app.
  split; [auto|]. constructor; [|constructor]. apply files_data; auto.
Qed.

Lemma files_discard w : files_ok w -> files_ok (discard_changes w).
Proof. intro F. unfold discard_changes. destruct (negb _); auto. Qed.

Section Files.
  Variable lf : log_file.
  Variable K : lf_ok lf.

  Lemma files_tail w w' : files_ok w -> apply_tail_page lf w = Ok w' -> files_ok w'.
  Proof.
    intros F E. destruct (Z.eq_dec (lf_major lf) 1) as [M|M].
    - pose proof (apply_tail_spec lf K w (files_data _ F) M) as H. rewrite E in H.
      destruct H as [[-> _]|(k & buf & _ & H)]; [auto|]. eapply files_write; eauto. apply bytes_ok_slice, files_data; auto.
    - unfold apply_tail_page in E. replace (lf_major lf =? 1) with false in E by lia. discriminate.
  Qed.

  Lemma files_write_fast : forall ps w w' st, files_ok w -> Forall (fun p => bytes_ok (lp_raw p)) ps ->
    write_fast ps w = (w', st) -> files_ok w'.
  Proof.
    induction ps as [|p ps IH]; intros w w' st F B E; cbn [write_fast] in E; [injection E as <- _; auto|].
    inversion B as [|? ? B1 B2]; subst.
    destruct (lp_file_offset_2x p) as [[off|]|e]; [|injection E as <- _; auto|injection E as <- _; auto].
    destruct (write_at w off (lp_raw p)) as [w1|e] eqn:E1; [|injection E as <- _; auto].
    eapply IH; [|exact B2|exact E]. eapply files_write; eauto.
  Qed.

  Lemma files_fast w : files_ok w -> files_ok (fst (apply_fast_pages lf w)).
  Proof.
    intro F. unfold apply_fast_pages. destruct (Z.ltb_spec (lf_major lf) 2) as [|M]; [auto|].
    destruct (fast_pages_spec lf K (w_data w) (files_data _ F) M) as (ps & -> & H & _).
    destruct (write_fast ps w) as [w' st] eqn:E. cbn [fst]. eapply files_write_fast; [exact F| |exact E].
    apply Forall_forall. intros p Hp. apply H in Hp. destruct Hp as (k & (_ & _ & -> & _) & _).
    apply bytes_ok_slice, files_data; auto.
  Qed.

  Lemma files_recover w : files_ok w -> files_ok (fst (recover lf w)).
  Proof.
    intro F. apply files_prepare in F. unfold recover. destruct (_ && _).
    - destruct (apply_tail_page lf (prepare_for_writes w)) as [w'|e] eqn:E; [|auto]. eapply files_tail; eauto.
    - destruct (_ <=? _); [apply files_fast; auto|auto].
  Qed.

  Lemma files_parse ord r w is w' w'' st : files_ok w -> parse_ntfs_records lf ord r w = (is, w', (w'', st)) ->
    files_ok w' /\ files_ok w''.
  Proof.
    intros F. unfold parse_ntfs_records.
    assert (F1 : files_ok (fst (if r then recover lf w else (w, Done)))) by (destruct r; [apply files_recover; auto|auto]).
    destruct (if r then recover lf w else (w, Done)) as [w1 st1]. cbn [fst] in F1.
    destruct st1; [|intro E; injection E as _ <- <- _; auto].
    destruct (collect_lsns lf (w_data w1) ord (w_cfg w1)) as [[lsns c]|e]; [|intro E; injection E as _ <- <- _; auto].
    assert (F2 : files_ok (set_config w1 c)) by exact F1.
    destruct (sort_lsns _ _ _) as [d|e]; [|intro E; injection E as _ <- <- _; auto].
    destruct (clients_parse _ _ _ _) as [is' [|e]]; intro E; injection E as _ <- <- _; auto.
    split; [auto|]. destruct r; [apply files_discard; auto|auto].
  Qed.

  Lemma reach_files ord data w : bytes_ok data -> reach lf ord data w -> files_ok w.
  Proof.
    intros B. induction 1 as [|w o R F P]; [constructor; [auto|constructor]|]. destruct o; cbn [op_step].
    - apply files_prepare; auto.
    - apply files_discard; auto.
    - destruct (apply_tail_page lf w) as [w'|e] eqn:E; [|auto]. eapply files_tail; eauto.
    - apply files_fast; auto.
    - destruct (parse_ntfs_records lf ord recover_log_data w) as [[is w'] [w'' st]] eqn:E.
      destruct (files_parse _ _ _ _ _ _ _ F E) as (F1 & F2). destruct (_ && _); [auto|]. destruct (_ <? _)%nat; auto.
    - destruct recover_log_data; [apply files_discard; auto|auto].
  Qed.
End Files.

(** ** What pages written in turn leave *)
Definition apart (p q : log_page) : Prop := home q + 4096 <= home p \/ home p + 4096 <= home q.

Lemma written_znth old off bs new p : written old off bs new -> 0 <= p -> p < zlen old -> ~ (off <= p < off + zlen bs) ->
  znth new p = znth old p.
Proof.
  intros W Hp L N. rewrite (W p Hp). replace ((off <=? p) && (p <? off + zlen bs)) with false by lia.
  replace (p <? zlen old) with true by lia. reflexivity.
Qed.

Lemma written_covers old off bs new p : written old off bs new -> 0 <= p < zlen old -> p < zlen new.
Proof.
  intros W Hp. destruct (Z.ltb_spec p (zlen new)) as [L|L]; [auto|]. exfalso.
  assert (E : znth new p = None) by (apply znth_none; lia). rewrite (W p) in E by lia.
  destruct ((off <=? p) && (p <? off + zlen bs)) eqn:E1.
  - bools. destruct (znth_some bs (p - off)) as [x Hx]; [lia|]. congruence.
  - replace (p <? zlen old) with true in E by lia. destruct (znth_some old p) as [x Hx]; [lia|]. congruence.
Qed.

Lemma pages_written_other old ps new : pages_written old ps new -> Forall (fun q => zlen (lp_raw q) = 4096) ps ->
  forall p, 0 <= p < zlen old -> Forall (fun q => ~ (home q <= p < home q + 4096)) ps -> znth new p = znth old p.
Proof.
  induction 1 as [|old mid new q ps W H IH]; intros L p Hp N; [auto|].
  inversion L as [|? ? L1 L2]; subst. inversion N as [|? ? N1 N2]; subst.
  rewrite IH; auto.
  - eapply written_znth; eauto; lia.
  - split; [lia|]. eapply written_covers; eauto.
Qed.

Lemma pages_written_last old ps new : pages_written old ps new -> Forall (fun q => zlen (lp_raw q) = 4096) ps ->
  forall p1 p p2, ps = p1 ++ p :: p2 -> 0 <= home p -> Forall (apart p) p2 ->
  slice new (home p) (home p + 4096) = lp_raw p.
Proof.
  induction 1 as [data|old mid new q ps W H IH]; intros L p1 p p2 E HP A.
  { destruct p1; discriminate. }
  inversion L as [|? ? L1 L2]; subst. destruct p1 as [|x p1]; cbn [app] in E; injection E as -> ->; [|eauto].
  assert (Q : forall i, 0 <= i < 4096 -> home p + i < zlen mid /\ znth mid (home p + i) = znth (lp_raw p) i).
  { intros i Hi. assert (Z1 : znth mid (home p + i) = znth (lp_raw p) i).
    { rewrite (W (home p + i)) by lia. replace ((home p <=? home p + i) && (home p + i <? home p + zlen (lp_raw p))) with true by lia.
      f_equal. lia. }
    split; [|exact Z1]. destruct (znth_some (lp_raw p) i) as [x Hx]; [lia|]. rewrite Hx in Z1.
    destruct (Z.ltb_spec (home p + i) (zlen mid)); [auto|]. rewrite znth_none in Z1 by lia. discriminate. }
  assert (QN : forall i, 0 <= i < 4096 -> znth new (home p + i) = znth (lp_raw p) i).
  { intros i Hi. destruct (Q i Hi) as [Q1 Q2]. rewrite (pages_written_other _ _ _ H L2 (home p + i)); auto; [lia|].
    eapply Forall_impl; [|exact A]. unfold apart. intros r Hr. lia. }
  assert (LN : home p + 4096 <= zlen new).
  { destruct (Z.ltb_spec (home p + 4095) (zlen new)); [lia|]. specialize (QN 4095 ltac:(lia)).
    rewrite znth_none in QN by lia. destruct (znth_some (lp_raw p) 4095) as [x Hx]; [lia|]. congruence. }
  apply znth_ext.
  - rewrite zlen_slice by lia. lia.
  - intros i Hi. rewrite zlen_slice in Hi by lia.
    destruct (Z.ltb_spec i 4096); [|lia]. rewrite znth_slice by lia. apply QN. lia.
Qed.

Lemma sorted_nodup l : StronglySorted Z.lt l -> NoDup l.
Proof.
  induction 1 as [|x l _ IH F]; constructor; auto. intro I. rewrite Forall_forall in F. specialize (F x I). lia.
Qed.

(** ** A parse *)
Section Top.
  Variable data0 : list Z.
  Variable lf : log_file.
  Variable ord : nat -> list Z -> list Z.
  Variable B0 : bytes_ok data0.
  Variable O : log_open data0 = Ok lf.
  Variable OP : forall k l, Permutation (ord k l) l.

  Lemma top_ok : lf_ok lf /\ pages_kept lf.
  Proof. apply log_open_iff in O; auto. split; [eapply opened_ok; eauto|eapply opened_kept; eauto]. Qed.

  Lemma collect_good data c l c' : bytes_ok data -> addressable lf data -> collect_lsns lf data ord c = Ok (l, c') ->
    Forall (valid_lsn lf data) l /\ StronglySorted Z.lt l.
  Proof.
    intros B AD E. destruct top_ok as [K PK].
    pose proof (first_lsns_spec lf data K B PK) as F. destruct (first_lsns lf data) as [s0|e] eqn:E0.
    - destruct F as [RR _].
      destruct (collect_stages lf data ord K B PK OP c RR AD) as (s2 & s3 & s4 & s5 & s6 & c2 & E' & N & V & _).
      rewrite E in E'. injection E' as -> _. split; [|apply sorted_strict; auto].
      apply Forall_forall. intros x Hx. apply sort_by_In in Hx. rewrite Forall_forall in V. auto.
    - rewrite (collect_err lf data ord c e E0) in E. discriminate.
  Qed.

  Lemma recover_errors w e : files_ok w -> w_writable w = false \/ sound data0 w -> snd (recover lf w) = Raised e ->
    e = TypeError \/ e = ValueError \/ e = OverflowError.
  Proof.
    intros F S E. destruct top_ok as [K _]. pose proof (files_prepare _ F) as F'. unfold recover in E.
    destruct ((lf_major lf =? 1) && (lf_minor lf =? 1)) eqn:V.
    - assert (M : lf_major lf = 1) by lia. clear V. pose proof (apply_tail_spec lf K (prepare_for_writes w) (files_data _ F') M) as H.
      destruct (apply_tail_page lf (prepare_for_writes w)) as [w'|x]; cbn [snd] in E; [discriminate|]. injection E as ->.
      destruct H as (k & buf & _ & H). unfold write_at in H.
      destruct (_ <? _); [injection H as <-; auto|]. destruct (_ <? _); [injection H as <-; auto|discriminate].
    - destruct (Z.leb_spec 2 (lf_major lf)) as [M|M]; [|discriminate].
      unfold apply_fast_pages in E. replace (lf_major lf <? 2) with false in E by lia.
      destruct (fast_pages_spec lf K (w_data (prepare_for_writes w)) (files_data _ F') M) as (ps & E1 & H & _).
      rewrite E1 in E. assert (FP : Forall (fun p => bytes_ok (lp_buf p) /\ zlen (lp_buf p) = 4096 /\ zlen (lp_raw p) = 4096) ps).
      { apply Forall_forall. intros p Hp. apply H in Hp. destruct Hp as (k & (_ & L & R & _) & _).
        destruct (log_page_facts _ _ _ _ _ (files_data _ F') L) as (BB & LB & _).
        destruct L as (_ & LR & _). rewrite R. auto. }
      clear H E1. revert E. generalize (prepare_for_writes w). clear F' F S V. intros v E.
      revert v E. induction ps as [|p ps IH]; intros v E; cbn [write_fast] in E; [discriminate|].
      inversion FP as [|? ? (P1 & P2 & P3) FP']; subst.
      destruct (lp_file_offset_2x p) as [[off|]|x] eqn:EO; cbn [snd] in E.
      + destruct (write_at v off (lp_raw p)) as [v'|x] eqn:EW; [eauto|]. cbn [snd] in E. injection E as ->.
        unfold write_at in EW.
        destruct (_ <? _); [injection EW as <-; auto|]. destruct (_ <? _); [injection EW as <-; auto|discriminate].
      + injection E as <-. auto.
      + exfalso. unfold lp_file_offset_2x in EO. destruct (_ <=? _); [|discriminate].
        unfold u32 in EO. rewrite unp_ok in EO by lia. discriminate.
  Qed.

  Lemma parse_items r w is w' w'' st : files_ok w -> parse_ntfs_records lf ord r w = (is, w', (w'', st)) ->
    addressable lf (w_data w') ->
    (is = [] /\ exists e, st = Raised e /\
       ((r = true /\ recover lf w = (w', Raised e)) \/
        collect_lsns lf (w_data w') ord (w_cfg w') = Err e)) \/
    exists c0 lsns d, collect_lsns lf (w_data w') ord c0 = Ok (lsns, w_cfg w') /\
      grouped lf (w_data w') lsns d /\ (forall x, In x lsns -> exists id xs, In (id, xs) d /\ In x xs) /\
      all_items lf (w_data w') (w_cfg w') d is st.
  Proof.
    intros F E AD. destruct top_ok as [K PK]. unfold parse_ntfs_records in E.
    assert (F1 : files_ok (fst (if r then recover lf w else (w, Done)))) by (destruct r; [apply files_recover; auto|auto]).
    destruct (if r then recover lf w else (w, Done)) as [w1 st1] eqn:E1. cbn [fst] in F1.
    destruct st1 as [|e].
    2:{ injection E as <- <- _ <-. left. split; [auto|]. exists e. split; [auto|]. left. destruct r; [auto|discriminate]. }
    destruct (collect_lsns lf (w_data w1) ord (w_cfg w1)) as [[lsns c]|e] eqn:EC.
    2:{ injection E as <- <- _ <-. left. split; [auto|]. exists e. auto. }
    assert (W : w' = set_config w1 c).
    { destruct (sort_lsns _ _ _) as [d|e]; [|injection E as _ <- _ _; auto].
      destruct (clients_parse _ _ _ _) as [is' [|e]]; injection E as _ <- _ _; auto. }
    assert (WD : w_data w' = w_data w1) by (rewrite W; reflexivity).
    assert (WC : w_cfg w' = c) by (rewrite W; reflexivity).
    rewrite WD in AD. pose proof (files_data _ F1) as BD.
    destruct (collect_good _ _ _ _ BD AD EC) as [V S].
    destruct (sort_lsns_spec lf (w_data w1) K BD lsns V (sorted_nodup _ S)) as (d & ED & G & CV).
    change (w_data (set_config w1 c)) with (w_data w1) in E. rewrite ED in E.
    pose proof (clients_parse_items lf (w_data w1) K BD c d) as CP.
    right. exists (w_cfg w1), lsns, d. rewrite WD, WC. do 3 (split; [auto|]).
    destruct (clients_parse lf c (w_data w1) d) as [is' st']. cbn [fst snd] in CP.
    assert (is = is' /\ st = st') as [-> ->].
    { destruct st'; injection E as <- _ _ <-; auto. }
    apply CP. apply Forall_forall. intros [id xs] I. apply Forall_forall. intros x Hx.
    destruct G as [_ G]. destruct (G _ _ I) as (_ & _ & G3). apply G3 in Hx. rewrite Forall_forall in V. apply V. tauto.
  Qed.
End Top.

(** Every record once. *)
Lemma nodup_app {A} (a b : list A) : NoDup a -> NoDup b -> (forall x, In x a -> ~ In x b) -> NoDup (a ++ b).
Proof.
  induction 1 as [|x a N _ IH]; intros NB D; cbn [app]; [auto|]. constructor.
  - rewrite in_app_iff. intros [I|I]; [auto|]. apply (D x); cbn; auto.
  - apply IH; [auto|]. intros y Hy. apply D. cbn. auto.
Qed.

Lemma data_of_fun lf data k x a b : data_of lf data k x a -> data_of lf data k x b -> a = b.
Proof.
  intros (n & off & h & P & R & D & T & T2 & T3 & T4) (n' & off' & h' & P' & R' & D' & U & U2 & U3 & U4).
  destruct (lsn_pos_fun _ _ _ _ _ _ P P') as [<- <-]. pose proof (record_at_fun _ _ _ _ _ _ R R') as <-.
  pose proof (record_data_fun lf data _ _ _ _ _ D D'). destruct a, b. cbn in *. congruence.
Qed.

Lemma client_items_lsns lf data c l is : client_items lf data c l is Done -> exists cds,
  Forall2 (data_of lf data (cf_cluster c)) l cds /\
  map item_lsn is = map cd_lsn (filter (fun cd => (cd_type cd =? 1) || (cd_type cd =? 2)) cds).
Proof.
  intro H. remember Done as st. destruct H; [|discriminate]. exists cds. split; [auto|]. eapply shows_lsns; eauto.
Qed.

Lemma forall2_lsns lf data k l cds : Forall2 (data_of lf data k) l cds -> map cd_lsn cds = l.
Proof.
  induction 1 as [|x cd l cds (n & off & h & _ & _ & _ & _ & E & _) _ IH]; cbn; [auto|]. congruence.
Qed.

Lemma client_items_in lf data c l is x : client_items lf data c l is Done ->
  (In x (map item_lsn is) <-> In x l /\ exists cd, data_of lf data (cf_cluster c) x cd /\ (cd_type cd = 1 \/ cd_type cd = 2)).
Proof.
  intro H. destruct (client_items_lsns _ _ _ _ _ H) as (cds & F & ->). rewrite in_map_iff. split.
  - intros (cd & <- & I). apply filter_In in I. destruct I as [I T].
    assert (J : In (cd_lsn cd) l) by (rewrite <- (forall2_lsns _ _ _ _ _ F); apply in_map; auto).
    split; [auto|]. exists cd. split; [|lia].
    clear - F I. induction F as [|y cd' l cds D F IH]; [contradiction|]. destruct I as [->|I]; [|auto].
    destruct D as (n & off & h & P & R & D & T & T2 & T3). exists n, off, h. rewrite T2. auto 10.
  - intros (I & cd & D & T). exists cd. destruct D as (n & off & h & P & R & D & T1 & T2 & T3).
    split; [auto|]. apply filter_In. split; [|lia].
    assert (DD : data_of lf data (cf_cluster c) x cd) by (exists n, off, h; auto 10).
    clear - F I DD. induction F as [|y cd' l cds D' F IH]; [contradiction|]. destruct I as [->|I]; [|right; auto].
    left. eapply data_of_fun; eauto.
Qed.

Lemma sorted_filter_map lf data k l cds f : Forall2 (data_of lf data k) l cds -> StronglySorted Z.lt l ->
  StronglySorted Z.lt (map cd_lsn (filter f cds)).
Proof.
  intros F S. rewrite <- (forall2_lsns _ _ _ _ _ F) in S. clear F. induction cds as [|cd cds IH]; cbn; [constructor|].
  cbn in S. inversion S as [|? ? S1 S2]; subst. destruct (f cd); cbn; auto. constructor; [auto|].
  apply Forall_forall. intros y I. apply in_map_iff in I. destruct I as (cd' & <- & I). apply filter_In in I.
  rewrite Forall_forall in S2. apply S2. apply in_map. tauto.
Qed.

Lemma all_items_in lf data c d is st x : all_items lf data c d is st -> st = Done ->
  (In x (map item_lsn is) <-> exists id l, In (id, l) d /\ In x l /\
     exists cd, data_of lf data (cf_cluster c) x cd /\ (cd_type cd = 1 \/ cd_type cd = 2)).
Proof.
  induction 1 as [|id l d is is' st H HA IH|]; intro E; [|subst st|discriminate].
  - split; [intros []|]. intros (? & ? & [] & _).
  - rewrite map_app, in_app_iff, IH by auto. rewrite (client_items_in _ _ _ _ _ x H). cbn [In]. split.
    + intros [[I (cd & D)]|(id' & l' & I & D)]; [exists id, l|exists id', l']; eauto.
    + intros (id' & l' & [E|I] & D1 & D2); [injection E as -> ->; left|right]; eauto 6.
Qed.

Lemma all_items_nodup lf data c lsns d is st : all_items lf data c d is st -> st = Done -> grouped lf data lsns d ->
  NoDup (map item_lsn is).
Proof.
  induction 1 as [|id l d is is' st H HA IH|]; intro E; [intros _; constructor|subst st|discriminate].
  intros [N G]. cbn [map fst] in N. inversion N as [|? ? N1 N2]; subst.
  assert (G' : grouped lf data lsns d) by (split; [auto|]; intros; apply G; right; auto).
  specialize (IH eq_refl G'). rewrite map_app.
  assert (S : NoDup (map item_lsn is)).
  { destruct (client_items_lsns _ _ _ _ _ H) as (cds & F & ->). apply (sorted_nodup). eapply sorted_filter_map; eauto.
    apply (G id l). left. auto. }
  apply nodup_app; auto.
  intros x I J. rewrite (client_items_in _ _ _ _ _ x H) in I. destruct I as [I _].
  rewrite (all_items_in _ _ _ _ _ _ x HA eq_refl) in J. destruct J as (id' & l' & J & J2 & _).
  destruct (G id l (or_introl eq_refl)) as (_ & _ & G1). destruct (G id' l' (or_intror J)) as (_ & _ & G2).
  apply G1 in I. apply G2 in J2. destruct I as [_ I], J2 as [_ J2]. pose proof (client_of_fun lf data x _ _ I J2) as <-.
  apply N1. apply (in_map fst) in J. exact J.
Qed.
