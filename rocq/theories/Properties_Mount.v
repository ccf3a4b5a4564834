(** Properties of mounted shadow copies (C83). *)
From Coq Require Import String Lia.
From Verif Require Import Base BaseLemmas FieldLemmas PartitionTable Shadow ShadowSpec ShadowRead ShadowImages Properties_Shadow
  Filetime FiletimeProofs Properties_Filetime FatDir Report LogReport ReportText ReportTextSpec ReportTextProofs Mount MountSpec.
Local Open Scope Z_scope.

Lemma open_one_parser fuel v o : open_one fuel v None = Ok o -> sp_vsize o = None /\ sp_live o = v /\ sp_store o = v /\ 0 <= v_off v.
Proof.
  unfold open_one. intro E. apply bind_ok in E as (start & S & E). do 2 apply bind_ok in E as (? & _ & E). injection E as <-.
  do 3 (split; [reflexivity|]). unfold seek_read in S. destruct (Z.ltb_spec (v_off v) 0); [discriminate|auto].
Qed.
Lemma open_two_parser fuel v w o : open_two fuel v w None = Ok o -> sp_vsize o = None /\ sp_live o = v /\ sp_store o = w /\ 0 <= v_off v /\ 0 <= v_off w.
Proof.
  unfold open_two. intro E. apply bind_ok in E as (start & S & E). apply bind_ok in E as (start3 & S3 & E). apply bind_ok in E as (? & _ & E).
  destruct (storage_local start); [discriminate|]. do 2 apply bind_ok in E as (? & _ & E). injection E as <-.
  do 3 (split; [reflexivity|]). unfold seek_read in S, S3.
  destruct (Z.ltb_spec (v_off v) 0); [discriminate|]. destruct (Z.ltb_spec (v_off w) 0); [discriminate|auto].
Qed.

(** ** C83: a mount *)

Theorem C83_mounted : forall fuel depth v position fill m, bytes_ok (v_data v) -> mount_one fuel depth v position fill = Ok m ->
  mounted m /\ mo_fill m = fill /\ exists o0, open_one fuel v None = Ok o0 /\ select_shadow fuel depth o0 (ByPos position) = (mo_vss m, Ok tt).
Proof.
  intros fuel depth v position fill m B E. unfold mount_one in E. apply bind_ok in E as (o0 & O & E).
  destruct (select_shadow fuel depth o0 (ByPos position)) as [o r] eqn:S. apply bind_ok in E as ([] & -> & E). injection E as <-.
  destruct (open_one_parser _ _ _ O) as (V & L & ST & P). rewrite <- ST in B. destruct (selection_ok _ _ _ _ _ S B) as (SP & _ & EL & ES & EV).
  unfold mounted. cbn [mo_vss mo_fill]. rewrite EL, ES, EV, L, ST, V. eauto 8.
Qed.
Print Assumptions C83_mounted.

Theorem C83_mounted_two : forall fuel depth v w position m, bytes_ok (v_data w) -> mount_two fuel depth v w position = Ok m ->
  mounted m /\ mo_fill m = false /\ exists o0, open_two fuel v w None = Ok o0 /\ select_shadow fuel depth o0 (ByPos position) = (mo_vss m, Ok tt).
Proof.
  intros fuel depth v w position m B E. unfold mount_two in E. apply bind_ok in E as (o0 & O & E).
  destruct (select_shadow fuel depth o0 (ByPos position)) as [o r] eqn:S. apply bind_ok in E as ([] & -> & E). injection E as <-.
  destruct (open_two_parser _ _ _ _ O) as (V & L & ST & P & Q). rewrite <- ST in B. destruct (selection_ok _ _ _ _ _ S B) as (SP & _ & EL & ES & EV).
  unfold mounted. cbn [mo_vss mo_fill]. rewrite EL, ES, EV, L, ST, V. eauto 8.
Qed.
Print Assumptions C83_mounted_two.

Lemma image_ok m : sp_vsize (mo_vss m) = None -> file_attr (virtual_size (mo_vss m)) (image_attr m).
Proof.
  intro V. unfold virtual_size. rewrite V. unfold file_attr, image_attr. cbn [at_ino at_mode at_nlink at_size at_blocks].
  do 4 (split; [reflexivity|]). lia.
Qed.

Lemma writing f : (0 <? Z.land f write_flags) = true <-> for_writing f.
Proof.
  change write_flags with 1027. unfold for_writing.
  assert (NN : 0 <= Z.land f 1027) by (apply Z.land_nonneg; lia).
  assert (X : Z.land f 1027 = 0 <-> (Z.testbit f 0 = false /\ Z.testbit f 1 = false /\ Z.testbit f 10 = false)).
  { split.
    - intro H. assert (T : forall k, Z.testbit (Z.land f 1027) k = false) by (intro; rewrite H; apply Z.testbit_0_l).
      pose proof (T 0) as T0. pose proof (T 1) as T1. pose proof (T 10) as T10. rewrite Z.land_spec in T0, T1, T10.
      change (Z.testbit 1027 0) with true in T0. change (Z.testbit 1027 1) with true in T1. change (Z.testbit 1027 10) with true in T10.
      rewrite andb_true_r in *. auto.
    - intros (A & B & C). apply Z.bits_inj_0. intro k. rewrite Z.land_spec.
      destruct (Z.lt_ge_cases k 0) as [N|N]; [now rewrite (Z.testbit_neg_r f)|].
      destruct (Z.lt_ge_cases k 11) as [S|S].
      + assert (k = 0 \/ k = 1 \/ k = 2 \/ k = 3 \/ k = 4 \/ k = 5 \/ k = 6 \/ k = 7 \/ k = 8 \/ k = 9 \/ k = 10) as Q by lia.
        destruct Q as [->|[->|[->|[->|[->|[->|[->|[->|[->|[->| ->]]]]]]]]]]; rewrite ?A, ?B, ?C; try reflexivity; apply andb_false_r.
      + assert (T : Z.testbit 1027 k = false) by (apply Z.bits_above_log2; [lia|]; change (Z.log2 1027) with 10; lia).
        rewrite T. apply andb_false_r. }
  destruct (Z.ltb_spec 0 (Z.land f 1027)) as [L|L].
  - split; [intros _|auto]. destruct (Z.testbit f 0), (Z.testbit f 1), (Z.testbit f 10); auto. destruct X as [_ X]. rewrite X in L; [lia|auto].
  - split; [discriminate|]. assert (E : Z.land f 1027 = 0) by lia. apply X in E as (A & B & C). rewrite A, B, C.
    intros [H|[H|H]]; discriminate H.
Qed.

Lemma right_at o q fill : forall r a, right (set_pos o q) fill r a -> right o fill r a.
Proof.
  intros r a H. destruct H as [i m|a H|a H|i N1 N2|i f H|f H|i f H N|  |i N|a H|i n H|off size pos d H R|off size pos e H R|off size H|h off size H
    |a H|off H|h off H|h|h| |c].
  all: try (eapply r_read; [exact H|exact R]); try (eapply r_read_err; [exact H|exact R]); constructor; assumption.
Qed.

Lemma serve_right m q : mounted m ->
  let (m', a) := serve m q in
  m' = mk_mount (set_pos (mo_vss m) (sp_pos (mo_vss m'))) (mo_fill m) /\ 0 <= sp_pos (mo_vss m') /\ right (mo_vss m) (mo_fill m) q a.
Proof.
  intros ((SEL & P) & V & LP & SP).
  assert (SAME : m = mk_mount (set_pos (mo_vss m) (sp_pos (mo_vss m))) (mo_fill m)).
  { destruct m as [o f]. cbn [mo_vss mo_fill]. f_equal. destruct o; reflexivity. }
  assert (IM := image_ok m V).
  destruct q as [i mo|i|i f|i|i n|h off size|h off|h|h| |c]; cbn [serve]; try (split; [exact SAME|split; [exact P|]]).
  - constructor.
  - unfold INODE_IMAGE_FILE, ROOT_INODE. destruct (Z.eqb_spec i 2) as [->|N2]; [constructor; auto|].
    destruct (Z.eqb_spec i 1) as [->|N1]; [constructor; reflexivity|]. constructor; auto.
  - destruct (0 <? Z.land f write_flags) eqn:W; [apply writing in W; now constructor|].
    assert (NW : ~ for_writing f) by (intro Q; apply writing in Q; congruence).
    unfold INODE_IMAGE_FILE. destruct (Z.eqb_spec i 2) as [->|N2]; constructor; auto.
  - unfold ROOT_INODE. destruct (Z.eqb_spec i 1) as [->|N1]; constructor; auto.
  - unfold ROOT_INODE, FILE_NAME_IMAGE_FILE. destruct (Z.eqb_spec i 1) as [->|N1]; cbn [andb].
    + destruct (zlist_eqb n (txt "image.raw")) eqn:N.
      * apply zlist_eqb_eq in N. subst n. constructor. exact IM.
      * apply zlist_eqb_neq in N. constructor. tauto.
    + constructor. tauto.
  - unfold FILE_HANDLE_IMAGE_FILE. destruct (Z.eqb_spec h 2) as [->|N2]; cbn [negb].
    2:{ split; [exact SAME|]. split; [exact P|]. now constructor. }
    assert (S1 : ps_sel (sp_cur (mo_vss m)) = true) by (inversion SEL as [|? ? S ?]; apply S).
    unfold sp_seek. rewrite S1. cbn [negb Z.eqb]. destruct (Z.ltb_spec off 0) as [N|N].
    { cbn [mo_vss]. split; [destruct m; exact SAME|]. split; [exact P|]. now constructor. }
    pose proof (sp_read_spec (set_pos (mo_vss m) off) (mo_fill m) LP SP SEL (Some size) N) as R.
    destruct (sp_read (set_pos (mo_vss m) off) (Some size) (mo_fill m)) as [o r]. destruct R as (R1 & R2 & R3).
    rewrite set_pos_pos in R1. cbn [mo_vss]. split; [now rewrite <- R1|]. split; [exact R2|].
    destruct r as [d|e]; [apply (r_read _ _ off size (sp_pos o))|apply (r_read_err _ _ off size (sp_pos o))]; auto.
  - unfold FILE_HANDLE_ROOT_DIR. destruct (Z.eqb_spec h 1) as [->|N1]; cbn [negb]; [|now constructor].
    destruct (Z.eqb_spec off 0) as [->|N]; constructor; auto.
  - constructor.
  - constructor.
  - constructor.
  - constructor.
Qed.

Lemma mounted_at m q : mounted m -> 0 <= q -> mounted (mk_mount (set_pos (mo_vss m) q) (mo_fill m)).
Proof. intros ((SEL & P) & V & LP & SP) Q. split; [split; [exact SEL|exact Q]|]. auto. Qed.

(** Whatever the requests are, each of them is answered correctly. *)
Theorem C83_answers : forall m qs, mounted m -> Forall2 (right (mo_vss m) (mo_fill m)) qs (snd (serve_all m qs)).
Proof.
  intros m qs. revert m. induction qs as [|q qs IH]; intros m M; [constructor|]. cbn [serve_all].
  pose proof (serve_right m q M) as S. destruct (serve m q) as [m' a]. destruct S as (E & P & R).
  assert (M' : mounted m') by (rewrite E; now apply mounted_at).
  specialize (IH m' M'). destruct (serve_all m' qs) as [m'' l]. cbn [snd] in *. constructor; [exact R|].
  rewrite E in IH. cbn [mo_vss mo_fill] in IH. clear - IH. induction IH as [|x y xs ys H HS IH]; constructor; auto.
  eapply right_at; eauto.
Qed.
Print Assumptions C83_answers.

(** The answer to a request does not depend on the requests before it. *)
Lemma serve_at m q r : mounted m -> 0 <= q -> snd (serve (mk_mount (set_pos (mo_vss m) q) (mo_fill m)) r) = snd (serve m r).
Proof.
  intros ((SEL & P) & _) Q. destruct r; try reflexivity. cbn [serve mo_vss mo_fill].
  destruct (negb _); [reflexivity|]. unfold sp_seek. cbn [set_pos set_state sp_cur fst].
  assert (S1 : ps_sel (sp_cur (mo_vss m)) = true) by (inversion SEL as [|? ? S ?]; apply S). rewrite S1. cbn [negb Z.eqb].
  destruct (off <? 0); [reflexivity|]. fold (set_pos (mo_vss m) q). rewrite set_pos_pos. reflexivity.
Qed.
Theorem C83_memoryless : forall m qs, mounted m -> snd (serve_all m qs) = map (fun q => snd (serve m q)) qs.
Proof.
  intros m qs M. assert (G : forall q, 0 <= q -> snd (serve_all (mk_mount (set_pos (mo_vss m) q) (mo_fill m)) qs) = map (fun q => snd (serve m q)) qs).
  { induction qs as [|r qs IH]; intros q Q; [reflexivity|]. cbn [serve_all map].
    pose proof (mounted_at m q M Q) as M1. pose proof (serve_right _ r M1) as S. pose proof (serve_at m q r M Q) as A.
    destruct (serve _ r) as [m' a]. destruct S as (E & P & _). cbn [mo_vss mo_fill] in E. rewrite set_pos_pos in E. cbn [snd] in A. subst a.
    specialize (IH _ P). rewrite <- E in IH. destruct (serve_all m' qs) as [m'' l]. cbn [snd] in *. now rewrite IH. }
  destruct M as ((SEL & P) & M). specialize (G _ P).
  replace (mk_mount (set_pos (mo_vss m) (sp_pos (mo_vss m))) (mo_fill m)) with m in G; [exact G|].
  destruct m as [o f]. cbn [mo_vss mo_fill]. f_equal. destruct o; reflexivity.
Qed.
Print Assumptions C83_memoryless.

(** The state after some requests is the one the next requests are served in. *)
Theorem C83_resumed : forall m p q, serve_all m (p ++ q) =
  (fst (serve_all (fst (serve_all m p)) q), snd (serve_all m p) ++ snd (serve_all (fst (serve_all m p)) q)).
Proof.
  intros m p q. revert m. induction p as [|r p IH]; intros m; cbn [app serve_all]; [cbn [fst snd app]; now destruct (serve_all m q)|].
  destruct (serve m r) as [m' a]. rewrite IH. destruct (serve_all m' p) as [m'' l]. reflexivity.
Qed.
Print Assumptions C83_resumed.

(** A volume that can be read is read: each read within the size of the file
    gives all the bytes it is for. *)
Theorem C83_read : forall m off n, mounted m -> readable (mo_vss m) (mo_fill m) -> 0 <= off -> 0 <= n ->
  off + n <= at_size (image_attr m) ->
  exists d, snd (serve m (RRead 2 off n)) = AData d /\ zlen d = n /\ volume_bytes (mo_vss m) (mo_fill m) off d.
Proof.
  intros m off n M (NT & RB & NE) O N S. pose proof (serve_right m (RRead 2 off n) M) as R.
  destruct M as (_ & V & _). assert (SZ : at_size (image_attr m) = virtual_size (mo_vss m)) by (unfold virtual_size; now rewrite V).
  rewrite SZ in S. destruct (serve m (RRead 2 off n)) as [m' a]. destruct R as (_ & _ & R). cbn [snd].
  inversion R as [| | | | | | | | | | |x1 x2 pos d _ RR E1 E2|x1 x2 pos e _ RR E1 E2|x1 x2 NN E1 E2|x0 x1 x2 NN E1 E2| | | | | | |]; subst; try lia.
  - exists d. split; [reflexivity|]. unfold read_result in RR. rewrite NT in RR. unfold wanted in RR.
    replace (n <? 0) with false in RR by lia. destruct (Z.leb_spec n 0) as [Z0|Z0]; cbn [orb] in RR.
    { destruct RR as [_ RR]. injection RR as ->. change (zlen (@nil Z)) with 0. split; [lia|]. intros j J. change (zlen (@nil Z)) with 0 in J. lia. }
    replace (virtual_size (mo_vss m) <=? off) with false in RR by lia. destruct RR as (E & L & B & D). split; [|exact B].
    destruct D as [D|[D|(x & X1 & X2)]]; [auto|lia|]. pose proof (zlen_nonneg d).
    destruct (Z.eq_dec (zlen d) n) as [|NE1]; [auto|]. exfalso. apply (RB x); [|exact X2]. lia.
  - exfalso. unfold read_result in RR. rewrite NT in RR. unfold wanted in RR. replace (n <? 0) with false in RR by lia.
    destruct ((n <=? 0) || _) eqn:G; [destruct RR; discriminate|]. destruct RR as (P1 & P2). eapply NE; [|exact P2]. lia.
Qed.
Print Assumptions C83_read.

(** So a copy in pieces of any size is the volume. *)
Fixpoint copy (m : mount) (piece : Z) (off : Z) (k : nat) : list Z :=
  match k with
  | O => []
  | S k => match snd (serve m (RRead 2 off (Z.min piece (at_size (image_attr m) - off)))) with
           | AData d => d ++ copy m piece (off + zlen d) k
           | _ => []
           end
  end.
Theorem C83_copy : forall m piece k, mounted m -> readable (mo_vss m) (mo_fill m) -> 0 < piece -> 0 <= at_size (image_attr m) <= piece * Z.of_nat k ->
  let d := copy m piece 0 k in zlen d = at_size (image_attr m) /\ volume_bytes (mo_vss m) (mo_fill m) 0 d.
Proof.
  intros m piece k M R P SZ. cbv zeta.
  assert (G : forall k off, 0 <= off <= at_size (image_attr m) -> at_size (image_attr m) - off <= piece * Z.of_nat k ->
    zlen (copy m piece off k) = at_size (image_attr m) - off /\ volume_bytes (mo_vss m) (mo_fill m) off (copy m piece off k)).
  { clear k SZ. induction k as [|k IH]; intros off O L.
    - cbn [copy]. change (zlen (@nil Z)) with 0. split; [lia|]. intros j J. change (zlen (@nil Z)) with 0 in J. lia.
    - cbn [copy]. destruct (C83_read m off (Z.min piece (at_size (image_attr m) - off)) M R) as (d & E & LD & B); [lia|lia|lia|].
      rewrite E. destruct (IH (off + zlen d)) as [I1 I2]; [lia|lia|]. split; [rewrite zlen_app; lia|].
      intros j J. rewrite zlen_app in J. pose proof (zlen_nonneg d). destruct (Z.lt_ge_cases j (zlen d)).
      + rewrite znth_app1 by lia. apply B. lia.
      + rewrite znth_app2 by lia. destruct (I2 (j - zlen d)) as (c & C1 & C2); [lia|]. exists c. split; [exact C1|].
        rewrite <- C2. f_equal. lia. }
  destruct (G k 0) as [G1 G2]; [lia|lia|]. split; [lia|exact G2].
Qed.
Print Assumptions C83_copy.

(** What is listed is what can be found: the names of a directory and their
    attributes, the attributes of the inodes, and the handles that are given
    for them. *)
Theorem C83_consistent : forall m name a, 
  ((exists off k l1 l2, snd (serve m (RReaddir 1 off)) = AEntries (l1 ++ (name, a, k) :: l2)) <-> snd (serve m (RLookup 1 name)) = AAttr a) /\
  (snd (serve m (RLookup 1 name)) = AAttr a -> snd (serve m (RGetattr (at_ino a))) = AAttr a /\
     forall flags, ~ for_writing flags -> exists h, snd (serve m (ROpen (at_ino a) flags)) = AHandle h /\
       forall off n, snd (serve m (RRead h off n)) <> AError EBADF).
Proof.
  intros m name a. cbn [serve snd]. split.
  - change (negb (1 =? FILE_HANDLE_ROOT_DIR)) with false. cbn [andb]. change (1 =? ROOT_INODE) with true. cbn [andb]. split.
    + intros (off & k & l1 & l2 & E). destruct (off =? 0).
      * injection E as E. destruct l1 as [|x l1]; [|destruct l1; discriminate E]. injection E as E1 E2 _ _. subst name a.
        rewrite zlist_eqb_refl. reflexivity.
      * injection E as E. destruct l1; discriminate E.
    + intro E. destruct (zlist_eqb name FILE_NAME_IMAGE_FILE) eqn:N; [|discriminate]. apply zlist_eqb_eq in N. injection E as <-. subst name.
      exists 0, 1, [], []. reflexivity.
  - intro E. destruct (_ && _); [|discriminate]. injection E as <-. split; [reflexivity|].
    intros flags NW. exists 2. split.
    + destruct (0 <? Z.land flags write_flags) eqn:W; [apply writing in W; contradiction|]. reflexivity.
    + intros off n. change (negb (2 =? FILE_HANDLE_IMAGE_FILE)) with false. cbn [andb].
      destruct (sp_seek (mo_vss m) off 0) as [o [p|e]]; [|discriminate]. destruct (sp_read o (Some n) (mo_fill m)) as [o' [d|e]]; discriminate.
Qed.
Print Assumptions C83_consistent.

(** ** The list of shadow copies *)

Definition time_ok (i : item) : Prop := match i with I2 i => 0 <= i2_time i /\ 0 < i2_size i | I3 _ => True end.

Lemma chain_bytes n v ok : bytes_ok (v_data v) -> forall a l, chain n v ok (fun b => Ok b) a = Ok l -> Forall bytes_ok l.
Proof.
  intro B. induction n as [|n IH]; intros a l E; [discriminate|]. cbn [chain] in E. destruct (a =? 0); [injection E as <-; constructor|].
  apply bind_ok in E as (buf & S & E). do 2 apply bind_ok in E as (? & _ & E). destruct (negb _); [injection E as <-; constructor|].
  cbn [bind] in E. apply bind_ok in E as (next & _ & E). apply bind_ok in E as (rest & R & E). injection E as <-.
  constructor; [|eauto]. unfold seek_read in S. repeat (destruct (_ <? _) in S; [discriminate S|]).
  destruct (_ <=? _) in S; [discriminate S|]. destruct (_ <=? _) in S; [discriminate S|]. injection S as <-. now apply bytes_ok_slice.
Qed.

Lemma items_time buf : bytes_ok buf -> forall n off, Forall time_ok (fst (cb_items_from n buf off)).
Proof.
  intro B. induction n as [|n IH]; intro off; [constructor|]. cbn [cb_items_from].
  destruct (negb (off <? 16384)); [constructor|]. destruct (negb (zlen (slice buf off (off + 4)) =? 4)); [constructor|].
  destruct (_ =? 0); [constructor|]. destruct (negb (zin _ _)); [constructor|]. destruct (_ =? 1); [apply IH|].
  destruct (negb (zlen _ =? 128)); [constructor|]. specialize (IH (off + 128)). destruct (cb_items_from n buf (off + 128)) as [l s]. cbn [fst] in IH.
  destruct (_ =? 2).
  - destruct (parse_item2 (slice buf off (off + 128))) as [i|] eqn:E; [|constructor]. cbn [gcons fst]. constructor; [|exact IH].
    unfold parse_item2 in E. apply bind_ok in E as (sz & SZ & E). destruct (Z.eqb_spec sz 0) as [|NZ]; [discriminate|]. do 2 apply bind_ok in E as (? & _ & E).
    apply bind_ok in E as (t & T & E). injection E as <-. cbn [time_ok i2_time i2_size]. apply unp_inv in T as [_ T]; [|lia|lia]. apply unp_inv in SZ as [_ SZ]; [|lia|lia].
    assert (F : bytes_ok (slice buf off (off + 128))) by now apply bytes_ok_slice.
    pose proof (fld_bound 8 _ 48 ltac:(lia) ltac:(lia) F). pose proof (fld_bound 8 _ 8 ltac:(lia) ltac:(lia) F). lia.
  - destruct (parse_item3 (slice buf off (off + 128))) as [i|]; [|constructor]. cbn [gcons fst]. constructor; [exact I|exact IH].
Qed.

Lemma cb_items_time buf : bytes_ok buf -> Forall time_ok (fst (cb_items buf)).
Proof. intro B. unfold cb_items. generalize 129%nat. intro n. now apply items_time. Qed.
Local Opaque cb_items.

Definition info_of (i : item2) (s : shadow_info) : Prop :=
  si_pos s = i2_pos i /\ si_guid s = i2_guid i /\ si_size s = i2_size i /\ decode_filetime (i2_time i) true = Ok (si_time s).

Lemma shadows_of_ok l st : Forall time_ok l -> exists r, shadows_of l st = (r, st) /\ Forall2 info_of (items2 l) r.
Proof.
  induction 1 as [|i l T F (r & E & I)]; [exists []; split; [reflexivity|constructor]|]. destruct i as [i|i]; cbn [shadows_of items2 flat_map app].
  - cbn [time_ok] in T. destruct T as [T _]. destruct (C16_filetime_range (i2_time i) true T) as [D1 D2].
    assert (D : exists t, decode_filetime (i2_time i) true = Ok t).
    { destruct (Z.lt_ge_cases (i2_time i) 2650467743999999840); [destruct D1 as (us & D & _); eauto|rewrite D2 by auto; eauto]. }
    destruct D as [t D]. rewrite D, E. cbn [gcons]. eexists. split; [reflexivity|]. constructor; [|exact I].
    unfold info_of. cbn [si_pos si_guid si_size si_time]. auto.
  - eauto.
Qed.

Lemma shadows_ok cbs : Forall bytes_ok cbs -> forall items, all_items cbs = Ok items ->
  Forall time_ok items /\ exists r, shadows cbs = (r, Done) /\ Forall2 info_of (items2 items) r.
Proof.
  induction 1 as [|b cbs B F IH]; intros items E; cbn [all_items shadows] in *.
  - injection E as <-. split; [constructor|]. exists []. split; [reflexivity|constructor].
  - pose proof (cb_items_time b B) as T. destruct (cb_items b) as [l s]. cbn [fst] in T. destruct s; [|discriminate].
    apply bind_ok in E as (rest & R & E). injection E as <-. destruct (IH _ R) as (TR & r & E & I). split; [apply Forall_app; auto|].
    destruct (shadows_of_ok l Done T) as (r0 & E0 & I0). rewrite E0, E. cbn [gapp fst snd]. eexists. split; [reflexivity|].
    unfold items2. rewrite flat_map_app. now apply Forall2_app.
Qed.

Lemma shadows_ends cbs : Forall bytes_ok cbs -> snd (shadows cbs) = match all_items cbs with Ok _ => Done | Err e => Raised e end.
Proof.
  induction 1 as [|b cbs B F IH]; cbn [all_items shadows]; [reflexivity|]. pose proof (cb_items_time b B) as T. destruct (cb_items b) as [l s]. cbn [fst] in T.
  destruct (shadows_of_ok l s T) as (r & -> & _). destruct s; [|reflexivity]. destruct (shadows cbs) as [r' st]. cbn [gapp fst snd] in *. rewrite IH.
  destruct (all_items cbs); reflexivity.
Qed.

Lemma line_shown i s : 0 <= i2_time i -> info_of i s -> shadow_listed i (flat_map (cell_text stamp_str) (shadow_line s) ++ [10]).
Proof.
  intros T (P & _ & _ & D). exists (number_text (i2_pos i)), (cell_text stamp_str (match si_time s with Some us => Stamp (ordinal_1601 * us_per_day + us) | None => Txt (txt "None") end)).
  split; [apply number_text_ok|]. split.
  - destruct (C16_filetime_range (i2_time i) true T) as [D1 D2]. destruct (Z.lt_ge_cases (i2_time i) 2650467743999999840) as [L|L].
    + left. split; [exact L|]. destruct (D1 L) as (us & E & N). rewrite E in D. injection D as D. rewrite <- D. exists us. split; [auto|].
      apply stamp_str_ok. unfold decode_filetime, decode_time in E. fold (us_of (i2_time i)) in E.
      destruct (Z.ltb_spec (us_of (i2_time i)) ((ordinal_max + 1 - ordinal_1601) * us_per_day)) as [U|U]; [|discriminate].
      assert (Q : us_of (i2_time i) = us) by congruence. rewrite Q in U. unfold ordinal_1601, ordinal_max, us_per_day in *. lia.
    + right. split; [exact L|]. rewrite D2 in D by auto. injection D as <-. reflexivity.
  - unfold shadow_line, ln. cbn [flat_map cell_text]. rewrite P, app_nil_r, <- !app_assoc. reflexivity.
Qed.

(** Every shadow copy has one line, with its position and its time, in the
    order of the catalog. *)
Theorem C83_list : forall fuel v o items, bytes_ok (v_data v) -> open_one fuel v None = Ok o -> all_items (sp_cbs o) = Ok items ->
  exists texts, list_text fuel v = txt "Shadow copies are enabled" ++ [10] ++ concat texts /\ Forall2 shadow_listed (items2 items) texts.
Proof.
  intros fuel v o items B O A.
  assert (F : Forall bytes_ok (sp_cbs o)).
  { unfold open_one in O. apply bind_ok in O as (start & _ & O). apply bind_ok in O as (? & _ & O). apply bind_ok in O as (cbs & C & O).
    injection O as <-. cbn [sp_cbs]. unfold control_blocks in C. apply bind_ok in C as (a & _ & C). eapply chain_bytes; eauto. }
  destruct (shadows_ok _ F items A) as (T & r & E & I). unfold list_text, list_shadows. rewrite O, E. cbn [fst flat_map].
  exists (map (fun s => flat_map (cell_text stamp_str) (shadow_line s) ++ [10]) r). split.
  - assert (X : forall l, flat_map (fun l => flat_map (cell_text stamp_str) l ++ [10]) (map shadow_line l) =
      concat (map (fun s => flat_map (cell_text stamp_str) (shadow_line s) ++ [10]) l)).
    { induction l as [|x l IH]; [reflexivity|]. cbn [map]. cbn [concat]. rewrite <- IH. reflexivity. }
    rewrite X. reflexivity.
  - assert (T2 : Forall (fun i => 0 <= i2_time i) (items2 items)).
    { clear - T. induction T as [|x l T F IH]; [constructor|]. destruct x; cbn [items2 flat_map app]; [constructor; [apply T|auto]|auto]. }
    clear - I T2. induction I as [|x y l r H HS IH]; [constructor|]. inversion T2; subst. cbn [map]. constructor; [now apply line_shown|auto].
Qed.
Print Assumptions C83_list.

(** Otherwise it says why there is no list, and an exception comes only from
    the constructor or from an item of the catalog that cannot be decoded. *)
Theorem C83_list_ends : forall fuel v, bytes_ok (v_data v) ->
  match open_one fuel v None with
  | Err ShadowCopiesDisabledException => list_text fuel v = txt "Shadow copies are disabled" ++ [10] /\ snd (list_shadows fuel v) = Done
  | Err InvalidVolume => list_text fuel v = txt "Not a valid volume" ++ [10] /\ snd (list_shadows fuel v) = Done
  | Err e => list_text fuel v = [] /\ snd (list_shadows fuel v) = Raised e
  | Ok o => snd (list_shadows fuel v) = match all_items (sp_cbs o) with Ok _ => Done | Err e => Raised e end
  end.
Proof.
  intros fuel v B. unfold list_text, list_shadows. destruct (open_one fuel v None) as [o|e] eqn:O.
  - assert (F : Forall bytes_ok (sp_cbs o)).
    { unfold open_one in O. apply bind_ok in O as (start & _ & O). apply bind_ok in O as (? & _ & O). apply bind_ok in O as (cbs & C & O).
      injection O as <-. cbn [sp_cbs]. unfold control_blocks in C. apply bind_ok in C as (a & _ & C). eapply chain_bytes; eauto. }
    rewrite <- (shadows_ends _ F). destruct (shadows (sp_cbs o)). reflexivity.
  - destruct e; split; reflexivity.
Qed.
Print Assumptions C83_list_ends.

(** ** A small volume *)

Definition small (v : vol) (fill : bool) : mount := mk_mount (fst (select_shadow 5 5 (opened v None) (ByPos 1))) fill.
Lemma small_mounted v fill : (match mount_one 5 5 v 1 fill with Ok _ => true | Err _ => false end) = true -> mount_one 5 5 v 1 fill = Ok (small v fill).
Proof.
  unfold mount_one, small, opened. destruct (open_one 5 v None) as [o|]; cbn [bind]; [|discriminate].
  destruct (select_shadow 5 5 o (ByPos 1)) as [o' r]. destruct r as [[]|]; [reflexivity|discriminate].
Qed.

Example C83_example : mount_one 5 5 sh_good 1 false = Ok (small sh_good false) /\
  snd (serve_all (small sh_good false)
    [RLookup 1 (txt "image.raw"); RReaddir 1 0; RReaddir 1 1; ROpen 2 0; RRead 2 (bk 9 + 510) 4; RRead 1 0 4; ROpen 2 1; RRead 2 (bk 9 + 510) 4; RRead 2 (bk 12) 4; RChange Write]) =
  [AAttr (mk_attr 2 33188 1 (bk 12) 384); AEntries [(txt "image.raw", mk_attr 2 33188 1 (bk 12) 384, 1)]; AEntries []; AHandle 2; AData [77; 77; 66; 66]; AError EBADF;
   AError EROFS; AData [77; 77; 66; 66]; AData []; AError EROFS].
Proof. split; [apply small_mounted; vm_compute; reflexivity|vm_compute; reflexivity]. Qed.

(** "Every request is answered with a result or an error number" is false: a
    damaged store ends in an exception that nothing catches.  (The answers
    after it are still right.) *)
Theorem C83_exception_refuted : exists m, mount_one 5 5 sh_bad_forward 1 false = Ok m /\
  snd (serve_all m [RRead 2 (bk 9) (bk 2); RRead 2 (bk 9) 2]) = [AExn ValueError; AData [77; 77]].
Proof. exists (small sh_bad_forward false). split; [apply small_mounted; vm_compute; reflexivity|vm_compute; reflexivity]. Qed.
Print Assumptions C83_exception_refuted.

Example C83_list_example : list_text 5 sh_good =
  txt "Shadow copies are enabled" ++ [10] ++ txt "  Stack position: 1, timestamp (UTC): 1601-01-01 00:00:00" ++ [10] ++
  txt "  Stack position: 2, timestamp (UTC): 1601-01-01 00:00:00" ++ [10].
Proof. vm_compute. reflexivity. Qed.
