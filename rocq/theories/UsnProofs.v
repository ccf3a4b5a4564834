(** Proofs about the change journal. *)
From Coq Require Import String.
From Verif Require Import Base BaseLemmas FrsProofs FieldLemmas Filetime Usn UsnSpec.
Local Open Scope list_scope.
Local Open Scope Z_scope.

Lemma usn_at_fun data p n k n' k' : usn_at data p n k -> usn_at data p n' k' -> n = n' /\ k = k'.
Proof. intros (_ & _ & _ & _ & _ & E1 & E2) (_ & _ & _ & _ & _ & E3 & E4). split; congruence. Qed.

Lemma get_usn_spec buf : bytes_ok buf -> zlen buf <= 8192 ->
  match get_usn_record buf with
  | Ok r => exists n k, usn_at buf 0 n k /\ r = mk_ur k (slice buf 0 n)
  | Err e => (e = ValueError \/ e = NotImplementedError) /\ forall n k, ~ usn_at buf 0 n k
  end.
Proof.
  intros B HL. unfold get_usn_record.
  pose proof (zlen_nonneg buf) as Hn.
  destruct (zlen buf <? 8) eqn:E0; bools.
  { split; auto. intros n k (_ & H1 & Hk & H2 & _). unfold usn_min in H2. revert H2.
    destruct (k =? 2); [|destruct (k =? 3)]; lia. }
  unfold u32, u16. rewrite !unp_ok by lia. cbn [bind].
  pose proof (fld_bound 4 buf 0 ltac:(lia) ltac:(lia) B) as Bn.
  pose proof (fld_bound 2 buf 4 ltac:(lia) ltac:(lia) B) as Bk.
  set (n := fld 4 buf 0) in *. set (k := fld 2 buf 4) in *.
  assert (A : forall m j, usn_at buf 0 m j -> m = n /\ j = k /\ n <= zlen buf /\ usn_min k <= n /\ n mod 8 = 0 /\ 2 <= k <= 4).
  { intros m j (_ & H1 & H2 & H3 & H4 & H5 & H6). rewrite Z.add_0_l in *. fold n in H5. fold k in H6. subst m j. repeat split; auto; lia. }
  assert (M : 62 <= usn_min k) by (unfold usn_min; destruct (k =? 2); [|destruct (k =? 3)]; lia).
  destruct (n <? 8) eqn:E1; bools.
  { split; auto. intros m j H. apply A in H. lia. }
  assert (C : usn_min k <= zlen (slice buf 0 n) -> 2 <= k <= 4 ->
    match ur_check (mk_ur k (slice buf 0 n)) with
    | Ok r => exists m j, usn_at buf 0 m j /\ r = mk_ur j (slice buf 0 m)
    | Err e => (e = ValueError \/ e = NotImplementedError) /\ forall m j, ~ usn_at buf 0 m j
    end).
  { intros HM Hk. unfold ur_check, ur_record_length, ur_major, u32, u16. cbn [ur_raw ur_version].
    rewrite zlen_slice in HM by lia.
    assert (L : zlen (slice buf 0 n) = Z.min n (zlen buf)) by (rewrite zlen_slice by lia; lia).
    rewrite !unp_ok by lia. cbn [bind].
    rewrite !fld_slice by lia. rewrite !Z.add_0_l. fold n. fold k.
    destruct (n <? 8) eqn:E2; bools; [lia|]. cbn [orb].
    destruct (Z.eqb_spec (n mod 8) 0) as [E3|E3]; cbn [negb].
    2:{ split; auto. intros m j H. apply A in H. lia. }
    destruct (zlen (slice buf 0 n) <? n) eqn:E4; bools.
    { split; auto. intros m j H. apply A in H. lia. }
    rewrite Z.eqb_refl. cbn [negb]. exists n, k. split; auto.
    unfold usn_at. rewrite Z.add_0_l. repeat split; auto; lia. }
  assert (S : zlen (slice buf 0 n) < usn_min k -> forall m j, ~ usn_at buf 0 m j).
  { intros HM m j H. apply A in H. rewrite zlen_slice in HM by lia. lia. }
  unfold usn_v23_open, usn_v4_open. unfold usn_min in *.
  destruct (Z.eqb_spec k 2) as [E2|E2].
  { cbn [negb andb]. destruct (_ <? 62) eqn:E3; bools; [split; auto|].
    rewrite <- E2. apply C; lia. }
  destruct (Z.eqb_spec k 3) as [E3|E3].
  { cbn [negb andb]. destruct (_ <? 62 + 16) eqn:E4; bools; [split; auto; apply S; lia|].
    rewrite <- E3. apply C; lia. }
  destruct (Z.eqb_spec k 4) as [E4|E4].
  { destruct (_ <? 80) eqn:E5; bools; [split; auto|]. rewrite <- E4. apply C; lia. }
  split; auto. intros m j H. apply A in H. lia.
Qed.

Lemma usn_at_window data pos n k : 0 <= pos ->
  usn_at (slice data pos (pos + 8192)) 0 n k <-> usn_at data pos n k.
Proof.
  intro Hp. pose proof (zlen_nonneg data).
  assert (L : zlen (slice data pos (pos + 8192)) = Z.max 0 (Z.min 8192 (zlen data - pos))).
  { rewrite zlen_slice by lia. f_equal. lia. }
  assert (M : 62 <= usn_min k) by (unfold usn_min; destruct (k =? 2); [|destruct (k =? 3)]; lia).
  split; intros (H1 & H2 & H3 & H4 & H5 & H6 & H7); unfold usn_at.
  - rewrite !fld_slice in * by lia. rewrite Z.add_0_r in *. rewrite Z.add_0_l in *.
    repeat split; auto; lia.
  - rewrite !fld_slice by lia. rewrite !Z.add_0_r, !Z.add_0_l. repeat split; auto; lia.
Qed.

Lemma zero_window data pos p : forallb (Z.eqb 0) (slice data pos (pos + 8192)) = true -> 0 <= pos <= p ->
  p < pos + 8192 -> p mod 8 = 0 -> pos mod 8 = 0 -> forall n k, ~ usn_at data p n k.
Proof.
  intros F Hp Hq A1 A2 n k (H1 & H2 & H3 & H4 & H5 & H6 & H7).
  assert (M : 62 <= usn_min k) by (unfold usn_min; destruct (k =? 2); [|destruct (k =? 3)]; lia).
  assert (Z4 : forall i, 0 <= i < 4 -> znth (slice data p (p + 4)) i = Some 0).
  { intros i Hi. rewrite znth_slice by lia.
    destruct (znth_some data (p + i) ltac:(lia)) as (x & E). rewrite E. f_equal.
    rewrite forallb_forall in F. symmetry. apply Z.eqb_eq. apply F.
    apply (znth_In _ (p + i - pos)). rewrite znth_slice by lia. now replace (pos + _) with (p + i) by lia. }
  assert (E : slice data p (p + 4) = zeros 4).
  { assert (L4 : zlen (slice data p (p + 4)) = 4) by (rewrite zlen_slice by lia; lia).
    apply znth_ext; [now rewrite L4|].
    - intros i Hi. rewrite L4 in Hi. rewrite Z4 by lia.
      assert (i = 0 \/ i = 1 \/ i = 2 \/ i = 3) as [->|[->|[->| ->]]] by lia; reflexivity. }
  unfold fld in H6. rewrite E in H6. change (le_val (zeros 4)) with 0 in H6. lia.
Qed.

Lemma usn_walk_skips data l m : forall pos, 0 <= pos -> pos mod 8 = 0 ->
  (forall p, pos <= p < pos + 8 * Z.of_nat m -> p mod 8 = 0 -> p < zlen data -> forall n k, ~ usn_at data p n k) ->
  usn_walk data (pos + 8 * Z.of_nat m) l -> usn_walk data pos l.
Proof.
  induction m as [|m IH]; intros pos Hp HA H W.
  - now replace (pos + _) with pos in W by lia.
  - destruct (Z.lt_ge_cases pos (zlen data)) as [E|E].
    + apply usw_skip; auto.
      * intros n k. apply H; lia.
      * apply IH; try lia.
        -- intros p K1 K2 K3. apply H; lia.
        -- now replace (pos + 8 + _) with (pos + 8 * Z.of_nat (S m)) by lia.
    + remember (pos + 8 * Z.of_nat (S m)) as q. inversion W as [? K|? ? K|? n k ? K]; subst; try lia; [now constructor|].
      destruct K as (_ & K & K2 & K3 & _). unfold usn_min in K3. revert K3. destruct (k =? 2); [|destruct (k =? 3)]; lia.
Qed.

Lemma usn_loop_walk data : bytes_ok data -> forall fuel pos, 0 <= pos -> (pos mod 8 = 0 \/ zlen data <= pos) ->
  (Z.to_nat (zlen data - pos) < fuel)%nat ->
  exists l, usn_loop fuel data pos = (l, Done) /\ usn_walk data pos l.
Proof.
  intro B. induction fuel as [|fuel IH]; intros pos Hp HA Hf; [lia|]. cbn [usn_loop].
  destruct (pos <? zlen data) eqn:E0; bools; cbn [negb].
  2:{ exists []. split; auto. now constructor. }
  destruct HA as [HA|HA]; [|lia].
  set (buf := slice data pos (pos + 8192)).
  assert (L : zlen buf = Z.min 8192 (zlen data - pos)) by (unfold buf; rewrite zlen_slice by lia; lia).
  destruct (forallb (Z.eqb 0) buf) eqn:F.
  { destruct (IH (pos + zlen buf) ltac:(lia) ltac:(lia) ltac:(lia)) as (l & E & W). exists l. split; auto.
    apply (usn_walk_skips data l 1024); auto.
    - intros p K1 K2 K3. apply (zero_window data pos p F); lia.
    - destruct (Z.le_gt_cases 8192 (zlen data - pos)) as [K|K].
      + replace (pos + 8 * Z.of_nat 1024) with (pos + zlen buf) by lia. auto.
      + remember (pos + zlen buf) as q. inversion W as [? Q|? ? Q|? n k ? Q]; subst.
        * constructor. lia.
        * lia.
        * destruct Q as (_ & Q & Q2 & Q3 & _). unfold usn_min in Q3. revert Q3. destruct (k =? 2); [|destruct (k =? 3)]; lia. }
  replace (pos mod 8 =? 0) with true by lia. fold buf.
  pose proof (get_usn_spec buf (bytes_ok_slice _ _ _ B) ltac:(lia)) as S.
  destruct (get_usn_record buf) as [r|e].
  - destruct S as (n & k & U & ->). unfold ur_record_length. cbn [ur_raw].
    pose proof U as (_ & U1 & U2 & U3 & U4 & U5 & U6).
    assert (M : 62 <= usn_min k) by (unfold usn_min; destruct (k =? 2); [|destruct (k =? 3)]; lia).
    unfold u32. rewrite unp_ok by (rewrite ?zlen_slice by lia; lia). rewrite fld_slice by lia.
    rewrite Z.add_0_l, U5.
    destruct (IH (pos + n) ltac:(lia) ltac:(lia) ltac:(lia)) as (l & E & W). rewrite E. cbn [gcons fst snd].
    exists ((pos, mk_ur k (slice buf 0 n)) :: l). split; auto.
    replace (slice buf 0 n) with (slice data pos (pos + n)).
    2:{ unfold buf. rewrite slice_slice by lia. f_equal; lia. }
    apply usw_rec; auto. apply usn_at_window; auto.
  - destruct S as [S1 S2].
    destruct (IH (pos + 8) ltac:(lia) ltac:(lia) ltac:(lia)) as (l & E & W).
    exists l. split.
    + destruct S1 as [-> | ->]; auto.
    + apply usw_skip; auto. intros n k U. apply (S2 n k). now apply usn_at_window.
Qed.

Lemma usn_walk_fun data pos l : usn_walk data pos l -> forall l', usn_walk data pos l' -> l = l'.
Proof.
  assert (K : forall p n k, usn_at data p n k -> zlen data <= p -> False).
  { intros p n k (_ & Q & Q2 & Q3 & _) G. unfold usn_min in Q3. revert Q3. destruct (k =? 2); [|destruct (k =? 3)]; lia. }
  induction 1 as [pos H|pos l H1 H2 W IH|pos n k l H W IH]; intros l' W';
    inversion W' as [? G|? ? G1 G2 V|? n' k' ? G V]; subst; auto; try lia;
    try (exfalso; eapply K; eassumption);
    try (exfalso; eapply H2; eassumption); try (exfalso; eapply G2; eassumption).
  destruct (usn_at_fun _ _ _ _ _ _ H G) as [-> ->]. f_equal. auto.
Qed.

Lemma usn_iff data l : bytes_ok data -> usn_records data = (l, Done) <-> usn_walk data 0 l.
Proof.
  intro B. unfold usn_records.
  destruct (usn_loop_walk data B (S (length data)) 0 ltac:(lia) ltac:(left; reflexivity) ltac:(unfold zlen; lia)) as (l' & E & W).
  rewrite E. split; intro H; [injection H as <-; auto|now rewrite (usn_walk_fun _ _ _ H _ W)].
Qed.

(** Every aligned record is found unless it starts inside one found before. *)
Lemma usn_walk_greedy data pos l : usn_walk data pos l -> 0 <= pos -> pos mod 8 = 0 ->
  forall p r, In (p, r) l <->
    (pos <= p /\ p mod 8 = 0 /\ (exists n k, usn_at data p n k /\ r = mk_ur k (slice data p (p + n))) /\
     forall q s, In (q, s) l -> ~ (q < p < q + zlen (ur_raw s))).
Proof.
  assert (K : forall p n k, usn_at data p n k -> 62 <= n /\ n mod 8 = 0 /\ p < zlen data /\ zlen (slice data p (p + n)) = n).
  { intros p n k (P & Q & Q2 & Q3 & Q4 & _). assert (62 <= n) by (unfold usn_min in Q3; revert Q3; destruct (k =? 2); [|destruct (k =? 3)]; lia).
    rewrite zlen_slice by lia. lia. }
  induction 1 as [pos H|pos l H1 H2 W IH|pos n k l H W IH]; intros Hp HA p r.
  - cbn [In]. split; [tauto|]. intros (G1 & _ & (n & k & G & _) & _). apply K in G. lia.
  - specialize (IH ltac:(lia) ltac:(lia) p r). rewrite IH. split; intros (G1 & G2 & G3 & G4).
    + split; [lia|auto].
    + split; auto. destruct (Z.eq_dec pos p) as [->|N]; [|lia]. destruct G3 as (n & k & G & _). exfalso. eapply H2; eauto.
  - destruct (K _ _ _ H) as (K1 & K2 & K3 & K4). specialize (IH ltac:(lia) ltac:(lia)).
    cbn [In]. split.
    + intros [G|G].
      * injection G as <- <-. split; [lia|]. split; [auto|]. split; [exists n, k; auto|].
        intros q s [Q|Q]; [injection Q as <- <-; lia|]. apply IH in Q. lia.
      * apply IH in G. destruct G as (G1 & G2 & G3 & G4). split; [lia|]. split; auto. split; auto.
        intros q s [Q|Q]; [|eapply G4; eauto]. injection Q as <- <-. cbn [ur_raw]. rewrite K4. lia.
    + intros (G1 & G2 & G3 & G4).
      destruct (Z.eq_dec pos p) as [->|N].
      * left. destruct G3 as (n' & k' & G & ->). destruct (usn_at_fun _ _ _ _ _ _ H G) as [-> ->]. auto.
      * right. apply IH. split; [|split; [auto|split; [auto|intros q s Q; apply G4; auto]]].
        specialize (G4 _ _ (or_introl eq_refl)). cbn [ur_raw] in G4. rewrite K4 in G4. lia.
Qed.

Fixpoint apart (pos : Z) (l : list (Z * usn_rec)) : Prop :=
  match l with [] => True | (p, r) :: t => pos <= p /\ apart (p + zlen (ur_raw r)) t end.

Lemma usn_walk_apart data pos l : usn_walk data pos l -> apart pos l.
Proof.
  assert (M : forall l a b, a <= b -> apart b l -> apart a l) by (intros [|[p r] t] a b Hb; cbn; intuition lia).
  induction 1 as [pos H|pos l H1 H2 W IH|pos n k l H W IH]; cbn [apart ur_raw]; auto.
  - eapply M; [|exact IH]. lia.
  - split; [lia|]. destruct H as (P & Q & Q2 & Q3 & Q4 & _).
    assert (62 <= n) by (unfold usn_min in Q3; revert Q3; destruct (k =? 2); [|destruct (k =? 3)]; lia).
    assert (zlen (slice data pos (pos + n)) = n) as -> by (rewrite zlen_slice by lia; lia). auto.
Qed.

(** ** Journals written out *)

Lemma walk_zeros data : forall m pos, (Z.to_nat (zlen data - pos) <= m)%nat -> 0 <= pos ->
  (forall p, pos <= p -> fld 4 data p = 0) -> usn_walk data pos [].
Proof.
  induction m as [|m IH]; intros pos Hm Hp H; destruct (Z.le_gt_cases (zlen data) pos) as [E|E];
    try (constructor; auto; fail); [lia|].
  apply usw_skip; auto.
  - intros n k (_ & Q & Q2 & Q3 & _ & Q5 & _). rewrite H in Q5 by lia. unfold usn_min in Q3. revert Q3.
    destruct (k =? 2); [|destruct (k =? 3)]; lia.
  - apply IH; [lia|lia|]. intros p K. apply H. lia.
Qed.

Lemma fld_zeros w n p : fld w (zeros n) p = 0.
Proof.
  unfold fld. assert (A : forall l, Forall (eq 0) l -> le_val l = 0) by (induction 1 as [|x l H1 H2 IH]; cbn [le_val]; [reflexivity|lia]).
  apply A. unfold slice. rewrite ztake_firstn, zdrop_skipn. unfold zeros.
  apply Forall_forall. intros x Hx. symmetry. apply (repeat_spec (Z.to_nat n) 0).
  rewrite <- (firstn_skipn (Z.to_nat p) (repeat 0 (Z.to_nat n))). apply in_or_app. right.
  rewrite <- (firstn_skipn (Z.to_nat (p + w - p)) (skipn _ _)). apply in_or_app. now left.
Qed.

Lemma le_bytes_split a b : forall v, le_bytes (a + b) v = le_bytes a v ++ le_bytes b (v / 256 ^ Z.of_nat a).
Proof.
  induction a as [|a IH]; intro v.
  - cbn. now rewrite Z.div_1_r.
  - cbn [Nat.add le_bytes app]. f_equal. rewrite IH. do 2 f_equal.
    rewrite Nat2Z.inj_succ, Z.pow_succ_r by lia. apply Z.div_div; lia.
Qed.

Lemma le_bytes_low a : forall v, le_bytes a v = le_bytes a (v mod 256 ^ Z.of_nat a).
Proof.
  intro v. apply le_val_inj; try apply le_bytes_ok.
  - now rewrite !le_bytes_len.
  - rewrite !le_val_le_bytes_mod. symmetry. apply Z.mod_mod. lia.
Qed.

(** The two halves of a 128-bit reference. *)
Lemma wide_halves (x y : list Z) v : 0 <= v < 2 ^ 128 -> forall off, off = zlen x ->
  wide_ref (x ++ le_bytes 16 v ++ y) off = Ok v.
Proof.
  intros Hv off ->. unfold wide_ref, u64. pose proof (zlen_nonneg y). pose proof (zlen_nonneg x).
  rewrite !unp_ok by (lens; lia). cbn [bind].
  rewrite (le_bytes_split 8 8), (le_bytes_low 8). rewrite <- app_assoc.
  assert (D : 0 <= v / 256 ^ 8 < 256 ^ 8).
  { change (2 ^ 128) with (256 ^ 8 * 256 ^ 8) in Hv. split; [apply Z.div_pos; lia|apply Z.div_lt_upper_bound; lia]. }
  assert (M : 0 <= v mod 256 ^ 8 < 256 ^ 8) by (apply Z.mod_pos_bound; lia).
  change (256 ^ Z.of_nat 8) with (256 ^ 8).
  replace (fld 8 (x ++ _) (zlen x)) with (v mod 256 ^ 8).
  2:{ symmetry. rewrite fld_app_r by lia. rewrite Z.sub_diag. apply fld_here; [reflexivity|auto]. }
  replace (fld 8 (x ++ _) (zlen x + 8)) with (v / 256 ^ 8).
  2:{ symmetry. rewrite fld_app_r by lia. rewrite fld_app_r by (lens; lia). lens.
      replace (zlen x + 8 - zlen x - Z.of_nat 8) with 0 by lia. apply fld_here; [reflexivity|auto]. }
  rewrite lor_shiftl_add by (change (2 ^ 64) with (256 ^ 8); lia). f_equal.
  change (2 ^ 64) with (256 ^ 8). rewrite (Z.div_mod v (256 ^ 8)) at 3 by lia. lia.
Qed.

Lemma ui_len i : zlen (ui_bytes i) = ui_size i.
Proof. unfold ui_bytes, ui_ref, ui_size, ui_inc. destruct (ui_v3 i); lens; lia. Qed.

Lemma ui_decodes_bytes i : ui_ok i -> ui_decodes (mk_ur (ui_version i) (ui_bytes i)) i.
Proof.
  intros (H1 & H2 & H3 & H4 & H5 & H6 & H7 & H8 & H9 & H10 & H11 & B1 & B2 & B3).
  pose proof (ui_len i) as L. unfold ui_size in L, H1.
  pose proof (zlen_nonneg (ui_gap i)). pose proof (zlen_nonneg (ui_name i)). pose proof (zlen_nonneg (ui_pad i)).
  assert (N : forall b, ui_bytes i = b -> slice b (60 + ui_inc i + zlen (ui_gap i)) (60 + ui_inc i + zlen (ui_gap i) + zlen (ui_name i)) = ui_name i).
  { intros b <-. unfold ui_bytes, ui_ref, ui_inc. destruct (ui_v3 i); rewrite !app_assoc; rewrite <- (app_assoc _ (ui_name i));
      apply slice_app_mid; lens; lia. }
  specialize (N _ eq_refl).
  unfold ui_decodes, ur_minor, ur_file_reference, ur_parent_reference, ur_usn, ur_timestamp, ur_reason, ur_source,
    ur_security_id, ur_file_attributes, ur_file_name, ur_name_offset, ur_name_length, ur_inc, u16, u32, u64.
  cbn [ur_version ur_raw].
  assert (F : forall w off v, 0 <= w -> 0 <= off -> off + w <= zlen (ui_bytes i) -> fld w (ui_bytes i) off = v -> unp w (ui_bytes i) off = Ok v).
  { intros w off v ? ? ? <-. now apply unp_ok. }
  unfold ui_version, ui_inc in *. destruct (ui_v3 i) eqn:V; cbn [Z.eqb Pos.eqb].
  - split; [auto|].
    split; [apply F; try lia; unfold ui_bytes, ui_ref, ui_version, ui_inc; rewrite V; fget|].
    split. { unfold ui_bytes, ui_ref, ui_version, ui_inc. rewrite V. rewrite !app_assoc. rewrite <- !app_assoc.
      set (y := le_bytes 16 (ui_parent i) ++ _). rewrite !(app_assoc _ _ (_ ++ y)).
      apply wide_halves; [change (64 + 8 * 16 / 2) with 128 in H4; auto|lens; lia]. }
    split. { unfold ui_bytes, ui_ref, ui_version, ui_inc. rewrite V.
      set (y := le_bytes 8 (ui_usn i) ++ _). rewrite !(app_assoc _ _ (_ ++ y)).
      apply wide_halves; [change (64 + 8 * 16 / 2) with 128 in H5; auto|lens; lia]. }
    split; [apply F; try lia; unfold ui_bytes, ui_ref, ui_version, ui_inc; rewrite V; fget|].
    split. { rewrite (F 8 (32 + 16) (ui_time i)); [auto|lia|lia|lia|]. unfold ui_bytes, ui_ref, ui_version, ui_inc. rewrite V. fget. }
    repeat (split; [apply F; try lia; unfold ui_bytes, ui_ref, ui_version, ui_inc; rewrite V; fget|]).
    rewrite (F 2 (58 + 16) (60 + 16 + zlen (ui_gap i))); [|lia|lia|lia|].
    2:{ unfold ui_bytes, ui_ref, ui_version, ui_inc; rewrite V. fget. }
    rewrite (F 2 (56 + 16) (zlen (ui_name i))); [|lia|lia|lia|].
    2:{ unfold ui_bytes, ui_ref, ui_version, ui_inc; rewrite V. fget. }
    cbn [bind]. rewrite N. now rewrite Z.eqb_refl.
  - change (64 + 8 * 0 / 2) with 64 in *. split; [auto|].
    split; [apply F; try lia; unfold ui_bytes, ui_ref, ui_version, ui_inc; rewrite V; fget|].
    split; [apply F; try lia; unfold ui_bytes, ui_ref, ui_version, ui_inc; rewrite V; fget|].
    split; [apply F; try lia; unfold ui_bytes, ui_ref, ui_version, ui_inc; rewrite V; fget|].
    split; [apply F; try lia; unfold ui_bytes, ui_ref, ui_version, ui_inc; rewrite V; fget|].
    split. { rewrite (F 8 (32 + 0) (ui_time i)); [auto|lia|lia|lia|]. unfold ui_bytes, ui_ref, ui_version, ui_inc. rewrite V. fget. }
    repeat (split; [apply F; try lia; unfold ui_bytes, ui_ref, ui_version, ui_inc; rewrite V; fget|]).
    rewrite (F 2 (58 + 0) (60 + 0 + zlen (ui_gap i))); [|lia|lia|lia|].
    2:{ unfold ui_bytes, ui_ref, ui_version, ui_inc; rewrite V. fget. }
    rewrite (F 2 (56 + 0) (zlen (ui_name i))); [|lia|lia|lia|].
    2:{ unfold ui_bytes, ui_ref, ui_version, ui_inc; rewrite V. fget. }
    cbn [bind]. rewrite N. now rewrite Z.eqb_refl.
Qed.

Lemma extent_bytes_len e : zlen (extent_bytes e) = 16.
Proof. unfold extent_bytes. lens. lia. Qed.

Lemma extents_len l : zlen (flat_map extent_bytes l) = 16 * zlen l.
Proof. induction l as [|e l IH]; cbn [flat_map]; [reflexivity|]. rewrite zlen_app, extent_bytes_len, zlen_cons. lia. Qed.

Lemma u4_len i : zlen (u4_bytes i) = u4_size i.
Proof. unfold u4_bytes, u4_size. lens. rewrite extents_len. lia. Qed.

Lemma signed_mod x : - 2 ^ 63 <= x < 2 ^ 63 -> to_signed 64 (x mod 2 ^ 64) = x.
Proof. intro H. unfold to_signed. change (2 ^ (64 - 1)) with (2 ^ 63). destruct (_ <? _) eqn:E; bools; lia. Qed.

Lemma extents_loop_images l : Forall (fun e => - 2 ^ 63 <= fst e < 2 ^ 63 /\ - 2 ^ 63 <= snd e < 2 ^ 63) l ->
  forall pre rest, extents_loop (length l) (pre ++ flat_map extent_bytes l ++ rest) 16 (zlen pre)
  = map (fun e => Extent (fst e) (snd e)) l.
Proof.
  induction 1 as [|e l [H1 H2] Hl IH]; intros pre rest; cbn [length extents_loop flat_map map]; auto.
  rewrite <- app_assoc. rewrite (slice_app_mid pre (extent_bytes e)) by (rewrite ?extent_bytes_len; lia).
  rewrite extent_bytes_len. cbn [Z.eqb Pos.eqb negb].
  f_equal.
  - unfold decode_extent. rewrite extent_bytes_len. cbn [Z.eqb Pos.eqb]. unfold extent_bytes. f_equal.
    + rewrite fld_here; [apply signed_mod; auto|reflexivity|]. apply Z.mod_pos_bound. lia.
    + rewrite fld_app_r by (lens; lia). lens. change (8 - Z.of_nat 8) with 0.
      rewrite <- (app_nil_r (le_bytes 8 (snd e mod 2 ^ 64))).
      rewrite fld_here; [apply signed_mod; auto|reflexivity|]. apply Z.mod_pos_bound. lia.
  - specialize (IH (pre ++ extent_bytes e) rest). rewrite zlen_app, extent_bytes_len, <- app_assoc in IH. auto.
Qed.

Lemma u4_decodes_bytes i : u4_ok i -> u4_decodes (mk_ur 4 (u4_bytes i)) i.
Proof.
  intros (H1 & H2 & H3 & H4 & H5 & H6 & H7 & H8 & H9 & H10 & H11).
  pose proof (u4_len i) as L. unfold u4_size in L, H1.
  pose proof (zlen_nonneg (u4_extents i)). pose proof (zlen_nonneg (u4_pad i)).
  unfold u4_decodes, ur_minor, ur_file_reference, ur_parent_reference, ur_usn, ur_reason, ur_source,
    ur_remaining_extents, ur_extents, ur_extent_count, ur_extent_size, u16, u32, u64.
  cbn [ur_version ur_raw Z.eqb Pos.eqb].
  assert (F : forall w off v, 0 <= w -> 0 <= off -> off + w <= zlen (u4_bytes i) -> fld w (u4_bytes i) off = v -> unp w (u4_bytes i) off = Ok v).
  { intros w off v ? ? ? <-. now apply unp_ok. }
  split; [auto|].
  split; [apply F; try lia; unfold u4_bytes; fget|].
  split. { unfold u4_bytes. set (y := le_bytes 16 (u4_parent i) ++ _). rewrite !(app_assoc _ _ (_ ++ y)).
      apply wide_halves; [auto|lens; lia]. }
  split. { unfold u4_bytes. set (y := le_bytes 8 (u4_usn i) ++ _). rewrite !(app_assoc _ _ (_ ++ y)).
      apply wide_halves; [auto|lens; lia]. }
  repeat (split; [apply F; try lia; unfold u4_bytes; fget|]).
  rewrite (F 2 60 (zlen (u4_extents i))); [|lia|lia|lia|unfold u4_bytes; fget].
  rewrite (F 2 62 16); [|lia|lia|lia|unfold u4_bytes; fget].
  f_equal. unfold zlen. rewrite Nat2Z.id. unfold u4_bytes.
  set (y := flat_map extent_bytes (u4_extents i) ++ _). rewrite !(app_assoc _ _ y).
  match goal with |- extents_loop _ (?p ++ y) _ _ = _ => replace 64 with (zlen p) by (lens; lia) end.
  now apply extents_loop_images.
Qed.

Lemma ai_at pre a rest : ai_ok a -> exists k, usn_at (pre ++ ai_bytes a ++ rest) (zlen pre) (zlen (ai_bytes a)) k /\
  ai_decodes (mk_ur k (ai_bytes a)) a.
Proof.
  intros H. pose proof (zlen_nonneg pre) as P1. pose proof (zlen_nonneg rest) as P2.
  destruct a as [i|i]; cbn [ai_ok ai_bytes ai_decodes] in *.
  - exists (ui_version i). split; [|now apply ui_decodes_bytes].
    destruct H as (H1 & H2 & H3 & _). rewrite ui_len.
    assert (zlen (pre ++ ui_bytes i ++ rest) = zlen pre + ui_size i + zlen rest) by (lens; rewrite ui_len; lia).
    assert (V : 2 <= ui_version i <= 4) by (unfold ui_version; destruct (ui_v3 i); lia).
    assert (I0 : 0 <= ui_inc i) by (unfold ui_inc; destruct (ui_v3 i); lia).
    split; [lia|]. split; [lia|]. split; [auto|].
    split. { unfold usn_min, ui_version, ui_inc in *. destruct (ui_v3 i); cbn [Z.eqb Pos.eqb]; lia. }
    split; [auto|]. split.
    + unfold ui_bytes. rewrite <- !app_assoc. fget.
    + unfold ui_bytes. rewrite <- !app_assoc. fget.
  - exists 4. split; [|now apply u4_decodes_bytes].
    destruct H as (H1 & H2 & H3 & _). rewrite u4_len.
    assert (zlen (pre ++ u4_bytes i ++ rest) = zlen pre + u4_size i + zlen rest) by (lens; rewrite u4_len; lia).
    split; [lia|]. split; [lia|]. split; [lia|].
    split. { unfold usn_min. cbn [Z.eqb Pos.eqb]. lia. }
    split; [auto|]. split.
    + unfold u4_bytes. rewrite <- !app_assoc. fget.
    + unfold u4_bytes. rewrite <- !app_assoc. fget.
Qed.

Lemma ai_size a : ai_ok a -> zlen (ai_bytes a) mod 8 = 0.
Proof. destruct a as [i|i]; cbn [ai_ok ai_bytes]; intros (_ & H & _); [rewrite ui_len|rewrite u4_len]; auto. Qed.

(** The positions at which the records of a journal start. *)
Fixpoint starts (pos : Z) (l : list (nat * any_image)) : list Z :=
  match l with
  | [] => []
  | (k, a) :: t => pos + 8 * Z.of_nat k :: starts (pos + 8 * Z.of_nat k + zlen (ai_bytes a)) t
  end.

Lemma journal_walk t l : Forall (fun x => ai_ok (snd x)) l -> forall pre, zlen pre mod 8 = 0 ->
  exists rs, usn_walk (pre ++ journal l ++ zeros t) (zlen pre) rs /\ map fst rs = starts (zlen pre) l /\
    Forall2 (fun r x => ur_raw r = ai_bytes (snd x) /\ ai_decodes r (snd x)) (map snd rs) l.
Proof.
  induction 1 as [|[k a] l Ha Hl IH]; intros pre HA; pose proof (zlen_nonneg pre).
  - exists []. split; [|split; constructor]. cbn [journal flat_map app].
    eapply walk_zeros; [apply le_n|lia|]. intros p Hp. rewrite fld_app_r by lia. apply fld_zeros.
  - cbn [snd] in Ha. pose proof (ai_size a Ha) as S.
    set (z := zeros (8 * Z.of_nat k)). assert (Lz : zlen z = 8 * Z.of_nat k) by (apply zlen_zeros; lia).
    assert (E : pre ++ journal ((k, a) :: l) ++ zeros t = (pre ++ z) ++ ai_bytes a ++ journal l ++ zeros t).
    { unfold journal. cbn [flat_map fst snd]. fold z. now rewrite <- !app_assoc. }
    destruct (ai_at (pre ++ z) a (journal l ++ zeros t) Ha) as (v & U & D).
    destruct (IH ((pre ++ z) ++ ai_bytes a)) as (rs & W & M1 & M2).
    { rewrite zlen_app, zlen_app, Lz. lia. }
    rewrite E. replace (((pre ++ z) ++ ai_bytes a) ++ journal l ++ zeros t) with ((pre ++ z) ++ ai_bytes a ++ journal l ++ zeros t) in W
      by now rewrite <- !app_assoc.
    set (data := (pre ++ z) ++ ai_bytes a ++ journal l ++ zeros t) in *.
    assert (SL : slice data (zlen (pre ++ z)) (zlen (pre ++ z) + zlen (ai_bytes a)) = ai_bytes a).
    { unfold data. apply slice_app_mid; reflexivity. }
    exists ((zlen (pre ++ z), mk_ur v (ai_bytes a)) :: rs). split; [|split].
    + apply (usn_walk_skips data _ k); auto.
      * intros p K1 K2 K3 n j (_ & Q & Q2 & Q3 & _ & Q5 & _).
        assert (F0 : fld 4 data p = 0).
        { unfold data. rewrite <- app_assoc. rewrite fld_app_r by lia.
          rewrite fld_app_l by lia. apply fld_zeros. }
        rewrite F0 in Q5. unfold usn_min in Q3. revert Q3. destruct (j =? 2); [|destruct (j =? 3)]; lia.
      * replace (zlen pre + 8 * Z.of_nat k) with (zlen (pre ++ z)) by (rewrite zlen_app; lia).
        rewrite <- SL at 1. apply usw_rec; auto.
        rewrite zlen_app in W. exact W.
    + cbn [map fst starts]. rewrite zlen_app, Lz. f_equal. rewrite M1. f_equal. rewrite !zlen_app, Lz. lia.
    + cbn [map snd]. constructor; auto.
Qed.

(** ** Reason and source codes *)

Lemma resolve_loop_spec table codes : forall left,
  fst (resolve_loop table codes left) = map (fun x => Named (snd x)) (filter (fun x => 0 <? Z.land codes (fst x)) table) /\
  snd (resolve_loop table codes left) = left - fold_right (fun x s => Z.land codes (fst x) + s) 0 (filter (fun x => 0 <? Z.land codes (fst x)) table).
Proof.
  induction table as [|[f s] t IH]; intro left; cbn [resolve_loop filter fst].
  - cbn. split; auto. lia.
  - destruct (0 <? Z.land codes f) eqn:E.
    + specialize (IH (left - Z.land codes f)). destruct (resolve_loop t codes _) as [l r]. cbn [fst snd map fold_right] in *.
      destruct IH as [-> ->]. split; auto. lia.
    + apply IH.
Qed.

(** All the bits of a table; a table with one flag per bit. *)
Definition known (table : list (Z * string)) : Z := fold_right (fun x m => Z.lor (fst x) m) 0 table.
Fixpoint disjoint (table : list (Z * string)) : bool :=
  match table with
  | [] => true
  | x :: t => (0 <=? fst x) && (Z.land (fst x) (known t) =? 0) && disjoint t
  end.

Lemma land_lor_sum codes f k : Z.land f k = 0 -> Z.land codes (Z.lor f k) = Z.land codes f + Z.land codes k.
Proof.
  intro H. rewrite Z.land_lor_distr_r. symmetry. rewrite Z.add_nocarry_lxor.
  - apply Z.lxor_lor. rewrite Z.land_assoc, (Z.land_comm (Z.land codes f)), Z.land_assoc, Z.land_diag.
    now rewrite <- Z.land_assoc, H, Z.land_0_r.
  - rewrite Z.land_assoc, (Z.land_comm (Z.land codes f)), Z.land_assoc, Z.land_diag.
    now rewrite <- Z.land_assoc, H, Z.land_0_r.
Qed.

Lemma sum_known codes table : disjoint table = true ->
  fold_right (fun x s => Z.land codes (fst x) + s) 0 (filter (fun x => 0 <? Z.land codes (fst x)) table)
  = Z.land codes (known table).
Proof.
  induction table as [|[f s] t IH]; cbn [disjoint filter known fold_right fst]; intro D.
  - now rewrite Z.land_0_r.
  - apply andb_true_iff in D as [D D2]. apply andb_true_iff in D as [D0 D1]. bools. fold (known t) in *.
    rewrite land_lor_sum by auto. destruct (0 <? Z.land codes f) eqn:E; bools.
    + cbn [fold_right fst]. rewrite IH by auto. reflexivity.
    + rewrite IH by auto. assert (0 <= Z.land codes f) by (apply Z.land_nonneg; auto). lia.
Qed.

Lemma rest_known codes k : codes - Z.land codes k = Z.ldiff codes k.
Proof.
  rewrite Z.sub_nocarry_ldiff.
  - apply Z.bits_inj'. intros n Hn. rewrite !Z.ldiff_spec, Z.land_spec. destruct (Z.testbit codes n), (Z.testbit k n); reflexivity.
  - apply Z.bits_inj'. intros n Hn. rewrite !Z.ldiff_spec, Z.land_spec, Z.bits_0. destruct (Z.testbit codes n), (Z.testbit k n); reflexivity.
Qed.

Lemma resolve_spec table codes : disjoint table = true -> 0 <= codes ->
  resolve_codes table codes =
  map (fun x => Named (snd x)) (filter (fun x => negb (Z.land codes (fst x) =? 0)) table) ++
  (if Z.ldiff codes (known table) =? 0 then [] else [Hex (Z.ldiff codes (known table))]).
Proof.
  intros D H. unfold resolve_codes. destruct (resolve_loop_spec table codes codes) as [R1 R2].
  destruct (resolve_loop table codes codes) as [l r]. cbn [fst snd] in *. subst l r.
  rewrite sum_known, rest_known by auto.
  assert (N : 0 <= Z.ldiff codes (known table)).
  { apply Z.ldiff_nonneg. now left. }
  replace (filter (fun x => 0 <? Z.land codes (fst x)) table) with (filter (fun x => negb (Z.land codes (fst x) =? 0)) table).
  2:{ apply filter_ext. intro x. assert (0 <= Z.land codes (fst x)) by (apply Z.land_nonneg; now left).
      destruct (Z.eqb_spec (Z.land codes (fst x)) 0); cbn [negb]; lia. }
  destruct (Z.eqb_spec (Z.ldiff codes (known table)) 0) as [E|E].
  - replace (0 <? _) with false by lia. now rewrite app_nil_r.
  - now replace (0 <? _) with true by lia.
Qed.

(** The code can be computed back from the items. *)
Fixpoint items_value (table : list (Z * string)) (l : list code_item) : option Z :=
  match l with
  | [] => Some 0
  | c :: t => match code_value table c, items_value table t with
              | Some a, Some b => Some (Z.lor a b) | _, _ => None end
  end.

Definition single_bits (table : list (Z * string)) : Prop :=
  Forall (fun x => exists k, 0 <= k /\ fst x = 2 ^ k) table /\ NoDup (map snd table).

Lemma items_value_app t a b : items_value t (a ++ b) =
  match items_value t a, items_value t b with Some x, Some y => Some (Z.lor x y) | _, _ => None end.
Proof.
  induction a as [|c a IH]; cbn [app items_value]; [destruct (items_value t b); auto; now rewrite Z.lor_0_l|].
  rewrite IH. destruct (code_value t c), (items_value t a), (items_value t b); auto. now rewrite Z.lor_assoc.
Qed.

Lemma named_value table x : NoDup (map snd table) -> In x table -> code_value table (Named (snd x)) = Some (fst x).
Proof.
  intros N H. cbn [code_value]. destruct (find _ table) as [y|] eqn:E.
  - apply find_some in E as [E1 E2]. apply String.eqb_eq in E2. f_equal. f_equal.
    revert N H E1 E2. induction table as [|z t IH]; cbn [map In]; [tauto|]. intros N. inversion N; subst.
    intros [->|H] [->|E] Q; auto; exfalso; [rewrite <- Q in *|rewrite Q in *]; eauto using in_map.
  - eapply find_none in E; eauto. cbn in E. now rewrite String.eqb_refl in E.
Qed.

Lemma items_known table codes sub : NoDup (map snd table) -> incl sub table -> Forall (fun x => exists k, 0 <= k /\ fst x = 2 ^ k) sub ->
  items_value table (map (fun x => Named (snd x)) (filter (fun x => negb (Z.land codes (fst x) =? 0)) sub))
  = Some (Z.land codes (known sub)).
Proof.
  intros N I S. induction S as [|x sub (k & Hk & E) S IH]; cbn [filter map items_value known fold_right]; [now rewrite Z.land_0_r|].
  fold (known sub). specialize (IH (fun y Hy => I y (or_intror Hy))).
  rewrite Z.land_lor_distr_r. rewrite E, land_pow2 by auto. pose proof (Z.pow_pos_nonneg 2 k).
  destruct (Z.testbit codes k).
  - replace (2 ^ k =? 0) with false by lia. cbn [negb map items_value]. rewrite IH.
    rewrite named_value by (auto; apply I; now left). now rewrite E.
  - cbn [Z.eqb negb]. rewrite Z.lor_0_l. apply IH.
Qed.

Lemma resolve_inverse table codes : disjoint table = true -> single_bits table -> 0 <= codes ->
  items_value table (resolve_codes table codes) = Some codes.
Proof.
  intros D [S N] H. rewrite resolve_spec by auto. rewrite items_value_app, items_known by (auto; apply incl_refl).
  assert (E : Z.lor (Z.land codes (known table)) (Z.ldiff codes (known table)) = codes).
  { apply Z.bits_inj'. intros n Hn. rewrite Z.lor_spec, Z.ldiff_spec, Z.land_spec.
    destruct (Z.testbit codes n), (Z.testbit (known table) n); reflexivity. }
  destruct (Z.eqb_spec (Z.ldiff codes (known table)) 0) as [Q|Q]; cbn [items_value code_value].
  - rewrite Q in E. now rewrite E.
  - rewrite Z.lor_0_r. now rewrite E.
Qed.

Lemma reason_bits : single_bits reason_list.
Proof.
  split.
  - unfold reason_list. repeat (constructor; [match goal with |- exists k, _ /\ ?v = _ => exists (Z.log2 v) end; split; [vm_compute; congruence|reflexivity]|]). constructor.
  - assert (G : forall l : list string, (fix nd l := match l with [] => true | x :: t => negb (existsb (String.eqb x) t) && nd t end) l = true -> NoDup l).
    { induction l as [|x l IH]; intro Q; constructor; apply andb_true_iff in Q as [Q1 Q2]; auto.
      intro HI. apply negb_true_iff in Q1. assert (existsb (String.eqb x) l = true); [|congruence].
      apply existsb_exists. exists x. split; auto. apply String.eqb_refl. }
    apply G. vm_compute. reflexivity.
Qed.

Lemma source_bits : single_bits source_list.
Proof.
  split.
  - unfold source_list. repeat (constructor; [match goal with |- exists k, _ /\ ?v = _ => exists (Z.log2 v) end; split; [vm_compute; congruence|reflexivity]|]). constructor.
  - unfold source_list. cbn [map snd]. repeat constructor; cbn [In]; intuition congruence.
Qed.
