From Verif Require Import Base BaseLemmas MappingPairs MappingPairsSpec MappingPairsProofs Frs FrsSpec.

(** ** Slices and pointwise equality *)

Lemma slice_ext {A} (a b : list A) p q : 0 <= p -> zlen a = zlen b ->
  (forall i, p <= i < q -> znth a i = znth b i) -> slice a p q = slice b p q.
Proof.
  intros Hp Hl H; apply znth_ext.
  - rewrite !zlen_slice by lia; lia.
  - intros i Hi; rewrite zlen_slice in Hi by lia.
    rewrite !znth_slice by lia; apply H; lia.
Qed.


Lemma fld_ext w a b p : 0 <= p -> zlen a = zlen b ->
  (forall i, p <= i < p + w -> znth a i = znth b i) -> fld w a p = fld w b p.
Proof. intros; unfold fld; f_equal; now apply slice_ext. Qed.

Lemma slice2 {A} (d : list A) p : 0 <= p -> p + 2 <= zlen d ->
  exists a b, slice d p (p + 2) = [a; b] /\ znth d p = Some a /\ znth d (p + 1) = Some b.
Proof.
  intros Hp Hl.
  destruct (znth_some d p ltac:(lia)) as [a Ha].
  destruct (znth_some d (p + 1) ltac:(lia)) as [b Hb].
  exists a, b; repeat split; auto.
  apply znth_ext.
  - rewrite zlen_slice by lia; rewrite !zlen_cons; change (zlen (@nil A)) with 0; lia.
  - intros i Hi; rewrite zlen_slice in Hi by lia; rewrite znth_slice by lia.
    assert (i = 0 \/ i = 1) as [->| ->] by lia; [rewrite Z.add_0_r|]; auto.
Qed.

Lemma slice_nil {A} (l : list A) a : slice l a a = [].
Proof. apply slice_empty; lia. Qed.

(** ** The fix-up loop *)

Section Fixup.
  Variable raw : list Z.
  Variable uo us : Z.
  Hypothesis Huo : 42 <= uo.
  Hypothesis Hus : (us - 1) * 512 = zlen raw.
  Hypothesis Hend : uo + 2 * us < zlen raw.

  Definition Inv (data : list Z) (i : Z) : Prop :=
    zlen data = zlen raw /\
    forall p, 0 <= p < zlen raw ->
      (p mod 512 < 510 -> znth data p = znth raw p) /\
      (uo + 2 * us <= 510 -> 510 <= p mod 512 -> p / 512 < i - 1 ->
         znth data p = znth raw (uo + 2 * (p / 512 + 1) + (p mod 512 - 510))) /\
      (510 <= p mod 512 -> i - 1 <= p / 512 -> znth data p = znth raw p).

  Lemma Inv_init : Inv raw 1.
  Proof. split; auto; intros p Hp; repeat split; auto; intros; lia. Qed.

  Lemma Inv_low data i p w : Inv data i -> 0 <= p -> p + w <= 510 -> p + w <= zlen raw ->
    slice data p (p + w) = slice raw p (p + w).
  Proof.
    intros [Hl H] Hp Hw Hr; apply slice_ext; auto.
    intros j Hj; destruct (H j) as [H1 _]; [lia|]; apply H1; lia.
  Qed.

  Lemma Inv_fld data i p w : Inv data i -> 0 <= p -> p + w <= 510 -> p + w <= zlen raw ->
    fld w data p = fld w raw p.
  Proof. intros; unfold fld; f_equal; eapply Inv_low; eauto. Qed.

  Lemma Inv_tail data i k : Inv data i -> 0 <= k -> i - 1 <= k -> 512 * (k + 1) <= zlen raw ->
    tail data k = tail raw k.
  Proof.
    intros [Hl H] Hk Hi Hr; unfold tail; apply slice_ext; [lia|auto|].
    intros j Hj; destruct (H j) as [_ [_ H3]]; [lia|]; apply H3; lia.
  Qed.

  Lemma Inv_step data i b0 b1 : Inv data i -> 1 <= i < us ->
    znth data (uo + i * 2) = Some b0 -> znth data (uo + i * 2 + 1) = Some b1 ->
    Inv (zset (zset data (i * 512 - 2) b0) (i * 512 - 2 + 1) b1) (i + 1).
  Proof.
    intros [Hl H] Hi E0 E1; split; [now rewrite !zlen_zset|].
    intros p Hp.
    destruct (Z.eq_dec p (i * 512 - 2)) as [->|N0];
      [|destruct (Z.eq_dec p (i * 512 - 2 + 1)) as [->|N1]].
    - rewrite znth_zset_other by lia. rewrite znth_zset_same by lia.
      repeat split; intros; try lia.
      rewrite <- E0.
      destruct (H (uo + i * 2)) as [HA _]; [lia|].
      rewrite HA by lia. f_equal; lia.
    - rewrite znth_zset_same by (rewrite ?zlen_zset; lia).
      repeat split; intros; try lia.
      rewrite <- E1.
      destruct (H (uo + i * 2 + 1)) as [HA _]; [lia|].
      rewrite HA by lia. f_equal; lia.
    - rewrite !znth_zset_other by lia.
      destruct (H p Hp) as [HA [HB HC]]; repeat split; auto; intros.
      + apply HB; auto; lia.
      + apply HC; auto; lia.
  Qed.

  Lemma loop_spec : forall fuel data i,
    Inv data i -> 1 <= i <= us -> us - i < Z.of_nat fuel ->
    (forall k, 0 <= k < i - 1 -> intact raw uo k) ->
    0 < first_free_off raw ->
    match apply_usa_loop fuel (usn_of raw uo) uo us data i (i - 1) with
    | Err e => e = FileRecordSegmentException /\
        exists k, 0 <= k < us - 1 /\ 512 * k < first_free_off raw /\ ~ intact raw uo k
    | Ok (out, m) =>
        i - 1 <= m < us /\ Inv out (m + 1) /\ (forall k, 0 <= k < m -> intact raw uo k) /\
        (m = us - 1 \/ (0 < m /\ ~ intact raw uo m /\ first_free_off raw <= 512 * m))
    end.
  Proof.
    induction fuel as [|fuel IH]; intros data i HI Hi Hf Hint Hff; [lia|].
    cbn [apply_usa_loop].
    destruct (Z.ltb_spec i us) as [Hlt|Hge].
    2:{ assert (i = us) by lia; subst i.
        split; [lia|]. replace (us - 1 + 1) with us by lia. auto. }
    assert (Eff : h_first_free data = first_free_off raw).
    { apply (Inv_fld data i); auto; lia. }
    rewrite Eff; unfold stride in *.
    assert (Et : slice data (i * 512 - 2) (i * 512 - 2 + 2) = tail raw (i - 1)).
    { rewrite <- (Inv_tail data i (i - 1)) by (auto; lia).
      unfold tail; f_equal; lia. }
    rewrite Et.
    destruct (zlist_eqb (usn_of raw uo) (tail raw (i - 1))) eqn:M; cbn [negb andb].
    - apply zlist_eqb_eq in M.
      assert (HIi : intact raw uo (i - 1)) by (red; auto).
      destruct HI as [Hl HI'].
      destruct (slice2 data (uo + i * 2)) as [b0 [b1 [Es [E0 E1]]]]; [lia|lia|].
      rewrite Es; cbn [index znth Z.eqb Z.ltb bind Z.compare].
      change (index [b0; b1] 0) with (Ok b0); change (index [b0; b1] 1) with (Ok b1).
      cbn [bind].
      assert (HS : Inv (zset (zset data (i * 512 - 2) b0) (i * 512 - 2 + 1) b1) (i + 1)).
      { apply Inv_step; auto; [split; auto|lia]. }
      assert (HK : forall k, 0 <= k < i + 1 - 1 -> intact raw uo k).
      { intros k Hk; destruct (Z.eq_dec k (i - 1)) as [->|]; auto; apply Hint; lia. }
      specialize (IH _ (i + 1) HS ltac:(lia) ltac:(lia) HK Hff).
      replace (i - 1 + 1) with (i + 1 - 1) by lia.
      destruct (apply_usa_loop _ _ _ _ _ _ _) as [[out m]|e]; auto.
      destruct IH as [H1 H2]; split; [lia|]; auto.
    - apply zlist_eqb_neq in M.
      assert (HN : ~ intact raw uo (i - 1)) by (intro X; red in X; congruence).
      destruct (Z.ltb_spec ((i - 1) * 512) (first_free_off raw)) as [Hu|Hu].
      + split; auto; exists (i - 1); repeat split; auto; lia.
      + replace (0 <? i - 1) with true by lia.
        split; [lia|]. replace (i - 1 + 1) with i by lia.
        split; auto. split; auto. right; repeat split; auto; lia.
  Qed.

  (** Without any assumption on the first free offset. *)
  Lemma loop_weak : forall fuel data i applied,
    Inv data i -> 1 <= i <= us -> us - i < Z.of_nat fuel ->
    match apply_usa_loop fuel (usn_of raw uo) uo us data i applied with
    | Err e => e = FileRecordSegmentException
    | Ok (out, m) => exists j, Inv out j
    end.
  Proof.
    induction fuel as [|fuel IH]; intros data i applied HI Hi Hf; [lia|].
    cbn [apply_usa_loop].
    destruct (Z.ltb_spec i us) as [Hlt|Hge]; [|eauto].
    destruct (_ && _); auto. destruct (_ && _); eauto.
    assert (Hl := proj1 HI).
    destruct (slice2 data (uo + i * 2)) as [b0 [b1 [Es [E0 E1]]]]; [lia|lia|].
    rewrite Es.
    change (index [b0; b1] 0) with (Ok b0); change (index [b0; b1] 1) with (Ok b1).
    cbn [bind]. apply IH; try lia. unfold stride; apply Inv_step; auto; lia.
  Qed.

End Fixup.

(** ** Opening a record *)

Lemma frs_sizes_ok n : zin n frs_sizes = true <-> size_ok n.
Proof. unfold size_ok, frs_sizes, zin; cbn [existsb]; lia. Qed.

Lemma signatures_ok raw :
  existsb (zlist_eqb (slice raw 0 4)) frs_signatures = true <-> signature_ok raw.
Proof.
  unfold frs_signatures, signature_ok; cbn [existsb].
  rewrite !orb_true_iff, !zlist_eqb_eq. unfold sig_FILE, sig_BAAD, sig_CHKD.
  intuition congruence.
Qed.

Lemma parse_header_spec raw validate : 8 <= zlen raw -> bytes_ok raw ->
  match parse_multi_sector_header raw validate with
  | Ok (a, b) => a = usa_off raw /\ b = usa_cnt raw /\ signature_ok raw /\
                 (validate = true -> usa_ok raw)
  | Err e => exn_frs e /\ (~ signature_ok raw \/ (validate = true /\ ~ usa_ok raw))
  end.
Proof.
  intros Hl Hb; unfold parse_multi_sector_header, u16.
  rewrite !unp_ok by lia; cbn [bind].
  fold (usa_off raw); fold (usa_cnt raw); unfold exn_frs, usa_ok, stride.
  pose proof (fld_bound 2 raw 6 ltac:(lia) ltac:(lia) Hb) as B; fold (usa_cnt raw) in B.
  destruct (existsb (zlist_eqb (slice raw 0 4)) frs_signatures) eqn:S.
  2:{ cbn [negb]. split; auto. left; rewrite <- signatures_ok; congruence. }
  apply signatures_ok in S; cbn [negb].
  destruct validate; [|repeat split; auto; discriminate].
  destruct ((usa_off raw <? 42) || (512 - 6 <? usa_off raw)) eqn:G1.
  { split; auto; right; split; auto; lia. }
  destruct ((usa_cnt raw <? 2) || negb ((usa_cnt raw - 1) * 512 =? zlen raw)) eqn:G2.
  { split; auto; right; split; auto; lia. }
  destruct (zlen raw <=? usa_off raw + usa_cnt raw * 2) eqn:G3.
  { split; auto; right; split; auto; lia. }
  repeat split; auto; lia.
Qed.

Lemma validate_header_spec data uo us :
  match validate_frs_header data uo us with
  | Ok _ => size_ok (declared_size data) /\ declared_size data <= zlen data /\
      42 <= first_free_off data <= declared_size data /\
      first_attr_off data mod 8 = 0 /\ 8 <= first_attr_off data <= declared_size data - 24 /\
      uo + 2 * us <= first_attr_off data
  | Err e => e = FileRecordSegmentException /\
      ~ (size_ok (declared_size data) /\ declared_size data <= zlen data /\
      42 <= first_free_off data <= declared_size data /\
      first_attr_off data mod 8 = 0 /\ 8 <= first_attr_off data <= declared_size data - 24 /\
      uo + 2 * us <= first_attr_off data)
  end.
Proof.
  unfold validate_frs_header.
  fold (declared_size data); fold (first_free_off data); fold (first_attr_off data).
  change (h_size data) with (declared_size data).
  change (h_first_free data) with (first_free_off data).
  change (h_first_attr data) with (first_attr_off data).
  destruct (zin (declared_size data) frs_sizes) eqn:Z1.
  2:{ cbn [negb]; split; auto. intros [H _]; apply frs_sizes_ok in H; congruence. }
  apply frs_sizes_ok in Z1; cbn [negb].
  destruct (Z.ltb_spec (zlen data) (declared_size data)); [split; auto; lia|].
  destruct ((first_free_off data <? 42) || (declared_size data <? first_free_off data)) eqn:G1;
    [split; auto; lia|].
  destruct ((first_attr_off data <? 8) || negb (first_attr_off data mod 8 =? 0)
    || (declared_size data - 24 <? first_attr_off data) || (first_attr_off data <? uo + us * 2)) eqn:G2;
    [split; auto; lia|].
  repeat split; auto; lia.
Qed.

Lemma header_ok_ext a b : zlen a = zlen b ->
  (forall p, 0 <= p < 32 -> znth a p = znth b p) -> header_ok a -> header_ok b.
Proof.
  intros Hl H [H1 [H2 H3]].
  assert (F : forall w p, 0 <= p -> p + w <= 32 -> fld w a p = fld w b p).
  { intros w p Hp Hw; apply fld_ext; auto; intros i Hi; apply H; lia. }
  assert (S : slice a 0 4 = slice b 0 4).
  { apply slice_ext; auto; [lia|]; intros i Hi; apply H; lia. }
  unfold header_ok, size_ok, signature_ok, declared_size, first_free_off, first_attr_off, usa_off, usa_cnt in *.
  rewrite Hl, S in *. rewrite !F in H3 by lia. auto.
Qed.

(** The full characterisation of opening with the array applied. *)
Lemma frs_open_true_spec raw sug : bytes_ok raw ->
  match frs_open raw true sug with
  | Ok f => header_ok raw /\ usa_ok raw /\ used_intact raw /\
      zlen (frs_data f) = zlen raw /\
      frs_usa_offset f = usa_off raw /\ frs_usa_size f = usa_cnt raw /\ frs_suggested f = sug /\
      (usa_off raw + 2 * usa_cnt raw <= 510 -> restored raw (frs_data f) (usa_off raw)) /\
      (forall p, 0 <= p < zlen raw -> p mod 512 < 510 -> znth (frs_data f) p = znth raw p)
  | Err e => exn_frs e /\ ~ (header_ok raw /\ usa_ok raw /\ used_intact raw)
  end.
Proof.
  intros Hb; unfold frs_open.
  destruct (zin (zlen raw) frs_sizes) eqn:Z1.
  2:{ cbn [negb]; split; [left; auto|]. intros [[H _] _]; apply frs_sizes_ok in H; congruence. }
  apply frs_sizes_ok in Z1; cbn [negb].
  assert (Hlen : 1024 <= zlen raw) by (destruct Z1; lia).
  pose proof (parse_header_spec raw true ltac:(lia) Hb) as P.
  destruct (parse_multi_sector_header raw true) as [[uo us]|e]; cbn [bind].
  2:{ destruct P as [Pe P]; split; auto. intros [[_ [S _]] [U _]]; tauto. }
  destruct P as [-> [-> [SG U]]]; specialize (U eq_refl).
  destruct U as [U1 [U2 U3]].
  assert (U : usa_ok raw) by (unfold usa_ok; auto).
  set (uo := usa_off raw) in *; set (us := usa_cnt raw) in *.
  unfold apply_usa. fold (usn_of raw uo).
  assert (HI := Inv_init raw uo us).
  assert (Hff0 : 0 <= first_free_off raw) by (apply fld_bound; auto; lia).
  destruct (Z.eq_dec (first_free_off raw) 0) as [Z0|NZ0].
  - (* rejected later *)
    pose proof (loop_weak raw uo us ltac:(lia) U2 U3 (S (Z.to_nat us)) raw 1 0 HI ltac:(lia) ltac:(lia)) as W.
    assert (NOT : ~ (header_ok raw /\ usa_ok raw /\ used_intact raw)).
    { intros [[_ [_ [_ [_ [H _]]]]] _]; lia. }
    destruct (apply_usa_loop _ _ _ _ _ _ _) as [[out m]|e]; cbn [bind].
    2:{ subst e; split; [left|]; auto. }
    destruct W as [j HJ].
    destruct (m =? 0); cbn [bind]; [split; [left|]; auto|].
    pose proof (validate_header_spec out uo us) as V.
    destruct (validate_frs_header out uo us); cbn [bind].
    + exfalso. destruct V as [_ [_ [V _]]].
      unfold first_free_off in V. rewrite (Inv_fld raw uo us out j) in V by (auto; lia).
      fold (first_free_off raw) in V; lia.
    + destruct V as [-> _]; split; [left|]; auto.
  - pose proof (loop_spec raw uo us ltac:(lia) U2 U3 (S (Z.to_nat us)) raw 1 HI ltac:(lia) ltac:(lia)
                ltac:(intros; lia) ltac:(lia)) as W.
    change (1 - 1) with 0 in W.
    destruct (apply_usa_loop _ _ _ _ _ _ _) as [[out m]|e]; cbn [bind].
    2:{ destruct W as [-> [k [Hk [Hk2 Hk3]]]]; split; [left; auto|].
        intros [_ [_ UI]]. apply Hk3, UI; lia. }
    destruct W as [Hm [HO [Hint Hcase]]].
    destruct (Z.eqb_spec m 0) as [->|Hm0]; cbn [bind].
    { exfalso; lia. }
    assert (UI : used_intact raw).
    { intros k Hk0 Hk1 Hk2. apply Hint. fold uo. lia. }
    assert (Ho := proj1 HO).
    assert (EQ : forall w p, 0 <= p -> p + w <= 48 -> fld w out p = fld w raw p).
    { intros; apply (Inv_fld raw uo us out (m + 1)); auto; lia. }
    pose proof (validate_header_spec out uo us) as V.
    unfold declared_size, first_free_off, first_attr_off in V.
    rewrite !EQ in V by lia. rewrite Ho in V.
    fold (declared_size raw) in V; fold (first_free_off raw) in V; fold (first_attr_off raw) in V.
    destruct (validate_frs_header out uo us); cbn [bind frs_data frs_usa_offset frs_usa_size frs_suggested].
    2:{ destruct V as [-> V]; split; [left; auto|].
        intros [H _]; apply V. unfold header_ok in H; fold uo us in H; tauto. }
    split; [unfold header_ok; fold uo us; tauto|].
    split; auto. split; auto. split; auto. split; auto. split; auto. split; auto.
    split.
    + intro No. split; auto. intros p Hp.
      destruct HO as [_ HO]; destruct (HO p Hp) as [H1 [H2 H3]].
      split; auto. split; intros Ht Hall.
      * apply H2; auto.
        destruct (Z.lt_ge_cases (p / 512) m) as [|Hge]; [lia|].
        destruct Hcase as [->|[_ [HN _]]]; [lia|].
        exfalso; apply HN, Hall; lia.
      * destruct Hall as [j [Hj Hn]].
        apply H3; auto.
        destruct (Z.lt_ge_cases j m); [|lia].
        exfalso; apply Hn, Hint; lia.
    + intros p Hp Hlow. destruct HO as [_ HO]; destruct (HO p Hp) as [H1 _]; auto.
Qed.

Lemma frs_open_false_spec raw sug : bytes_ok raw ->
  match frs_open raw false sug with
  | Ok f => header_ok raw /\ f = mk_frs raw (usa_off raw) (usa_cnt raw) sug
  | Err e => exn_frs e /\ ~ header_ok raw
  end.
Proof.
  intros Hb; unfold frs_open.
  destruct (zin (zlen raw) frs_sizes) eqn:Z1.
  2:{ cbn [negb]; split; [left; auto|]. intros [H _]; apply frs_sizes_ok in H; congruence. }
  apply frs_sizes_ok in Z1; cbn [negb].
  assert (Hlen : 1024 <= zlen raw) by (destruct Z1; lia).
  pose proof (parse_header_spec raw false ltac:(lia) Hb) as P.
  destruct (parse_multi_sector_header raw false) as [[uo us]|e]; cbn [bind].
  2:{ destruct P as [Pe P]; split; auto. intros [_ [S _]]; destruct P as [?|[? _]]; [tauto|discriminate]. }
  destruct P as [-> [-> [S _]]].
  pose proof (validate_header_spec raw (usa_off raw) (usa_cnt raw)) as V.
  destruct (validate_frs_header _ _ _); cbn [bind].
  - split; auto. unfold header_ok; tauto.
  - destruct V as [-> V]; split; [left; auto|]. unfold header_ok; tauto.
Qed.

Lemma frs_open_len raw apply sug f : bytes_ok raw -> frs_open raw apply sug = Ok f ->
  header_ok raw /\ zlen (frs_data f) = zlen raw.
Proof.
  intros Hb H; destruct apply.
  - pose proof (frs_open_true_spec raw sug Hb) as P; rewrite H in P; tauto.
  - pose proof (frs_open_false_spec raw sug Hb) as P; rewrite H in P.
    destruct P as [P ->]; auto.
Qed.

(** ** Protecting a record *)

Lemma zlen_put l off bs : 0 <= off -> off + zlen bs <= zlen l -> zlen (put l off bs) = zlen l.
Proof.
  intros; unfold put; rewrite !zlen_app, zlen_ztake, zlen_zdrop; pose proof (zlen_nonneg bs); lia.
Qed.

Lemma znth_put l off bs p : 0 <= off -> off + zlen bs <= zlen l -> 0 <= p ->
  znth (put l off bs) p =
  if (off <=? p) && (p <? off + zlen bs) then znth bs (p - off) else znth l p.
Proof.
  intros Ho Hl Hp; unfold put; pose proof (zlen_nonneg bs).
  assert (L : zlen (ztake off l) = off) by (rewrite zlen_ztake; lia).
  destruct (Z.lt_ge_cases p off).
  - rewrite znth_app1 by lia. replace (_ && _) with false by lia. apply znth_ztake; lia.
  - rewrite znth_app2 by lia. rewrite L.
    destruct (Z.lt_ge_cases p (off + zlen bs)).
    + replace (_ && _) with true by lia. apply znth_app1; lia.
    + replace (_ && _) with false by lia. rewrite znth_app2 by lia.
      rewrite znth_zdrop by lia. f_equal; lia.
Qed.

Lemma bytes_ok_put l off bs : bytes_ok l -> bytes_ok bs -> bytes_ok (put l off bs).
Proof.
  intros; unfold put; rewrite !bytes_ok_app; auto using bytes_ok_ztake, bytes_ok_zdrop.
Qed.

Lemma zlen_tail l k : 0 <= k -> 512 * (k + 1) <= zlen l -> zlen (tail l k) = 2.
Proof. intros; unfold tail; rewrite zlen_slice by lia; lia. Qed.

Lemma put_saved_spec l src uo n : 0 <= uo -> 512 * Z.of_nat n <= zlen src ->
  uo + 2 * (Z.of_nat n + 1) <= zlen l ->
  zlen (put_saved l src uo n) = zlen l /\
  (bytes_ok l -> bytes_ok src -> bytes_ok (put_saved l src uo n)) /\
  forall p, 0 <= p -> znth (put_saved l src uo n) p =
    if (uo + 2 <=? p) && (p <? uo + 2 + 2 * Z.of_nat n)
    then znth src (512 * ((p - uo) / 2 - 1) + 510 + (p - uo) mod 2) else znth l p.
Proof.
  intros Hu; induction n as [|m IH]; intros Hs Hl; cbn [put_saved].
  - repeat split; auto. intros p Hp. replace (_ && _) with false by lia; auto.
  - rewrite Nat2Z.inj_succ in *. destruct IH as [IHl [IHb IH]]; [lia|lia|].
    assert (T := zlen_tail src (Z.of_nat m) ltac:(lia) ltac:(lia)).
    split; [|split].
    + rewrite zlen_put; lia.
    + intros; apply bytes_ok_put; auto; apply bytes_ok_slice; auto.
    + intros p Hp. rewrite znth_put by lia. rewrite T.
      destruct ((uo + 2 * (Z.of_nat m + 1) <=? p) && (p <? uo + 2 * (Z.of_nat m + 1) + 2)) eqn:G.
      * replace (_ && _) with true by lia. unfold tail; rewrite znth_slice by lia.
        f_equal; lia.
      * rewrite IH by lia. ifs; try lia; reflexivity.
Qed.

Lemma put_tails_spec l usn n : zlen usn = 2 -> 512 * Z.of_nat n <= zlen l ->
  zlen (put_tails l usn n) = zlen l /\
  (bytes_ok l -> bytes_ok usn -> bytes_ok (put_tails l usn n)) /\
  forall p, 0 <= p -> znth (put_tails l usn n) p =
    if (510 <=? p mod 512) && (p <? 512 * Z.of_nat n)
    then znth usn (p mod 512 - 510) else znth l p.
Proof.
  intros Hu; induction n as [|m IH]; intros Hs; cbn [put_tails].
  - repeat split; auto. intros p Hp. replace (_ && _) with false by lia; auto.
  - rewrite Nat2Z.inj_succ in *. destruct IH as [IHl [IHb IH]]; [lia|].
    split; [|split].
    + rewrite zlen_put; lia.
    + intros; apply bytes_ok_put; auto.
    + intros p Hp. rewrite znth_put by lia. rewrite Hu.
      destruct ((512 * Z.of_nat m + 510 <=? p) && (p <? 512 * Z.of_nat m + 510 + 2)) eqn:G.
      * replace (_ && _) with true by lia. f_equal; lia.
      * rewrite IH by lia. ifs; try lia; reflexivity.
Qed.

Lemma protect_round_trip rec usn sug :
  bytes_ok rec -> bytes_ok usn -> zlen usn = 2 ->
  header_ok rec -> usa_ok rec -> usa_off rec + 2 * usa_cnt rec <= 510 ->
  frs_open (protect rec usn) true sug =
  Ok (mk_frs (with_array rec usn) (usa_off rec) (usa_cnt rec) sug).
Proof.
  intros Hb Hbu Hu Hh Ha Hno.
  set (uo := usa_off rec) in *; set (us := usa_cnt rec) in *.
  assert (HA := Ha); destruct Ha as [A1 [A2 A3]]; fold uo us in A1, A2, A3.
  assert (Hsz := proj1 Hh).
  set (n := Z.to_nat (zlen rec / 512)).
  assert (Hn : 512 * Z.of_nat n = zlen rec) by (unfold n; destruct Hsz as [E|E]; rewrite E; reflexivity).
  assert (Hus : us = Z.of_nat n + 1) by lia.
  assert (P0 : forall p, 0 <= p -> znth (put rec uo usn) p =
            if (uo <=? p) && (p <? uo + 2) then znth usn (p - uo) else znth rec p).
  { intros p Hp; rewrite znth_put by lia; now rewrite Hu. }
  assert (PL : zlen (put rec uo usn) = zlen rec) by (apply zlen_put; lia).
  destruct (put_saved_spec (put rec uo usn) rec uo n) as [CL [CB C]]; [lia|lia|lia|].
  fold (with_array rec usn) in *. unfold with_array in *; fold uo n.
  set (clean := put_saved (put rec uo usn) rec uo n) in *.
  destruct (put_tails_spec clean usn n Hu ltac:(lia)) as [RL [RB R]].
  unfold protect, with_array; fold uo n clean.
  set (raw := put_tails clean usn n) in *.
  assert (Hbr : bytes_ok raw) by (apply RB; auto; apply CB; auto; apply bytes_ok_put; auto).
  assert (EqHead : forall p, 0 <= p < 42 -> znth rec p = znth raw p).
  { intros p Hp. rewrite R by lia. replace (_ && _) with false by lia.
    rewrite C by lia. replace (_ && _) with false by lia.
    rewrite P0 by lia. replace (_ && _) with false by lia. reflexivity. }
  assert (Lraw : zlen raw = zlen rec) by lia.
  assert (FH : forall w p, 0 <= p -> p + w <= 42 -> fld w raw p = fld w rec p).
  { intros w p Hp Hw; apply fld_ext; auto; intros i Hi; symmetry; apply EqHead; lia. }
  assert (Euo : usa_off raw = uo) by (apply FH; lia).
  assert (Eus : usa_cnt raw = us) by (apply FH; lia).
  assert (Hhr : header_ok raw).
  { apply (header_ok_ext rec); auto; intros; apply EqHead; lia. }
  assert (Har : usa_ok raw) by (unfold usa_ok; rewrite Euo, Eus, Lraw; lia).
  assert (Usn : usn_of raw uo = usn).
  { unfold usn_of. apply znth_ext; [rewrite zlen_slice by lia; lia|].
    intros i Hi; rewrite zlen_slice in Hi by lia; rewrite znth_slice by lia.
    rewrite R by lia. replace (_ && _) with false by lia.
    rewrite C by lia. replace (_ && _) with false by lia.
    rewrite P0 by lia. replace (_ && _) with true by lia. f_equal; lia. }
  assert (Int : forall k, 0 <= k -> 512 * (k + 1) <= zlen raw -> intact raw uo k).
  { intros k Hk Hk2; red; rewrite Usn. unfold tail.
    apply znth_ext; [rewrite zlen_slice by lia; lia|].
    intros i Hi; rewrite zlen_slice in Hi by lia; rewrite znth_slice by lia.
    rewrite R by lia. replace (_ && _) with true by lia. f_equal; lia. }
  assert (UI : used_intact raw) by (intros k Hk Hk1 Hk2; rewrite Euo; apply Int; lia).
  pose proof (frs_open_true_spec raw sug Hbr) as O.
  destruct (frs_open raw true sug) as [f|e]; [|exfalso; tauto].
  destruct O as [_ [_ [_ [O1 [O2 [O3 [O4 [O5 _]]]]]]]].
  destruct f as [d a b c]; cbn [frs_data frs_usa_offset frs_usa_size frs_suggested] in *.
  subst a b c. rewrite Euo, Eus in *. do 2 f_equal.
  specialize (O5 ltac:(lia)). destruct O5 as [_ O5].
  apply znth_ext; [lia|]. intros p Hp.
  destruct (O5 p ltac:(lia)) as [OA [OB _]].
  destruct (Z.lt_ge_cases (p mod 512) 510) as [Hlow|Hhigh].
  - rewrite OA by lia. rewrite R by lia. replace (_ && _) with false by lia. auto.
  - rewrite OB by (auto; intros; apply Int; lia).
    rewrite R by lia. replace (_ && _) with false by lia.
    rewrite C by lia. replace (_ && _) with true by lia.
    rewrite C by lia. replace (_ && _) with false by lia.
    rewrite P0 by lia. replace (_ && _) with false by lia. f_equal; lia.
Qed.

(** ** Attribute enumeration *)

Lemma fld_slice w d a b off : 0 <= a -> 0 <= off -> a + off + w <= b ->
  fld w (slice d a b) off = fld w d (a + off).
Proof.
  intros; unfold fld; rewrite slice_slice by lia; f_equal; f_equal; lia.
Qed.

Lemma attribute_name_spec d ff pos form nl no : 0 <= pos -> 0 <= nl -> 0 <= no ->
  match attribute_name_at d ff pos form nl no with
  | Ok n => exists raw, n = option_map utf16le raw /\ name_at d pos nl no raw /\
      (0 < nl -> (form = 1 -> 64 <= no) /\ (form = 0 -> 24 <= no) /\ pos + no + 2 * nl <= ff)
  | Err e => e = AttributeException /\
      forall raw, name_at d pos nl no raw -> 0 < nl /\
        ((form = 1 /\ no < 64) \/ (form = 0 /\ no < 24) \/ ff < pos + no + 2 * nl)
  end.
Proof.
  intros Hp Hnl Hno; unfold attribute_name_at.
  destruct (Z.ltb_spec 0 nl) as [Hn|Hn].
  - destruct (negb (no mod 2 =? 0) || (form =? 1) && (no <? 64) || (form =? 0) && (no <? 24)) eqn:G1.
    { split; auto; intros raw HN; inversion HN; subst; lia. }
    destruct (Z.ltb_spec ff (pos + no + nl * 2)).
    { split; auto; intros raw HN; inversion HN; subst; lia. }
    rewrite zlen_slice by lia.
    destruct (Z.eqb_spec (Z.max 0 (Z.min (pos + no + nl * 2 - (pos + no)) (zlen d - (pos + no)))) (nl * 2)).
    + exists (Some (slice d (pos + no) (pos + no + 2 * nl))).
      split; [now rewrite (Z.mul_comm nl)|].
      split; [constructor; lia|lia].
    + split; auto; intros raw HN; inversion HN; subst; lia.
  - exists None; split; auto. assert (nl = 0) by lia; subst. split; [constructor|lia].
Qed.

Lemma attribute_step_spec d ff pos : bytes_ok d -> 0 <= pos -> ff <= zlen d ->
  match attribute_step d ff pos with
  | Ok None => end_at d pos
  | Ok (Some (a, len)) => exists ty name c, attr_at d ff pos len ty name c /\ shows a ty name c
  | Err e => exn_attr e /\ ~ end_at d pos /\
      forall len ty name c a, attr_at d ff pos len ty name c -> ~ shows a ty name c
  end.
Proof.
  intros Hb Hp Hff; unfold attribute_step.
  assert (Hd := zlen_nonneg d).
  rewrite zlen_slice by lia.
  set (L := Z.max 0 (Z.min (pos + 16 - pos) (zlen d - pos))).
  destruct (Z.ltb_spec L 4) as [L4|L4].
  { split; [left; auto|]. split; [unfold end_at; lia|].
    intros len ty name c a H; inversion H; lia. }
  destruct (Z.ltb_spec L 16) as [L16|L16].
  { rewrite fld_slice by lia; rewrite Z.add_0_r.
    destruct (Z.eqb_spec (fld 4 d pos) ATTR_TYPE_END) as [E|E].
    - split; auto; lia.
    - split; [left; auto|]. split; [intros [_ H]; contradiction|].
      intros len ty name c a H; inversion H; lia. }
  rewrite !fld_slice by lia. rewrite Z.add_0_r.
  destruct (Z.eqb_spec (fld 4 d pos) ATTR_TYPE_END) as [E|E].
  { split; auto; lia. }
  assert (NE : ~ end_at d pos) by (intros [_ H]; contradiction).
  remember (fld 4 d (pos + 4)) as len eqn:Elen.
  remember (fld 1 d (pos + 8)) as form eqn:Eform. remember (fld 1 d (pos + 9)) as nl eqn:Enl. remember (fld 2 d (pos + 10)) as no eqn:Eno.
  destruct ((len <? 8) || negb (len mod 8 =? 0) || (ff <? pos + len)) eqn:G1.
  { split; [left; auto|]. split; auto.
    intros len' ty name c a H; destruct H; lia. }
  assert (Bnl : 0 <= nl) by (rewrite Enl; apply fld_bound; auto; lia).
  assert (Bno : 0 <= no) by (rewrite Eno; apply fld_bound; auto; lia).
  pose proof (attribute_name_spec d ff pos form nl no Hp Bnl Bno) as N.
  destruct (attribute_name_at d ff pos form nl no) as [name|e]; cbn [bind].
  2:{ destruct N as [-> N]. split; [left; auto|]. split; auto.
      intros len' ty name c a H; destruct H;
        match goal with K : name_at _ _ ?nl' ?no' _ |- _ =>
        replace nl' with nl in K by lia; replace no' with no in K by lia; apply N in K end;
      pose proof (fld_bound 4 d (pos + 16) ltac:(lia) ltac:(lia) Hb); lia. }
  destruct N as [raw [-> [N1 N2]]].
  destruct (Z.eqb_spec form 1) as [F1|F1].
  - rewrite zlen_slice by lia.
    destruct (Z.eqb_spec (Z.max 0 (Z.min (pos + 64 - (pos + 16)) (zlen d - (pos + 16)))) 48) as [R|R];
      cbn [negb].
    2:{ split; [left; auto|]. split; auto.
        clear G1 N2; intros len' ty name c a H; destruct H; lia. }
    try rewrite !fld_slice by lia.
    replace (pos + 16 + 0) with (pos + 16) by lia. replace (pos + 16 + 8) with (pos + 24) by lia.
    replace (pos + 16 + 16) with (pos + 32) by lia. replace (pos + 16 + 24) with (pos + 40) by lia.
    replace (pos + 16 + 32) with (pos + 48) by lia. replace (pos + 16 + 40) with (pos + 56) by lia.
    remember (fld 8 d (pos + 16)) as lo eqn:Elo. remember (fld 8 d (pos + 24)) as hi eqn:Ehi.
    remember (fld 2 d (pos + 32)) as mpo eqn:Empo. remember (to_signed 64 (fld 8 d (pos + 40))) as al eqn:Eal.
    remember (to_signed 64 (fld 8 d (pos + 48))) as sz eqn:Esz. remember (to_signed 64 (fld 8 d (pos + 56))) as vd eqn:Evd.
    assert (Hmpo : 0 <= mpo) by (rewrite Empo; apply fld_bound; auto; lia).
    destruct (Z.ltb_spec hi lo).
    { split; [left; auto|]. split; auto.
      clear G1 N2; intros len' ty name c a H1; destruct H1; lia. }
    destruct ((len <=? mpo) || (nl =? 0) && (mpo <? 64) || (0 <? nl) && (mpo <? no + nl * 2)) eqn:G2.
    { split; [left; auto|]. split; auto.
      clear G1 N2; intros len' ty name c a H1; destruct H1; lia. }
    destruct ((vd <? 0) || (sz <? vd) || (al <? sz)) eqn:G3.
    { split; [left; auto|]. split; auto.
      clear G1 G2 R N2; intros len' ty name c a H1; destruct H1; lia. }
    assert (Hn : 0 < nl -> 64 <= no /\ no + 2 * nl <= mpo) by (clear G1 R; lia).
    assert (Hn0 : 64 <= mpo) by (clear G1 R; lia). assert (Hrem : pos + 64 <= zlen d) by (clear G1 G2 G3; lia).
    clear N2 R; bools.
    destruct (decode_mapping_pairs (slice d (pos + mpo) (pos + len))) as [runs|e] eqn:D; cbn [bind].
    + exists (fld 4 d pos), raw, (inr (slice d (pos + mpo) (pos + len), (lo, hi), sz)).
      split.
      * eapply attr_nonresident with (nl := nl) (no := no); eauto; lia.
      * cbn. repeat split; auto. apply decode_mapping_pairs_iff; auto. apply bytes_ok_slice; auto.
    + split; [|split; auto].
      * right. eapply decode_mapping_pairs_err; [|exact D]. apply bytes_ok_slice; auto.
      * intros len' ty name c a HA; destruct HA;
          [congruence|].
        destruct a; cbn; [tauto|]. intros [_ [_ [_ [M _]]]].
        apply decode_mapping_pairs_iff in M; [congruence|apply bytes_ok_slice; auto].
  - destruct (Z.eqb_spec form 0) as [F0|F0].
    2:{ split; [left; auto|]. split; auto.
        clear G1 N2; intros len' ty name c a H; destruct H; lia. }
    rewrite zlen_slice by lia.
    destruct (Z.eqb_spec (Z.max 0 (Z.min (pos + 24 - (pos + 16)) (zlen d - (pos + 16)))) 8) as [R|R];
      cbn [negb].
    2:{ split; [left; auto|]. split; auto.
        clear G1 N2; intros len' ty name c a H; destruct H; try lia.
        assert (0 <= fld 4 d (pos + 16)) by (apply fld_bound; auto; lia). lia. }
    try rewrite !fld_slice by lia.
    replace (pos + 16 + 0) with (pos + 16) by lia. replace (pos + 16 + 4) with (pos + 20) by lia.
    remember (fld 4 d (pos + 16)) as vl eqn:Evl. remember (fld 2 d (pos + 20)) as vo eqn:Evo.
    assert (Hvl : 0 <= vl) by (rewrite Evl; apply fld_bound; auto; lia).
    destruct ((vo <? 8) || negb (vo mod 8 =? 0)) eqn:G2.
    { split; [left; auto|]. split; auto.
      clear G1 N2; intros len' ty name c a H1; destruct H1; lia. }
    destruct ((len <? vo + vl) || (nl =? 0) && (vo <? 24) || (0 <? nl) && (vo <? no + nl * 2)) eqn:G3.
    { split; [left; auto|]. split; auto.
      clear G1 N2; intros len' ty name c a H1; destruct H1; lia. }
    assert (Hn : 0 < nl -> 24 <= no /\ no + 2 * nl <= vo) by (clear G1 G2 R; lia).
    assert (Hn0 : 24 <= vo) by (clear G1 R; lia).
    assert (Hv8 : vo mod 8 = 0) by (clear G1 G3; lia). assert (Hrem : pos + 24 <= zlen d) by (clear G1 G2 G3; lia).
    clear N2 R; bools.
    rewrite zlen_slice by lia.
    destruct (Z.eqb_spec (Z.max 0 (Z.min (pos + vo + vl - (pos + vo)) (zlen d - (pos + vo)))) vl) as [R2|R2];
      cbn [negb].
    + exists (fld 4 d pos), raw, (inl (slice d (pos + vo) (pos + vo + vl))).
      split; [|cbn; auto].
      eapply attr_resident with (nl := nl) (no := no); eauto; lia.
    + split; [left; auto|]. split; auto.
      intros len' ty name c a HA; destruct HA; lia.
Qed.

Lemma attributes_loop_spec d ff fuel : forall pos, bytes_ok d -> 0 <= pos -> 
  ff <= zlen d -> (Z.to_nat (zlen d - pos) < fuel)%nat ->
  exists e, attr_seq d ff shows pos (ar_items (attributes_loop fuel d ff pos)) e /\ pos <= e /\
    match ar_status (attributes_loop fuel d ff pos) with
    | Done => (ff <= e /\ ar_real_size (attributes_loop fuel d ff pos) = None) \/
              (e < ff /\ end_at d e /\ ar_real_size (attributes_loop fuel d ff pos) = Some (e + 4))
    | Raised x => e < ff /\ exn_attr x /\ ~ end_at d e /\
        (forall len ty name c a, attr_at d ff e len ty name c -> ~ shows a ty name c)
    end.
Proof.
  induction fuel as [|fuel IH]; intros pos Hb Hp Hff Hf; [lia|cbn [attributes_loop]].
  destruct (Z.ltb_spec pos ff) as [H|H].
  2:{ exists pos; cbn; split; [constructor|]. split; [lia|]. left; auto. }
  pose proof (attribute_step_spec d ff pos Hb Hp Hff) as P.
  destruct (attribute_step d ff pos) as [[[a len]|]|e].
  - destruct P as [ty [name [c [P1 P2]]]].
    assert (8 <= len) by (inversion P1; lia).
    destruct (IH (pos + len)) as [e [I1 [I2 I3]]]; auto; try lia.
    exists e; split; [|split; [lia|exact I3]].
    cbn [ar_cons ar_items]. eapply seq_cons; eauto.
  - exists pos; cbn; split; [constructor|]. split; [lia|]. right; auto.
  - destruct P as [P1 [P2 P3]].
    exists pos; cbn; split; [constructor|]. split; [lia|]. repeat split; auto.
Qed.

Lemma apply_usa_loop_bytes_ok fuel : forall seqn uo us data i m out k,
  bytes_ok data -> apply_usa_loop fuel seqn uo us data i m = Ok (out, k) -> bytes_ok out.
Proof.
  induction fuel as [|fuel IH]; intros seqn uo us data i m out k Hb H; cbn [apply_usa_loop] in H;
    [discriminate|].
  destruct (i <? us); [|injection H as <- _; auto].
  destruct (_ && _); [discriminate|]. destruct (_ && _); [injection H as <- _; auto|].
  apply bind_ok in H; destruct H as [b0 [B0 H]].
  apply bind_ok in H; destruct H as [b1 [B1 H]].
  eapply IH; [|exact H].
  assert (G : forall b j, index (slice data (uo + i * 2) (uo + i * 2 + 2)) j = Ok b -> is_byte b).
  { intros b j Hj. apply index_ok in Hj. eapply bytes_ok_znth; [|exact Hj].
    apply bytes_ok_slice; auto. }
  repeat apply zset_bytes_ok; eauto.
Qed.

Lemma frs_open_bytes_ok raw apply sug f : bytes_ok raw -> frs_open raw apply sug = Ok f ->
  bytes_ok (frs_data f).
Proof.
  intros Hb H; unfold frs_open in H.
  destruct (negb _) in H; [discriminate|].
  apply bind_ok in H; destruct H as [[uo us] [_ H]].
  apply bind_ok in H; destruct H as [data [D H]].
  apply bind_ok in H; destruct H as [_ [_ H]].
  injection H as <-; cbn.
  destruct apply; [|now injection D as <-].
  apply bind_ok in D; destruct D as [[out k] [D1 D2]].
  destruct (k =? 0); [discriminate|]. injection D2 as <-.
  unfold apply_usa in D1. eapply apply_usa_loop_bytes_ok; eauto.
Qed.

Lemma frs_attributes_spec raw apply sug f : bytes_ok raw -> frs_open raw apply sug = Ok f ->
  let d := frs_data f in let ff := first_free_off d in let r := frs_attributes f in
  zlen d = zlen raw /\ 0 <= ff <= zlen d /\
  exists e, attr_seq d ff shows (first_attr_off d) (ar_items r) e /\ first_attr_off d <= e /\
    match ar_status r with
    | Done => (ff <= e /\ ar_real_size r = None) \/
              (e < ff /\ end_at d e /\ ar_real_size r = Some (e + 4))
    | Raised x => e < ff /\ exn_attr x /\ ~ end_at d e /\
        (forall len ty name c a, attr_at d ff e len ty name c -> ~ shows a ty name c)
    end.
Proof.
  intros Hb H; cbn zeta.
  destruct (frs_open_len _ _ _ _ Hb H) as [HH HL].
  assert (HB : bytes_ok (frs_data f) /\ first_free_off (frs_data f) = first_free_off raw).
  { destruct apply.
    - split; [apply (frs_open_bytes_ok _ _ _ _ Hb H)|].
      pose proof (frs_open_true_spec raw sug Hb) as P; rewrite H in P.
      destruct P as [_ [_ [_ [_ [_ [_ [_ [_ P]]]]]]]].
      unfold header_ok, size_ok in HH.
      apply fld_ext; try lia; intros; apply P; lia.
    - pose proof (frs_open_false_spec raw sug Hb) as P; rewrite H in P.
      destruct P as [_ ->]; cbn; auto. }
  destruct HB as [HB Eff].
  assert (FA : 0 <= first_attr_off (frs_data f)) by (apply fld_bound; auto; lia).
  unfold header_ok in HH.
  split; [auto|]. split; [rewrite Eff, HL; lia|].
  unfold frs_attributes. change h_first_free with first_free_off. change h_first_attr with first_attr_off.
  apply attributes_loop_spec; auto; [lia|unfold zlen; lia].
Qed.

(** Records are visited in order, without overlap, inside the record. *)
Lemma attr_seq_bounds {A} d ff P pos (l : list A) e : attr_seq d ff P pos l e ->
  pos <= ff -> pos + 8 * zlen l <= e <= ff.
Proof.
  induction 1 as [|pos len ty name c a l e H1 H2 H3 H4 IH]; intros Hp.
  - change (zlen (@nil A)) with 0; lia.
  - rewrite zlen_cons. assert (8 <= len /\ pos + len <= ff) by (destruct H2; lia). lia.
Qed.

Lemma attr_at_inside d ff pos len ty name c : bytes_ok d -> 0 <= pos -> attr_at d ff pos len ty name c ->
  pos + len <= ff /\
  match name with None => fld 1 d (pos + 9) = 0 | Some n => zlen n = 2 * fld 1 d (pos + 9) end /\
  match c with
  | inl v => zlen v = fld 4 d (pos + 16) /\ exists o, pos + 24 <= o /\ o + zlen v <= pos + len /\ v = slice d o (o + zlen v)
  | inr (mp, (lo, hi), size) => lo <= hi /\ 0 <= size /\ exists o, pos + 64 <= o < pos + len /\ mp = slice d o (pos + len)
  end.
Proof.
  intros Hb Hp [len' ty' nl no nm vl vo H1 H2 H3 H4 H5 H6 H7 H8 H9 H10 H11 H12 H13 H14 H15 H16 H17 H18
               |len' ty' nl no nm lo hi mpo sz H1 H2 H3 H4 H5 H6 H7 H8 H9 H10 H11 H12 H13 H14 H15 H16 H17 H18 H19 H20].
  - split; auto. assert (0 <= vl) by (subst vl; apply fld_bound; auto; lia).
    assert (EL : zlen (slice d (pos + vo) (pos + vo + vl)) = vl) by (rewrite zlen_slice by lia; lia).
    split; [|split].
    + destruct H17; [auto|]. rewrite zlen_slice by (specialize (H18 ltac:(lia)); lia).
      specialize (H18 ltac:(lia)); lia.
    + lia.
    + exists (pos + vo). rewrite EL. split; [lia|]. split; [lia|]. reflexivity.
  - split; auto. split; [|split; [lia|split; [lia|]]].
    + destruct H19; [auto|]. rewrite zlen_slice by (specialize (H20 ltac:(lia)); lia).
      specialize (H20 ltac:(lia)); lia.
    + exists (pos + mpo); split; [lia|reflexivity].
Qed.

(** ** Statements used by the property file *)

(** A 1024-byte record, array at 48, two resident attributes (the second named
    "AB"), one non-resident attribute and the end marker. *)
Definition sample_record : list Z :=
  put (put (put (put (put (put (put (put (zeros 1024)
    0 [70; 73; 76; 69; 48; 0; 3; 0])
    16 [1; 0; 1; 0; 56; 0; 1; 0])
    24 [0xD8; 0; 0; 0; 0; 4; 0; 0])
    56 [0x10; 0; 0; 0; 32; 0; 0; 0; 0; 0; 0; 0; 0; 0; 0; 0; 4; 0; 0; 0; 24; 0; 0; 0; 1; 2; 3; 4; 0; 0; 0; 0])
    88 [0x80; 0; 0; 0; 40; 0; 0; 0; 0; 2; 24; 0; 0; 0; 0; 0; 3; 0; 0; 0; 32; 0; 0; 0; 65; 0; 66; 0; 0; 0; 0; 0; 7; 8; 9; 0; 0; 0; 0; 0])
    128 [0x80; 0; 0; 0; 72; 0; 0; 0; 1; 0; 0; 0; 0; 0; 0; 0; 0; 0; 0; 0; 0; 0; 0; 0; 4; 0; 0; 0; 0; 0; 0; 0; 64; 0; 0; 0; 0; 0; 0; 0;
         0; 80; 0; 0; 0; 0; 0; 0; 255; 79; 0; 0; 0; 0; 0; 0; 0; 16; 0; 0; 0; 0; 0; 0; 0x11; 5; 100; 0; 0; 0; 0; 0])
    200 [255; 255; 255; 255; 0; 0; 0; 0])
    510 [0xAA; 0xBB].

Lemma C04_open_restores_lemma : forall raw sug f, bytes_ok raw ->
  frs_open raw true sug = Ok f ->
  used_intact raw /\
  (usa_off raw + 2 * usa_cnt raw <= 510 -> restored raw (frs_data f) (usa_off raw)) /\
  zlen (frs_data f) = zlen raw /\
  (forall p, 0 <= p < zlen raw -> p mod 512 < 510 -> znth (frs_data f) p = znth raw p).
Proof.
  intros raw sug f Hb H; pose proof (frs_open_true_spec raw sug Hb) as P; rewrite H in P; tauto.
Qed.

Lemma C04_torn_rejected_lemma : forall raw sug k, bytes_ok raw ->
  0 <= k -> 512 * (k + 1) <= zlen raw -> 512 * k < first_free_off raw ->
  ~ intact raw (usa_off raw) k ->
  exists e, frs_open raw true sug = Err e /\ exn_frs e.
Proof.
  intros raw sug k Hb H1 H2 H3 H4; pose proof (frs_open_true_spec raw sug Hb) as P.
  destruct (frs_open raw true sug) as [f|e]; [|exists e; tauto].
  destruct P as [_ [_ [P _]]]; elim H4; apply P; auto.
Qed.

(** The array itself may overlap the tail of the first sector (offset 506): the
    tail of the second sector is then not the value saved on disk. *)
Definition overlapping_record : list Z :=
  put (put (put (put (put (put (zeros 4096)
    0 [70; 73; 76; 69; 0xFA; 1; 9; 0]) 20 [16; 2; 1; 0]) 24 [16; 4; 0; 0; 0; 16; 0; 0])
    506 [1; 2; 7; 7; 1; 2]) 1022 [1; 2]) 1534 [1; 2].

Lemma C04_overlapping_array_refuted_lemma : exists raw f,
  bytes_ok raw /\ frs_open raw true None = Ok f /\ used_intact raw /\
  znth (frs_data f) 1022 <> znth raw (usa_off raw + 2 * (1 + 1)).
Proof.
  exists overlapping_record.
  destruct (frs_open overlapping_record true None) as [f|e] eqn:E; [|vm_compute in E; discriminate].
  exists f. assert (B : bytes_ok overlapping_record) by (apply bytes_okb_ok; vm_compute; reflexivity).
  split; [exact B|]. split; [reflexivity|]. split.
  - apply (C04_open_restores_lemma _ _ _ B E).
  - vm_compute in E. injection E as <-. vm_compute. discriminate.
Qed.

Lemma C05_accepted_iff_lemma : forall raw sug, bytes_ok raw ->
  (exists f, frs_open raw false sug = Ok f) <-> header_ok raw.
Proof.
  intros raw sug Hb; pose proof (frs_open_false_spec raw sug Hb) as P.
  destruct (frs_open raw false sug) as [f|e]; split; intros H.
  - tauto.
  - exists f; auto.
  - destruct H as [f H]; discriminate.
  - tauto.
Qed.

Lemma C05_accepted_protected_iff_lemma : forall raw sug, bytes_ok raw ->
  (exists f, frs_open raw true sug = Ok f) <-> header_ok raw /\ usa_ok raw /\ used_intact raw.
Proof.
  intros raw sug Hb; pose proof (frs_open_true_spec raw sug Hb) as P.
  destruct (frs_open raw true sug) as [f|e]; split; intros H.
  - tauto.
  - exists f; auto.
  - destruct H as [f H]; discriminate.
  - tauto.
Qed.

Lemma C05_only_file_record_exceptions_lemma : forall raw apply sug e, bytes_ok raw ->
  frs_open raw apply sug = Err e -> exn_frs e.
Proof.
  intros raw [|] sug e Hb H.
  - pose proof (frs_open_true_spec raw sug Hb) as P; rewrite H in P; tauto.
  - pose proof (frs_open_false_spec raw sug Hb) as P; rewrite H in P; tauto.
Qed.
