From Verif Require Import Base BaseLemmas MappingPairs MappingPairsSpec.

Lemma decode_encode_ref n s : 0 <= n < 2 ^ 48 -> 0 <= s -> decode_ref (encode_ref n s) = (n, s).
Proof.
  intros Hn Hs; unfold decode_ref, encode_ref; f_equal.
  - change 0xFFFFFFFFFFFF with (Z.ones 48).
    rewrite Z.land_lor_distr_l, !Z.land_ones by lia.
    rewrite Z.shiftl_mul_pow2, Z.mod_mul by lia.
    rewrite Z.mod_small by lia. apply Z.lor_0_l.
  - rewrite Z.shiftr_lor, Z.shiftr_shiftl_l by lia.
    rewrite Z.sub_diag, Z.shiftl_0_r.
    rewrite (Z.shiftr_div_pow2 n), Z.div_small by lia.
    apply Z.lor_0_r.
Qed.

Lemma encode_decode_ref r : 0 <= r ->
  encode_ref (fst (decode_ref r)) (snd (decode_ref r)) = r.
Proof.
  intro Hr; unfold decode_ref, encode_ref; cbn [fst snd].
  change 0xFFFFFFFFFFFF with (Z.ones 48).
  apply Z.bits_inj'; intros i Hi.
  rewrite Z.lor_spec, Z.land_spec.
  destruct (Z.lt_ge_cases i 48) as [H|H].
  - rewrite Z.shiftl_spec_low, Z.ones_spec_low by lia. now rewrite andb_true_r.
  - rewrite Z.shiftl_spec, Z.shiftr_spec, Z.ones_spec_high by lia.
    rewrite andb_false_r, orb_false_r; f_equal; lia.
Qed.

Lemma decode_ref_value r : 0 <= r -> decode_ref r = (r mod 2 ^ 48, r / 2 ^ 48).
Proof.
  intro; unfold decode_ref; change 0xFFFFFFFFFFFF with (Z.ones 48).
  now rewrite Z.land_ones, Z.shiftr_div_pow2 by lia.
Qed.

Lemma encode_ref_value n s : 0 <= n < 2 ^ 48 -> 0 <= s -> encode_ref n s = s * 2 ^ 48 + n.
Proof.
  intros Hn Hs.
  pose proof (decode_encode_ref n s Hn Hs) as H.
  assert (0 <= encode_ref n s).
  { unfold encode_ref; apply Z.lor_nonneg; split; [apply Z.shiftl_nonneg|]; lia. }
  rewrite decode_ref_value in H by auto. injection H as H1 H2; lia.
Qed.

(** ** Mapping pairs *)

Lemma nibbles b : is_byte b -> Z.land b 15 = b mod 16 /\ Z.shiftr b 4 = b / 16.
Proof.
  intros; change 15 with (Z.ones 4); rewrite Z.land_ones, Z.shiftr_div_pow2 by lia; auto.
Qed.

Lemma zdrop_cons_znth {A} (l : list A) i x : znth l i = Some x ->
  zdrop i l = x :: zdrop (i + 1) l.
Proof.
  intro H; pose proof (znth_Some_range _ _ _ H) as R.
  assert (E : zdrop i l = zdrop i l) by reflexivity.
  destruct (zdrop i l) as [|y t] eqn:D.
  - apply (f_equal zlen) in D; rewrite zlen_zdrop in D; change (zlen (@nil A)) with 0 in D; lia.
  - assert (Y : znth (zdrop i l) 0 = Some y) by (rewrite D; reflexivity).
    rewrite znth_zdrop in Y by lia. rewrite Z.add_0_r in Y.
    assert (x = y) by congruence; subst; f_equal.
    rewrite <- zdrop_zdrop by lia. rewrite D. cbn [zdrop].
    replace (1 <=? 0) with false by lia. now rewrite zdrop_nonpos by lia.
Qed.

Lemma zdrop_split_slice {A} (l : list A) i n : 0 <= i -> 0 <= n ->
  zdrop i l = slice l i (i + n) ++ zdrop (i + n) l.
Proof.
  intros; unfold slice. rewrite <- (ztake_zdrop (zdrop i l) n) at 1.
  rewrite zdrop_zdrop by lia. do 2 f_equal; lia.
Qed.

Lemma zlen_snoc_eqb {A} (l : list A) x : (zlen (l ++ [x]) =? 0) = false.
Proof.
  rewrite zlen_app, zlen_cons; pose proof (zlen_nonneg l).
  change (zlen (@nil A)) with 0; lia.
Qed.

Lemma decode_loop_sound fuel : forall mp i curr runs res,
  bytes_ok mp -> 0 <= i ->
  decode_mapping_pairs_loop fuel mp i curr runs = Ok res ->
  exists more, res = runs ++ more /\ MP curr (zlen runs =? 0) (zdrop i mp) more.
Proof.
  induction fuel as [|fuel IH]; intros mp i curr runs res Hb Hi H; cbn [decode_mapping_pairs_loop] in H;
    [discriminate|].
  destruct (Z.leb_spec (zlen mp) i) as [|Hlt]; [discriminate|].
  apply bind_ok in H; destruct H as [hdr [Hx H]]; apply index_ok in Hx.
  pose proof (bytes_ok_znth _ _ _ Hb Hx) as Hhdr.
  rewrite (zdrop_cons_znth _ _ _ Hx).
  destruct (Z.eqb_spec hdr 0) as [->|Hnz].
  { inversion H; subst; exists []; split; [now rewrite app_nil_r | constructor]. }
  destruct (nibbles hdr Hhdr) as [E1 E2]; rewrite E1, E2 in H; red in Hhdr.
  destruct ((hdr mod 16 =? 0) || (8 <? hdr mod 16) || (8 <? hdr / 16)) eqn:G; [discriminate|].
  set (cl := hdr mod 16) in *; set (ol := hdr / 16) in *.
  set (cnt := slice mp (i + 1) (i + 1 + cl)) in *.
  destruct (Z.eqb_spec (zlen cnt) cl) as [Hc|]; cbn [negb] in H; [|discriminate].
  destruct (Z.leb_spec (le_sval cnt) 0) as [|Hpos]; [discriminate|].
  rewrite (zdrop_split_slice mp (i + 1) cl) by lia; fold cnt.
  destruct (Z.ltb_spec 0 ol) as [Ho|Ho].
  - set (off := slice mp (i + 1 + cl) (i + 1 + cl + ol)) in *.
    destruct (Z.eqb_spec (zlen off) ol) as [Hol|]; cbn [negb] in H; [|discriminate].
    destruct ((curr + le_sval off =? 0) && (0 <? zlen runs)) eqn:G2; [discriminate|].
    apply IH in H; auto; [|lia]. destruct H as [more [-> HM]].
    exists ((Some (curr + le_sval off), le_sval cnt) :: more); split.
    { now rewrite <- app_assoc. }
    rewrite (zdrop_split_slice mp (i + 1 + cl) ol) by lia; fold off.
    replace hdr with (zlen cnt + 16 * zlen off) by lia.
    rewrite zlen_snoc_eqb in HM; pose proof (zlen_nonneg runs).
    constructor; auto; lia.
  - apply IH in H; auto; [|lia]. destruct H as [more [-> HM]].
    exists ((None, le_sval cnt) :: more); split.
    { now rewrite <- app_assoc. }
    replace hdr with (zlen cnt) by lia.
    rewrite zlen_snoc_eqb in HM.
    constructor; auto; lia.
Qed.

Lemma MP_length lcn first l runs : MP lcn first l runs -> 1 <= zlen l.
Proof.
  intro H; inversion H; rewrite ?zlen_cons, ?zlen_app;
  repeat match goal with |- context [zlen ?x] => pose proof (zlen_nonneg x); generalize dependent (zlen x); intros end; lia.
Qed.

Lemma zdrop_add_app {A} (mp : list A) i a b : 0 <= i -> zdrop i mp = a ++ b ->
  zdrop (i + zlen a) mp = b.
Proof.
  intros Hi H; pose proof (zlen_nonneg a).
  rewrite <- zdrop_zdrop by lia. rewrite H. now apply zdrop_app_exact.
Qed.

Lemma zdrop_cons_inv {A} (mp : list A) i x t : 0 <= i -> zdrop i mp = x :: t ->
  znth mp i = Some x /\ zdrop (i + 1) mp = t /\ i < zlen mp.
Proof.
  intros Hi H.
  assert (Y : znth (zdrop i mp) 0 = Some x) by (rewrite H; reflexivity).
  rewrite znth_zdrop, Z.add_0_r in Y by lia.
  split; auto. split.
  - apply (zdrop_add_app mp i [x] t) in H; auto.
  - apply znth_Some_range in Y; lia.
Qed.

Lemma slice_of_zdrop {A} (mp : list A) i a b : 0 <= i -> zdrop i mp = a ++ b ->
  slice mp i (i + zlen a) = a.
Proof.
  intros Hi H; unfold slice; rewrite H; apply ztake_app_exact; lia.
Qed.

Lemma decode_loop_complete fuel : forall mp i curr runs more,
  bytes_ok mp -> 0 <= i -> zlen mp - i < Z.of_nat fuel ->
  MP curr (zlen runs =? 0) (zdrop i mp) more ->
  decode_mapping_pairs_loop fuel mp i curr runs = Ok (runs ++ more).
Proof.
  induction fuel as [|fuel IH]; intros mp i curr runs more Hb Hi Hf H.
  - exfalso; apply MP_length in H; rewrite zlen_zdrop in H; lia.
  - cbn [decode_mapping_pairs_loop]. 
    remember (zdrop i mp) as l eqn:E; remember (zlen runs =? 0) as first eqn:Ef; symmetry in E.
    destruct H as [lcn first rest|lcn first cnt rest runs' Hc1 Hc2 HM|lcn first cnt off rest runs' Hc1 Hc2 Ho Hz HM];
    destruct (zdrop_cons_inv _ _ _ _ Hi E) as [Hx [Hd Hlt]];
    replace (zlen mp <=? i) with false by lia;
    rewrite (proj2 (index_ok _ _ _) Hx); cbn [bind].
    + cbn [Z.eqb]; now rewrite app_nil_r.
    + pose proof (bytes_ok_znth _ _ _ Hb Hx) as Hhdr.
      destruct (nibbles _ Hhdr) as [E1 E2]; rewrite E1, E2; red in Hhdr.
      replace (zlen cnt =? 0) with false by lia.
      replace (zlen cnt mod 16) with (zlen cnt) by lia.
      replace (zlen cnt / 16) with 0 by lia.
      replace (_ || _ || _) with false by lia.
      assert (Hi1 : 0 <= i + 1) by lia.
      rewrite (slice_of_zdrop _ _ _ _ Hi1 Hd).
      rewrite Z.eqb_refl; cbn [negb].
      replace (le_sval cnt <=? 0) with false by lia.
      replace (0 <? 0) with false by lia.
      apply (zdrop_add_app _ _ _ _ Hi1) in Hd.
      rewrite (IH _ _ _ _ runs'); auto; try lia.
      * now rewrite <- app_assoc.
      * now rewrite Hd, zlen_snoc_eqb.
    + pose proof (bytes_ok_znth _ _ _ Hb Hx) as Hhdr.
      destruct (nibbles _ Hhdr) as [E1 E2]; rewrite E1, E2; red in Hhdr.
      set (hdr := zlen cnt + 16 * zlen off) in *.
      replace (hdr =? 0) with false by lia.
      replace (hdr mod 16) with (zlen cnt) by lia.
      replace (hdr / 16) with (zlen off) by lia.
      replace ((_ =? 0) || _ || _) with false by lia.
      assert (Hi1 : 0 <= i + 1) by lia.
      rewrite (slice_of_zdrop _ _ _ _ Hi1 Hd).
      rewrite Z.eqb_refl; cbn [negb].
      replace (le_sval cnt <=? 0) with false by lia.
      replace (0 <? zlen off) with true by lia.
      apply (zdrop_add_app _ _ _ _ Hi1) in Hd.
      assert (Hi2 : 0 <= i + 1 + zlen cnt) by lia.
      rewrite (slice_of_zdrop _ _ _ _ Hi2 Hd).
      rewrite Z.eqb_refl; cbn [negb].
      pose proof (zlen_nonneg runs).
      assert (G2 : (lcn + le_sval off =? 0) && (0 <? zlen runs) = false).
      { destruct (Z.eqb_spec (lcn + le_sval off) 0) as [Z0|]; auto.
        rewrite (Hz Z0) in Ef; cbn [andb]; lia. }
      rewrite G2.
      apply (zdrop_add_app _ _ _ _ Hi2) in Hd.
      rewrite (IH _ _ _ _ runs'); auto; try lia.
      * now rewrite <- app_assoc.
      * now rewrite Hd, zlen_snoc_eqb.
Qed.

Lemma decode_loop_errors fuel : forall mp i curr runs e,
  bytes_ok mp -> 0 <= i -> Z.max 0 (zlen mp - i) < Z.of_nat fuel ->
  decode_mapping_pairs_loop fuel mp i curr runs = Err e -> e = MappingPairsException.
Proof.
  induction fuel as [|fuel IH]; intros mp i curr runs e Hb Hi Hf H;
    cbn [decode_mapping_pairs_loop] in H; [lia|].
  destruct (Z.leb_spec (zlen mp) i) as [|Hlt]; [congruence|].
  destruct (index_in_range mp i ltac:(lia)) as [hdr Hx]; rewrite Hx in H; cbn [bind] in H.
  apply index_ok in Hx; pose proof (bytes_ok_znth _ _ _ Hb Hx) as Hhdr.
  destruct (hdr =? 0) eqn:Hz; [discriminate|].
  destruct (nibbles hdr Hhdr) as [E1 E2]; rewrite E1, E2 in H; red in Hhdr.
  destruct ((hdr mod 16 =? 0) || (8 <? hdr mod 16) || (8 <? hdr / 16)) eqn:G; [congruence|].
  destruct (negb _); [congruence|].
  destruct (_ <=? 0); [congruence|].
  destruct (0 <? hdr / 16).
  - destruct (negb _); [congruence|].
    destruct (_ && _); [congruence|].
    apply IH in H; auto; lia.
  - apply IH in H; auto; lia.
Qed.

Lemma decode_mapping_pairs_iff mp runs : bytes_ok mp ->
  decode_mapping_pairs mp = Ok runs <-> MP 0 true mp runs.
Proof.
  intro Hb; unfold decode_mapping_pairs; split; intro H.
  - apply decode_loop_sound in H; auto; [|lia].
    destruct H as [more [-> HM]]. now rewrite zdrop_nonpos in HM by lia.
  - rewrite (decode_loop_complete _ mp 0 0 [] runs); auto; try lia.
    + unfold zlen; lia.
    + now rewrite zdrop_nonpos by lia.
Qed.

Lemma decode_mapping_pairs_err mp e : bytes_ok mp ->
  decode_mapping_pairs mp = Err e -> e = MappingPairsException.
Proof.
  intro Hb; apply decode_loop_errors; auto; unfold zlen; lia.
Qed.

Lemma enc64_len v : zlen (enc64 v) = 8.
Proof. unfold enc64; now rewrite le_bytes_len. Qed.

Lemma enc64_ok v : bytes_ok (enc64 v).
Proof. apply le_bytes_ok. Qed.

Lemma enc64_sval v : - 2 ^ 63 <= v < 2 ^ 63 -> le_sval (enc64 v) = v.
Proof.
  intro H; unfold le_sval; rewrite enc64_len; unfold enc64.
  rewrite le_val_le_bytes by (change (256 ^ Z.of_nat 8) with (2 ^ 64); lia).
  unfold to_signed; change (8 * 8 - 1) with 63; change (8 * 8) with 64.
  destruct (Z.ltb_spec (v mod 2 ^ 64) (2 ^ 63)); lia.
Qed.

Lemma mp_encode_MP runs : forall lcn first, runs_ok lcn first runs ->
  MP lcn first (mp_encode lcn runs) runs.
Proof.
  induction runs as [|[[o|] c] t IH]; intros lcn first H; cbn [mp_encode runs_ok] in *.
  - constructor.
  - destruct H as [Hc [Hd [Hz Ht]]].
    pose proof (MP_run lcn first (enc64 c) (enc64 (o - lcn)) (mp_encode o t) t) as P.
    rewrite !enc64_len, !enc64_sval in P by lia.
    replace (lcn + (o - lcn)) with o in P by lia.
    apply P; auto; lia.
  - destruct H as [Hc Ht].
    pose proof (MP_sparse lcn first (enc64 c) (mp_encode lcn t) t) as P.
    rewrite !enc64_len, !enc64_sval in P by lia. apply P; auto; lia.
Qed.

Lemma mp_encode_ok runs : forall lcn, bytes_ok (mp_encode lcn runs).
Proof.
  induction runs as [|[[o|] c] t IH]; intro lcn; cbn [mp_encode].
  - apply Forall_cons; [red; lia | apply Forall_nil].
  - constructor; [red; lia|]; rewrite !bytes_ok_app; auto using enc64_ok.
  - constructor; [red; lia|]; rewrite !bytes_ok_app; auto using enc64_ok.
Qed.

Lemma mp_round_trip runs : runs_ok 0 true runs ->
  decode_mapping_pairs (mp_encode 0 runs) = Ok runs.
Proof.
  intro H; apply decode_mapping_pairs_iff; auto using mp_encode_ok, mp_encode_MP.
Qed.

Lemma MP_counts_positive lcn first mp runs : MP lcn first mp runs ->
  Forall (fun r => 0 < snd r) runs.
Proof. induction 1; constructor; auto. Qed.

Lemma ref_decode_of_encode : forall number sequence,
  0 <= number < 2 ^ 48 -> 0 <= sequence < 2 ^ 16 ->
  encode_ref number sequence = sequence * 2 ^ 48 + number /\
  0 <= encode_ref number sequence < 2 ^ 64 /\
  decode_ref (encode_ref number sequence) = (number, sequence).
Proof.
  intros n s Hn Hs; rewrite decode_encode_ref, encode_ref_value by lia.
  repeat split; lia.
Qed.

Lemma ref_encode_of_decode : forall reference,
  0 <= reference < 2 ^ 64 ->
  encode_ref (fst (decode_ref reference)) (snd (decode_ref reference)) = reference /\
  0 <= fst (decode_ref reference) < 2 ^ 48 /\ 0 <= snd (decode_ref reference) < 2 ^ 16.
Proof.
  intros r Hr; split; [apply encode_decode_ref; lia|].
  rewrite decode_ref_value by lia; cbn [fst snd]; lia.
Qed.

Lemma ref_no_collision : forall n s n' s',
  0 <= n < 2 ^ 48 -> 0 <= s < 2 ^ 16 -> 0 <= n' < 2 ^ 48 -> 0 <= s' < 2 ^ 16 ->
  encode_ref n s = encode_ref n' s' -> n = n' /\ s = s'.
Proof.
  intros n s n' s' Hn Hs Hn' Hs'; rewrite !encode_ref_value by lia; lia.
Qed.

Lemma decode_lengths_positive : forall bytes runs, bytes_ok bytes ->
  decode_mapping_pairs bytes = Ok runs -> Forall (fun r => 0 < snd r) runs.
Proof.
  intros mp runs Hb H; eapply MP_counts_positive, decode_mapping_pairs_iff; eauto.
Qed.

Lemma negative_lcn_witness : exists bytes runs o n,
  bytes_ok bytes /\ decode_mapping_pairs bytes = Ok runs /\ In (Some o, n) runs /\ o < 0.
Proof.
  exists [0x11; 0x01; 0xFF; 0], [(Some (-1), 1)], (-1), 1.
  repeat split; try reflexivity; [|left; reflexivity].
  apply bytes_okb_ok; reflexivity.
Qed.
