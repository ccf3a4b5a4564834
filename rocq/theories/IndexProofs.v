From Verif Require Import Base BaseLemmas MappingPairs Frs FrsSpec FrsProofs.
From Verif Require Import FragmentedFile FragmentedFileSpec FragmentedFileProofs.
From Verif Require Import UsaSpec FieldLemmas Attributes AttributesSpec AttributesProofs.

(** ** Index entries *)

Lemma end_flag f : (0 <? Z.land f INDEX_ENTRY_END) = Z.testbit f 1.
Proof. apply (land_pow2_pos f 1). lia. Qed.

Lemma node_flag f : (0 <? Z.land f INDEX_ENTRY_NODE) = Z.testbit f 0.
Proof. apply (land_pow2_pos f 0). lia. Qed.

Lemma ix_walk_fun v lim stop pos l st : ix_walk v lim stop pos l st ->
  forall l' st', ix_walk v lim stop pos l' st' -> l = l' /\ st = st'.
Proof.
  induction 1 as [pos H|pos ? ? ?|pos ? ? ?|pos ? ? ?|pos ? ? ? ?|pos ? ? ? ? ?|pos ? ? ? ? ? ?|pos m l st HS ? ? ? ? ? ? W IH];
    intros l' st' W'; inversion W' as [? ?|? ? ? ?|? ? ? ?|? ? ? ?|? ? ? ? ?|? ? ? ? ? ?|? ? ? ? ? ? ?|? m' t st'' HS' ? ? ? ? ? ? V];
    subst; try (split; congruence); try lia;
    try (exfalso; match goal with HS : true = true -> _ |- _ => destruct (HS eq_refl); solve [lia|congruence] end).
  assert (m' = m) by lia. subst m'. destruct (IH _ _ V) as [-> ->]. auto.
Qed.

Lemma index_loop_walk v lim stop : bytes_ok v -> forall fuel pos, 0 <= pos -> (Z.to_nat (zlen v - pos) < fuel)%nat ->
  exists ps st, index_loop fuel stop v lim pos = (map (fun p => zdrop p v) ps, st) /\ ix_walk v lim stop pos ps st.
Proof.
  intro B. induction fuel as [|fuel IH]; intros pos Hp Hf; [lia|]. cbn [index_loop].
  destruct ((pos <? lim) && (pos <? zlen v)) eqn:E; cbn [negb].
  2:{ exists [], Done. split; auto. apply ixw_end. lia. }
  assert (Hlim : pos < lim) by lia. assert (Hin : pos < zlen v) by lia. clear E.
  unfold ie_length, ie_attribute_length, ie_flags, u16. rewrite !unp_zdrop by lia.
  destruct (Z.lt_ge_cases (zlen v) (pos + 10)) as [H10|H10].
  { rewrite unp_short by lia. exists [], (Raised StructError). split; auto. apply ixw_no_length; lia. }
  rewrite (unp_ok 2 v (pos + 8)) by lia.
  destruct (Z.ltb_spec (fld 2 v (pos + 8)) 16) as [HL|HL].
  { exists [], Done. split; auto. apply ixw_short; lia. }
  destruct (Z.lt_ge_cases (zlen v) (pos + 12)) as [H12|H12].
  { rewrite unp_short by lia. exists [], (Raised StructError). split; auto. apply ixw_no_attr; lia. }
  rewrite (unp_ok 2 v (pos + 10)) by lia.
  destruct (Z.eqb_spec (fld 2 v (pos + 10)) 0) as [HA|HA].
  { exists [], Done. split; auto. apply ixw_empty; lia. }
  pose proof (align8_spec (fld 2 v (pos + 8)) ltac:(lia)) as A.
  destruct (IH (pos + align8 (fld 2 v (pos + 8))) ltac:(lia) ltac:(lia)) as (ps & st & El & W).
  destruct stop.
  - destruct (Z.lt_ge_cases (zlen v) (pos + 14)) as [H14|H14].
    { rewrite unp_short by lia. exists [pos], (Raised StructError). split; auto. apply ixw_no_flags; auto; lia. }
    rewrite (unp_ok 2 v (pos + 12)) by lia. rewrite end_flag.
    destruct (Z.testbit (fld 2 v (pos + 12)) 1) eqn:EB.
    { exists [pos], Done. split; auto. apply ixw_last; auto; lia. }
    rewrite El. exists (pos :: ps), st. split; auto.
    eapply ixw_more with (m := align8 (fld 2 v (pos + 8))); auto; lia.
  - rewrite El. exists (pos :: ps), st. split; auto.
    eapply ixw_more with (m := align8 (fld 2 v (pos + 8))); auto; try lia; discriminate.
Qed.

Lemma ix_walk_positions v lim stop pos ps st : ix_walk v lim stop pos ps st ->
  spaced pos ps /\ Forall (fun p => pos <= p /\ p < lim /\ p + 12 <= zlen v) ps /\
  (st = Done \/ st = Raised StructError).
Proof.
  induction 1 as [pos H|pos ? ? ?|pos ? ? ?|pos ? ? ?|pos ? ? ? ?|pos ? ? ? ? ?|pos ? ? ? ? ? ?|pos m l st HS ? ? ? ? ? ? W IH];
    cbn [spaced]; try (split; [tauto|]; split; [constructor|auto]; fail).
  1,2: split; [lia|]; split; [repeat constructor; lia|auto].
  destruct IH as (I1 & I2 & I3). split; [|split; auto].
  - split; [lia|]. destruct l as [|p t]; cbn [spaced] in *; auto. split; [lia|tauto].
  - constructor; [lia|]. eapply Forall_impl; [|exact I2]. cbn. lia.
Qed.

Lemma index_entries_walk hb stop v : 0 <= hb -> bytes_ok v ->
  (hb + 8 <= zlen v -> exists ps st,
     ix_walk v (hb + fld 4 v (hb + 4)) stop (hb + fld 4 v hb) ps st /\
     index_entries_at hb stop v = (map (fun p => zdrop p v) ps, st)) /\
  (zlen v < hb + 8 -> index_entries_at hb stop v = ([], Raised StructError)).
Proof.
  intros Hh B. unfold index_entries_at, ih_first_entry, ih_first_free, u32. split; intro H.
  - assert (L : zlen (slice v hb (hb + 16)) = Z.min 16 (zlen v - hb)) by (rewrite zlen_slice; lia).
    rewrite !unp_ok by lia. cbn [bind]. rewrite !fld_slice by lia. rewrite Z.add_0_r.
    pose proof (fld_bound 4 v hb ltac:(lia) ltac:(lia) B).
    destruct (index_loop_walk v (hb + fld 4 v (hb + 4)) stop B (S (length v)) (hb + fld 4 v hb)) as (ps & st & E & W);
      [lia|unfold zlen; lia|]. eauto.
  - assert (L : zlen (slice v hb (hb + 16)) < 8) by (pose proof (zlen_nonneg v); rewrite zlen_slice; lia).
    destruct (unp 4 (slice v hb (hb + 16)) 0) as [a|e] eqn:E1; cbn [bind].
    + rewrite unp_short by lia. reflexivity.
    + apply unp_err in E1. now subst.
Qed.

(** Writing entries and reading them back. *)

Lemma ixi_bytes_len i : zlen (ixi_bytes i) = ixi_length i.
Proof. unfold ixi_bytes, ixi_length. lens. lia. Qed.

Lemma ixi_fields i rest : ixi_ok i ->
  fld 8 (ixi_bytes i ++ rest) 0 = ixi_ref i /\ fld 2 (ixi_bytes i ++ rest) 8 = ixi_length i /\
  fld 2 (ixi_bytes i ++ rest) 10 = zlen (ixi_key i) /\ fld 2 (ixi_bytes i ++ rest) 12 = ixi_flags i.
Proof.
  intros (H1 & H2 & H3 & H4 & H5 & H6). unfold ixi_length in *.
  pose proof (zlen_nonneg (ixi_key i)). pose proof (zlen_nonneg (ixi_rest i)).
  unfold ixi_bytes, ixi_length. rewrite <- !app_assoc. repeat split; fget.
Qed.

Lemma ixi_decodes i rest : ixi_ok i -> decodes (ixi_bytes i ++ rest) i.
Proof.
  intros Hi. destruct (ixi_fields i rest Hi) as (F0 & F8 & F10 & F12).
  destruct Hi as (H1 & H2 & H3 & H4 & H5 & H6).
  pose proof (zlen_nonneg (ixi_key i)). pose proof (zlen_nonneg (ixi_rest i)). pose proof (zlen_nonneg rest).
  assert (L : zlen (ixi_bytes i ++ rest) = ixi_length i + zlen rest) by (rewrite zlen_app, ixi_bytes_len; auto).
  unfold ixi_length in L.
  unfold decodes, ie_reference, ie_length, ie_flags, ie_attribute, ie_vcn, ie_attribute_length, ie_length, ie_flags, u64, u16.
  rewrite !(unp_ok 2 (ixi_bytes i ++ rest)), !(unp_ok 8 (ixi_bytes i ++ rest)) by lia. rewrite F0, F8, F10, F12. cbn [bind].
  rewrite node_flag. change (Z.land (ixi_flags i) INDEX_ENTRY_END) with (Z.land (ixi_flags i) (2 ^ 1)).
  rewrite land_pow2, H6 by lia. replace (0 <? zlen (ixi_key i)) with true by lia.
  repeat (split; [reflexivity|]). split.
  - cbn [Z.eqb andb]. f_equal. f_equal. unfold ixi_bytes. rewrite <- !app_assoc.
    do 5 (rewrite slice_app_r by (lens; lia)). lens. apply slice_prefix. lens. lia.
  - unfold ixi_length. replace (0 <? _) with true by lia. rewrite andb_true_r.
    destruct (Z.testbit (ixi_flags i) 0); auto.
    rewrite unp_ok by (rewrite ?zlen_slice; lia). cbn [bind]. f_equal. f_equal.
    rewrite fld_slice by lia. rewrite Z.add_0_r. apply fld_app_l; [lia|].
    rewrite ixi_bytes_len. unfold ixi_length. lia.
Qed.

Lemma fld_past w (pre y : list Z) o : 0 <= o -> fld w (pre ++ y) (zlen pre + o) = fld w y o.
Proof. intros. rewrite fld_app_r by lia. f_equal. lia. Qed.

Definition ixis (l : list ix_image) : list Z := flat_map ixi_bytes l.

Lemma ix_walk_images stop flags last slack l : forall pre, 0 <= flags < 65536 -> zlen last < 65520 ->
  Forall ixi_ok l ->
  let v := pre ++ ixis l ++ ixi_end flags last ++ slack in
  exists ps, ix_walk v (zlen v - zlen slack) stop (zlen pre) ps Done /\
    Forall2 decodes (map (fun p => zdrop p v) ps) l.
Proof.
  induction l as [|i l IH]; intros pre Hf Hl H v.
  - exists []. split; [|constructor]. pose proof (zlen_nonneg pre). pose proof (zlen_nonneg last). pose proof (zlen_nonneg slack).
    assert (L : zlen v = zlen pre + (16 + zlen last) + zlen slack) by (unfold v, ixi_end; cbn [ixis flat_map app]; lens; lia).
    unfold v in *. cbn [ixis flat_map app] in *.
    apply ixw_empty; try lia; rewrite fld_past by lia; unfold ixi_end; rewrite <- !app_assoc.
    + assert (E : fld 2 (le_bytes 8 0 ++ le_bytes 2 (16 + zlen last) ++ [0; 0] ++ le_bytes 2 flags ++ [0; 0] ++ last ++ slack) 8 = 16 + zlen last) by fget.
      rewrite E. lia.
    + change ([0; 0] ++ le_bytes 2 flags ++ [0; 0] ++ last ++ slack) with (le_bytes 2 0 ++ le_bytes 2 flags ++ [0; 0] ++ last ++ slack). fget.
  - inversion H as [|? ? Hi Hl']; subst. cbn [ixis flat_map] in v. fold (ixis l) in v.
    destruct (IH (pre ++ ixi_bytes i) Hf Hl Hl') as (ps & W & D).
    assert (Ev : (pre ++ ixi_bytes i) ++ ixis l ++ ixi_end flags last ++ slack = v).
    { unfold v. now rewrite <- !app_assoc. }
    rewrite Ev in W, D. clear IH.
    assert (Ev' : v = pre ++ ixi_bytes i ++ (ixis l ++ ixi_end flags last ++ slack)) by (unfold v; now rewrite <- !app_assoc).
    set (rest := ixis l ++ ixi_end flags last ++ slack) in *.
    assert (Lr : 16 + zlen slack <= zlen rest).
    { unfold rest, ixi_end. lens. pose proof (zlen_nonneg last). pose proof (zlen_nonneg (ixis l)). lia. }
    assert (Lv : zlen v = zlen pre + ixi_length i + zlen rest) by (rewrite Ev', !zlen_app, ixi_bytes_len; lia).
    pose proof (zlen_nonneg pre). pose proof (zlen_nonneg slack).
    destruct (ixi_fields i rest Hi) as (F0 & F8 & F10 & F12).
    pose proof Hi as (G1 & G2 & G3 & G4 & G5 & G6).
    assert (Hlen : 16 < ixi_length i) by (unfold ixi_length; pose proof (zlen_nonneg (ixi_rest i)); lia).
    exists (zlen pre :: ps). split.
    + assert (P : forall o, 0 <= o -> fld 2 v (zlen pre + o) = fld 2 (ixi_bytes i ++ rest) o)
        by (intros; rewrite Ev'; apply fld_past; lia).
      eapply ixw_more with (m := ixi_length i); rewrite ?P, ?F8, ?F10, ?F12 by lia; try lia.
      * intros _. split; [lia|auto].
      * rewrite zlen_app, ixi_bytes_len in W. exact W.
    + cbn [map]. constructor; auto. rewrite Ev'. rewrite zdrop_app_exact by auto. now apply ixi_decodes.
Qed.

(** A whole index buffer (or root): [pre] ends where the first entry begins. *)
Lemma index_entries_images hb stop flags last slack pre l : 0 <= hb -> hb + 16 <= zlen pre ->
  0 <= flags < 65536 -> zlen last < 65520 -> Forall ixi_ok l ->
  let v := pre ++ ixis l ++ ixi_end flags last ++ slack in
  bytes_ok v -> hb + fld 4 v hb = zlen pre -> hb + fld 4 v (hb + 4) = zlen v - zlen slack ->
  exists rs, index_entries_at hb stop v = (rs, Done) /\ Forall2 decodes rs l.
Proof.
  intros Hh Hp Hf Hl H v B E1 E2.
  assert (zlen pre <= zlen v) by (unfold v; rewrite zlen_app; pose proof (zlen_nonneg (ixis l ++ ixi_end flags last ++ slack)); lia).
  destruct (index_entries_walk hb stop v Hh B) as [K _]. destruct (K ltac:(lia)) as (ps & st & W & E).
  destruct (ix_walk_images stop flags last slack l pre Hf Hl H) as (ps' & W' & D). fold v in W', D.
  rewrite E1, E2 in W. destruct (ix_walk_fun _ _ _ _ _ _ W _ _ W') as [-> ->]. eauto.
Qed.

(** ** Index allocations *)

Lemma ia_walk_fun blk size i l st : ia_walk blk size i l st ->
  forall l' st', ia_walk blk size i l' st' -> l = l' /\ st = st'.
Proof.
  induction 1 as [i raw Hb Hs|i e Hb|i raw l st Hb Hs Hn W IH|i raw out l st Hb Hs Hg Ho W IH];
    intros l' st' W'; inversion W' as [? raw' Hb' Hs'|? e' Hb'|? raw' t st'' Hb' Hs' Hn' V|? raw' out' t st'' Hb' Hs' Hg' Ho' V]; subst;
    rewrite Hb in Hb'; try discriminate; try (injection Hb' as <-); try lia; try tauto; auto; try (split; congruence).
  - rewrite Ho in Ho'. injection Ho' as <-. destruct (IH _ _ V) as [-> ->]. auto.
Qed.

Lemma ff_pread_beyond f off n : ff_size f <= off -> ff_pread f off n = Ok [].
Proof.
  intro H. unfold ff_pread, ff_read. cbn [ff_set_pos ff_pos ff_size].
  replace (_ || _) with true; auto. symmetry. apply orb_true_iff. right. lia.
Qed.

Definition ff_bytes_ok (f : ffile) : Prop := bytes_ok (ff_volume f) /\ 0 < ff_csize f /\ runs_positive (ff_runs f) /\
  zlen (ff_volume f) < 2 ^ 63.

Definition ff_layout (f : ffile) : layout := mk_layout (ff_volume f) (ff_voffset f) (ff_csize f) (ff_runs f).

Lemma ff_pread_spec f off n : ff_bytes_ok f -> 0 <= off -> 0 <= n ->
  match ff_pread f off n with
  | Ok out => bytes_ok out /\ bytes_at (ff_layout f) off out /\
      zlen out = read_length (ff_csize f) (ff_size f) off (Some n)
  | Err e => (e = MasterFileTableException \/ e = ValueError \/ e = OverflowError) /\
      exists p, off <= p < off + n /\ forall b, ~ content (ff_layout f) p b
  end.
Proof.
  destruct f as [vol voff cs runs fsize pos]. intros (B & Hc & Hr & Hv) Ho Hn. cbn [ff_volume ff_csize ff_runs] in *.
  pose proof (ff_read_spec vol voff cs runs Hc Hr Hv fsize off (Some n) Ho) as P. cbn zeta in P.
  unfold ff_pread, ff_layout, ff_set_pos, FragmentedFileProofs.mkf in *.
  cbn [ff_volume ff_csize ff_runs ff_voffset ff_size] in *.
  destruct (ff_read (mk_ff vol voff cs runs fsize off) (Some n)) as [[out|e] f']; cbn [fst].
  - destruct P as (P1 & P2 & _). split; [|auto].
    apply Forall_forall. intros x Hx. apply In_znth in Hx as [i Hi].
    destruct (P1 i (znth_Some_range _ _ _ Hi)) as (b & Hb & C). rewrite Hi in Hb. injection Hb as <-.
    inversion C as [? L|? c st ? L ES S1 S2 N]; subst; [red; lia|]. eapply bytes_ok_znth; eauto.
  - destruct P as (P1 & p & _ & P2 & _ & P3). split; auto. exists p. split; auto.
    unfold read_length in P2. destruct (fsize <=? off); [lia|]. replace (n <? 0) with false in P2 by lia. lia.
Qed.

Lemma ia_loop_walk f size : ff_bytes_ok f -> 0 < size -> forall fuel i, 0 <= i ->
  (Z.to_nat (ff_size f - i) < fuel)%nat ->
  exists l st, ia_loop fuel f size i = (l, st) /\ ia_walk (fun k => ff_pread f (k * size) size) size i l st.
Proof.
  intros B Hs. induction fuel as [|fuel IH]; intros i Hi Hf; [lia|]. cbn [ia_loop].
  pose proof (ff_pread_spec f (i * size) size B ltac:(nia) ltac:(lia)) as P.
  destruct (ff_pread f (i * size) size) as [raw|e] eqn:E.
  2:{ eexists _, _. split; [reflexivity|]. now apply iaw_raise. }
  destruct P as (B' & _ & _).
  destruct (zlen raw =? size) eqn:EL; cbn [negb]; bools.
  2:{ eexists _, _. split; [reflexivity|]. eapply iaw_end; eauto. }
  assert (i * size < ff_size f).
  { destruct (Z.lt_ge_cases (i * size) (ff_size f)); auto. rewrite ff_pread_beyond in E by lia.
    injection E as <-. change (zlen (@nil Z)) with 0 in EL. lia. }
  destruct (IH (i + 1) ltac:(lia) ltac:(nia)) as (l & st & El & W).
  pose proof (index_sectors_spec raw B') as S.
  destruct (unprotect_index raw) as [[out|]|e] eqn:EU; try tauto.
  - rewrite El. eexists _, _. split; [reflexivity|]. eapply iaw_good; eauto. apply S.
  - rewrite El. eexists _, _. split; [reflexivity|]. eapply iaw_bad; eauto.
Qed.

(** The virtual content of the file, rounded up to whole clusters. *)
Definition whole_content (f : ffile) (c : list Z) : Prop :=
  zlen c = whole_clusters (ff_csize f) (ff_size f) /\ bytes_at (ff_layout f) 0 c.

Lemma ff_pread_content f c off n : ff_bytes_ok f -> whole_content f c -> 0 <= off -> 0 <= n ->
  ff_pread f off n = Ok (if ff_size f <=? off then [] else slice c off (off + n)).
Proof.
  intros B [HL HC] Ho Hn. destruct (ff_size f <=? off) eqn:E; bools; [now apply ff_pread_beyond|].
  assert (N : n = 0 \/ 0 < n) by lia. destruct N as [->|N].
  { rewrite slice_empty by lia. unfold ff_pread, ff_read. cbn [ff_set_pos ff_pos ff_size]. change (0 <? 0) with false. cbn [orb Z.leb Z.compare]. reflexivity. }
  pose proof (ff_pread_spec f off n B Ho Hn) as P.
  destruct B as (B1 & Hc & Hr & Hv).
  destruct (whole_clusters_spec (ff_csize f) Hc (ff_size f)) as (w & W1 & W2).
  assert (LC : ff_size f <= zlen c) by lia.
  assert (A : bytes_at (ff_layout f) off (slice c off (off + n))).
  { intros i Hi. rewrite zlen_slice in Hi by lia. rewrite znth_slice by lia. apply HC. lia. }
  destruct (ff_pread f off n) as [out|e] eqn:EP.
  - destruct P as (_ & P1 & P2). f_equal. apply (bytes_at_fun (ff_layout f) off); auto.
    rewrite P2. unfold read_length. replace (ff_size f <=? off) with false by lia. replace (n <? 0) with false by lia.
    rewrite zlen_slice by lia. lia.
  - exfalso. (* the failing byte would be inside c *)
    unfold ff_pread in EP. destruct f as [vol voff cs runs fsize pos]. cbn in *.
    pose proof (ff_read_spec vol voff cs runs Hc Hr Hv fsize off (Some n) Ho) as Q. cbn zeta in Q.
    unfold FragmentedFileProofs.mkf, ff_set_pos in *. cbn in EP.
    destruct (ff_read (mk_ff vol voff cs runs fsize off) (Some n)) as [[out|e'] f']; cbn in EP; [discriminate|].
    destruct Q as (_ & p & _ & Q2 & _ & Q3). unfold read_length in Q2.
    replace (fsize <=? off) with false in Q2 by lia. replace (n <? 0) with false in Q2 by lia.
    destruct (HC p ltac:(lia)) as (b & _ & Cb). apply (Q3 b). exact Cb.
Qed.

Lemma ia_buffer_size_iff f c s : ff_bytes_ok f -> whole_content f c ->
  ia_buffer_size f = Ok (Some s) <->
  (4 < ff_size f /\ s = (fld 2 c 6 - 1) * 512 /\ s <= 119808 /\ index_sectors_ok (slice c 0 s)).
Proof.
  intros B W. pose proof B as (BV & Hc & Hr & Hv). pose proof W as [WL WC].
  unfold ia_buffer_size, UPDATE_SEQUENCE_STRIDE_INDEX. rewrite (ff_pread_content f c) by (auto; lia). cbn [bind].
  destruct (whole_clusters_spec (ff_csize f) Hc (ff_size f)) as (w & W1 & W2).
  pose proof (zlen_nonneg c) as Hnc.
  destruct (ff_size f <=? 4) eqn:E1; bools.
  { change (zlen (@nil Z) =? 4) with false. cbn [negb]. split; [discriminate|lia]. }
  change (4 + 4) with 8. rewrite zlen_slice by lia.
  destruct (Z.eqb_spec (Z.max 0 (Z.min (8 - 4) (zlen c - 4))) 4) as [E2|E2]; cbn [negb].
  2:{ split; [discriminate|]. intros (_ & _ & _ & S1 & _). rewrite zlen_slice in S1 by lia. lia. }
  rewrite fld_slice by lia. change (4 + 2) with 6. set (us := fld 2 c 6).
  destruct (us - 1 <? 2) eqn:E3; bools.
  { split; [discriminate|]. intros (_ & -> & _ & S1 & _). rewrite zlen_slice in S1 by lia. lia. }
  destruct (_ && _) eqn:E4.
  2:{ split; [discriminate|]. intros (_ & -> & K & _). exfalso. revert E4.
      replace (0 <? (us - 1) * 512) with true by lia. replace ((us - 1) * 512 <=? 119808) with true by lia.
      replace ((us - 1) * 512 mod 512 =? 0) with true; [discriminate|]. symmetry. apply Z.eqb_eq. apply Z.mod_mul. lia. }
  assert (E4' : (us - 1) * 512 <= 119808) by (apply andb_prop in E4 as [_ E4]; lia). clear E4.
  rewrite (ff_pread_content f c) by (auto; lia). replace (ff_size f <=? 0) with false by lia. cbn [bind].
  rewrite Z.add_0_l. set (n := (us - 1) * 512) in *.
  assert (BC : bytes_ok c).
  { apply Forall_forall. intros x Hx. apply In_znth in Hx as [i Hi].
    destruct (WC i (znth_Some_range _ _ _ Hi)) as (b & Hb & C). rewrite Hi in Hb. injection Hb as <-.
    inversion C as [? L|? k st ? L ES S1 S2 N]; subst; [red; lia|]. eapply bytes_ok_znth; eauto. }
  pose proof (index_sectors_spec (slice c 0 n) (bytes_ok_slice _ _ _ BC)) as S.
  destruct (zlen (slice c 0 n) =? n) eqn:E5; cbn [negb]; bools.
  - destruct (unprotect_index (slice c 0 n)) as [[out|]|e]; cbn [bind]; try tauto.
    + split; [intros [= <-]|intros (_ & -> & _); reflexivity]. repeat (split; [solve [auto|lia]|]). apply S.
    + split; [discriminate|]. intros (_ & -> & _ & K). tauto.
  - split; [discriminate|]. intros (_ & -> & _ & K). exfalso. fold n in K.
    destruct K as (K1 & _ & _ & K2 & _).
    assert (Z1 : usa_cnt (slice c 0 n) = us).
    { unfold usa_cnt, us. rewrite zlen_slice in K1 by lia. rewrite fld_slice by lia. reflexivity. }
    rewrite Z1 in K2. fold n in K2. lia.
Qed.

Lemma ia_walk_content f c size : ff_bytes_ok f -> whole_content f c -> 0 < size -> forall l i st,
  ia_walk (fun k => ff_pread f (k * size) size) size i l st -> 0 <= i ->
  st = Done /\ forall k out, In (k, out) l <->
    (i <= k /\ k * size < ff_size f /\ (k + 1) * size <= zlen c /\
     unprotect_index (slice c (k * size) ((k + 1) * size)) = Ok (Some out)).
Proof.
  intros B W Hs l i st H Hi.
  assert (R : forall k, 0 <= k -> ff_pread f (k * size) size =
            Ok (if ff_size f <=? k * size then [] else slice c (k * size) ((k + 1) * size))).
  { intros k Hk. rewrite (ff_pread_content f c) by (auto; nia). now replace (k * size + size) with ((k + 1) * size) by lia. }
  assert (RL : forall k, 0 <= k -> k * size < ff_size f ->
            zlen (slice c (k * size) ((k + 1) * size)) = size -> (k + 1) * size <= zlen c).
  { intros k Hk Hk2 HL. rewrite zlen_slice in HL by nia. lia. }
  revert Hi. induction H as [i raw Hb Hl|i e Hb|i raw l st Hb Hl Hn V IH|i raw out l st Hb Hl Hg Ho V IH]; intro Hi;
    rewrite R in Hb by lia; [|discriminate| |]; injection Hb as Hb.
  - split; auto. intros k out. split; [intros []|]. intros (K1 & K2 & K3 & _).
    destruct (ff_size f <=? i * size) eqn:E; bools; [nia|].
    apply Hl. rewrite <- Hb, zlen_slice by nia. nia.
  - destruct (IH ltac:(lia)) as [IH1 IH2]. split; auto. intros k out. rewrite IH2.
    destruct (ff_size f <=? i * size) eqn:E; bools; [subst raw; change (zlen (@nil Z)) with 0 in Hl; lia|].
    split; [intros (K1 & K2); split; [lia|auto]|]. intros (K1 & K2 & K3 & K4).
    assert (k <> i); [|split; [lia|auto]]. intros ->. rewrite Hb in K4.
    assert (BR : bytes_ok raw).
    { pose proof (ff_pread_spec f (i * size) size B ltac:(nia) ltac:(lia)) as P. rewrite R in P by lia.
      replace (ff_size f <=? i * size) with false in P by lia. rewrite Hb in P. apply P. }
    pose proof (index_sectors_spec raw BR) as S. rewrite K4 in S. tauto.
  - destruct (IH ltac:(lia)) as [IH1 IH2]. split; auto. intros k out'. cbn [In]. rewrite IH2.
    destruct (ff_size f <=? i * size) eqn:E; bools; [subst raw; change (zlen (@nil Z)) with 0 in Hl; lia|].
    split.
    + intros [K|(K1 & K2)]; [|split; [lia|auto]]. injection K as <- <-.
      split; [lia|]. split; [lia|]. split; [apply RL; auto; now rewrite Hb|now rewrite Hb].
    + intros (K1 & K2 & K3 & K4). destruct (Z.eq_dec k i) as [->|N]; [left|right; split; [lia|auto]].
      rewrite Hb in K4. congruence.
Qed.

Fixpoint increasing (lo : Z) (l : list (Z * list Z)) : Prop :=
  match l with [] => True | (i, _) :: t => lo <= i /\ increasing (i + 1) t end.

Lemma increasing_weaken lo lo' l : lo' <= lo -> increasing lo l -> increasing lo' l.
Proof. destruct l as [|[i o] t]; cbn; auto. intuition lia. Qed.

Lemma ia_walk_increasing blk size i l st : ia_walk blk size i l st -> increasing i l.
Proof.
  induction 1 as [i raw Hb Hs|i e Hb|i raw l st Hb Hs Hn W IH|i raw out l st Hb Hs Hg Ho W IH]; cbn; auto.
  - eapply increasing_weaken; [|eauto]. lia.
  - split; [lia|auto].
Qed.

Lemma ia_buffers f c size : ff_bytes_ok f -> whole_content f c -> ia_buffer_size f = Ok (Some size) ->
  exists l, ia_index_buffers f = (l, Done) /\ increasing 0 l /\
  forall k out, In (k, out) l <->
    (0 <= k /\ k * size < ff_size f /\ (k + 1) * size <= zlen c /\
     unprotect_index (slice c (k * size) ((k + 1) * size)) = Ok (Some out)).
Proof.
  intros B W E. unfold ia_index_buffers. rewrite E.
  assert (Hs : 0 < size).
  { apply (ia_buffer_size_iff f c size B W) in E as (_ & E1 & _ & (E2 & _)).
    pose proof (zlen_nonneg c). rewrite zlen_slice in E2 by lia. lia. }
  destruct (ia_loop_walk f size B Hs (S (S (Z.to_nat (ff_size f)))) 0 ltac:(lia) ltac:(lia)) as (l & st & El & V).
  rewrite El. destruct (ia_walk_content f c size B W Hs l 0 st V ltac:(lia)) as [-> K].
  exists l. split; auto. split; auto. eapply ia_walk_increasing; eauto.
Qed.
