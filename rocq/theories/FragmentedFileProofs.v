(** Proofs about FragmentedFile. *)
From Verif Require Import Base BaseLemmas FileObject MappingPairs FragmentedFile FragmentedFileSpec.


Lemma located_nonneg runs k r : runs_positive runs -> located runs k r -> 0 <= k.
Proof.
  intros HP H; induction H as [n t k H|o n t k H|o n t k r H IH]; try lia.
  inversion HP as [|x y H1 H2]; subst; cbn in H1. specialize (IH H2); lia.
Qed.

Lemma located_fun runs k r r' : runs_positive runs -> located runs k r -> located runs k r' -> r = r'.
Proof.
  intros HP H; revert r'; induction H as [n t k H|o n t k H|o n t k r H IH]; intros r' H';
    inversion HP as [|x y H1 H2]; subst; cbn in H1.
  - inversion H' as [|? ? ? ? HH|? ? ? ? ? HH]; subst; auto. apply located_nonneg in HH; auto; lia.
  - inversion H' as [|? ? ? ? HH|? ? ? ? ? HH]; subst; auto. apply located_nonneg in HH; auto; lia.
  - pose proof (located_nonneg _ _ _ H2 H).
    inversion H' as [? ? ? HH|? ? ? ? HH|? ? ? ? ? HH]; subst; try lia.
    apply IH; auto. replace k with k0 by lia; auto.
Qed.

Section File.
Variables (vol : list Z) (voff cs : Z) (runs : list run).
Hypothesis Hcs : 0 < cs.
Hypothesis Hruns : runs_positive runs.
Hypothesis Hvol : zlen vol < 2 ^ 63.
Let ly := mk_layout vol voff cs runs.

Lemma zlen_seek_read off n data : 0 <= n -> seek_read vol off n = Ok data ->
  0 <= off /\ zlen data <= n /\ (zlen data = n -> n = 0 \/ off + n <= zlen vol) /\
  data = slice vol off (off + n) /\ (off + n <= zlen vol -> zlen data = n).
Proof.
  intros Hn; unfold seek_read. destruct (Z.ltb_spec off 0); [discriminate|].
  destruct (2 ^ 63 <=? off); [discriminate|]. destruct (2 ^ 63 <=? n); [discriminate|]. intros [= <-].
  rewrite zlen_slice by lia. repeat split; lia.
Qed.

Lemma read_cluster_loop_spec rs : runs_positive rs -> forall vcn skipped, skipped <= vcn ->
  match read_cluster_loop vol voff cs vcn rs skipped with
  | Ok c => (located rs (vcn - skipped) None /\ c = zeros cs) \/
      (exists k, located rs (vcn - skipped) (Some k) /\
         0 <= voff + k * cs /\ voff + k * cs + cs <= zlen vol /\
         c = slice vol (voff + k * cs) (voff + k * cs + cs))
  | Err e => (e = MasterFileTableException \/ e = ValueError \/ e = OverflowError) /\
      forall r, located rs (vcn - skipped) r ->
        exists k, r = Some k /\ ~ (0 <= voff + k * cs /\ voff + k * cs + cs <= zlen vol)
  end.
Proof.
  induction rs as [|[o n] t IH]; intros HP vcn skipped Hs; cbn [read_cluster_loop].
  { split; auto. intros r H; inversion H. }
  assert (HP' := HP); inversion HP as [|x y H1 H2]; subst; cbn in H1.
  destruct (Z.leb_spec (skipped + n) vcn) as [L|L].
  - specialize (IH H2 vcn (skipped + n) L).
    assert (E : vcn - skipped = n + (vcn - (skipped + n))) by lia.
    destruct (read_cluster_loop vol voff cs vcn t (skipped + n)) as [c|e].
    + destruct IH as [[I1 I2]|[k [I1 I2]]]; [left|right; exists k]; rewrite E; (split; [constructor; auto|auto]).
    + destruct IH as [I1 I2]; split; auto. intros r Hr. apply I2.
      rewrite E in Hr. inversion Hr as [? ? ? HH|? ? ? ? HH|? ? ? k ? HH]; subst; try lia.
      replace (vcn - (skipped + n)) with k by lia; auto.
  - destruct o as [o|].
    + destruct (seek_read vol (voff + (o + (vcn - skipped)) * cs) cs) as [data|e] eqn:R; cbn [bind].
      * apply zlen_seek_read in R; [|lia]. destruct R as [R1 [R2 [R3 [R4 R5]]]].
        assert (LOC : forall r, located ((Some o, n) :: t) (vcn - skipped) r -> r = Some (o + (vcn - skipped))).
        { intros r Hr; apply (located_fun _ _ _ _ HP' Hr). apply loc_here; lia. }
        destruct (Z.eqb_spec (zlen data) 0).
        { split; auto. intros r Hr; apply LOC in Hr; eexists; split; [exact Hr|]. lia. }
        destruct (Z.eqb_spec (zlen data) cs); cbn [negb].
        -- right. exists (o + (vcn - skipped)). split; [apply loc_here; lia|]. split; [lia|]. split; [lia|auto].
        -- split; auto. intros r Hr; apply LOC in Hr; eexists; split; [exact Hr|]. lia.
      * assert (X : (e = ValueError \/ e = OverflowError) /\
          ~ (0 <= voff + (o + (vcn - skipped)) * cs /\ voff + (o + (vcn - skipped)) * cs + cs <= zlen vol)).
        { unfold seek_read in R.
          destruct (Z.ltb_spec (voff + (o + (vcn - skipped)) * cs) 0); [injection R as <-; split; [auto|lia]|].
          destruct (Z.leb_spec (2 ^ 63) (voff + (o + (vcn - skipped)) * cs)); [injection R as <-; split; [auto|lia]|].
          destruct (Z.leb_spec (2 ^ 63) cs); [injection R as <-; split; [auto|lia]|]. discriminate. }
        destruct X as [X1 X2]. split; [tauto|].
        intros r Hr. exists (o + (vcn - skipped)); split; [|exact X2].
        apply (located_fun _ _ _ _ HP' Hr). apply loc_here; lia.
    + left; split; auto. constructor; lia.
Qed.

Definition mkf (fsize pos : Z) : ffile := mk_ff vol voff cs runs fsize pos.

Lemma div_mod_unique_cs k o : 0 <= o < cs -> (k * cs + o) / cs = k /\ (k * cs + o) mod cs = o.
Proof.
  intros; split; [rewrite Z.div_add_l by lia; rewrite Z.div_small; lia|].
  rewrite Z.add_comm, Z.mod_add by lia. apply Z.mod_small; lia.
Qed.

Lemma read_cluster_spec fsize pos vcn : 0 <= vcn ->
  match read_virtual_cluster (mkf fsize pos) vcn with
  | Ok c => zlen c = cs /\
      forall o, 0 <= o < cs -> exists b, znth c o = Some b /\ content ly (vcn * cs + o) b
  | Err e => (e = MasterFileTableException \/ e = ValueError \/ e = OverflowError) /\
      forall o b, 0 <= o < cs -> ~ content ly (vcn * cs + o) b
  end.
Proof.
  intros Hv. pose proof (read_cluster_loop_spec runs Hruns vcn 0 Hv) as P.
  unfold read_virtual_cluster, mkf; cbn [ff_volume ff_voffset ff_csize ff_runs].
  rewrite Z.sub_0_r in P.
  destruct (read_cluster_loop vol voff cs vcn runs 0) as [c|e].
  - destruct P as [[P1 ->]|[k [P1 [P2 [P3 ->]]]]].
    + split; [apply zlen_zeros; lia|]. intros o Ho. exists 0. split.
      * destruct (znth_some (zeros cs) o) as [x Hx]; [rewrite zlen_zeros; lia|].
        rewrite Hx. apply znth_In in Hx. apply repeat_spec in Hx. now subst.
      * apply content_hole; cbn. destruct (div_mod_unique_cs vcn o Ho) as [-> _]; auto.
    + split; [rewrite zlen_slice by lia; lia|]. intros o Ho.
      destruct (znth_some vol (voff + k * cs + o)) as [b Hb]; [lia|].
      exists b; split; [rewrite znth_slice by lia; auto|].
      destruct (div_mod_unique_cs vcn o Ho) as [E1 E2].
      eapply content_disk; cbn [ly_runs ly_cluster ly_base ly_volume ly]; rewrite ?E1, ?E2; eauto.
  - destruct P as [P1 P2]; split; auto. intros o b Ho H.
    destruct (div_mod_unique_cs vcn o Ho) as [E1 E2].
    inversion H as [p L|p c st b' L ES S1 S2 Z]; subst; cbn [ly_runs ly_cluster ly_base ly_volume ly] in *;
      rewrite ?E1 in *; apply P2 in L; destruct L as [k [L1 L2]]; [discriminate|].
    injection L1 as <-. auto.
Qed.

Lemma pos_split pos : pos = pos / cs * cs + pos mod cs /\ 0 <= pos mod cs < cs.
Proof. pose proof (Z.div_mod pos cs); pose proof (Z.mod_pos_bound pos cs); lia. Qed.

Lemma read_piece_spec fsize p0 pos want : 0 <= pos -> 0 < want ->
  match read_piece (mkf fsize p0) pos want with
  | Ok d => zlen d = Z.min want (cs - pos mod cs) /\ bytes_at ly pos d
  | Err e => (e = MasterFileTableException \/ e = ValueError \/ e = OverflowError) /\ forall b, ~ content ly pos b
  end.
Proof.
  intros Hp Hw; unfold read_piece; cbn [mkf ff_csize].
  destruct (Z.eqb_spec cs 0); [lia|].
  destruct (pos_split pos) as [E1 E2].
  assert (Hk : 0 <= pos / cs) by (apply Z.div_pos; lia).
  pose proof (read_cluster_spec fsize p0 (pos / cs) Hk) as P. unfold mkf in P.
  fold (mkf fsize p0) in *. set (k := pos / cs) in *. set (o := pos mod cs) in *. clearbody k o.
  unfold mkf. destruct (read_virtual_cluster _ k) as [c|e]; cbn [bind].
  - destruct P as [P1 P2]. assert (L : zlen (slice c o (o + want)) = Z.min want (cs - o))
      by (rewrite zlen_slice by lia; lia).
    split; auto. intros i Hi. rewrite L in Hi.
    destruct (P2 (o + i)) as [b [B1 B2]]; [lia|].
    exists b; split; [rewrite znth_slice by lia; auto|].
    replace (pos + i) with (k * cs + (o + i)) by lia; auto.
  - destruct P as [P1 P2]; split; auto. intros b; rewrite E1; apply P2; lia.
Qed.

Lemma bytes_at_app p a b : bytes_at ly p a -> bytes_at ly (p + zlen a) b -> bytes_at ly p (a ++ b).
Proof.
  intros Ha Hb i Hi. rewrite zlen_app in Hi.
  destruct (Z.lt_ge_cases i (zlen a)).
  - destruct (Ha i ltac:(lia)) as [x [X1 X2]]. exists x; rewrite znth_app1 by lia; auto.
  - destruct (Hb (i - zlen a) ltac:(lia)) as [x [X1 X2]]. exists x; rewrite znth_app2 by lia; split; auto.
    replace (p + i) with (p + zlen a + (i - zlen a)) by lia; auto.
Qed.

Lemma bytes_at_content p l q : bytes_at ly p l -> p <= q < p + zlen l -> exists b, content ly q b.
Proof.
  intros H Hq; destruct (H (q - p) ltac:(lia)) as [b [_ B]]; exists b.
  replace q with (p + (q - p)) by lia; auto.
Qed.

Lemma whole_clusters_spec n : exists w, whole_clusters cs n = w * cs /\ n <= w * cs < n + cs.
Proof.
  unfold whole_clusters. exists ((n + cs - 1) / cs); split; auto.
  destruct (pos_split (n + cs - 1)); lia.
Qed.

Lemma read_loop_spec fsize q0 size p0 fuel : 0 <= p0 < fsize -> forall pos data,
  let N := Z.min size (whole_clusters cs fsize - p0) in
  bytes_at ly p0 data -> pos = p0 + zlen data -> 0 < zlen data <= N ->
  (zlen data = size \/ pos mod cs = 0) ->
  (Z.to_nat (N - zlen data) < fuel)%nat ->
  match read_loop fuel (mkf fsize q0) pos size data with
  | (Ok out, p) => bytes_at ly p0 out /\ zlen out = N /\ p = p0 + zlen out
  | (Err e, p) => (e = MasterFileTableException \/ e = ValueError \/ e = OverflowError) /\
      p0 <= p < p0 + N /\ (forall q, p0 <= q < p -> exists b, content ly q b) /\
      (forall b, ~ content ly p b)
  end.
Proof.
  intros Hp0. induction fuel as [|fuel IH]; intros pos data N HB HE HL HM HF; [lia|].
  cbn [read_loop]. cbn [mkf ff_size]. fold (mkf fsize q0).
  destruct (whole_clusters_spec fsize) as [w [W1 W2]]. unfold N in *; rewrite W1 in *.
  set (N' := Z.min size (w * cs - p0)) in *.
  destruct (Z.ltb_spec 0 (size - zlen data)) as [L|L].
  2:{ repeat split; auto; lia. }
  destruct HM as [HM|HM]; [lia|].
  destruct (pos_split pos) as [E1 E2]. rewrite HM in E1.
  set (k := pos / cs) in *. clearbody k.
  destruct (Z.leb_spec fsize pos) as [G|G].
  - repeat split; auto. assert (w < k + 1) by nia. assert (w * cs <= k * cs) by nia. lia.
  - pose proof (read_piece_spec fsize q0 pos (size - zlen data) ltac:(lia) ltac:(lia)) as P.
    rewrite HM in P. destruct (read_piece (mkf fsize q0) pos (size - zlen data)) as [d|e].
    + destruct P as [P1 P2].
      assert (KW : k < w) by nia. assert ((k + 1) * cs <= w * cs) by nia.
      apply IH.
      * apply bytes_at_app; auto. now rewrite <- HE.
      * rewrite zlen_app; lia.
      * rewrite zlen_app. lia.
      * rewrite zlen_app, P1.
        destruct (Z.le_gt_cases (size - zlen data) (cs - 0)).
        { left; lia. }
        right. rewrite Z.min_r by lia. rewrite E1.
        replace (k * cs + 0 + (cs - 0)) with ((k + 1) * cs) by ring. apply Z.mod_mul; lia.
      * rewrite zlen_app. lia.
    + destruct P as [P1 P2]. split; auto. split.
      * assert (KW : k < w) by nia. assert ((k + 1) * cs <= w * cs) by nia. lia.
      * split; auto. intros q Hq; eapply bytes_at_content; eauto; lia.
Qed.

Lemma ff_read_spec fsize pos size : 0 <= pos ->
  let N := read_length cs fsize pos size in
  match ff_read (mkf fsize pos) size with
  | (Ok out, f) => bytes_at ly pos out /\ zlen out = N /\ f = mkf fsize (pos + zlen out)
  | (Err e, f) => (e = MasterFileTableException \/ e = ValueError \/ e = OverflowError) /\
      exists p, f = mkf fsize p /\
      pos <= p < pos + N /\ (forall q, pos <= q < p -> exists b, content ly q b) /\
      (forall b, ~ content ly p b)
  end.
Proof.
  intros Hp. unfold ff_read, read_length. cbn [mkf ff_size ff_pos]. fold (mkf fsize pos).
  set (sz := match size with None => fsize - pos | Some s => if s <? 0 then fsize - pos else s end).
  destruct (whole_clusters_spec fsize) as [w [W1 W2]].
  assert (EN : pos < fsize -> (if fsize <=? pos then 0 else match size with None => fsize - pos
     | Some s => if s <? 0 then fsize - pos else Z.min s (whole_clusters cs fsize - pos) end)
     = Z.min sz (whole_clusters cs fsize - pos)).
  { intros HL. rewrite W1. destruct (Z.leb_spec fsize pos); [lia|].
    unfold sz. destruct size as [s|]; [destruct (s <? 0)|]; lia. }
  destruct (Z.leb_spec fsize pos) as [L|L].
  { rewrite orb_true_r. repeat split.
    - intros i Hi; change (zlen (@nil Z)) with 0 in Hi; lia.
    - change (zlen (@nil Z)) with 0; now rewrite Z.add_0_r. }
  cbn zeta. rewrite EN by auto. clear EN.
  destruct (Z.leb_spec sz 0) as [S0|S0]; cbn [orb].
  { assert (sz = 0).
    { unfold sz in *. destruct size as [s|]; [destruct (Z.ltb_spec s 0)|]; lia. }
    repeat split.
    - intros i Hi; change (zlen (@nil Z)) with 0 in Hi; lia.
    - change (zlen (@nil Z)) with 0; lia.
    - change (zlen (@nil Z)) with 0; now rewrite Z.add_0_r. }
  clearbody sz.
  pose proof (read_piece_spec fsize pos pos sz Hp S0) as P.
  destruct (pos_split pos) as [E1 E2]. set (k := pos / cs) in *. set (o := pos mod cs) in *.
  assert (KW : k < w) by nia. assert (KW2 : (k + 1) * cs <= w * cs) by nia.
  destruct (read_piece (mkf fsize pos) pos sz) as [d|e].
  - destruct P as [P1 P2].
    pose proof (read_loop_spec fsize pos sz pos (S (Z.to_nat (Z.min sz fsize))) ltac:(lia)
                  (pos + zlen d) d P2 eq_refl) as R.
    cbn zeta in R. rewrite W1 in *.
    specialize (R ltac:(lia)).
    assert (M : zlen d = sz \/ (pos + zlen d) mod cs = 0).
    { rewrite P1. destruct (Z.le_gt_cases sz (cs - o)); [left; lia|right].
      rewrite Z.min_r by lia. replace (pos + (cs - o)) with ((k + 1) * cs) by lia. apply Z.mod_mul; lia. }
    specialize (R M).
    destruct (read_loop (S (Z.to_nat (Z.min sz fsize))) (mkf fsize pos) (pos + zlen d) sz d) as [[out|e] p].
    + destruct R as [R1 [R2 ->]]; [|repeat split; auto].
      assert (0 <= k * cs) by (apply Z.mul_nonneg_nonneg; [apply Z.div_pos|]; lia). lia.
    + destruct R as [R1 [R2 [R3 R4]]]; [|split; auto; exists p; repeat split; auto; apply R2].
      assert (0 <= k * cs) by (apply Z.mul_nonneg_nonneg; [apply Z.div_pos|]; lia). lia.
  - destruct P as [P1 P2]. split; auto. exists pos. repeat split; auto; try lia.
Qed.
End File.

(** ** Histories *)

Lemma perform_spec vol voff cs runs fsize pos o : 0 < cs -> runs_positive runs -> zlen vol < 2 ^ 63 -> 0 <= pos ->
  exists r p, perform (mkf vol voff cs runs fsize pos) o = (r, mkf vol voff cs runs fsize p) /\
    file_step (mk_layout vol voff cs runs) fsize pos o r p /\ 0 <= p.
Proof.
  intros Hc Hr Hv Hp; destruct o as [off w| |size]; cbn [perform].
  - unfold ff_seek; cbn [mkf ff_pos ff_size].
    assert (G : forall t, ((w = 0 /\ t = off) \/ (w = 1 /\ t = pos + off) \/ (w = 2 /\ t = fsize + off)) ->
      exists r p, match (if t <? 0 then (Err ValueError, mkf vol voff cs runs fsize pos)
                  else (Ok t, ff_set_pos (mkf vol voff cs runs fsize pos) t)) with
                  | (Ok p0, f') => (Pos p0, f') | (Err _, f') => (Exc, f') end
        = (r, mkf vol voff cs runs fsize p) /\
        file_step (mk_layout vol voff cs runs) fsize pos (Seek off w) r p /\ 0 <= p).
    { intros t Ht. destruct (Z.ltb_spec t 0).
      - exists Exc, pos; repeat split; auto. constructor. intros; lia.
      - exists (Pos t), t; repeat split; auto. constructor; auto. }
    destruct (Z.eqb_spec w 0); [apply G; auto|].
    destruct (Z.eqb_spec w 1); [apply G; auto|].
    destruct (Z.eqb_spec w 2); [apply G; auto|].
    exists Exc, pos; repeat split; auto. constructor. intros; lia.
  - exists (Pos pos), pos; repeat split; auto. constructor.
  - pose proof (ff_read_spec vol voff cs runs Hc Hr Hv fsize pos size Hp) as P; cbn zeta in P.
    destruct (ff_read (mkf vol voff cs runs fsize pos) size) as [[l|e] f].
    + destruct P as [P1 [P2 ->]]. exists (Data l), (pos + zlen l); repeat split; auto.
      * constructor; auto.
      * pose proof (zlen_nonneg l); lia.
    + destruct P as [P1 [p [-> [P2 [P3 P4]]]]]. exists Exc, p; repeat split; auto; [|lia].
      constructor; auto.
Qed.

Lemma history_refines vol voff cs runs fsize os : 0 < cs -> runs_positive runs -> zlen vol < 2 ^ 63 ->
  file_history (mk_layout vol voff cs runs) fsize 0 os
    (perform_all (ff_open vol voff cs runs fsize) os).
Proof.
  intros Hc Hr Hv. change (ff_open vol voff cs runs fsize) with (mkf vol voff cs runs fsize 0).
  assert (H0 : 0 <= 0) by lia. revert H0; generalize 0 at 2 3 4.
  induction os as [|o os IH]; intros pos Hp; cbn [perform_all]; [constructor|].
  destruct (perform_spec vol voff cs runs fsize pos o Hc Hr Hv Hp) as [r [p [-> [P1 P2]]]].
  econstructor; eauto.
Qed.

(** The abstract file leaves no choice, so the history determines the model. *)
Lemma content_fun ly p a b : runs_positive (ly_runs ly) -> content ly p a -> content ly p b -> a = b.
Proof.
  intros HP Ha Hb. inversion Ha as [q L|q c st a' L ES S1 S2 N]; inversion Hb as [q' L'|q' c' st' b' L' ES' S1' S2' N'];
    subst; pose proof (located_fun _ _ _ _ HP L L') as E; try discriminate; auto.
  injection E as <-. congruence.
Qed.

Lemma bytes_at_fun ly p a b : runs_positive (ly_runs ly) -> bytes_at ly p a -> bytes_at ly p b ->
  zlen a = zlen b -> a = b.
Proof.
  intros HP Ha Hb E. apply znth_ext; auto. intros i Hi.
  destruct (Ha i Hi) as [x [X1 X2]]. destruct (Hb i ltac:(lia)) as [y [Y1 Y2]].
  rewrite X1, Y1; f_equal; eapply content_fun; eauto.
Qed.

Lemma file_step_det ly fsize pos o r p r' p' : runs_positive (ly_runs ly) ->
  file_step ly fsize pos o r p -> file_step ly fsize pos o r' p' -> r = r' /\ p = p'.
Proof.
  intros HP H H'.
  inversion H as [q off w t T1 T2|q off w T|q|q size l B L|q size q1 Q1 Q2 Q3]; subst;
  inversion H' as [q' off' w' t' T1' T2'|q' off' w' T'|q'|q' size' l' B' L'|q' size' q1' Q1' Q2' Q3']; subst.
  - assert (p = p') by lia; subst; auto.
  - specialize (T' _ T1); lia.
  - specialize (T _ T1'); lia.
  - auto.
  - auto.
  - assert (l = l') by (eapply bytes_at_fun; eauto; lia). subst; auto.
  - exfalso. destruct (B (p' - pos) ltac:(lia)) as [b [_ C]]. apply (Q3' b).
    replace p' with (pos + (p' - pos)) by lia; auto.
  - exfalso. destruct (B' (p - pos) ltac:(lia)) as [b [_ C]]. apply (Q3 b).
    replace p with (pos + (p - pos)) by lia; auto.
  - split; auto. destruct (Z.lt_trichotomy p p') as [L|[L|L]]; auto; exfalso.
    + destruct (Q2' p ltac:(lia)) as [b C]; apply (Q3 b C).
    + destruct (Q2 p' ltac:(lia)) as [b C]; apply (Q3' b C).
Qed.

Lemma history_iff vol voff cs runs fsize os rs : 0 < cs -> runs_positive runs -> zlen vol < 2 ^ 63 ->
  file_history (mk_layout vol voff cs runs) fsize 0 os rs <->
  rs = perform_all (ff_open vol voff cs runs fsize) os.
Proof.
  intros Hc Hr Hv; split; [|intros ->; apply history_refines; auto].
  pose proof (history_refines vol voff cs runs fsize os Hc Hr Hv) as H.
  set (rs' := perform_all _ os) in *; clearbody rs'. revert rs rs' H. generalize 0.
  induction os as [|o os IH]; intros pos rs rs' H H'; inversion H; inversion H'; subst; auto.
  match goal with A : file_step ?ly _ _ _ ?r ?p, B : file_step _ _ _ _ ?r' ?p' |- ?r' :: _ = ?r :: _ =>
    destruct (file_step_det ly _ _ _ _ _ _ _ Hr A B) as [-> ->] end.
  f_equal; eauto.
Qed.

Lemma read_all vol voff cs runs fsize l f : 0 < cs -> runs_positive runs -> zlen vol < 2 ^ 63 -> 0 <= fsize ->
  ff_read (ff_open vol voff cs runs fsize) None = (Ok l, f) ->
  zlen l = fsize /\ bytes_at (mk_layout vol voff cs runs) 0 l /\ ff_pos f = fsize.
Proof.
  intros Hc Hr Hv Hs H.
  pose proof (ff_read_spec vol voff cs runs Hc Hr Hv fsize 0 None ltac:(lia)) as P; cbn zeta in P.
  change (ff_open vol voff cs runs fsize) with (mkf vol voff cs runs fsize 0) in H. rewrite H in P.
  destruct P as [P1 [P2 ->]]. unfold read_length in P2.
  assert (zlen l = fsize) by (destruct (Z.leb_spec fsize 0); lia).
  repeat split; auto; cbn; lia.
Qed.

Lemma read_errors vol voff cs runs fsize pos size e f : 0 < cs -> runs_positive runs -> zlen vol < 2 ^ 63 -> 0 <= pos ->
  ff_read (mk_ff vol voff cs runs fsize pos) size = (Err e, f) ->
  e = MasterFileTableException \/ e = ValueError \/ e = OverflowError.
Proof.
  intros Hc Hr Hv Hp H.
  pose proof (ff_read_spec vol voff cs runs Hc Hr Hv fsize pos size Hp) as P; cbn zeta in P.
  unfold mkf in P; rewrite H in P; tauto.
Qed.

Lemma read_bounds vol voff cs runs fsize pos size l f : 0 < cs -> runs_positive runs -> zlen vol < 2 ^ 63 -> 0 <= pos ->
  ff_read (mk_ff vol voff cs runs fsize pos) size = (Ok l, f) ->
  (forall s, size = Some s -> 0 <= s -> zlen l <= s) /\
  (l <> [] -> pos < fsize /\ pos + zlen l < fsize + cs) /\
  (match size with None => True | Some s => s < 0 end -> zlen l = Z.max 0 (fsize - pos)).
Proof.
  intros Hc Hr Hv Hp H.
  pose proof (ff_read_spec vol voff cs runs Hc Hr Hv fsize pos size Hp) as P; cbn zeta in P.
  unfold mkf in P; rewrite H in P. destruct P as [_ [P _]]. unfold read_length in P.
  destruct (whole_clusters_spec cs Hc fsize) as [w [W1 W2]]. rewrite W1 in P.
  destruct (Z.leb_spec fsize pos) as [L|L].
  - apply zlen_0 in P; subst l. repeat split; intros; try congruence; [cbn; lia|].
    change (zlen (@nil Z)) with 0; lia.
  - repeat split; auto.
    + intros s -> Hs. destruct (Z.ltb_spec s 0); lia.
    + destruct size as [s|]; [destruct (Z.ltb_spec s 0)|]; lia.
    + destruct size as [s|]; [destruct (Z.ltb_spec s 0)|]; lia.
Qed.

(** ** Statements used by the property file *)

(** A 6-cluster volume of 4-byte clusters; file of 14 bytes in clusters 3, hole, 1, 2. *)
Definition small_volume : list Z :=
  [0; 1; 2; 3; 10; 11; 12; 13; 20; 21; 22; 23; 30; 31; 32; 33; 40; 41; 42; 43; 50; 51].
Definition small_runs : list (option Z * Z) := [(Some 3, 1); (None, 1); (Some 1, 2)].

Lemma C10_read_past_end_refuted_lemma : exists vol runs cs fsize size l f,
  0 < cs /\ runs_positive runs /\
  ff_read (ff_open vol 0 cs runs fsize) (Some size) = (Ok l, f) /\ fsize < zlen l.
Proof.
  exists small_volume, small_runs, 4, 14, 100.
  eexists; eexists; split; [reflexivity|]. split; [repeat constructor|].
  split; [vm_compute; reflexivity|reflexivity].
Qed.
