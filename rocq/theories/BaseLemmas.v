(** Lemmas about slices, fields and little-endian values. *)
From Coq Require Export Lia ZifyBool.
From Verif Require Export Base.

Ltac Zify.zify_post_hook ::= Z.div_mod_to_equations.

Lemma zlen_nonneg {A} (l : list A) : 0 <= zlen l.
Proof. unfold zlen; lia. Qed.

Lemma zlen_nil {A} : zlen (@nil A) = 0.
Proof. reflexivity. Qed.

Lemma zlen_cons {A} (x : A) l : zlen (x :: l) = 1 + zlen l.
Proof. unfold zlen; cbn [length]; lia. Qed.

Lemma zlen_app {A} (a b : list A) : zlen (a ++ b) = zlen a + zlen b.
Proof. unfold zlen; rewrite app_length; lia. Qed.

Lemma zlen_0 {A} (l : list A) : zlen l = 0 -> l = [].
Proof. destruct l; auto; rewrite zlen_cons; pose proof (zlen_nonneg l); lia. Qed.

Lemma zlen_zeros n : 0 <= n -> zlen (zeros n) = n.
Proof. intro H; unfold zlen, zeros; rewrite repeat_length; lia. Qed.

Lemma zlen_repeat {A} (x : A) n : zlen (repeat x n) = Z.of_nat n.
Proof. unfold zlen; now rewrite repeat_length. Qed.

Lemma zlen_map {A B} (f : A -> B) l : zlen (map f l) = zlen l.
Proof. unfold zlen; now rewrite map_length. Qed.

Lemma zlen_rev {A} (l : list A) : zlen (rev l) = zlen l.
Proof. unfold zlen; now rewrite rev_length. Qed.

Lemma ztake_firstn {A} (l : list A) : forall n, ztake n l = firstn (Z.to_nat n) l.
Proof.
  induction l as [|x t IH]; intros n; cbn [ztake].
  - now rewrite firstn_nil.
  - destruct (Z.leb_spec n 0) as [H|H].
    + replace (Z.to_nat n) with O by lia; reflexivity.
    + replace (Z.to_nat n) with (S (Z.to_nat (n - 1))) by lia.
      cbn [firstn]; now rewrite IH.
Qed.

Lemma zdrop_skipn {A} (l : list A) : forall n, zdrop n l = skipn (Z.to_nat n) l.
Proof.
  induction l as [|x t IH]; intros n; cbn [zdrop].
  - now rewrite skipn_nil.
  - destruct (Z.leb_spec n 0) as [H|H].
    + replace (Z.to_nat n) with O by lia; reflexivity.
    + replace (Z.to_nat n) with (S (Z.to_nat (n - 1))) by lia.
      cbn [skipn]; now rewrite IH.
Qed.

Lemma zlen_ztake {A} (l : list A) n : zlen (ztake n l) = Z.max 0 (Z.min n (zlen l)).
Proof. rewrite ztake_firstn; unfold zlen; rewrite firstn_length; lia. Qed.

Lemma zlen_zdrop {A} (l : list A) n : zlen (zdrop n l) = Z.max 0 (Z.min (zlen l) (zlen l - n)).
Proof. rewrite zdrop_skipn; unfold zlen; rewrite skipn_length; lia. Qed.

Lemma zlen_slice {A} (l : list A) a b : 0 <= a ->
  zlen (slice l a b) = Z.max 0 (Z.min (b - a) (zlen l - a)).
Proof.
  intro Ha; unfold slice; rewrite zlen_ztake, zlen_zdrop.
  pose proof (zlen_nonneg l); lia.
Qed.

Lemma zlen_slice_le {A} (l : list A) a b : zlen (slice l a b) <= zlen l.
Proof. unfold slice; rewrite zlen_ztake, zlen_zdrop; pose proof (zlen_nonneg l); lia. Qed.

Lemma ztake_nonpos {A} (l : list A) n : n <= 0 -> ztake n l = [].
Proof. intro H; rewrite ztake_firstn; now replace (Z.to_nat n) with O by lia. Qed.

Lemma ztake_all {A} (l : list A) n : zlen l <= n -> ztake n l = l.
Proof.
  intro H; rewrite ztake_firstn; apply firstn_all2; unfold zlen in H; lia.
Qed.

Lemma zdrop_nonpos {A} (l : list A) n : n <= 0 -> zdrop n l = l.
Proof. intro H; rewrite zdrop_skipn; now replace (Z.to_nat n) with O by lia. Qed.

Lemma zdrop_all {A} (l : list A) n : zlen l <= n -> zdrop n l = [].
Proof. intro H; rewrite zdrop_skipn; apply skipn_all2; unfold zlen in H; lia. Qed.

Lemma ztake_zdrop {A} (l : list A) n : ztake n l ++ zdrop n l = l.
Proof. rewrite ztake_firstn, zdrop_skipn; apply firstn_skipn. Qed.

Lemma ztake_app_exact {A} (a b : list A) n : n = zlen a -> ztake n (a ++ b) = a.
Proof.
  intros ->; rewrite ztake_firstn; unfold zlen; rewrite Nat2Z.id.
  rewrite firstn_app, Nat.sub_diag, firstn_O, app_nil_r; apply firstn_all.
Qed.

Lemma zdrop_app_exact {A} (a b : list A) n : n = zlen a -> zdrop n (a ++ b) = b.
Proof.
  intros ->; rewrite zdrop_skipn; unfold zlen; rewrite Nat2Z.id.
  rewrite skipn_app, Nat.sub_diag, skipn_all; reflexivity.
Qed.

Lemma zdrop_app_ge {A} (a b : list A) n : zlen a <= n ->
  zdrop n (a ++ b) = zdrop (n - zlen a) b.
Proof.
  intro H; rewrite !zdrop_skipn, skipn_app; unfold zlen in *.
  rewrite skipn_all2 by lia; cbn [app]; f_equal; lia.
Qed.

Lemma zdrop_app_le {A} (a b : list A) n : n <= zlen a ->
  zdrop n (a ++ b) = zdrop n a ++ b.
Proof.
  intro H; rewrite !zdrop_skipn, skipn_app; unfold zlen in *.
  f_equal; replace (Z.to_nat n - length a)%nat with O by lia; reflexivity.
Qed.

Lemma ztake_app_le {A} (a b : list A) n : n <= zlen a -> ztake n (a ++ b) = ztake n a.
Proof.
  intro H; rewrite !ztake_firstn, firstn_app; unfold zlen in *.
  replace (Z.to_nat n - length a)%nat with O by lia.
  now rewrite firstn_O, app_nil_r.
Qed.

Lemma ztake_app_ge {A} (a b : list A) n : zlen a <= n ->
  ztake n (a ++ b) = a ++ ztake (n - zlen a) b.
Proof.
  intro H; rewrite !ztake_firstn, firstn_app; unfold zlen in *.
  rewrite firstn_all2 by lia; do 2 f_equal; lia.
Qed.

Lemma zdrop_zdrop {A} (l : list A) a b : 0 <= a -> 0 <= b ->
  zdrop b (zdrop a l) = zdrop (a + b) l.
Proof.
  intros Ha Hb; rewrite !zdrop_skipn.
  rewrite Z2Nat.inj_add by lia.
  generalize (Z.to_nat a), (Z.to_nat b); intros n m; clear.
  revert l; induction n as [|n IH]; intros l; cbn [skipn plus]; [reflexivity|].
  destruct l; cbn [skipn]; [now rewrite skipn_nil | apply IH].
Qed.

Lemma ztake_ztake {A} (l : list A) a b : ztake a (ztake b l) = ztake (Z.min a b) l.
Proof.
  rewrite !ztake_firstn, firstn_firstn; f_equal; lia.
Qed.

Lemma zdrop_ztake {A} (l : list A) a b : 0 <= a ->
  zdrop a (ztake b l) = ztake (b - a) (zdrop a l).
Proof.
  intro Ha. rewrite !zdrop_skipn, !ztake_firstn, skipn_firstn_comm.
  f_equal; lia.
Qed.

Lemma slice_slice {A} (l : list A) a b c d : 0 <= a -> 0 <= c ->
  slice (slice l a b) c d = slice l (a + c) (Z.min b (a + d)).
Proof.
  intros Ha Hc; unfold slice.
  rewrite zdrop_ztake, zdrop_zdrop, ztake_ztake by lia.
  f_equal; lia.
Qed.

Lemma slice_empty {A} (l : list A) a b : b <= a -> slice l a b = [].
Proof. intro H; unfold slice; apply ztake_nonpos; lia. Qed.

Lemma slice_full {A} (l : list A) b : zlen l <= b -> slice l 0 b = l.
Proof. intro H; unfold slice; rewrite zdrop_nonpos, ztake_all; auto; lia. Qed.

Lemma slice_beyond {A} (l : list A) a b : zlen l <= a -> slice l a b = [].
Proof. intro H; unfold slice; now rewrite zdrop_all. Qed.

Lemma slice_split {A} (l : list A) a b c : 0 <= a -> a <= b -> b <= c ->
  slice l a c = slice l a b ++ slice l b c.
Proof.
  intros Ha Hb Hc; unfold slice.
  rewrite <- (ztake_zdrop (ztake (c - a) (zdrop a l)) (b - a)).
  rewrite ztake_ztake, zdrop_ztake, zdrop_zdrop by lia.
  f_equal; f_equal; try lia. f_equal; lia.
Qed.

Lemma slice_app_l {A} (x y : list A) a b : 0 <= a -> b <= zlen x ->
  slice (x ++ y) a b = slice x a b.
Proof.
  intros H0 H; unfold slice.
  destruct (Z.le_gt_cases a (zlen x)) as [Ha|Ha].
  - rewrite zdrop_app_le by lia; apply ztake_app_le.
    rewrite zlen_zdrop; pose proof (zlen_nonneg x); lia.
  - now rewrite !ztake_nonpos by lia.
Qed.

Lemma slice_app_r {A} (x y : list A) a b : zlen x <= a ->
  slice (x ++ y) a b = slice y (a - zlen x) (b - zlen x).
Proof.
  intro H; unfold slice; rewrite zdrop_app_ge by lia; f_equal; lia.
Qed.

Lemma slice_app_mid {A} (x y z : list A) a b : a = zlen x -> b = zlen x + zlen y ->
  slice (x ++ y ++ z) a b = y.
Proof.
  intros -> ->; rewrite slice_app_r by lia; unfold slice.
  rewrite zdrop_nonpos by lia; apply ztake_app_exact; lia.
Qed.

Lemma slice_prefix {A} (y z : list A) b : b = zlen y -> slice (y ++ z) 0 b = y.
Proof. intros ->; unfold slice; rewrite zdrop_nonpos by lia; apply ztake_app_exact; lia. Qed.

(** Elements *)
Lemma znth_nth_error {A} (l : list A) : forall i, 0 <= i -> znth l i = nth_error l (Z.to_nat i).
Proof.
  induction l as [|x t IH]; intros i Hi; cbn [znth].
  - destruct (Z.to_nat i); reflexivity.
  - destruct (Z.eqb_spec i 0) as [->|H]; [reflexivity|].
    replace (Z.to_nat i) with (S (Z.to_nat (i - 1))) by lia; cbn [nth_error].
    apply IH; lia.
Qed.

Lemma znth_some {A} (l : list A) i : 0 <= i < zlen l -> exists x, znth l i = Some x.
Proof.
  intros H; rewrite znth_nth_error by lia.
  destruct (nth_error l (Z.to_nat i)) eqn:E; eauto.
  apply nth_error_None in E; unfold zlen in H; lia.
Qed.

Lemma znth_none {A} (l : list A) i : zlen l <= i -> znth l i = None.
Proof.
  intros H; rewrite znth_nth_error by (pose proof (zlen_nonneg l); lia).
  apply nth_error_None; unfold zlen in H; lia.
Qed.

Lemma znth_neg {A} (l : list A) : forall i, i < 0 -> znth l i = None.
Proof.
  induction l as [|x t IH]; intros i H; cbn [znth]; auto.
  destruct (Z.eqb_spec i 0); [lia|]; apply IH; lia.
Qed.

Lemma znth_Some_range {A} (l : list A) i x : znth l i = Some x -> 0 <= i < zlen l.
Proof.
  intro H; destruct (Z.lt_ge_cases i 0) as [Hn|Hn].
  - rewrite znth_neg in H by auto; discriminate.
  - destruct (Z.lt_ge_cases i (zlen l)); [lia|].
    rewrite znth_none in H by auto; discriminate.
Qed.

Lemma znth_app1 {A} (a b : list A) i : i < zlen a -> znth (a ++ b) i = znth a i.
Proof.
  intro H. destruct (Z.lt_ge_cases i 0); [now rewrite !znth_neg by auto|].
  rewrite !znth_nth_error by auto; apply nth_error_app1; unfold zlen in H; lia.
Qed.

Lemma znth_app2 {A} (a b : list A) i : zlen a <= i -> znth (a ++ b) i = znth b (i - zlen a).
Proof.
  intro H. pose proof (zlen_nonneg a).
  rewrite !znth_nth_error by lia. unfold zlen in *.
  rewrite nth_error_app2 by lia; f_equal; lia.
Qed.

Lemma znth_In {A} (l : list A) i x : znth l i = Some x -> In x l.
Proof.
  intro H; pose proof (znth_Some_range _ _ _ H).
  rewrite znth_nth_error in H by lia; eapply nth_error_In; eauto.
Qed.

Lemma In_znth {A} (l : list A) x : In x l -> exists i, znth l i = Some x.
Proof.
  intro H; destruct (In_nth_error _ _ H) as [n Hn].
  exists (Z.of_nat n); rewrite znth_nth_error by lia; now rewrite Nat2Z.id.
Qed.

Lemma znth_ext {A} (a b : list A) :
  zlen a = zlen b -> (forall i, 0 <= i < zlen a -> znth a i = znth b i) -> a = b.
Proof.
  revert b; induction a as [|x a IH]; intros [|y b] Hl H; auto.
  - rewrite zlen_cons, zlen_nil in Hl; pose proof (zlen_nonneg b); lia.
  - rewrite zlen_cons, zlen_nil in Hl; pose proof (zlen_nonneg a); lia.
  - rewrite !zlen_cons in *. f_equal.
    + specialize (H 0); pose proof (zlen_nonneg a); cbn [znth Z.eqb] in H.
      assert (E : Some x = Some y) by (apply H; lia); congruence.
    + apply IH; [lia|]. intros i Hi.
      specialize (H (i + 1)); cbn [znth] in H.
      replace (i + 1 =? 0) with false in H by lia.
      replace (i + 1 - 1) with i in H by lia; apply H; lia.
Qed.

Lemma znth_zdrop {A} (l : list A) n i : 0 <= n -> 0 <= i ->
  znth (zdrop n l) i = znth l (n + i).
Proof.
  intros Hn Hi.
  destruct (Z.le_gt_cases (zlen l) n) as [H|H].
  - rewrite zdrop_all by auto; rewrite (znth_none l) by lia; reflexivity.
  - rewrite <- (ztake_zdrop l n) at 2.
    rewrite znth_app2; rewrite zlen_ztake; [f_equal; lia|lia].
Qed.

Lemma znth_ztake {A} (l : list A) n i : i < n -> znth (ztake n l) i = znth l i.
Proof.
  intros Hi. destruct (Z.lt_ge_cases i 0); [now rewrite !znth_neg by auto|].
  destruct (Z.le_gt_cases (zlen l) n) as [H1|H1].
  - now rewrite ztake_all by auto.
  - rewrite <- (ztake_zdrop l n) at 2. rewrite znth_app1; auto.
    rewrite zlen_ztake; lia.
Qed.

Lemma znth_slice {A} (l : list A) a b i : 0 <= a -> 0 <= i < b - a ->
  znth (slice l a b) i = znth l (a + i).
Proof.
  intros Ha Hi; unfold slice; rewrite znth_ztake by lia; apply znth_zdrop; lia.
Qed.

Lemma index_ok {A} (l : list A) i x : index l i = Ok x <-> znth l i = Some x.
Proof.
  unfold index; destruct (znth l i) eqn:E.
  - pose proof (znth_Some_range _ _ _ E).
    replace (i <? 0) with false by lia; split; congruence.
  - split; discriminate.
Qed.

Lemma index_in_range {A} (l : list A) i : 0 <= i < zlen l -> exists x, index l i = Ok x.
Proof.
  intro H; destruct (znth_some l i H) as [x Hx]; exists x; now apply index_ok.
Qed.

(** Updates *)
Lemma zlen_zset {A} (l : list A) : forall i v, zlen (zset l i v) = zlen l.
Proof.
  induction l as [|x t IH]; intros i v; cbn [zset]; auto.
  destruct (i =? 0); rewrite !zlen_cons; auto; now rewrite IH.
Qed.

Lemma znth_zset_same {A} (l : list A) : forall i v, 0 <= i < zlen l -> znth (zset l i v) i = Some v.
Proof.
  induction l as [|x t IH]; intros i v H; cbn [zset].
  - cbn in H; lia.
  - rewrite zlen_cons in H; destruct (Z.eqb_spec i 0) as [->|Hi]; cbn [znth].
    + reflexivity.
    + replace (i =? 0) with false by lia; apply IH; lia.
Qed.

Lemma znth_zset_other {A} (l : list A) : forall i j v, i <> j -> znth (zset l i v) j = znth l j.
Proof.
  induction l as [|x t IH]; intros i j v H; cbn [zset]; auto.
  destruct (Z.eqb_spec i 0) as [->|Hi]; cbn [znth].
  - replace (j =? 0) with false by lia; reflexivity.
  - destruct (j =? 0); auto; apply IH; lia.
Qed.

Lemma zset_bytes_ok l : forall i v, bytes_ok l -> is_byte v -> bytes_ok (zset l i v).
Proof.
  induction l as [|x t IH]; intros i v H Hv; cbn [zset]; auto.
  inversion H; subst; destruct (i =? 0); constructor; auto; now apply IH.
Qed.

(** Bytes *)
Lemma bytes_ok_app a b : bytes_ok (a ++ b) <-> bytes_ok a /\ bytes_ok b.
Proof. unfold bytes_ok; apply Forall_app. Qed.

Lemma bytes_ok_ztake l n : bytes_ok l -> bytes_ok (ztake n l).
Proof.
  intro H. rewrite <- (ztake_zdrop l n) in H. now apply bytes_ok_app in H.
Qed.

Lemma bytes_ok_zdrop l n : bytes_ok l -> bytes_ok (zdrop n l).
Proof.
  intro H. rewrite <- (ztake_zdrop l n) in H. now apply bytes_ok_app in H.
Qed.

Lemma bytes_ok_slice l a b : bytes_ok l -> bytes_ok (slice l a b).
Proof. intro H; unfold slice; now apply bytes_ok_ztake, bytes_ok_zdrop. Qed.

Lemma bytes_ok_znth l i x : bytes_ok l -> znth l i = Some x -> is_byte x.
Proof.
  intros H E; apply znth_In in E; unfold bytes_ok in H; rewrite Forall_forall in H; auto.
Qed.

Lemma bytes_ok_zeros n : bytes_ok (zeros n).
Proof.
  unfold zeros, bytes_ok; apply Forall_forall; intros x Hx.
  apply repeat_spec in Hx; subst; red; lia.
Qed.

Lemma bytes_okb_ok l : bytes_okb l = true <-> bytes_ok l.
Proof.
  unfold bytes_okb, bytes_ok; rewrite forallb_forall, Forall_forall.
  split; intros H x Hx; specialize (H x Hx); unfold byteb, is_byte in *; lia.
Qed.

(** Little-endian values *)
Lemma le_val_bound l : bytes_ok l -> 0 <= le_val l < 256 ^ zlen l.
Proof.
  induction l as [|b t IH]; intro H; cbn [le_val].
  - cbn; lia.
  - inversion H as [|? ? Hb Ht]; subst; specialize (IH Ht).
    rewrite zlen_cons, Z.pow_add_r by (pose proof (zlen_nonneg t); lia).
    change (256 ^ 1) with 256; red in Hb; nia.
Qed.

Lemma le_val_app a b : le_val (a ++ b) = le_val a + 256 ^ zlen a * le_val b.
Proof.
  induction a as [|x a IH]; cbn [app le_val].
  - change (zlen (@nil Z)) with 0; change (256 ^ 0) with 1; lia.
  - rewrite IH, zlen_cons, Z.pow_add_r by (pose proof (zlen_nonneg a); lia).
    change (256 ^ 1) with 256; nia.
Qed.

Lemma le_bytes_len w : forall v, zlen (le_bytes w v) = Z.of_nat w.
Proof.
  induction w as [|w IH]; intro v; cbn [le_bytes]; auto.
  rewrite zlen_cons, IH; lia.
Qed.

Lemma le_bytes_ok w : forall v, bytes_ok (le_bytes w v).
Proof.
  induction w as [|w IH]; intro v; cbn [le_bytes]; constructor.
  - red; apply Z.mod_pos_bound; lia.
  - apply IH.
Qed.

Lemma le_val_le_bytes w : forall v, 0 <= v < 256 ^ Z.of_nat w -> le_val (le_bytes w v) = v.
Proof.
  induction w as [|w IH]; intros v H; cbn [le_bytes le_val].
  - cbn in H; lia.
  - rewrite Nat2Z.inj_succ, Z.pow_succ_r in H by lia.
    rewrite IH; lia.
Qed.

Lemma le_val_le_bytes_mod w : forall v, le_val (le_bytes w v) = v mod 256 ^ Z.of_nat w.
Proof.
  induction w as [|w IH]; intros v; cbn [le_bytes le_val].
  - cbn [Z.of_nat]; change (256 ^ 0) with 1; now rewrite Z.mod_1_r.
  - rewrite Nat2Z.inj_succ, Z.pow_succ_r by lia.
    rewrite IH. rewrite Z.rem_mul_r by lia. reflexivity.
Qed.

Lemma le_val_inj a b : bytes_ok a -> bytes_ok b -> zlen a = zlen b ->
  le_val a = le_val b -> a = b.
Proof.
  revert b; induction a as [|x a IH]; intros [|y b] Ha Hb Hl Hv; auto.
  - rewrite zlen_cons, zlen_nil in Hl; pose proof (zlen_nonneg b); lia.
  - rewrite zlen_cons, zlen_nil in Hl; pose proof (zlen_nonneg a); lia.
  - inversion Ha as [|? ? Hx Ha']; inversion Hb as [|? ? Hy Hb']; subst.
    rewrite !zlen_cons in Hl; cbn [le_val] in Hv; red in Hx, Hy.
    assert (x = y) by lia; subst; f_equal; apply IH; auto; lia.
Qed.

Lemma le_bytes_le_val l : bytes_ok l -> le_bytes (length l) (le_val l) = l.
Proof.
  intro H; apply le_val_inj; auto using le_bytes_ok.
  - apply le_bytes_len.
  - apply le_val_le_bytes. apply le_val_bound in H; exact H.
Qed.

Lemma unp_ok w buf off : 0 <= off -> 0 <= w -> off + w <= zlen buf ->
  unp w buf off = Ok (fld w buf off).
Proof.
  intros Ho Hw H; unfold unp, fld.
  rewrite zlen_slice by lia.
  replace (_ =? w) with true by lia; reflexivity.
Qed.

Lemma unp_inv w buf off v : 0 <= off -> 0 < w -> unp w buf off = Ok v ->
  off + w <= zlen buf /\ v = fld w buf off.
Proof.
  intros Ho Hw; unfold unp, fld; rewrite zlen_slice by lia.
  destruct (Z.eqb_spec (Z.max 0 (Z.min (off + w - off) (zlen buf - off))) w); [|discriminate].
  intro H; inversion H; split; auto; lia.
Qed.

Lemma unp_err w buf off e : unp w buf off = Err e -> e = StructError.
Proof. unfold unp; destruct (_ =? _); congruence. Qed.

Lemma fld_bound w buf off : 0 <= off -> 0 <= w -> bytes_ok buf -> 0 <= fld w buf off < 256 ^ w.
Proof.
  intros Ho Hw H; unfold fld.
  pose proof (le_val_bound (slice buf off (off + w)) (bytes_ok_slice _ _ _ H)) as B.
  rewrite zlen_slice in B by lia.
  pose proof (Z.pow_le_mono_r 256 (Z.max 0 (Z.min (off + w - off) (zlen buf - off))) w).
  lia.
Qed.

Lemma zlist_eqb_eq a : forall b, zlist_eqb a b = true <-> a = b.
Proof.
  induction a as [|x a IH]; intros [|y b]; cbn [zlist_eqb]; split; intro H; try easy.
  - apply andb_true_iff in H; destruct H as [H1 H2].
    f_equal; [lia | now apply IH].
  - inversion H; subst; apply andb_true_iff; split; [lia | now apply IH].
Qed.

Lemma zlist_eqb_refl a : zlist_eqb a a = true.
Proof. now apply zlist_eqb_eq. Qed.

Lemma zlist_eqb_neq a b : zlist_eqb a b = false <-> a <> b.
Proof.
  split; intro H.
  - intros ->; rewrite zlist_eqb_refl in H; discriminate.
  - destruct (zlist_eqb a b) eqn:E; auto; apply zlist_eqb_eq in E; contradiction.
Qed.

Lemma zin_In x l : zin x l = true <-> In x l.
Proof.
  unfold zin; rewrite existsb_exists; split.
  - intros [y [Hy E]]; apply Z.eqb_eq in E; subst; auto.
  - intro H; exists x; split; auto; apply Z.eqb_refl.
Qed.

Lemma zin_false x l : zin x l = false <-> ~ In x l.
Proof.
  rewrite <- zin_In; destruct (zin x l); split; intro H; try easy.
Qed.

Lemma bind_ok {A B} (x : result A) (f : A -> result B) b :
  bind x f = Ok b <-> exists a, x = Ok a /\ f a = Ok b.
Proof.
  destruct x; cbn [bind]; split.
  - intro H; eauto.
  - intros [a' [E H]]; congruence.
  - discriminate.
  - intros [a' [E H]]; discriminate.
Qed.

Lemma guard_ok {A} c e (k : result A) x : guard c e k = Ok x <-> c = false /\ k = Ok x.
Proof. unfold guard; destruct c; split; try easy; now intros [? ?]. Qed.

Lemma align8_spec n : 0 <= n -> n <= align8 n < n + 8 /\ align8 n mod 8 = 0.
Proof. intro H; unfold align8; destruct (Z.eqb_spec (n mod 8) 0); lia. Qed.

Lemma lor_shiftl_add a b k : 0 <= k -> 0 <= b < 2 ^ k -> Z.lor (Z.shiftl a k) b = a * 2 ^ k + b.
Proof.
  intros Hk Hb. rewrite Z.shiftl_mul_pow2 by lia.
  assert (E : Z.land (a * 2 ^ k) b = 0).
  { apply Z.bits_inj'; intros n Hn. rewrite Z.land_spec, Z.bits_0.
    destruct (Z.ltb_spec n k).
    - rewrite Z.mul_pow2_bits_low by lia; reflexivity.
    - rewrite <- (Z.mod_small b (2 ^ k)) by lia.
      rewrite Z.mod_pow2_bits_high by lia. apply andb_false_r. }
  rewrite Z.add_nocarry_lxor by auto. symmetry; apply Z.lxor_lor; auto.
Qed.

(** Case analysis on every boolean test of the goal. *)
Ltac ifs :=
  repeat match goal with
  | |- context [if ?b then _ else _] => let E := fresh "E" in destruct b eqn:E
  end.

(** Split boolean hypotheses into arithmetic facts. *)
Ltac bools :=
  repeat match goal with
  | H : _ || _ = false |- _ => apply orb_false_iff in H; destruct H
  | H : _ && _ = true |- _ => apply andb_true_iff in H; destruct H
  | H : negb _ = false |- _ => apply negb_false_iff in H
  | H : negb _ = true |- _ => apply negb_true_iff in H
  | H : (_ <? _) = false |- _ => apply Z.ltb_ge in H
  | H : (_ <? _) = true |- _ => apply Z.ltb_lt in H
  | H : (_ <=? _) = false |- _ => apply Z.leb_gt in H
  | H : (_ <=? _) = true |- _ => apply Z.leb_le in H
  | H : (_ =? _) = true |- _ => apply Z.eqb_eq in H
  | H : (_ =? _) = false |- _ => apply Z.eqb_neq in H
  end.
