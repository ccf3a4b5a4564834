(** Error detection of CRC-32. *)
From Verif Require Import Base BaseLemmas Crc32.

Definition w32 (s : Z) : Prop := 0 <= s < 2 ^ 32.

Lemma w32_bits s : 0 <= s -> (w32 s <-> forall n, 32 <= n -> Z.testbit s n = false).
Proof.
  intro H. split.
  - intros [_ B] n Hn. rewrite <- (Z.mod_small s (2 ^ 32)) by lia. apply Z.mod_pow2_bits_high. lia.
  - intro B. split; auto. assert (E : s mod 2 ^ 32 = s).
    { apply Z.bits_inj'. intros n Hn. destruct (Z.lt_ge_cases n 32) as [L|L].
      - now rewrite Z.mod_pow2_bits_low.
      - now rewrite Z.mod_pow2_bits_high, B by lia. }
    rewrite <- E. apply Z.mod_pos_bound. lia.
Qed.

Lemma w32_lxor a b : w32 a -> w32 b -> w32 (Z.lxor a b).
Proof.
  intros Ha Hb. assert (0 <= Z.lxor a b) by (apply Z.lxor_nonneg; unfold w32 in *; lia).
  apply w32_bits; auto. intros n Hn. rewrite Z.lxor_spec.
  rewrite (proj1 (w32_bits a ltac:(unfold w32 in *; lia)) Ha), (proj1 (w32_bits b ltac:(unfold w32 in *; lia)) Hb) by auto.
  reflexivity.
Qed.

Lemma w32_byte b : is_byte b -> w32 b.
Proof. unfold is_byte, w32. lia. Qed.

Lemma shiftr1 s : Z.shiftr s 1 = s / 2.
Proof. now rewrite Z.shiftr_div_pow2 by lia. Qed.

Lemma crc_bit_w32 s : w32 s -> w32 (crc_bit s).
Proof.
  intro H. unfold crc_bit. assert (w32 (Z.shiftr s 1)) by (rewrite shiftr1; unfold w32 in *; lia).
  destruct (Z.odd s); auto. apply w32_lxor; auto. unfold w32, crc_poly. lia.
Qed.

(** Bit 31 of the result is bit 0 of the argument. *)
Lemma crc_bit_top s : w32 s -> Z.testbit (crc_bit s) 31 = Z.odd s.
Proof.
  intro H. assert (T : Z.testbit (Z.shiftr s 1) 31 = false).
  { rewrite Z.shiftr_spec by lia. apply (w32_bits s); unfold w32 in *; lia. }
  unfold crc_bit. destruct (Z.odd s); auto. rewrite Z.lxor_spec, T. reflexivity.
Qed.

Lemma crc_bit_inj a b : w32 a -> w32 b -> crc_bit a = crc_bit b -> a = b.
Proof.
  intros Ha Hb E. assert (O : Z.odd a = Z.odd b) by (rewrite <- !crc_bit_top by auto; now rewrite E).
  assert (S : Z.shiftr a 1 = Z.shiftr b 1).
  { unfold crc_bit in E. rewrite O in E. destruct (Z.odd b); auto.
    apply (f_equal (fun x => Z.lxor x crc_poly)) in E. now rewrite !Z.lxor_assoc, !Z.lxor_nilpotent, !Z.lxor_0_r in E. }
  rewrite !shiftr1 in S. rewrite (Z.div_mod a 2), (Z.div_mod b 2) by lia. rewrite S.
  f_equal. rewrite !Zmod_odd, O. reflexivity.
Qed.

Lemma crc_bit_lxor a b : crc_bit (Z.lxor a b) = Z.lxor (crc_bit a) (crc_bit b).
Proof.
  unfold crc_bit. rewrite Z.shiftr_lxor.
  assert (O : Z.odd (Z.lxor a b) = xorb (Z.odd a) (Z.odd b)) by (rewrite <- !Z.bit0_odd; apply Z.lxor_spec).
  rewrite O. set (x := Z.shiftr a 1). set (y := Z.shiftr b 1).
  apply Z.bits_inj'. intros n Hn.
  destruct (Z.odd a), (Z.odd b); cbn [xorb]; rewrite ?Z.lxor_spec;
    destruct (Z.testbit x n), (Z.testbit y n), (Z.testbit crc_poly n); reflexivity.
Qed.

Lemma crc_bit_double k : 0 <= k -> crc_bit (2 * k) = k.
Proof.
  intro H. unfold crc_bit. rewrite Z.odd_mul. cbn [Z.odd andb]. rewrite shiftr1. lia.
Qed.

Definition crc_byte (x : Z) : Z := crc_step 0 x.

Lemma crc_step_byte s b : crc_step s b = crc_byte (Z.lxor s b).
Proof. unfold crc_byte, crc_step. now rewrite Z.lxor_0_l. Qed.

Lemma crc_byte_w32 x : w32 x -> w32 (crc_byte x).
Proof. intro H. unfold crc_byte, crc_step. rewrite Z.lxor_0_l. now do 8 apply crc_bit_w32. Qed.

Lemma crc_byte_inj a b : w32 a -> w32 b -> crc_byte a = crc_byte b -> a = b.
Proof.
  intros Ha Hb. unfold crc_byte, crc_step. rewrite !Z.lxor_0_l. intro E.
  repeat (apply crc_bit_inj in E; [|auto 10 using crc_bit_w32|auto 10 using crc_bit_w32]). auto.
Qed.

Lemma crc_byte_lxor a b : crc_byte (Z.lxor a b) = Z.lxor (crc_byte a) (crc_byte b).
Proof. unfold crc_byte, crc_step. rewrite !Z.lxor_0_l. now rewrite !crc_bit_lxor. Qed.

Lemma crc_byte_shift k : 0 <= k -> crc_byte (256 * k) = k.
Proof.
  intro H. unfold crc_byte, crc_step. rewrite Z.lxor_0_l.
  replace (256 * k) with (2 * (2 * (2 * (2 * (2 * (2 * (2 * (2 * k)))))))) by lia.
  now rewrite !crc_bit_double by lia.
Qed.

Lemma crc_byte_small x k : w32 x -> 0 <= k < 2 ^ 24 -> crc_byte x = k -> x = 256 * k.
Proof.
  intros Hx Hk E. apply crc_byte_inj; auto; [unfold w32; lia|]. now rewrite crc_byte_shift by lia.
Qed.

Definition crc_state (s : Z) (l : list Z) : Z := fold_left crc_step l s.

Lemma crc_state_app s a b : crc_state s (a ++ b) = crc_state (crc_state s a) b.
Proof. apply fold_left_app. Qed.

Lemma crc_state_w32 l : bytes_ok l -> forall s, w32 s -> w32 (crc_state s l).
Proof.
  induction 1 as [|b l Hb Hl IH]; intros s Hs; auto. cbn [crc_state fold_left]. apply IH.
  rewrite crc_step_byte. apply crc_byte_w32. apply w32_lxor; auto. now apply w32_byte.
Qed.

Lemma lxor_cancel a b c : Z.lxor a c = Z.lxor b c -> a = b.
Proof. intro E. apply (f_equal (fun x => Z.lxor x c)) in E. now rewrite !Z.lxor_assoc, !Z.lxor_nilpotent, !Z.lxor_0_r in E. Qed.

Lemma crc_state_inj l : bytes_ok l -> forall s t, w32 s -> w32 t -> crc_state s l = crc_state t l -> s = t.
Proof.
  induction 1 as [|b l Hb Hl IH]; intros s t Hs Ht E; auto. cbn [crc_state fold_left] in E.
  pose proof (w32_byte b Hb).
  apply IH in E; rewrite ?crc_step_byte; auto using crc_byte_w32, w32_lxor.
  rewrite !crc_step_byte in E. apply crc_byte_inj in E; auto using w32_lxor. now apply lxor_cancel in E.
Qed.

Lemma lxor_zero a b : Z.lxor a b = 0 <-> a = b.
Proof. split; [apply Z.lxor_eq|intros ->; apply Z.lxor_nilpotent]. Qed.

(** The difference of two runs over strings that differ byte by byte. *)
Fixpoint diffs (u v : list Z) : list Z :=
  match u, v with x :: u, y :: v => Z.lxor x y :: diffs u v | _, _ => [] end.

Lemma crc_state_diff u : forall v s t, length u = length v ->
  Z.lxor (crc_state s u) (crc_state t v) = crc_state (Z.lxor s t) (diffs u v).
Proof.
  induction u as [|x u IH]; intros [|y v] s t L; try discriminate; auto.
  cbn [crc_state fold_left diffs]. injection L as L.
  change (fold_left crc_step u (crc_step s x)) with (crc_state (crc_step s x) u).
  change (fold_left crc_step v (crc_step t y)) with (crc_state (crc_step t y) v).
  rewrite IH by auto. unfold crc_state. f_equal.
  rewrite !crc_step_byte, <- crc_byte_lxor. f_equal.
  apply Z.bits_inj'. intros n Hn. rewrite !Z.lxor_spec.
  destruct (Z.testbit s n), (Z.testbit x n), (Z.testbit t n), (Z.testbit y n); reflexivity.
Qed.

Lemma is_byte_lxor x y : is_byte x -> is_byte y -> is_byte (Z.lxor x y).
Proof.
  unfold is_byte. intros Hx Hy. assert (0 <= Z.lxor x y) by (apply Z.lxor_nonneg; lia).
  split; auto. destruct (Z.eq_dec (Z.lxor x y) 0) as [->|N]; [lia|].
  apply Z.log2_lt_cancel. change (Z.log2 256) with 8.
  eapply Z.le_lt_trans; [apply Z.log2_lxor; lia|].
  assert (forall z, 0 <= z < 256 -> Z.log2 z < 8).
  { intros z Hz. destruct (Z.eq_dec z 0) as [->|]; [cbn; lia|]. apply Z.log2_lt_pow2; lia. }
  apply Z.max_lub_lt; auto.
Qed.

Lemma diffs_ok u : forall v, bytes_ok u -> bytes_ok v -> bytes_ok (diffs u v).
Proof.
  induction u as [|x u IH]; intros [|y v] Hu Hv; cbn [diffs]; try constructor.
  - inversion Hu; inversion Hv; subst. now apply is_byte_lxor.
  - inversion Hu; inversion Hv; subst. now apply IH.
Qed.

Lemma diffs_zero u : forall v, length u = length v -> Forall (eq 0) (diffs u v) -> u = v.
Proof.
  induction u as [|x u IH]; intros [|y v] L H; try discriminate; auto.
  cbn [diffs] in H. inversion H as [|? ? H1 H2]; subst. symmetry in H1. apply Z.lxor_eq in H1. subst. f_equal. apply IH; auto.
Qed.

(** A zero state reached from bytes not all zero takes more than four of them. *)
Lemma crc_zero_window l : bytes_ok l -> zlen l <= 4 -> crc_state 0 l = 0 -> Forall (eq 0) l.
Proof.
  intros B L E.
  (* states before the last n bytes are below 256^n *)
  assert (G : forall l, bytes_ok l -> forall s, zlen l <= 4 -> w32 s -> crc_state s l = 0 -> s = le_val l).
  { clear. induction l as [|b l IH]; intros B s L Hs E; [exact E|].
    inversion B as [|? ? Hb Bl]; subst. rewrite zlen_cons in L. cbn [crc_state fold_left] in E.
    change (fold_left crc_step l (crc_step s b)) with (crc_state (crc_step s b) l) in E.
    pose proof (w32_byte b Hb) as Wb.
    apply IH in E; auto; [|lia|rewrite crc_step_byte; apply crc_byte_w32; apply w32_lxor; auto].
    rewrite crc_step_byte in E. pose proof (le_val_bound l Bl) as V. pose proof (zlen_nonneg l).
    assert (256 ^ zlen l <= 2 ^ 24) by (change (2 ^ 24) with (256 ^ 3); apply Z.pow_le_mono_r; lia).
    apply crc_byte_small in E; [|apply w32_lxor; auto|lia]. cbn [le_val].
    assert (s = Z.lxor (256 * le_val l) b).
    { rewrite <- E, Z.lxor_assoc, Z.lxor_nilpotent, Z.lxor_0_r. reflexivity. }
    subst s. rewrite Z.add_comm. symmetry.
    assert (Z.land (256 * le_val l) b = 0) as K; [|rewrite Z.add_nocarry_lxor; auto].
    apply Z.bits_inj'. intros n Hn. rewrite Z.land_spec, Z.bits_0.
    destruct (Z.lt_ge_cases n 8) as [M|M].
    - replace (256 * le_val l) with (le_val l * 2 ^ 8) by lia. now rewrite Z.mul_pow2_bits_low by lia.
    - rewrite <- (Z.mod_small b (2 ^ 8)) by (unfold is_byte in Hb; lia). rewrite Z.mod_pow2_bits_high by lia. apply andb_false_r. }
  specialize (G l B 0 L ltac:(unfold w32; lia) E). clear E L.
  induction B as [|b l Hb Bl IH]; constructor; cbn [le_val] in G; pose proof (le_val_bound l Bl); unfold is_byte in Hb; [lia|apply IH; lia].
Qed.

(** Strings that differ only inside a window of four bytes have different checksums. *)
Lemma crc32_window a u v b : bytes_ok a -> bytes_ok u -> bytes_ok v -> bytes_ok b ->
  zlen u = zlen v -> zlen u <= 4 -> crc32 (a ++ u ++ b) = crc32 (a ++ v ++ b) -> u = v.
Proof.
  intros Ba Bu Bv Bb L4 L E. unfold crc32 in E. apply lxor_cancel in E.
  change (crc_state 0xFFFFFFFF (a ++ u ++ b) = crc_state 0xFFFFFFFF (a ++ v ++ b)) in E.
  rewrite !crc_state_app in E. assert (W : w32 (crc_state 0xFFFFFFFF a)) by (apply crc_state_w32; auto; unfold w32; lia).
  apply crc_state_inj in E; auto using crc_state_w32.
  assert (LN : length u = length v) by (unfold zlen in L4; lia).
  apply (proj2 (lxor_zero _ _)) in E. rewrite crc_state_diff, Z.lxor_nilpotent in E by auto.
  apply diffs_zero; auto. apply crc_zero_window; auto using diffs_ok.
  assert (M : forall u v : list Z, length u = length v -> length (diffs u v) = length u).
  { clear. induction u as [|x u IH]; intros [|y v] H; try discriminate; auto. cbn [diffs length]. f_equal. apply IH. now injection H. }
  unfold zlen in *. rewrite M; auto.
Qed.

Lemma crc32_one_byte a x y b : bytes_ok a -> is_byte x -> is_byte y -> bytes_ok b ->
  crc32 (a ++ x :: b) = crc32 (a ++ y :: b) -> x = y.
Proof.
  intros Ba Hx Hy Bb E. assert ([x] = [y]) as K; [|now injection K].
  apply (crc32_window a [x] [y] b); auto; try (constructor; auto; constructor); try reflexivity. vm_compute. congruence.
Qed.

Lemma crc32_w32 l : bytes_ok l -> w32 (crc32 l).
Proof. intro B. unfold crc32. apply w32_lxor; [apply crc_state_w32; auto|]; unfold w32; lia. Qed.

(** The check value of the CRC-32 catalogue: "123456789". *)
Example crc32_check : crc32 [49; 50; 51; 52; 53; 54; 55; 56; 57] = 0xCBF43926.
Proof. vm_compute. reflexivity. Qed.
