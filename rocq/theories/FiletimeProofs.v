(** Proofs about the timestamp decoders. *)
From Verif Require Import Base BaseLemmas Filetime.
From Coq Require Import Lia.

Lemma rhe_spec n d : 0 < d -> 2 * Z.abs (rhe n d * d - n) <= d /\
  (2 * Z.abs (rhe n d * d - n) = d -> Z.even (rhe n d) = true).
Proof.
  intro Hd. unfold rhe. pose proof (Z.div_mod n d ltac:(lia)) as E. pose proof (Z.mod_pos_bound n d Hd) as B.
  set (q := n / d) in *. set (r := n mod d) in *. clearbody q r.
  assert (E1 : q * d = d * q) by ring. assert (E2 : (q + 1) * d = d * q + d) by ring.
  destruct (Z.ltb_spec (2 * r) d); [|destruct (Z.ltb_spec d (2 * r)); [|destruct (Z.even q) eqn:Ev]].
  - split; [rewrite E1; lia|]. rewrite E1. intro K. lia.
  - split; [rewrite E2; lia|]. rewrite E2. intro K. lia.
  - split; [rewrite E1; lia|auto].
  - split; [rewrite E2; lia|]. intros _. rewrite Z.even_add, Ev. reflexivity.
Qed.

Lemma rhe_mono n1 d1 n2 d2 : 0 < d1 -> 0 < d2 -> n1 * d2 <= n2 * d1 -> rhe n1 d1 <= rhe n2 d2.
Proof.
  intros H1 H2 Hle. destruct (rhe_spec n1 d1 H1) as [A1 B1], (rhe_spec n2 d2 H2) as [A2 B2].
  set (q1 := rhe n1 d1) in *. set (q2 := rhe n2 d2) in *. clearbody q1 q2.
  destruct (Z.le_gt_cases q1 q2); auto. exfalso.
  assert (G1 : 2 * n1 >= (2 * q1 - 1) * d1) by lia.
  assert (G2 : 2 * n2 <= (2 * q2 + 1) * d2) by lia.
  assert (P : 0 < d1 * d2) by nia.
  assert (G3 : (2 * q1 - 1) * (d1 * d2) <= 2 * n1 * d2) by nia.
  assert (G4 : 2 * n2 * d1 <= (2 * q2 + 1) * (d1 * d2)) by nia.
  assert (G5 : (2 * q1 - 1) * (d1 * d2) <= (2 * q2 + 1) * (d1 * d2)) by nia.
  assert (Q : q1 = q2 + 1) by nia. subst q1.
  assert (K1 : 2 * n1 * d2 = (2 * q2 + 1) * d1 * d2) by nia.
  assert (K2 : 2 * n2 * d1 = (2 * q2 + 1) * d2 * d1) by nia.
  assert (K1' : 2 * n1 = (2 * q2 + 1) * d1) by nia.
  assert (K2' : 2 * n2 = (2 * q2 + 1) * d2) by nia.
  rewrite Z.even_add in B1.
  assert (E1 : Bool.eqb (Z.even q2) (Z.even 1) = true) by (apply B1; lia).
  assert (E2 : Z.even q2 = true) by (apply B2; lia).
  rewrite E2 in E1. discriminate.
Qed.

Lemma rhe_unique n d q : 0 < d -> 2 * Z.abs (q * d - n) <= d ->
  (2 * Z.abs (q * d - n) = d -> Z.even q = true) -> rhe n d = q.
Proof.
  intros Hd A B. destruct (rhe_spec n d Hd) as [A' B']. set (p := rhe n d) in *. clearbody p.
  assert (p = q \/ p = q + 1 \/ q = p + 1) as [E|[E|E]] by nia; auto; exfalso; subst.
  - assert (2 * Z.abs (q * d - n) = d) by nia. assert (2 * Z.abs ((q + 1) * d - n) = d) by nia.
    specialize (B H). specialize (B' H0). rewrite Z.even_add, B in B'. discriminate.
  - assert (2 * Z.abs (p * d - n) = d) by nia. assert (2 * Z.abs ((p + 1) * d - n) = d) by nia.
    specialize (B H0). specialize (B' H). rewrite Z.even_add, B' in B. discriminate.
Qed.

Lemma rhe_exact q d : 0 < d -> rhe (q * d) d = q.
Proof. intro H. apply rhe_unique; auto; rewrite Z.sub_diag; simpl Z.abs; lia. Qed.

Lemma rhe_scale n d k : 0 < d -> 0 < k -> rhe (n * k) (d * k) = rhe n d.
Proof.
  intros Hd Hk. destruct (rhe_spec n d Hd) as [A B].
  assert (E : Z.abs (rhe n d * (d * k) - n * k) = Z.abs (rhe n d * d - n) * k).
  { replace (rhe n d * (d * k) - n * k) with ((rhe n d * d - n) * k) by ring. rewrite Z.abs_mul, (Z.abs_eq k); lia. }
  apply rhe_unique; [nia| |]; rewrite E; [nia|]. intro K. apply B. nia.
Qed.

Lemma rhe_nonneg n d : 0 <= n -> 0 < d -> 0 <= rhe n d.
Proof.
  intros Hn Hd. rewrite <- (rhe_exact 0 d Hd). apply rhe_mono; auto. nia.
Qed.

(** The double nearest to [t / 10], in units of 2^-56. *)
Lemma py_div_spec t : 0 < t -> exists m w, py_div t 10 = (m, w - 56) /\ 0 <= w /\
  10 * 2 ^ 52 * 2 ^ w <= t * 2 ^ 56 < 10 * 2 ^ 53 * 2 ^ w /\ m = rhe (t * 2 ^ 56) (10 * 2 ^ w).
Proof.
  intro Ht. unfold py_div. replace (t =? 0) with false by (symmetry; apply Z.eqb_neq; lia).
  change (Z.log2 10) with 3.
  set (L := Z.log2 t). assert (HL : 0 <= L) by apply Z.log2_nonneg.
  pose proof (Z.log2_spec t Ht) as HS. fold L in HS.
  assert (P : forall w, 0 <= w -> 0 < 2 ^ w) by (intros; apply Z.pow_pos_nonneg; lia).
  (* scaling by e is scaling by 2^(e+56) over 2^56 *)
  assert (SC : forall w, 0 <= w -> exists c, 0 < c /\
      t * 2 ^ 56 = scaled_num t (w - 56) * c /\ 10 * 2 ^ w = scaled_den 10 (w - 56) * c).
  { intros w Hw. unfold scaled_num, scaled_den. destruct (Z.le_gt_cases 56 w).
    - exists (2 ^ 56). split; [reflexivity|]. rewrite (Z.max_l 0 (- (w - 56))) by lia. rewrite (Z.max_r 0 (w - 56)) by lia.
      split; [simpl (2 ^ 0); ring|]. rewrite <- Z.mul_assoc, <- Z.pow_add_r by lia. f_equal. f_equal. lia.
    - exists (2 ^ w). split; [auto|]. rewrite (Z.max_r 0 (- (w - 56))) by lia. rewrite (Z.max_l 0 (w - 56)) by lia.
      split; [|simpl (2 ^ 0); ring]. rewrite <- Z.mul_assoc, <- Z.pow_add_r by lia. f_equal. f_equal. lia. }
  set (w0 := L - 3 - 52 + 56). assert (H0 : 1 <= w0) by lia.
  replace (L - 3 - 52) with (w0 - 56) by lia.
  (* position of t relative to the binade *)
  assert (E0 : 2 ^ w0 * 2 ^ 55 = 2 ^ L * 2 ^ 56) by (rewrite <- !Z.pow_add_r by lia; f_equal; lia).
  assert (Up : t * 2 ^ 56 < 10 * 2 ^ 53 * 2 ^ w0).
  { replace (Z.succ L) with (L + 1) in HS by lia. rewrite Z.pow_add_r in HS by lia. specialize (P w0 ltac:(lia)). nia. }
  assert (Lo : 5 * 2 ^ 52 * 2 ^ w0 <= t * 2 ^ 56) by nia.
  destruct (SC w0 ltac:(lia)) as (c & Hc & E1 & E2).
  assert (T : (scaled_num t (w0 - 56) <? 2 ^ 52 * scaled_den 10 (w0 - 56)) = true <-> t * 2 ^ 56 < 10 * 2 ^ 52 * 2 ^ w0).
  { rewrite Z.ltb_lt. split; intro H; nia. }
  destruct (scaled_num t (w0 - 56) <? 2 ^ 52 * scaled_den 10 (w0 - 56)).
  - assert (T' : t * 2 ^ 56 < 10 * 2 ^ 52 * 2 ^ w0) by (now apply T).
    destruct (SC (w0 - 1) ltac:(lia)) as (c' & Hc' & E1' & E2').
    assert (EP : 2 ^ w0 = 2 * 2 ^ (w0 - 1)) by (rewrite <- Z.pow_succ_r by lia; f_equal; lia).
    exists (rhe (t * 2 ^ 56) (10 * 2 ^ (w0 - 1))), (w0 - 1). split; [|split; [lia|split; [|reflexivity]]].
    + replace (w0 - 56 - 1) with (w0 - 1 - 56) by lia. f_equal. rewrite E1', E2'. rewrite rhe_scale; auto.
      assert (0 < scaled_den 10 (w0 - 1 - 56) * c') by (rewrite <- E2'; specialize (P (w0 - 1) ltac:(lia)); lia). nia.
    + rewrite EP in *. lia.
  - assert (T' : ~ t * 2 ^ 56 < 10 * 2 ^ 52 * 2 ^ w0) by (intro K; apply T in K; discriminate).
    exists (rhe (t * 2 ^ 56) (10 * 2 ^ w0)), w0. split; [|split; [lia|split; [lia|reflexivity]]].
    f_equal. rewrite E1, E2. rewrite rhe_scale; auto.
    assert (0 < scaled_den 10 (w0 - 56) * c) by (rewrite <- E2; specialize (P w0 ltac:(lia)); lia). nia.
Qed.

Lemma td_scaled m w : 0 <= w -> td_microseconds (m, w - 56) = rhe (m * 2 ^ w) (2 ^ 56).
Proof.
  intro Hw. unfold td_microseconds. destruct (Z.leb_spec 0 (w - 56)).
  - replace (m * 2 ^ w) with (m * 2 ^ (w - 56) * 2 ^ 56); [now rewrite rhe_exact|].
    rewrite <- Z.mul_assoc, <- Z.pow_add_r by lia. f_equal. f_equal. lia.
  - replace (2 ^ 56) with (2 ^ (- (w - 56)) * 2 ^ w) by (rewrite <- Z.pow_add_r by lia; f_equal; lia).
    rewrite rhe_scale; auto; apply Z.pow_pos_nonneg; lia.
Qed.

(** The number of microseconds of a timestamp. *)
Definition us_of (t : Z) : Z := td_microseconds (py_div t 10).

(** The value of the double in units of 2^-56. *)
Lemma us_of_spec t : 0 < t -> exists v w, us_of t = rhe v (2 ^ 56) /\ 0 <= w /\ (exists m, v = m * 2 ^ w) /\
  10 * 2 ^ 52 * 2 ^ w <= t * 2 ^ 56 < 10 * 2 ^ 53 * 2 ^ w /\
  2 * Z.abs (10 * v - t * 2 ^ 56) <= 10 * 2 ^ w /\ 2 ^ 52 * 2 ^ w <= v <= 2 ^ 53 * 2 ^ w /\
  v = rhe (t * 2 ^ 56) (10 * 2 ^ w) * 2 ^ w.
Proof.
  intro Ht. destruct (py_div_spec t Ht) as (m & w & E & Hw & HB & Em).
  exists (m * 2 ^ w), w. unfold us_of. rewrite E, td_scaled by auto.
  split; [reflexivity|]. split; [auto|]. split; [eauto|]. split; [auto|].
  assert (P : 0 < 2 ^ w) by (apply Z.pow_pos_nonneg; lia).
  destruct (rhe_spec (t * 2 ^ 56) (10 * 2 ^ w) ltac:(lia)) as [A _]. rewrite <- Em in A.
  split.
  - replace (10 * (m * 2 ^ w) - t * 2 ^ 56) with (m * (10 * 2 ^ w) - t * 2 ^ 56) by ring. lia.
  - split; [|now rewrite Em].
    assert (M1 : 2 ^ 52 <= m).
    { rewrite Em, <- (rhe_exact (2 ^ 52) (10 * 2 ^ w)) by lia. apply rhe_mono; try lia. nia. }
    assert (M2 : m <= 2 ^ 53).
    { rewrite Em, <- (rhe_exact (2 ^ 53) (10 * 2 ^ w)) by lia. apply rhe_mono; try lia. nia. }
    nia.
Qed.

Lemma us_of_0 : us_of 0 = 0.
Proof. reflexivity. Qed.

Lemma us_of_nonneg t : 0 <= t -> 0 <= us_of t.
Proof.
  intro H. destruct (Z.eq_dec t 0) as [->|]; [rewrite us_of_0; lia|].
  destruct (us_of_spec t ltac:(lia)) as (v & w & -> & Hw & _ & _ & _ & HV & _).
  assert (P : 0 < 2 ^ w) by (apply Z.pow_pos_nonneg; lia). apply rhe_nonneg; lia.
Qed.

Lemma us_of_mono s t : 0 <= s <= t -> us_of s <= us_of t.
Proof.
  intros [Hs Hst]. destruct (Z.eq_dec s 0) as [->|]; [rewrite us_of_0; apply us_of_nonneg; lia|].
  destruct (us_of_spec s ltac:(lia)) as (v1 & w1 & -> & Hw1 & _ & HB1 & _ & HV1 & E1).
  destruct (us_of_spec t ltac:(lia)) as (v2 & w2 & -> & Hw2 & _ & HB2 & _ & HV2 & E2).
  apply rhe_mono; try lia. apply Z.mul_le_mono_nonneg_r; [lia|].
  assert (P1 : 0 < 2 ^ w1) by (apply Z.pow_pos_nonneg; lia).
  assert (P2 : 0 < 2 ^ w2) by (apply Z.pow_pos_nonneg; lia).
  destruct (Z.lt_trichotomy w1 w2) as [L|[->|L]].
  - assert (2 * 2 ^ w1 <= 2 ^ w2).
    { rewrite <- Z.pow_succ_r by lia. apply Z.pow_le_mono_r; lia. }
    nia.
  - rewrite E1, E2. apply Z.mul_le_mono_nonneg_r; [lia|]. apply rhe_mono; nia.
  - exfalso. assert (2 * 2 ^ w2 <= 2 ^ w1).
    { rewrite <- Z.pow_succ_r by lia. apply Z.pow_le_mono_r; lia. }
    nia.
Qed.

(** Distance to the exact quotient, for timestamps below [10 * 2^k]. *)
Lemma us_of_error t k : 0 <= t -> 0 <= k -> t < 10 * 2 ^ k ->
  2 ^ 54 * Z.abs (10 * us_of t - t) <= 10 * (2 ^ 53 + 2 ^ k).
Proof.
  intros Ht Hk Hb. assert (PK : 0 < 2 ^ k) by (apply Z.pow_pos_nonneg; lia).
  destruct (Z.eq_dec t 0) as [->|]; [rewrite us_of_0; simpl Z.abs; lia|].
  destruct (us_of_spec t ltac:(lia)) as (v & w & -> & Hw & _ & HB & HA & _ & _).
  destruct (rhe_spec v (2 ^ 56) ltac:(lia)) as [A _].
  assert (W : 2 ^ w <= 2 ^ (k + 3)).
  { apply Z.pow_le_mono_r; [lia|]. destruct (Z.le_gt_cases w (k + 3)); auto. exfalso.
    assert (2 ^ (k + 4) <= 2 ^ w) by (apply Z.pow_le_mono_r; lia). rewrite Z.pow_add_r in H0 by lia. nia. }
  rewrite Z.pow_add_r in W by lia. change (2 ^ 3) with 8 in W.
  set (u := rhe v (2 ^ 56)) in *. clearbody u.
  assert (Z.abs (10 * u * 2 ^ 56 - t * 2 ^ 56) <= 10 * 2 ^ 55 + 10 * 2 ^ k * 4) by lia.
  replace (10 * u * 2 ^ 56 - t * 2 ^ 56) with ((10 * u - t) * 2 ^ 56) in H by ring.
  rewrite Z.abs_mul in H. change (Z.abs (2 ^ 56)) with (2 ^ 54 * 4) in H. lia.
Qed.

Lemma us_of_large v w t : 2 ^ 52 * 10 <= t -> 0 <= w -> t * 2 ^ 56 < 10 * 2 ^ 53 * 2 ^ w ->
  (exists m, v = m * 2 ^ w) -> rhe v (2 ^ 56) * 2 ^ 56 = v.
Proof.
  intros Ht Hw HB [m ->].
  assert (W : 56 <= w).
  { destruct (Z.le_gt_cases 56 w); auto. exfalso.
    assert (2 ^ w <= 2 ^ 55) by (apply Z.pow_le_mono_r; lia). nia. }
  replace (m * 2 ^ w) with (m * 2 ^ (w - 56) * 2 ^ 56); [now rewrite rhe_exact|].
  rewrite <- Z.mul_assoc, <- Z.pow_add_r by lia. f_equal. f_equal. lia.
Qed.

(** Within one microsecond below 10 * 2^54 (year 2171). *)
Lemma us_of_within_one t : 0 <= t < 10 * 2 ^ 54 -> Z.abs (10 * us_of t - t) <= 10.
Proof.
  intros [Ht Hb]. destruct (Z.le_gt_cases (2 ^ 52 * 10) t) as [L|L].
  - destruct (us_of_spec t ltac:(lia)) as (v & w & -> & Hw & HM & HB & HA & _ & _).
    pose proof (us_of_large v w t L Hw ltac:(lia) HM) as E.
    assert (W : 2 ^ w <= 2 ^ 57).
    { apply Z.pow_le_mono_r; [lia|]. destruct (Z.le_gt_cases w 57); auto. exfalso.
      assert (2 ^ 58 <= 2 ^ w) by (apply Z.pow_le_mono_r; lia). nia. }
    set (u := rhe v (2 ^ 56)) in *. clearbody u. lia.
  - pose proof (us_of_error t 52 Ht ltac:(lia) ltac:(lia)). lia.
Qed.

(** Whole microseconds below 2^53 are exact. *)
Lemma us_of_exact u : 0 <= u < 2 ^ 53 -> us_of (10 * u) = u.
Proof.
  intros [Hu Hb]. destruct (Z.eq_dec u 0) as [->|]; [reflexivity|].
  destruct (us_of_spec (10 * u) ltac:(lia)) as (v & w & -> & Hw & [m Hm] & HB & HA & _ & _).
  assert (W : w <= 56).
  { destruct (Z.le_gt_cases w 56); auto. exfalso.
    assert (2 ^ 57 <= 2 ^ w) by (apply Z.pow_le_mono_r; lia). nia. }
  assert (P : 0 < 2 ^ w) by (apply Z.pow_pos_nonneg; lia).
  assert (E : 2 ^ 56 = 2 ^ (56 - w) * 2 ^ w) by (rewrite <- Z.pow_add_r by lia; f_equal; lia).
  assert (V : v = u * 2 ^ 56).
  { rewrite Hm, E in *. clear HB.
    assert (2 * Z.abs (10 * (m - u * 2 ^ (56 - w))) * 2 ^ w <= 10 * 2 ^ w).
    { replace (10 * (m * 2 ^ w) - 10 * u * (2 ^ (56 - w) * 2 ^ w)) with (10 * (m - u * 2 ^ (56 - w)) * 2 ^ w) in HA by ring.
      rewrite Z.abs_mul, (Z.abs_eq (2 ^ w)) in HA by lia. lia. }
    assert (2 * Z.abs (10 * (m - u * 2 ^ (56 - w))) <= 10) by nia.
    assert (m = u * 2 ^ (56 - w)) by lia. subst m. ring. }
  rewrite V. apply rhe_exact. lia.
Qed.

(** In the 53rd binade only even numbers of microseconds come out. *)
Lemma us_of_even t : 10 * 2 ^ 53 <= t < 10 * 2 ^ 54 -> Z.even (us_of t) = true.
Proof.
  intros [Hl Hu]. destruct (us_of_spec t ltac:(lia)) as (v & w & -> & Hw & [m ->] & HB & _).
  assert (w = 57).
  { destruct (Z.lt_trichotomy w 57) as [L|[E|L]]; auto; exfalso.
    - assert (2 ^ w <= 2 ^ 56) by (apply Z.pow_le_mono_r; lia). nia.
    - assert (2 ^ 58 <= 2 ^ w) by (apply Z.pow_le_mono_r; lia). nia. }
  subst w. replace (m * 2 ^ 57) with (2 * m * 2 ^ 56) by ring. rewrite rhe_exact by lia.
  now rewrite Z.even_mul.
Qed.

Lemma decode_time_threshold epoch t0 : 0 < t0 ->
  us_of (t0 - 1) < (ordinal_max + 1 - epoch) * us_per_day <= us_of t0 ->
  forall t b, 0 <= t ->
  decode_time epoch t b = if t <? t0 then Ok (Some (us_of t)) else if b then Ok None else Err OverflowError.
Proof.
  intros H0 [H1 H2] t b Ht. unfold decode_time. fold (us_of t).
  destruct (Z.ltb_spec t t0).
  - pose proof (us_of_mono t (t0 - 1) ltac:(lia)).
    replace (us_of t <? (ordinal_max + 1 - epoch) * us_per_day) with true by (symmetry; apply Z.ltb_lt; lia). reflexivity.
  - pose proof (us_of_mono t0 t ltac:(lia)).
    replace (us_of t <? (ordinal_max + 1 - epoch) * us_per_day) with false by (symmetry; apply Z.ltb_ge; lia). reflexivity.
Qed.
