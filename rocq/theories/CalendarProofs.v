(** date.fromordinal computes the Gregorian calendar. *)
From Verif Require Import Base BaseLemmas FatSpec ReportText ReportTextSpec.

Definition is_leap (y : Z) : bool := (y mod 4 =? 0) && (negb (y mod 100 =? 0) || (y mod 400 =? 0)).
Lemma is_leap_iff y : is_leap y = true <-> leap y.
Proof.
  unfold is_leap, leap. destruct (Z.eqb_spec (y mod 4) 0), (Z.eqb_spec (y mod 100) 0), (Z.eqb_spec (y mod 400) 0); cbn;
    split; intros; try discriminate; try lia; auto.
Qed.
Lemma month_length_iff y m n : month_length y m n <-> (1 <= m <= 12 /\ n = month_days (is_leap y) m).
Proof.
  split.
  - intros H. inversion H; subst.
    + unfold In in *. repeat match goal with K : _ \/ _ |- _ => destruct K as [<-|K] end; try contradiction; (split; [lia|destruct (is_leap y); reflexivity]).
    + unfold In in *. repeat match goal with K : _ \/ _ |- _ => destruct K as [<-|K] end; try contradiction; (split; [lia|destruct (is_leap y); reflexivity]).
    + apply is_leap_iff in H0. rewrite H0. split; [lia|reflexivity].
    + destruct (is_leap y) eqn:E; [apply is_leap_iff in E; contradiction|]. split; [lia|reflexivity].
  - intros [H ->].
    assert (C : m = 1 \/ m = 2 \/ m = 3 \/ m = 4 \/ m = 5 \/ m = 6 \/ m = 7 \/ m = 8 \/ m = 9 \/ m = 10 \/ m = 11 \/ m = 12) by lia.
    repeat destruct C as [->|C]; subst; try (apply ml_31; cbn; tauto); try (apply ml_30; cbn; tauto).
    unfold month_days. cbn. destruct (is_leap y) eqn:E; [apply ml_29; apply is_leap_iff; exact E|].
    apply ml_28. intros L. apply is_leap_iff in L. congruence.
Qed.

(** Days before the year, and the day of the year. *)
Definition year_start (y : Z) : Z := 365 * (y - 1) + (y - 1) / 4 - (y - 1) / 100 + (y - 1) / 400.
Definition day_of_year (b : bool) (m d : Z) : Z := before_month m + (if (2 <? m) && b then 1 else 0) + d.
Definition ordinal (t : Z * Z * Z) : Z := let '(y, m, d) := t in year_start y + day_of_year (is_leap y) m d.
Definition good (t : Z * Z * Z) : Prop := let '(y, m, d) := t in 1 <= m <= 12 /\ 1 <= d <= month_days (is_leap y) m.

Lemma div_step y k : 0 < k -> y / k = (y - 1) / k + (if y mod k =? 0 then 1 else 0).
Proof.
  intros K. pose proof (Z.div_mod y k ltac:(lia)) as D. pose proof (Z.mod_pos_bound y k K) as B.
  destruct (Z.eqb_spec (y mod k) 0) as [E|E].
  - rewrite <- (Zdiv_unique (y - 1) k (y / k - 1) (k - 1)); lia.
  - rewrite <- (Zdiv_unique (y - 1) k (y / k) (y mod k - 1)); lia.
Qed.
Lemma year_step y : year_start (y + 1) = year_start y + (if is_leap y then 366 else 365).
Proof.
  unfold year_start, is_leap. replace (y + 1 - 1) with y by lia.
  pose proof (div_step y 4 ltac:(lia)). pose proof (div_step y 100 ltac:(lia)). pose proof (div_step y 400 ltac:(lia)).
  assert (y mod 100 = 0 -> y mod 4 = 0) by lia. assert (y mod 400 = 0 -> y mod 100 = 0) by lia.
  generalize dependent (y / 4). generalize dependent ((y - 1) / 4). generalize dependent (y / 100). generalize dependent ((y - 1) / 100).
  generalize dependent (y / 400). generalize dependent ((y - 1) / 400). intros.
  repeat match goal with H : context [if _ then _ else _] |- _ => revert H end.
  destruct (Z.eqb_spec (y mod 4) 0), (Z.eqb_spec (y mod 100) 0), (Z.eqb_spec (y mod 400) 0); cbn [andb orb negb]; intros; lia.
Qed.
Lemma month_cases m : 1 <= m <= 12 ->
  m = 1 \/ m = 2 \/ m = 3 \/ m = 4 \/ m = 5 \/ m = 6 \/ m = 7 \/ m = 8 \/ m = 9 \/ m = 10 \/ m = 11 \/ m = 12.
Proof. lia. Qed.
Ltac months := unfold day_of_year, month_days, before_month in *;
  repeat match goal with
  | H : context [nth ?a ?b ?c] |- _ => let v := eval vm_compute in (nth a b c) in change (nth a b c) with v in H
  | |- context [nth ?a ?b ?c] => let v := eval vm_compute in (nth a b c) in change (nth a b c) with v
  end; cbn [Z.eqb Z.ltb Z.compare Pos.eqb Pos.compare Pos.compare_cont andb] in *.
Lemma month_step b m : 1 <= m < 12 -> day_of_year b (m + 1) 1 = day_of_year b m (month_days b m) + 1.
Proof.
  intros H. destruct (month_cases m ltac:(lia)) as [->|[->|[->|[->|[->|[->|[->|[->|[->|[->|[->| ->]]]]]]]]]]]; destruct b; vm_compute; try reflexivity; lia.
Qed.
Lemma year_end b : day_of_year b 12 31 = if b then 366 else 365.
Proof. destruct b; reflexivity. Qed.
Lemma day_range b m d : 1 <= m <= 12 -> 1 <= d <= month_days b m -> 1 <= day_of_year b m d <= if b then 366 else 365.
Proof.
  intros H D. unfold day_of_year, month_days in *.
  destruct (month_cases m ltac:(lia)) as [->|[->|[->|[->|[->|[->|[->|[->|[->|[->|[->| ->]]]]]]]]]]]; destruct b; months; lia.
Qed.
Lemma day_order b m d m' d' : 1 <= m <= 12 -> 1 <= d <= month_days b m -> 1 <= m' <= 12 -> 1 <= d' <= month_days b m' -> m < m' ->
  day_of_year b m d < day_of_year b m' d'.
Proof.
  intros H D H' D' L. unfold day_of_year, month_days in *.
  destruct (month_cases m ltac:(lia)) as [->|[->|[->|[->|[->|[->|[->|[->|[->|[->|[->| ->]]]]]]]]]]];
  destruct (month_cases m' ltac:(lia)) as [->|[->|[->|[->|[->|[->|[->|[->|[->|[->|[->| ->]]]]]]]]]]]; try (exfalso; lia);
  destruct b; months; lia.
Qed.
Lemma year_order y y' : y < y' -> year_start y + (if is_leap y then 366 else 365) <= year_start y'.
Proof. intros H. rewrite <- year_step. unfold year_start. lia. Qed.

Lemma ordinal_inj a b : good a -> good b -> ordinal a = ordinal b -> a = b.
Proof.
  destruct a as [[y m] d], b as [[y' m'] d']. intros [M D] [M' D'] E. cbn [ordinal] in E.
  pose proof (day_range _ _ _ M D). pose proof (day_range _ _ _ M' D').
  destruct (Z.lt_trichotomy y y') as [L|[<-|L]].
  - pose proof (year_order _ _ L). lia.
  - destruct (Z.lt_trichotomy m m') as [L|[<-|L]].
    + pose proof (day_order _ _ _ _ _ M D M' D' L). lia.
    + unfold day_of_year in E. f_equal. lia.
    + pose proof (day_order _ _ _ _ _ M' D' M D L). lia.
  - pose proof (year_order _ _ L). lia.
Qed.

Lemma next_good a b : next_day a b -> good a -> good b /\ ordinal b = ordinal a + 1.
Proof.
  intros H G. inversion H; subst; cbn [good ordinal] in *.
  - apply month_length_iff in H0 as [_ ->]. split; [lia|]. unfold day_of_year. lia.
  - apply month_length_iff in H0 as [_ ->]. split; [|rewrite month_step by lia; lia].
    split; [lia|]. assert (K : 1 <= m + 1 <= 12) by lia. revert K. generalize (m + 1). clear. intros m K. destruct (month_cases m ltac:(lia)) as [->|[->|[->|[->|[->|[->|[->|[->|[->|[->|[->| ->]]]]]]]]]]]; destruct (is_leap y); months; lia.
  - split; [months; lia|]. rewrite year_step, year_end. months. destruct (is_leap y); lia.
Qed.
Lemma next_exists a : good a -> exists b, next_day a b.
Proof.
  destruct a as [[y m] d]. intros [M D].
  destruct (Z_lt_le_dec d (month_days (is_leap y) m)) as [L|L].
  - eexists. eapply nd_month; [apply month_length_iff; split; [exact M|reflexivity]|lia].
  - assert (d = month_days (is_leap y) m) as -> by lia.
    destruct (Z.eq_dec m 12) as [->|N].
    + replace (month_days (is_leap y) 12) with 31 by reflexivity. eexists. apply nd_year.
    + eexists. eapply nd_next; [apply month_length_iff; split; [exact M|reflexivity]|lia].
Qed.
Lemma day_number_good n t : day_number n t -> good t /\ ordinal t = n.
Proof.
  induction 1 as [|n d d' H [G E] N]; [split; [unfold good; months; lia|reflexivity]|].
  destruct (next_good _ _ N G) as [G' E']. split; [exact G'|lia].
Qed.
Lemma day_number_total n : 1 <= n -> exists t, day_number n t.
Proof.
  intros H. rewrite <- (Z2Nat.id n) by lia. assert (K : (1 <= Z.to_nat n)%nat) by lia. revert K. generalize (Z.to_nat n). clear.
  intros k. induction k as [|k IH]; [lia|]. intros _. destruct k as [|k].
  - exists (1, 1, 1). constructor.
  - destruct (IH ltac:(lia)) as [t T]. destruct (next_exists t) as [t' N]; [eapply day_number_good; eauto|].
    exists t'. replace (Z.of_nat (S (S k))) with (Z.of_nat (S k) + 1) by lia. econstructor; eauto.
Qed.
Lemma day_number_unique n t t' : day_number n t -> day_number n t' -> t = t'.
Proof.
  intros A B. apply day_number_good in A as [GA EA]. apply day_number_good in B as [GB EB]. apply ordinal_inj; congruence.
Qed.

(** Inside a year. *)
Definition in_year_ok (b : bool) (n : Z) : bool :=
  let (m, d) := civil_in_year b n in
  (1 <=? m) && (m <=? 12) && (1 <=? d) && (d <=? month_days b m) && (day_of_year b m d =? n + 1).
Lemma in_year_all : forallb (fun b => forallb (fun k => in_year_ok b (Z.of_nat k)) (seq 0 (if b : bool then 366 else 365))) [true; false] = true.
Proof. vm_compute. reflexivity. Qed.
Lemma in_year b n m d : 0 <= n < (if b : bool then 366 else 365) -> civil_in_year b n = (m, d) ->
  1 <= m <= 12 /\ 1 <= d <= month_days b m /\ day_of_year b m d = n + 1.
Proof.
  intros H E. pose proof in_year_all as A. rewrite forallb_forall in A. specialize (A b ltac:(destruct b; cbn; auto)).
  rewrite forallb_forall in A. specialize (A (Z.to_nat n) ltac:(apply in_seq; destruct b; lia)).
  rewrite Z2Nat.id in A by lia. unfold in_year_ok in A. rewrite E in A.
  repeat apply andb_prop in A as [A ?]. lia.
Qed.

Lemma civil_good n : 1 <= n -> good (civil n) /\ ordinal (civil n) = n.
Proof.
  intros H. unfold civil.
  set (n0 := n - 1). assert (H0 : 0 <= n0) by (unfold n0; lia). replace n with (n0 + 1) by (unfold n0; lia). clearbody n0. clear H n.
  set (a := n0 / 146097). set (r1 := n0 mod 146097). set (b := r1 / 36524). set (r2 := r1 mod 36524).
  set (c := r2 / 1461). set (r3 := r2 mod 1461). set (e := r3 / 365). set (r4 := r3 mod 365).
  assert (E1 : n0 = 146097 * a + r1 /\ 0 <= r1 < 146097 /\ 0 <= a) by (unfold a, r1; lia).
  assert (E2 : r1 = 36524 * b + r2 /\ 0 <= r2 < 36524) by (unfold b, r2; lia).
  assert (E3 : r2 = 1461 * c + r3 /\ 0 <= r3 < 1461) by (unfold c, r3; lia).
  assert (E4 : r3 = 365 * e + r4 /\ 0 <= r4 < 365) by (unfold e, r4; lia).
  clearbody a r1 b r2 c r3 e r4.
  destruct ((e =? 4) || (b =? 4)) eqn:Q.
  - cbn [good ordinal]. split; [months; lia|].
    assert (C : (b = 4 /\ r2 = 0) \/ (b < 4 /\ e = 4)) by lia.
    assert (L : is_leap (a * 400 + 1 + b * 100 + c * 4 + e - 1) = true).
    { apply is_leap_iff. unfold leap. destruct C as [[-> R]|[L ->]].
      - right. assert (c = 0) as -> by lia. assert (e = 0) as -> by lia. lia.
      - left. assert (0 <= c <= 23) by lia. lia. }
    rewrite L, year_end. unfold year_start. destruct C as [[-> R]|[LB ->]].
    + assert (c = 0) as -> by lia. assert (e = 0) as -> by lia. lia.
    + assert (0 <= c <= 23) by lia. lia.
  - assert (HB : 0 <= b < 4 /\ 0 <= c <= 24 /\ 0 <= e < 4) by lia.
    assert (L : is_leap (a * 400 + 1 + b * 100 + c * 4 + e) = (e =? 3) && (negb (c =? 24) || (b =? 3))).
    { unfold is_leap. set (y := a * 400 + 1 + b * 100 + c * 4 + e).
      assert (Y4 : y mod 4 = (1 + e) mod 4) by (unfold y; lia).
      assert (Y100 : y mod 100 = (1 + 4 * c + e) mod 100) by (unfold y; lia).
      assert (Y400 : y mod 400 = (1 + 100 * b + 4 * c + e) mod 400) by (unfold y; lia).
      rewrite Y4, Y100, Y400. destruct (Z.eqb_spec e 3), (Z.eqb_spec c 24), (Z.eqb_spec b 3); cbn [andb orb negb];
      destruct (Z.eqb_spec ((1 + e) mod 4) 0), (Z.eqb_spec ((1 + 4 * c + e) mod 100) 0), (Z.eqb_spec ((1 + 100 * b + 4 * c + e) mod 400) 0); cbn; lia. }
    set (lp := (e =? 3) && (negb (c =? 24) || (b =? 3))) in *.
    destruct (civil_in_year lp r4) as [m d] eqn:CY.
    destruct (in_year lp r4 m d) as (M & D & O); [destruct lp; lia|exact CY|].
    cbn [good ordinal]. rewrite L. split; [auto|]. rewrite O. unfold year_start.
    replace (a * 400 + 1 + b * 100 + c * 4 + e - 1) with (a * 400 + b * 100 + c * 4 + e) by lia.
    replace ((a * 400 + b * 100 + c * 4 + e) / 4) with (100 * a + 25 * b + c) by lia.
    replace ((a * 400 + b * 100 + c * 4 + e) / 100) with (4 * a + b) by lia.
    replace ((a * 400 + b * 100 + c * 4 + e) / 400) with a by lia. lia.
Qed.

Lemma civil_correct n : 1 <= n -> day_number n (civil n).
Proof.
  intros H. destruct (day_number_total n H) as [t T]. pose proof (day_number_good _ _ T) as [G E].
  destruct (civil_good n H) as [G' E']. assert (t = civil n) as <- by (apply ordinal_inj; congruence). exact T.
Qed.
Lemma day_number_pos n t : day_number n t -> 1 <= n.
Proof. induction 1; lia. Qed.
Lemma day_number_civil n t : day_number n t -> t = civil n.
Proof. intros H. eapply day_number_unique; [exact H|]. apply civil_correct. eapply day_number_pos; eauto. Qed.
(** The number of a date, the years of the numbers. *)
Lemma day_number_inj n n' t : day_number n t -> day_number n' t -> n = n'.
Proof. intros A B. apply day_number_good in A as [_ A]. apply day_number_good in B as [_ B]. congruence. Qed.
Lemma day_years n y m d : day_number n (y, m, d) -> n <= 3652059 -> 1 <= y <= 9999 /\ 1 <= m <= 12 /\ 1 <= d <= 31.
Proof.
  intros T L. pose proof (day_number_pos _ _ T). apply day_number_good in T as [[M D] E]. cbn [ordinal] in E.
  pose proof (day_range _ _ _ M D).
  assert (month_days (is_leap y) m <= 31).
  { destruct (month_cases m ltac:(lia)) as [->|[->|[->|[->|[->|[->|[->|[->|[->|[->|[->| ->]]]]]]]]]]]; destruct (is_leap y); months; lia. }
  split; [|lia].
  assert (K : year_start 10000 = 3652059) by reflexivity. assert (K1 : year_start 1 = 0) by reflexivity.
  destruct (Z_lt_le_dec y 1) as [Y|Y]; [pose proof (year_order y 1 Y); destruct (is_leap y); lia|].
  destruct (Z_lt_le_dec 9999 y) as [Y'|Y']; [|lia].
  assert (year_start 10000 <= year_start y) by (unfold year_start; lia). lia.
Qed.
