(** Texts can be read back. *)
From Verif Require Import Base BaseLemmas FieldLemmas FatSpec Filetime FatDir Report LogReport ReportText ReportTextSpec CalendarProofs.

(** ** Numerals *)
Lemma numeral_value_app a b : numeral_value (a ++ b) = numeral_value a * 10 ^ zlen b + numeral_value b.
Proof.
  induction a as [|c a IH]; [cbn [app numeral_value]; lia|]. cbn [app numeral_value]. rewrite IH, zlen_app, Z.pow_add_r by apply zlen_nonneg. ring.
Qed.
Lemma digit_mod n : digit (48 + n mod 10).
Proof. unfold digit. lia. Qed.

Lemma fixed_ok w n : zlen (fixed w n) = Z.of_nat w /\ Forall digit (fixed w n) /\ numeral_value (fixed w n) = n mod 10 ^ Z.of_nat w.
Proof.
  revert n. induction w as [|w IH]; intros n.
  - cbn [fixed]. split; [reflexivity|]. split; [constructor|]. cbn. rewrite Z.mod_1_r. reflexivity.
  - cbn [fixed]. destruct (IH (n / 10)) as (L & D & V). split; [|split].
    + rewrite zlen_app, L. change (zlen [48 + n mod 10]) with 1. lia.
    + apply Forall_app. split; [exact D|]. constructor; [apply digit_mod|constructor].
    + rewrite numeral_value_app, V. cbn [numeral_value]. change (zlen [48 + n mod 10]) with 1. change (zlen (@nil Z)) with 0.
      replace (10 ^ Z.of_nat (S w)) with (10 * 10 ^ Z.of_nat w) by (rewrite Nat2Z.inj_succ, Z.pow_succ_r by lia; ring).
      rewrite (Z.rem_mul_r n 10 (10 ^ Z.of_nat w)) by (try lia; apply Z.pow_pos_nonneg; lia). change (10 ^ 1) with 10. change (10 ^ 0) with 1. lia.
Qed.
Lemma fixed_wide w n : (0 < w)%nat -> 0 <= n < 10 ^ Z.of_nat w -> wide (Z.of_nat w) (fixed w n) n.
Proof.
  intros W H. destruct (fixed_ok w n) as (L & D & V). rewrite Z.mod_small in V by exact H.
  split; [exact L|]. split; [intros E; rewrite E in L; change (zlen (@nil Z)) with 0 in L; lia|]. auto.
Qed.

Lemma dec_digits_ok f n acc : 0 <= n < 2 ^ Z.of_nat f -> Forall digit acc ->
  let s := dec_digits f n acc in
  Forall digit s /\ numeral_value s = n * 10 ^ zlen acc + numeral_value acc /\
  ((0 < f)%nat -> s <> [] /\ (0 < n -> hd 0 s <> 48) /\ (n = 0 -> zlen s = 1 + zlen acc)).
Proof.
  revert n acc. induction f as [|f IH]; intros n acc H A; cbn [dec_digits].
  - split; [exact A|]. change (2 ^ Z.of_nat 0) with 1 in H. assert (n = 0) as -> by lia. split; [lia|lia].
  - destruct (Z.ltb_spec n 10) as [L|L].
    + split; [constructor; [unfold digit; lia|exact A]|]. split; [cbn [numeral_value]; lia|].
      intros _. split; [discriminate|]. cbn [hd]. split; [lia|]. intros _. lens. lia.
    + rewrite Nat2Z.inj_succ, Z.pow_succ_r in H by lia.
      destruct (IH (n / 10) ((48 + n mod 10) :: acc)) as (D & V & N); [lia|constructor; [apply digit_mod|exact A]|].
      assert (F : (0 < f)%nat). { destruct f; [change (2 ^ Z.of_nat 0) with 1 in H; lia|lia]. }
      split; [exact D|]. split.
      * rewrite V. cbn [numeral_value]. lens. rewrite Z.pow_add_r by (try lia; apply zlen_nonneg). change (10 ^ 1) with 10. pose proof (Z.div_mod n 10). lia.
      * intros _. destruct (N F) as (NE & HD & _). split; [exact NE|]. split; [intros _; apply HD; lia|lia].
Qed.
Lemma digits_text_ok n : 0 <= n -> numeral (digits_text n) n /\ (zlen (digits_text n) = 1 \/ hd 0 (digits_text n) <> 48) /\ (0 < n -> hd 0 (digits_text n) <> 48).
Proof.
  intros H. unfold digits_text.
  assert (B : 0 <= n < 2 ^ Z.of_nat (S (Z.to_nat (Z.log2 n)))).
  { split; [exact H|]. pose proof (Z.log2_nonneg n). rewrite Nat2Z.inj_succ, Z2Nat.id by lia.
    destruct (Z.eq_dec n 0) as [->|N]; [cbn; lia|]. apply Z.log2_spec. lia. }
  destruct (dec_digits_ok _ n [] B ltac:(constructor)) as (D & V & N). destruct (N ltac:(lia)) as (NE & HD & Z0).
  change (zlen (@nil Z)) with 0 in *. cbn [numeral_value] in V. split; [split; [exact NE|split; [exact D|lia]]|].
  split; [|exact HD]. destruct (Z.eq_dec n 0) as [E|E]; [left; rewrite (Z0 E); reflexivity|right; apply HD; lia].
Qed.
Lemma number_text_ok n : integer_text (number_text n) n.
Proof.
  unfold number_text. destruct (Z.ltb_spec n 0) as [L|L].
  - destruct (digits_text_ok (- n) ltac:(lia)) as (A & _ & B). replace n with (- - n) at 2 by lia. apply it_negative; [exact A|apply B; lia].
  - destruct (digits_text_ok n L) as (A & B & _). apply it_plain; auto.
Qed.
Lemma integer_text_unique s n n' : integer_text s n -> integer_text s n' -> n = n'.
Proof.
  intros A B. inversion A as [? ? [_ [DA VA]] _|? ? [_ [_ VA]] _]; inversion B as [? ? [_ [DB VB]] _|? ? [_ [_ VB]] _]; subst; try congruence.
  - exfalso. inversion DA; subst. unfold digit in *. lia.
  - exfalso. inversion DB; subst. unfold digit in *. lia.
Qed.
Lemma number_text_inj a b : number_text a = number_text b -> a = b.
Proof. intros E. eapply integer_text_unique; [apply number_text_ok|]. rewrite E. apply number_text_ok. Qed.

(** ** Times *)
Lemma date_text_ok y m d : 0 <= y < 10000 -> 0 <= m < 100 -> 0 <= d < 100 -> date_written (date_text (y, m, d)) (y, m, d).
Proof.
  intros Y M D. unfold date_text. cbn [app].
  apply dw; [apply (fixed_wide 4)|apply (fixed_wide 2)|apply (fixed_wide 2)]; cbn; lia.
Qed.
Lemma clock_text_ok h m s : 0 <= h < 100 -> 0 <= m < 100 -> 0 <= s < 100 -> clock_written (clock_text h m s) (h, m, s).
Proof.
  intros H M S. unfold clock_text. cbn [app]. apply cw; apply (fixed_wide 2); cbn; lia.
Qed.
Lemma datetime_text_ok short d h m s us : (let '(y, mo, da) := d in 0 <= y < 10000 /\ 0 <= mo < 100 /\ 0 <= da < 100) -> 0 <= h < 100 -> 0 <= m < 100 -> 0 <= s < 100 ->
  0 <= us < 1000000 -> time_written short (datetime_text d h m s us) (d, (h, m, s), us).
Proof.
  destruct d as [[y mo] da]. intros (Y & M & D) H MI S U. unfold datetime_text. cbn [app].
  apply tw_full; [apply date_text_ok; auto|apply clock_text_ok; auto|apply (fixed_wide 6); cbn; lia].
Qed.
Lemma stamp_parts_ok us d h m s f : us_per_day <= us < (ordinal_max + 1) * us_per_day -> stamp_parts us = (d, (h, m, s, f)) ->
  (let '(y, mo, da) := d in 0 <= y < 10000 /\ 0 <= mo < 100 /\ 0 <= da < 100) /\ 0 <= h < 24 /\ 0 <= m < 60 /\ 0 <= s < 60 /\ 0 <= f < 1000000 /\
  moment us (d, (h, m, s), f).
Proof.
  intros B E. unfold stamp_parts in E. unfold us_per_day, ordinal_max in *.
  set (n := us / 86400000000). change (86400 * 1000000) with 86400000000 in *. fold n in E.
  assert (N : 1 <= n <= 3652059) by (unfold n; lia). pose proof (civil_correct n ltac:(lia)) as C.
  injection E as Ed Eh Em Es Ef. rewrite Ed in C. destruct d as [[y mo] da]. pose proof (day_years _ _ _ _ C ltac:(lia)).
  set (t := us mod 86400000000) in *. assert (T : us = n * 86400000000 + t /\ 0 <= t < 86400000000) by (unfold n, t; lia).
  clearbody n t.
  repeat split; try lia. exists n, (y, mo, da), h, m, s, f. repeat split; try lia. exact C.
Qed.
Lemma stamp_text_ok us : us_per_day <= us < (ordinal_max + 1) * us_per_day -> reads_time false (stamp_text us) us.
Proof.
  intros B. unfold stamp_text. destruct (stamp_parts us) as [d [[[h m] s] f]] eqn:E.
  destruct (stamp_parts_ok _ _ _ _ _ _ B E) as (D & H & M & S & F & X). eexists. split; [|exact X].
  apply datetime_text_ok; auto; lia.
Qed.
Lemma stamp_str_ok us : us_per_day <= us < (ordinal_max + 1) * us_per_day -> reads_time true (stamp_str us) us.
Proof.
  intros B. unfold stamp_str. destruct (stamp_parts us) as [d [[[h m] s] f]] eqn:E.
  destruct (stamp_parts_ok _ _ _ _ _ _ B E) as (D & H & M & S & F & X). eexists. split; [|exact X].
  destruct (Z.eqb_spec f 0) as [->|N].
  - cbn [app]. destruct d as [[y mo] da]. apply tw_short; [apply date_text_ok; apply D|apply clock_text_ok; lia].
  - apply datetime_text_ok; auto; lia.
Qed.

(** Reading is unambiguous. *)
Lemma app_same {A} (a b c d : list A) : length a = length c -> a ++ b = c ++ d -> a = c /\ b = d.
Proof.
  revert c. induction a as [|x a IH]; intros [|y c] L E; try discriminate; [auto|]. cbn in *. injection E as -> E. destruct (IH c) as [-> ->]; auto.
Qed.
Lemma app_same_z (a b c d : list Z) : zlen a = zlen c -> a ++ b = c ++ d -> a = c /\ b = d.
Proof. intros L. apply app_same. unfold zlen in L. lia. Qed.
Lemma wide_unique w s n n' : wide w s n -> wide w s n' -> n = n'.
Proof. intros (_ & _ & _ & <-) (_ & _ & _ & <-). reflexivity. Qed.
Lemma date_written_unique s t d d' : date_written s d -> date_written t d' -> s = t -> d = d'.
Proof.
  intros A B. inversion A as [sy sm sd y m e Y M D]; inversion B as [sy' sm' sd' y' m' e' Y' M' D']; subst. intros E.
  apply app_same_z in E as [E1 E]; [|destruct Y as [Y _], Y' as [Y' _]; lia]. injection E as E.
  apply app_same_z in E as [E2 E]; [|destruct M as [M _], M' as [M' _]; lia]. injection E as E. subst.
  f_equal; [f_equal|]; eapply wide_unique; eauto.
Qed.
Lemma date_written_len s d : date_written s d -> zlen s = 10.
Proof. intros A. inversion A as [? ? ? ? ? ? [Y _] [M _] [D _]]; subst. lens. lia. Qed.
Lemma clock_written_unique s t d d' : clock_written s d -> clock_written t d' -> s = t -> d = d'.
Proof.
  intros A B. inversion A as [sy sm sd y m e Y M D]; inversion B as [sy' sm' sd' y' m' e' Y' M' D']; subst. intros E.
  apply app_same_z in E as [E1 E]; [|destruct Y as [Y _], Y' as [Y' _]; lia]. injection E as E.
  apply app_same_z in E as [E2 E]; [|destruct M as [M _], M' as [M' _]; lia]. injection E as E. subst.
  f_equal; [f_equal|]; eapply wide_unique; eauto.
Qed.
Lemma clock_written_len s d : clock_written s d -> zlen s = 8.
Proof. intros A. inversion A as [? ? ? ? ? ? [Y _] [M _] [D _]]; subst. lens. lia. Qed.
Lemma time_written_unique b s t t' : time_written b s t -> time_written b s t' -> t = t'.
Proof.
  intros A B. inversion A as [b1 sd sc sf d c f D C F|sd sc d c D C]; inversion B as [b1' sd' sc' sf' d' c' f' D' C' F'|sd' sc' d' c' D' C']; subst;
    match goal with K : _ ++ _ = _ ++ _ |- _ => rename K into E end;
    symmetry in E; apply app_same_z in E as [E1 E]; try (rewrite (date_written_len _ _ D), (date_written_len _ _ D'); reflexivity); injection E as E.
  - apply app_same_z in E as [E2 E]; [|rewrite (clock_written_len _ _ C), (clock_written_len _ _ C'); reflexivity]. injection E as E. subst sf'.
    f_equal; [f_equal|]; [eapply date_written_unique|eapply clock_written_unique|eapply wide_unique]; eauto.
  - exfalso. apply (f_equal (@zlen Z)) in E. rewrite zlen_app, zlen_cons, (clock_written_len _ _ C), (clock_written_len _ _ C') in E. pose proof (zlen_nonneg sf). lia.
  - exfalso. apply (f_equal (@zlen Z)) in E. rewrite zlen_app, zlen_cons, (clock_written_len _ _ C), (clock_written_len _ _ C') in E. pose proof (zlen_nonneg sf'). lia.
  - f_equal; f_equal; [eapply date_written_unique|eapply clock_written_unique]; eauto.
Qed.
Lemma reads_time_unique b s us us' : reads_time b s us -> reads_time b s us' -> us = us'.
Proof.
  intros (t & W & n & d & h & m & sc & f & -> & D & _ & _ & _ & _ & ->) (t' & W' & n' & d' & h' & m' & s' & f' & -> & D' & _ & _ & _ & _ & ->).
  pose proof (time_written_unique _ _ _ _ W W') as E. injection E as -> -> -> -> ->. rewrite (day_number_inj _ _ _ D D'). reflexivity.
Qed.
