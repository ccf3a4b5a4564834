(** Proofs about the texts of the report on the log. *)
From Coq Require Import String.
From Verif Require Import Base BaseLemmas FieldLemmas Frs FileRecord Filetime Usn UsnSpec UsnProofs Properties_Usn Attributes
  Report ReportSpec ReportMoreSpec HexdumpProofs LogReport LogReportSpec.
Local Open Scope Z_scope.

Lemma digit_low c d : digit c = Some d -> low_digit (lower c) = Some d /\ 0 <= d < 16.
Proof.
  unfold digit, low_digit, lower. destruct ((48 <=? c) && (c <=? 57)) eqn:E.
  - intro H. injection H as <-. replace (65 <=? c) with false by lia. rewrite E. split; [auto|lia].
  - destruct ((65 <=? c) && (c <=? 70)) eqn:E2; [|discriminate]. intro H. injection H as <-.
    replace (65 <=? c) with true by lia. replace ((48 <=? c + 32) && (c + 32 <=? 57)) with false by lia.
    replace ((97 <=? c + 32) && (c + 32 <=? 102)) with true by lia. split; [f_equal; lia|lia].
Qed.

Lemma number_low s : forall a n, number a s = Some n -> low_number a (map lower s) = Some n.
Proof.
  induction s as [|c s IH]; intros a n H; cbn [number map low_number] in *; [auto|].
  destruct (digit c) as [d|] eqn:E; [|discriminate]. destruct (digit_low _ _ E) as [-> _]. auto.
Qed.

Lemma hex_digits_first fuel : forall n acc, 0 < n < 16 ^ Z.of_nat fuel ->
  exists d s, 0 < d < 16 /\ hex_digits fuel n acc = hex_digit d :: s.
Proof.
  induction fuel as [|f IH]; intros n acc H; [cbn in H; lia|]. cbn [hex_digits]. rewrite Nat2Z.inj_succ, Z.pow_succ_r in H by lia.
  destruct (Z.eqb_spec (n / 16) 0) as [E|E].
  - exists (n mod 16), acc. split; [|reflexivity]. pose proof (Z.div_mod n 16). lia.
  - apply IH. split; [|apply Z.div_lt_upper_bound; lia]. pose proof (Z.div_pos n 16). lia.
Qed.

Lemma log2_fuel n : 0 <= n -> 0 <= n < 16 ^ Z.of_nat (S (Z.to_nat (Z.log2 n))).
Proof.
  intro H. split; [auto|]. destruct (Z.eq_dec n 0) as [->|N]; [cbn; lia|].
  pose proof (Z.log2_spec n ltac:(lia)) as [_ L]. pose proof (Z.log2_nonneg n).
  rewrite Nat2Z.inj_succ, Z2Nat.id by lia. eapply Z.lt_le_trans; [exact L|]. apply Z.pow_le_mono_l. lia.
Qed.

Lemma py_hex_shown n : 0 <= n -> hex_shown n (py_hex n).
Proof.
  intro H. exists (map lower (hex n)). split; [reflexivity|]. split; [apply number_low, hex_value; auto|].
  destruct (Z.eq_dec n 0) as [->|N].
  - split; [cbn; discriminate|]. intros _. split; [auto|reflexivity].
  - destruct (hex_digits_first (S (Z.to_nat (Z.log2 n))) n []) as (d & s & D & E); [split; [lia|apply log2_fuel; auto]|].
    unfold hex. rewrite E. split; [discriminate|]. cbn [map]. intro K. exfalso. cbn [znth] in K. injection K as K. revert K.
    unfold lower, hex_digit. destruct (Z.ltb_spec d 10).
    + replace (65 <=? 48 + d) with false by lia. lia.
    + replace (65 <=? 55 + d) with true by lia. lia.
Qed.

(** A shown number is the only one with this text. *)
Lemma hex_shown_inj n m s : hex_shown n s -> hex_shown m s -> n = m.
Proof. intros (d & -> & E & _) (d' & F & E' & _). injection F as F. subst d'. congruence. Qed.

Lemma operation_text n : 0 <= n -> operation_shown n (resolve_operation n).
Proof.
  intro H. unfold resolve_operation. destruct (Z.lt_ge_cases n 38) as [L|L].
  - left. assert (C : forall k, (k < 38)%nat -> exists name, nth_error operation_names k = Some name /\ nth_error operations k = Some (Z.of_nat k, name)).
    { intros k Hk. do 38 (destruct k as [|k]; [eexists; split; reflexivity|]). lia. }
    destruct (C (Z.to_nat n) ltac:(lia)) as (name & E1 & E2). rewrite znth_nth_error by lia. rewrite E1. exists name. split; [|reflexivity].
    apply nth_error_In in E2. rewrite Z2Nat.id in E2 by lia. exact E2.
  - right. rewrite znth_none by exact L. split; [|apply py_hex_shown; auto].
    intros name I. assert (F : Forall (fun x => fst x < 38) operations) by (repeat constructor). rewrite Forall_forall in F. apply F in I. cbn in I. lia.
Qed.

Lemma joined_bars l : bars l (joined bar l).
Proof. induction l as [|x [|y l] IH]; [constructor|constructor|]. cbn [joined]. constructor. exact IH. Qed.

Lemma land_bit n k : 0 <= n -> 0 <= k -> (0 <? Z.land n (2 ^ k)) = Z.testbit n k.
Proof. intros. rewrite land_pow2 by lia. pose proof (Z.pow_pos_nonneg 2 k). destruct (Z.testbit n k); lia. Qed.

Lemma attributes_text n : 0 <= n -> attributes_shown n (resolve_file_attributes n).
Proof.
  intro H. unfold attributes_shown, resolve_file_attributes.
  replace (map (fun x => txt (snd x)) (filter (fun x => Z.testbit n (fst x)) attribute_bits))
    with (map (fun x => txt (snd x)) (filter (fun x => 0 <? Z.land n (fst x)) file_attr_list)); [apply joined_bars|].
  assert (E : file_attr_list = map (fun x => (2 ^ fst x, snd x)) attribute_bits) by reflexivity. rewrite E. clear E.
  assert (P : Forall (fun x => 0 <= fst x) attribute_bits) by (repeat (constructor; [cbn; lia|]); constructor).
  induction P as [|[k s] l Hk P IH]; [reflexivity|]. cbn [map filter fst snd]. cbn in Hk. rewrite land_bit by auto.
  destruct (Z.testbit n k); cbn [map snd]; rewrite IH; reflexivity.
Qed.

Lemma codes_text_shown table items n : items_value table items = Some n -> Forall (fun i => match i with Hex m => 0 <= m | _ => True end) items ->
  codes_shown table n (codes_text items).
Proof.
  intros V F. exists items, (map item_text items). split; [auto|]. split; [|apply joined_bars].
  clear V. induction F as [|[s|m] l H F IH]; cbn [map item_text]; constructor; auto; cbn; auto. now apply py_hex_shown.
Qed.

Lemma resolved_nonneg table codes : Forall (fun i => match i with Hex m => 0 <= m | _ => True end) (resolve_codes table codes).
Proof.
  unfold resolve_codes. assert (G : forall t c l, Forall (fun i => match i with Hex m => 0 <= m | _ => True end) (fst (resolve_loop t c l))).
  { induction t as [|[f s] t IH]; intros c l; cbn [resolve_loop]; [constructor|]. destruct (_ <? _); [|auto].
    specialize (IH c (l - Z.land c f)). destruct (resolve_loop t c (l - Z.land c f)). cbn [fst] in *. constructor; auto. }
  specialize (G table codes codes). destruct (resolve_loop table codes codes) as [l left]. cbn [fst] in G.
  destruct (Z.ltb_spec 0 left); [|auto]. apply Forall_app. split; [auto|]. constructor; [lia|constructor].
Qed.

Lemma reason_text n : 0 <= n -> codes_shown reason_list n (codes_text (resolve_reason_codes n)).
Proof. intro H. apply codes_text_shown; [apply C26_no_bit_lost; auto|apply resolved_nonneg]. Qed.
Lemma source_text n : 0 <= n -> codes_shown source_list n (codes_text (resolve_source_codes n)).
Proof. intro H. apply codes_text_shown; [apply C26_no_bit_lost; auto|apply resolved_nonneg]. Qed.

(** GUIDs *)
Lemma low_number_app s : forall a t, low_number a (s ++ t) = match low_number a s with Some x => low_number x t | None => None end.
Proof. induction s as [|c s IH]; intros a t; cbn [app low_number]; [reflexivity|]. destruct (low_digit c); auto. Qed.

(** Bytes, the most significant first. *)
Fixpoint be_val (acc : Z) (l : list Z) : Z := match l with [] => acc | b :: t => be_val (256 * acc + b) t end.

Lemma hex_bytes_shown l : bytes_ok l -> zlen (hex_bytes l) = 2 * zlen l /\ forall a, low_number a (hex_bytes l) = Some (be_val a l).
Proof.
  induction 1 as [|b l Hb B IH]; [split; [reflexivity|intro a; reflexivity]|]. unfold hex_bytes in *. cbn [map concat be_val].
  rewrite int2hex_byte by auto. cbn [app map]. destruct IH as [IL IV]. rewrite !zlen_cons. split; [lia|]. intro a. cbn [low_number].
  unfold is_byte in Hb.
  destruct (digit_low _ _ (digit_of (b / 16) ltac:(lia))) as [-> _].
  destruct (digit_low _ _ (digit_of (b mod 16) ltac:(lia))) as [-> _]. rewrite IV. f_equal. f_equal. lia.
Qed.

Lemma be_val_app a l t : be_val a (l ++ t) = be_val (be_val a l) t.
Proof. revert a. induction l as [|b l IH]; intro a; cbn [app be_val]; auto. Qed.

Lemma be_rev l : be_val 0 (rev l) = le_val l.
Proof. induction l as [|b l IH]; [reflexivity|]. cbn [rev le_val]. rewrite be_val_app, IH. cbn [be_val]. lia. Qed.

Lemma guid_text_shown v : bytes_ok v -> guid_shown v (guid_text (oid_guid v)).
Proof.
  intro B. unfold guid_shown, oid_guid. rewrite zlen_slice by lia. pose proof (zlen_nonneg v).
  destruct (Z.lt_ge_cases (zlen v) 16) as [L|L].
  { left. split; [auto|]. replace (_ =? 16) with false by lia. reflexivity. }
  right. split; [auto|]. replace (_ =? 16) with true by lia. cbn [guid_text].
  rewrite !slice_slice by lia. cbn [Z.add]. 
  exists (hex_bytes (rev (slice v 0 4))), (hex_bytes (rev (slice v 4 6))), (hex_bytes (rev (slice v 6 8))), (hex_bytes (slice v 8 10)), (hex_bytes (slice v 10 16)).
  split; [reflexivity|].
  assert (R : forall a b, 0 <= a <= b -> b <= 16 -> zlen (hex_bytes (rev (slice v a b))) = 2 * (b - a) /\
    low_number 0 (hex_bytes (rev (slice v a b))) = Some (fld (b - a) v a)).
  { intros a b H1 H2. destruct (hex_bytes_shown (rev (slice v a b))) as [E1 E2]; [apply Forall_rev; now apply bytes_ok_slice|].
    rewrite E1, E2, be_rev. unfold zlen at 1. rewrite rev_length. fold (zlen (slice v a b)). rewrite zlen_slice by lia. unfold fld.
    replace (a + (b - a)) with b by lia. split; [lia|auto]. }
  assert (D : forall a b, 0 <= a <= b -> b <= 16 -> zlen (hex_bytes (slice v a b)) = 2 * (b - a) /\
    low_number 0 (hex_bytes (slice v a b)) = Some (le_val (rev (slice v a b)))).
  { intros a b H1 H2. destruct (hex_bytes_shown (slice v a b)) as [E1 E2]; [now apply bytes_ok_slice|].
    rewrite E1, E2, <- be_rev, rev_involutive. rewrite zlen_slice by lia. split; [lia|auto]. }
  destruct (R 0 4) as [R1 R1']; [lia|lia|]. destruct (R 4 6) as [R2 R2']; [lia|lia|]. destruct (R 6 8) as [R3 R3']; [lia|lia|].
  destruct (D 8 10) as [D1 D1']; [lia|lia|]. destruct (D 10 16) as [D2 D2']; [lia|lia|].
  repeat (split; [split; [lia|assumption]|]).
  split; [split; [lia|]|split; [lia|auto]]. rewrite D1'. f_equal.
  rewrite (slice_split v 8 9 10) by lia. rewrite rev_app_distr, le_val_app. 
  assert (S1 : forall a, 0 <= a -> a + 1 <= zlen v -> exists x, slice v a (a + 1) = [x] /\ fld 1 v a = x).
  { intros a H1 H2. destruct (slice v a (a + 1)) as [|x [|y l]] eqn:E; pose proof (zlen_slice v a (a + 1) ltac:(lia)) as Q; rewrite E in Q.
    - rewrite zlen_nil in Q. lia.
    - exists x. split; [auto|]. unfold fld. rewrite E. cbn [le_val]. lia.
    - rewrite !zlen_cons in Q. pose proof (zlen_nonneg l). lia. }
  destruct (S1 8) as (x & E1 & ->); [lia|lia|]. destruct (S1 9) as (y & E2 & ->); [lia|lia|]. change (8 + 1) with 9 in E1. change (9 + 1) with 10 in E2.
  rewrite E1, E2. cbn [rev app le_val]. change (zlen [y]) with 1. lia.
Qed.
