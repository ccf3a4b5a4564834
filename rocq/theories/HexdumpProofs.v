(** Proofs about hexadecimal dumps. *)
From Verif Require Import Base BaseLemmas Report ReportMoreSpec.
Local Open Scope Z_scope.

(** ** Numbers *)

Lemma digit_of d : 0 <= d < 16 -> digit (hex_digit d) = Some d.
Proof.
  intro H. assert (K : forallb (fun d => match digit (hex_digit d) with Some x => x =? d | None => false end) (map Z.of_nat (seq 0 16)) = true) by reflexivity.
  rewrite forallb_forall in K. specialize (K d). destruct (digit (hex_digit d)) as [x|].
  - f_equal. apply Z.eqb_eq, K, in_map_iff. exists (Z.to_nat d). split; [lia|]. apply in_seq. lia.
  - discriminate K. apply in_map_iff. exists (Z.to_nat d). split; [lia|]. apply in_seq. lia.
Qed.

Lemma number_app s : forall a t, number a (s ++ t) = match number a s with Some x => number x t | None => None end.
Proof. induction s as [|c s IH]; intros a t; cbn [app number]; [auto|]. destruct (digit c); [apply IH|auto]. Qed.

Lemma hex_digits_acc fuel : forall n acc, hex_digits fuel n acc = hex_digits fuel n [] ++ acc.
Proof.
  induction fuel as [|f IH]; intros n acc; cbn [hex_digits]; [auto|]. destruct (n / 16 =? 0); [auto|].
  rewrite IH, (IH _ [_]), <- app_assoc. reflexivity.
Qed.

Lemma hex_digits_value fuel : forall n, 0 <= n < 16 ^ Z.of_nat fuel -> (0 < fuel)%nat -> number 0 (hex_digits fuel n []) = Some n.
Proof.
  induction fuel as [|f IH]; intros n H F; [lia|]. cbn [hex_digits]. rewrite Nat2Z.inj_succ, Z.pow_succ_r in H by lia.
  destruct (Z.eqb_spec (n / 16) 0).
  - cbn [number]. rewrite digit_of by lia. f_equal. lia.
  - rewrite hex_digits_acc, number_app. destruct f as [|f]; [cbn in H; lia|].
    rewrite IH; [|split; [lia|apply Z.div_lt_upper_bound; lia]|lia]. cbn [number]. rewrite digit_of by lia. f_equal. lia.
Qed.

Lemma hex_digits_len fuel : forall n (k : nat), 0 <= n < 16 ^ Z.of_nat k -> (0 < k)%nat -> zlen (hex_digits fuel n []) <= Z.of_nat k.
Proof.
  induction fuel as [|f IH]; intros n k H K; cbn [hex_digits]; [change (zlen []) with 0; lia|].
  destruct (Z.eqb_spec (n / 16) 0); [change (zlen [hex_digit (n mod 16)]) with 1; lia|].
  rewrite hex_digits_acc, zlen_app. change (zlen [hex_digit (n mod 16)]) with 1.
  destruct k as [|k]; [lia|]. rewrite Nat2Z.inj_succ, Z.pow_succ_r in H by lia. destruct k as [|k]; [cbn in H; lia|].
  specialize (IH (n / 16) (S k)). rewrite (Nat2Z.inj_succ (S k)). enough (zlen (hex_digits f (n / 16) []) <= Z.of_nat (S k)) by lia.
  apply IH; [|lia]. split; [lia|]. apply Z.div_lt_upper_bound; lia.
Qed.

Lemma hex_value n : 0 <= n -> number 0 (hex n) = Some n.
Proof.
  intro H. unfold hex. apply hex_digits_value; [|lia]. split; [lia|]. rewrite Nat2Z.inj_succ, Z2Nat.id by apply Z.log2_nonneg.
  destruct (Z.eq_dec n 0) as [->|]; [reflexivity|]. destruct (Z.log2_spec n ltac:(lia)) as [_ L].
  eapply Z.lt_le_trans; [exact L|]. apply Z.pow_le_mono_l. lia.
Qed.

Lemma number_zeros k s : number 0 (repeat 48 k ++ s) = number 0 s.
Proof. induction k as [|k IH]; [auto|]. cbn [repeat app number]. change (digit 48) with (Some 0). exact IH. Qed.

Lemma zfill_value w s : number 0 (zfill w s) = number 0 s.
Proof. apply number_zeros. Qed.
Lemma zfill_len w s : zlen (zfill w s) = Z.max w (zlen s).
Proof. unfold zfill. rewrite zlen_app, zlen_repeat. pose proof (zlen_nonneg s). lia. Qed.

Lemma int2hex_byte b : is_byte b -> int2hex b = [hex_digit (b / 16); hex_digit (b mod 16)].
Proof.
  intro H. red in H.
  assert (K : forallb (fun b => zlist_eqb (int2hex b) [hex_digit (b / 16); hex_digit (b mod 16)]) (map Z.of_nat (seq 0 256)) = true) by (vm_compute; reflexivity).
  rewrite forallb_forall in K. apply zlist_eqb_eq, K. apply in_map_iff. exists (Z.to_nat b). split; [lia|]. apply in_seq. lia.
Qed.

(** ** Lines *)

Lemma hex_line_shape l : forall k n, bytes_ok l -> l <> [] -> n = k + zlen l -> 0 <= k ->
  zlen (hex_line k n l) = 3 * zlen l - 1 /\
  (forall j b, znth l j = Some b -> znth (hex_line k n l) (3 * j) = Some (hex_digit (b / 16)) /\
     znth (hex_line k n l) (3 * j + 1) = Some (hex_digit (b mod 16))) /\
  (forall j, 0 <= j -> j + 1 < zlen l -> znth (hex_line k n l) (3 * j + 2) = Some (if k + j =? 7 then 45 else 32)).
Proof.
  induction l as [|b l IH]; intros k n B N E Hk; [congruence|]. inversion B as [|? ? Bb Bl]; subst. cbn [hex_line]. rewrite int2hex_byte by auto.
  rewrite zlen_cons. destruct l as [|c l].
  - change (zlen []) with 0. replace (k =? k + (1 + 0) - 1) with true by lia. cbn [negb]. rewrite andb_false_r. cbn [app hex_line].
    split; [reflexivity|]. split; [|intros; lia]. intros j x Hx. pose proof (znth_Some_range _ _ _ Hx) as R. change (zlen [b]) with 1 in R.
    assert (j = 0) by lia. subst j. cbn in Hx. injection Hx as <-. split; reflexivity.
  - pose proof (zlen_nonneg l). rewrite zlen_cons. replace (k =? k + (1 + (1 + zlen l)) - 1) with false by lia. cbn [negb]. rewrite andb_true_r.
    set (sep := if k =? 7 then [45] else [32]). assert (S1 : sep = [if k =? 7 then 45 else 32]) by (unfold sep; destruct (k =? 7); reflexivity).
    rewrite S1. cbn [app]. destruct (IH (k + 1) (k + (1 + (1 + zlen l))) Bl ltac:(congruence) ltac:(rewrite zlen_cons; lia) ltac:(lia)) as (I1 & I2 & I3).
    rewrite zlen_cons in I1, I3. set (h := hex_line (k + 1) _ (c :: l)) in *. split; [rewrite !zlen_cons; lia|]. split.
    + intros j x Hx. pose proof (znth_Some_range _ _ _ Hx) as R. cbn [znth] in Hx.
      destruct (Z.eqb_spec j 0) as [->|J]; [injection Hx as <-; split; reflexivity|]. destruct (I2 _ _ Hx) as [J1 J2].
      cbn [znth]. replace (3 * j =? 0) with false by lia. replace (3 * j - 1 =? 0) with false by lia. replace (3 * j - 1 - 1 =? 0) with false by lia.
      replace (3 * j + 1 =? 0) with false by lia. replace (3 * j + 1 - 1 =? 0) with false by lia. replace (3 * j + 1 - 1 - 1 =? 0) with false by lia.
      replace (3 * j - 1 - 1 - 1) with (3 * (j - 1)) by lia. replace (3 * j + 1 - 1 - 1 - 1) with (3 * (j - 1) + 1) by lia. auto.
    + intros j Hj L. cbn [znth]. replace (3 * j + 2 =? 0) with false by lia. replace (3 * j + 2 - 1 =? 0) with false by lia.
      destruct (Z.eqb_spec (3 * j + 2 - 1 - 1) 0).
      * replace (k + j =? 7) with (k =? 7) by lia. reflexivity.
      * replace (3 * j + 2 - 1 - 1 - 1) with (3 * (j - 1) + 2) by lia. rewrite I3 by lia. now replace (k + 1 + (j - 1)) with (k + j) by lia.
Qed.

Definition hex_columns (l : list Z) : list Z :=
  hex_line 0 (zlen l) l ++ (if 0 <? 16 - zlen l then repeat 32 (Z.to_nat (3 * (16 - zlen l))) else []).

Lemma columns_shown l : bytes_ok l -> 1 <= zlen l <= 16 -> columns l (hex_columns l).
Proof.
  intros B L. assert (N : l <> []) by (intros ->; cbn in L; lia).
  destruct (hex_line_shape l 0 (zlen l) B N ltac:(lia) ltac:(lia)) as (I1 & I2 & I3). unfold hex_columns.
  assert (E : (if 0 <? 16 - zlen l then repeat 32 (Z.to_nat (3 * (16 - zlen l))) else []) = repeat 32 (Z.to_nat (3 * (16 - zlen l)))).
  { destruct (Z.ltb_spec 0 (16 - zlen l)); [auto|]. replace (Z.to_nat _) with O by lia. reflexivity. }
  rewrite E. clear E. split; [rewrite zlen_app, zlen_repeat; lia|]. split; [|split].
  - intros j b Hb. pose proof (znth_Some_range _ _ _ Hb). assert (Bb : is_byte b) by (eapply bytes_ok_znth; eauto). red in Bb.
    destruct (I2 j b Hb) as [J1 J2]. exists (hex_digit (b / 16)), (hex_digit (b mod 16)).
    rewrite !znth_app1 by lia. split; [auto|]. split; [auto|]. cbn [number]. rewrite !digit_of by lia. f_equal. lia.
  - intros j Hj J. rewrite znth_app1 by lia. now rewrite I3 by lia.
  - intros p Hp. rewrite znth_app2 by lia. rewrite znth_nth_error by lia. apply nth_error_repeat. lia.
Qed.

Lemma ascii_shown l : ascii_line l = map shown_char l.
Proof. reflexivity. Qed.

Lemma line_shown i l : 0 <= i -> bytes_ok l -> 1 <= zlen l <= 16 -> line_of i l (dump_line i l).
Proof.
  intros Hi B L. exists (zfill 8 (int2hex i)), (hex_columns l). split; [unfold dump_line, hex_columns; cbn zeta; rewrite <- !app_assoc; reflexivity|].
  rewrite !zfill_len, zfill_value. unfold int2hex. rewrite zfill_len, zfill_value, hex_value by lia.
  split; [lia|]. split; [|split; [auto|now apply columns_shown]].
  intro K. unfold hex. pose proof (hex_digits_len (S (Z.to_nat (Z.log2 i))) i 8 ltac:(cbn; lia) ltac:(lia)). lia.
Qed.

Lemma dump_shown buf : bytes_ok buf -> forall fuel i, 0 <= i < zlen buf -> (Z.to_nat (zlen buf - i) < fuel)%nat ->
  exists s, dump_loop fuel buf i = Ok s /\ dump_of buf i s.
Proof.
  intro B. induction fuel as [|f IH]; intros i Hi F; [lia|]. cbn [dump_loop]. replace (i <? zlen buf) with true by lia. cbn [negb].
  assert (L : line_of i (slice buf i (i + 16)) (dump_line i (slice buf i (i + 16)))).
  { apply line_shown; [lia|now apply bytes_ok_slice|]. rewrite zlen_slice by lia. lia. }
  destruct (Z.ltb_spec (i + 16) (zlen buf)) as [K|K].
  - destruct (IH (i + 16) ltac:(lia) ltac:(lia)) as (rest & -> & D). cbn [bind]. eexists. split; [reflexivity|]. now apply dump_more.
  - assert (E : dump_loop f buf (i + 16) = Ok []).
    { destruct f as [|f]; [lia|]. cbn [dump_loop]. now replace (i + 16 <? zlen buf) with false by lia. }
    rewrite E. cbn [bind]. rewrite app_nil_r. eexists. split; [reflexivity|]. apply dump_last; [lia|auto].
Qed.

Lemma hexdump_shown buf : bytes_ok buf -> buf <> [] -> exists s, hexdump buf = Ok s /\ dump_of buf 0 s.
Proof.
  intros B N. unfold hexdump. pose proof (zlen_nonneg buf). destruct (Z.eqb_spec (zlen buf) 0) as [E|E].
  - destruct buf; [congruence|rewrite zlen_cons in E; pose proof (zlen_nonneg buf); lia].
  - apply dump_shown; auto; [lia|unfold zlen; lia].
Qed.

(** ** A dump shows all bytes *)

Lemma columns_inj a b h : columns a h -> columns b h -> zlen a = zlen b -> a = b.
Proof.
  intros (_ & A & _) (_ & B & _) L. apply znth_ext; [auto|]. intros j Hj.
  destruct (znth_some a j ltac:(lia)) as [x Ex], (znth_some b j ltac:(lia)) as [y Ey].
  destruct (A _ _ Ex) as (c1 & c2 & H1 & H2 & H3), (B _ _ Ey) as (d1 & d2 & K1 & K2 & K3). congruence.
Qed.

Lemma no_newline_split (a b ta tb : list Z) : ~ In 10 a -> ~ In 10 b ->
  (ta = [] \/ exists r, ta = 10 :: r) -> (tb = [] \/ exists r, tb = 10 :: r) -> a ++ ta = b ++ tb -> a = b /\ ta = tb.
Proof.
  revert b. induction a as [|x a IH]; intros [|y b] Na Nb Ta Tb E; cbn [app] in E.
  - auto.
  - exfalso. apply Nb. left. destruct Ta as [->|[r ->]]; [discriminate|]. congruence.
  - exfalso. apply Na. left. destruct Tb as [->|[r ->]]; [discriminate|]. congruence.
  - injection E as -> E. destruct (IH b) as [-> ->]; auto; intro K; [apply Na|apply Nb]; now right.
Qed.

Lemma shown_no_newline l : ~ In 10 (map shown_char l).
Proof.
  intro H. apply in_map_iff in H as (b & E & _). unfold shown_char in E.
  destruct (Z.leb_spec 32 b); cbn [andb] in E; [destruct (b <=? 126)|]; lia.
Qed.

Lemma app_same_len {A} (a b c d : list A) : zlen a = zlen b -> a ++ c = b ++ d -> a = b /\ c = d.
Proof.
  revert b. induction a as [|x a IH]; intros [|y b] L E.
  - auto.
  - rewrite zlen_cons in L. pose proof (zlen_nonneg b). change (zlen (@nil A)) with 0 in L. lia.
  - rewrite zlen_cons in L. pose proof (zlen_nonneg a). change (zlen (@nil A)) with 0 in L. lia.
  - rewrite !zlen_cons in L. cbn [app] in E. injection E as -> E. destruct (IH b ltac:(lia) E) as [-> ->]. auto.
Qed.

Lemma dump_inj a b : bytes_ok a -> bytes_ok b -> forall f g i s, 0 <= i < zlen a -> i < zlen b ->
  dump_loop f a i = Ok s -> dump_loop g b i = Ok s -> zdrop i a = zdrop i b.
Proof.
  intros Ba Bb. induction f as [|f IH]; intros g i s Hi Hi' Ha Hb; cbn [dump_loop] in Ha; [discriminate|].
  destruct g as [|g]; cbn [dump_loop] in Hb; [discriminate|].
  replace (i <? zlen a) with true in Ha by lia. replace (i <? zlen b) with true in Hb by lia. cbn [negb] in *.
  apply bind_ok in Ha as (ra & Ea & Ha). apply bind_ok in Hb as (rb & Eb & Hb). injection Ha as <-. injection Hb as Hb.
  set (la := slice a i (i + 16)) in *. set (lb := slice b i (i + 16)) in *.
  assert (La : zlen la = Z.min 16 (zlen a - i)) by (unfold la; rewrite zlen_slice; lia).
  assert (Lb : zlen lb = Z.min 16 (zlen b - i)) by (unfold lb; rewrite zlen_slice; lia).
  assert (Ca : columns la (hex_columns la)) by (apply columns_shown; [now apply bytes_ok_slice|lia]).
  assert (Cb : columns lb (hex_columns lb)) by (apply columns_shown; [now apply bytes_ok_slice|lia]).
  set (ta := if i + 16 <? zlen a then 10 :: ra else ra) in *. set (tb := if i + 16 <? zlen b then 10 :: rb else rb) in *.
  assert (NIL : forall h x r, zlen x <= i + 16 -> dump_loop h x (i + 16) = Ok r -> r = []).
  { intros [|h] x r Lx E; cbn [dump_loop] in E; [discriminate|]. replace (i + 16 <? zlen x) with false in E by lia. cbn in E. congruence. }
  assert (Ta : ta = [] \/ exists r, ta = 10 :: r).
  { unfold ta. destruct (Z.ltb_spec (i + 16) (zlen a)); [eauto|]. left. eapply NIL; [|exact Ea]. lia. }
  assert (Tb : tb = [] \/ exists r, tb = 10 :: r).
  { unfold tb. destruct (Z.ltb_spec (i + 16) (zlen b)); [eauto|]. left. eapply NIL; [|exact Eb]. lia. }
  assert (DL : forall l, dump_line i l = zfill 8 (int2hex i) ++ [32; 32] ++ hex_columns l ++ [32; 32] ++ map shown_char l).
  { intro l. unfold dump_line, hex_columns. cbn zeta. rewrite <- !app_assoc. reflexivity. }
  rewrite !DL in Hb. rewrite <- !app_assoc in Hb. apply app_inv_head in Hb. apply app_inv_head in Hb.
  apply app_same_len in Hb as [Hc Hb]; [|destruct Ca, Cb; lia]. apply app_inv_head in Hb.
  apply no_newline_split in Hb as [Ht Hr]; auto using shown_no_newline.
  assert (LL : zlen la = zlen lb). { apply (f_equal zlen) in Ht. unfold zlen in *. rewrite !map_length in Ht. lia. }
  assert (E1 : la = lb). { rewrite Hc in Cb. eapply columns_inj; eauto. }
  assert (SP : forall x : list Z, zdrop i x = slice x i (i + 16) ++ zdrop (i + 16) x).
  { intro x. rewrite <- (ztake_zdrop (zdrop i x) 16) at 1. rewrite zdrop_zdrop by lia. unfold slice. now replace (i + 16 - i) with 16 by lia. }
  rewrite (SP a), (SP b). fold la lb. rewrite E1. f_equal.
  unfold ta, tb in Hr. destruct (Z.ltb_spec (i + 16) (zlen a)), (Z.ltb_spec (i + 16) (zlen b)).
  - injection Hr as ->. eapply IH; eauto; lia.
  - apply NIL in Eb; [|lia]. subst rb. discriminate.
  - apply NIL in Ea; [|lia]. subst ra. discriminate.
  - rewrite !zdrop_all by lia. reflexivity.
Qed.

Lemma hexdump_inj a b : bytes_ok a -> bytes_ok b -> hexdump a = hexdump b -> a = b.
Proof.
  intros Ba Bb H. pose proof (zlen_nonneg a). pose proof (zlen_nonneg b).
  assert (E : forall x, bytes_ok x -> x <> [] -> hexdump x <> Ok [45]).
  { intros x Bx N K. destruct (hexdump_shown x Bx N) as (s & E & D). rewrite K in E. injection E as <-.
    assert (LN : forall i l s, line_of i l s -> 8 <= zlen s).
    { intros i l s (pos & h & -> & L & _). rewrite zlen_app. pose proof (zlen_nonneg ([32; 32] ++ h ++ [32; 32] ++ map shown_char l)). lia. }
    assert (DN : forall s, dump_of x 0 s -> 8 <= zlen s).
    { intros s Ds. destruct Ds as [s R L|s r R L]; apply LN in L; [auto|]. rewrite zlen_app. pose proof (zlen_nonneg (10 :: r)). lia. }
    apply DN in D. change (zlen [45]) with 1 in D. lia. }
  assert (NN : forall x : list Z, x <> [] -> 0 < zlen x).
  { intros [|c x] N; [congruence|]. rewrite zlen_cons. pose proof (zlen_nonneg x). lia. }
  destruct a as [|x a']; [|destruct b as [|y b']].
  - destruct b as [|y b']; [auto|]. exfalso. apply (E (y :: b')); [auto|discriminate|]. rewrite <- H. reflexivity.
  - exfalso. apply (E (x :: a')); [auto|discriminate|]. rewrite H. reflexivity.
  - set (a := x :: a') in *. set (b := y :: b') in *. assert (La : 0 < zlen a) by (apply NN; discriminate). assert (Lb : 0 < zlen b) by (apply NN; discriminate).
    destruct (hexdump_shown a Ba ltac:(discriminate)) as (s & Es & _). assert (Eb : hexdump b = Ok s) by congruence. unfold hexdump in Es, Eb.
    replace (zlen a =? 0) with false in Es by lia. replace (zlen b =? 0) with false in Eb by lia.
    pose proof (dump_inj a b Ba Bb _ _ 0 s ltac:(lia) ltac:(lia) Es Eb) as Q. exact Q.
Qed.
