From Verif Require Import Base BaseLemmas MappingPairs Frs FrsSpec FrsProofs Filetime FiletimeProofs.
From Verif Require Import FieldLemmas Attributes AttributesSpec Wsl WslSpec.

(** ** Extended attributes *)

Lemma ea_at_fun buf n f v x n' f' v' x' : ea_at buf n f v x -> ea_at buf n' f' v' x' ->
  n = n' /\ f = f' /\ v = v' /\ x = x'.
Proof. unfold ea_at. intros (_ & _ & -> & _ & -> & -> & _ & ->) (_ & _ & -> & _ & -> & -> & _ & ->). auto. Qed.

Lemma ea_walk_fun buf l : ea_walk buf l -> forall l', ea_walk buf l' -> l = l'.
Proof.
  induction 1 as [buf H|buf n f v H|buf n f v x l H Hx W IH]; intros l' W';
    inversion W' as [? H'|? n' f' v' H'|? n' f' v' x' t H' Hx' V]; subst; auto;
    try (exfalso; eapply H; eassumption); try (exfalso; eapply H'; eassumption);
    destruct (ea_at_fun _ _ _ _ _ _ _ _ _ H H') as (-> & -> & -> & E); try lia; auto.
  subst. f_equal. auto.
Qed.

Lemma ea_loop_walk : forall fuel buf, bytes_ok buf -> (length buf < fuel)%nat ->
  exists l, ea_loop fuel buf = (l, Done) /\ ea_walk buf l.
Proof.
  induction fuel as [|fuel IH]; intros buf B Hf; [lia|]. cbn [ea_loop].
  destruct (Z.leb_spec (zlen buf) 8) as [H8|H8].
  { exists []. split; auto. constructor. intros n f v x (K & _). lia. }
  pose proof (fld_bound 1 buf 5 ltac:(lia) ltac:(lia) B) as B5.
  pose proof (fld_bound 2 buf 6 ltac:(lia) ltac:(lia) B) as B6.
  pose proof (fld_bound 4 buf 0 ltac:(lia) ltac:(lia) B) as B0.
  set (nl := fld 1 buf 5) in *. set (vl := fld 2 buf 6) in *. set (next := fld 4 buf 0) in *.
  destruct ((zlen buf <? 9 + nl + vl) || (zlen buf <? next)) eqn:E1.
  { exists []. split; auto. constructor. intros n f v x (_ & K1 & K2 & K3 & _).
    fold nl vl in K1. fold next in K2. lia. }
  bools.
  assert (LN : zlen (slice buf 8 (8 + nl + 1)) = nl + 1) by (rewrite zlen_slice; lia).
  unfold index. rewrite LN. rewrite znth_slice by lia.
  replace (8 + (nl + 1 - 1)) with (8 + nl) by lia.
  destruct (znth_some buf (8 + nl) ltac:(lia)) as [c Hc]. rewrite Hc.
  replace (nl + 1 - 1 <? 0) with false by lia.
  destruct (c =? 0) eqn:E2; cbn [negb]; bools.
  2:{ exists []. split; auto. constructor. intros n f v x K. red in K. fold nl in K.
      destruct K as (_ & _ & _ & _ & _ & _ & K & _). rewrite Hc in K. congruence. }
  subst c. rewrite zlen_slice by lia.
  replace (Z.max 0 _ =? vl) with true by lia. cbn [negb].
  assert (A : ea_at buf (slice buf 8 (8 + nl + 1)) (fld 1 buf 4) (slice buf (8 + nl + 1) (8 + nl + 1 + vl)) next).
  { red. fold nl vl next. replace (8 + nl + 1) with (9 + nl) by lia. repeat (split; [solve [auto|lia]|]). auto. }
  destruct (next =? 0) eqn:E3; bools.
  - eexists. split; [reflexivity|]. apply eaw_last. congruence.
  - destruct (IH (zdrop next buf)) as (l & El & W).
    { now apply bytes_ok_zdrop. }
    { assert (zlen (zdrop next buf) < zlen buf) by (rewrite zlen_zdrop; lia). unfold zlen in *. lia. }
    rewrite El. eexists. split; [reflexivity|]. eapply eaw_more; eauto. lia.
Qed.

Lemma ea_data_iff v l : bytes_ok v -> ea_walk v l <-> ea_data v = (l, Done).
Proof.
  intro B. unfold ea_data. destruct (ea_loop_walk (S (length v)) v B ltac:(lia)) as (l' & E & W).
  rewrite E. split; intro H; [now rewrite (ea_walk_fun _ _ H _ W)|injection H as <-; auto].
Qed.

Lemma eai_len i next : zlen (eai_bytes i next) = eai_size i.
Proof. unfold eai_bytes, eai_size. lens. lia. Qed.

Lemma eai_at i next rest : eai_ok i -> 0 <= next <= eai_size i + zlen rest -> next < 2 ^ 32 ->
  ea_at (eai_bytes i next ++ rest) (eai_name i ++ [0]) (eai_flags i) (eai_value i) next.
Proof.
  intros (H1 & H2 & H3 & H4) Hn Hn2. unfold eai_size in *.
  pose proof (zlen_nonneg (eai_name i)). pose proof (zlen_nonneg (eai_value i)).
  pose proof (zlen_nonneg (eai_pad i)). pose proof (zlen_nonneg rest).
  assert (L : zlen (eai_bytes i next ++ rest) = eai_size i + zlen rest) by (rewrite zlen_app, eai_len; auto).
  unfold eai_size in L.
  assert (E5 : fld 1 (eai_bytes i next ++ rest) 5 = zlen (eai_name i)).
  { unfold eai_bytes. rewrite <- !app_assoc. fget. }
  assert (E6 : fld 2 (eai_bytes i next ++ rest) 6 = zlen (eai_value i)).
  { unfold eai_bytes. rewrite <- !app_assoc. fget. }
  red. rewrite E5, E6. split; [lia|]. split; [lia|].
  split. { symmetry. unfold eai_bytes. rewrite <- !app_assoc. fget. }
  split; [lia|].
  split. { symmetry. unfold eai_bytes. rewrite <- !app_assoc. fget. }
  assert (EB : eai_bytes i next ++ rest = (le_bytes 4 next ++ le_bytes 1 (eai_flags i) ++ le_bytes 1 (zlen (eai_name i)) ++
    le_bytes 2 (zlen (eai_value i))) ++ (eai_name i ++ [0]) ++ eai_value i ++ eai_pad i ++ rest).
  { unfold eai_bytes. now rewrite <- !app_assoc. }
  rewrite EB. set (h := le_bytes 4 next ++ _).
  assert (LH : zlen h = 8) by (unfold h; lens; lia).
  assert (LN : zlen (eai_name i ++ [0]) = zlen (eai_name i) + 1) by (lens; lia).
  split; [symmetry; apply slice_app_mid; lia|]. split.
  - rewrite znth_app2 by lia. rewrite znth_app1 by lia. rewrite znth_app2 by lia. rewrite LH.
    now replace (8 + _ - 8 - _) with 0 by lia.
  - symmetry. rewrite slice_app_r by lia. apply slice_app_mid; lia.
Qed.

Lemma eas_round_trip l term : Forall eai_ok l -> bytes_ok (eas_bytes l term) ->
  ea_data (eas_bytes l term) = (map eai_entry l, Done).
Proof.
  intros H B. apply ea_data_iff; auto. clear B.
  induction H as [|i l Hi Hl IH]; cbn [eas_bytes map].
  - constructor. intros n f v x (K & _). change (zlen (@nil Z)) with 0 in K. lia.
  - pose proof (zlen_nonneg (eai_name i)). pose proof (zlen_nonneg (eai_value i)). pose proof (zlen_nonneg (eai_pad i)).
    assert (0 < eai_size i < 2 ^ 32) by (split; [unfold eai_size; lia|apply Hi]).
    destruct l as [|j t].
    + assert (A : forall next, 0 <= next <= eai_size i -> ea_at (eai_bytes i next) (eai_name i ++ [0]) (eai_flags i) (eai_value i) next).
      { intros next Hn. pose proof (eai_at i next [] Hi) as A. rewrite app_nil_r in A. apply A; [|lia].
        change (zlen (@nil Z)) with 0. lia. }
      destruct term.
      * apply eaw_last. apply A. lia.
      * eapply eaw_more; [apply A; lia|lia|]. rewrite zdrop_all by (rewrite eai_len; lia). apply IH.
    + pose proof (zlen_nonneg (eas_bytes (j :: t) term)).
      eapply eaw_more; [apply eai_at; auto; lia|lia|].
      rewrite zdrop_app_exact by (now rewrite eai_len). apply IH.
Qed.

(** ** LXXATTR *)

Lemma lxx_at_fun v pos n x k n' x' k' : lxx_at v pos n x k -> lxx_at v pos n' x' k' -> n = n' /\ x = x' /\ k = k'.
Proof.
  unfold lxx_at. cbn zeta. intros (len & H1 & E & H2 & H3 & H4 & N & X) (len' & _ & E' & H2' & _ & _ & N' & X').
  subst k k'. rewrite <- H2 in H2'. subst len'. subst. auto.
Qed.

Lemma lxx_walk_fun v pos l : lxx_walk v pos l -> forall l', lxx_walk v pos l' -> l = l'.
Proof.
  induction 1 as [pos H|pos n x H|pos n x k l H Hk W IH]; intros l' W';
    inversion W' as [? H'|? n' x' H'|? n' x' k' t H' Hk' V]; subst; auto;
    try (exfalso; eapply H; eassumption); try (exfalso; eapply H'; eassumption);
    destruct (lxx_at_fun _ _ _ _ _ _ _ _ H H') as (-> & -> & E); try lia; auto.
  subst. f_equal. auto.
Qed.

Lemma slice_cut {A} (v : list A) p q a b : 0 <= p -> 0 <= a -> slice (slice v p q) a b = slice v (p + a) (Z.min q (p + b)).
Proof.
  intros. unfold slice. rewrite zdrop_ztake by lia. rewrite ztake_ztake, zdrop_zdrop by lia. replace (a + p) with (p + a) by lia. f_equal. lia.
Qed.

Lemma lxx_loop_walk v : bytes_ok v -> forall fuel pos, 0 <= pos -> (Z.to_nat (zlen v - pos) < fuel)%nat ->
  exists l, lxx_loop fuel v pos = (l, Done) /\ lxx_walk v pos l.
Proof.
  intro B. induction fuel as [|fuel IH]; intros pos Hp Hf; [lia|]. cbn [lxx_loop].
  pose proof (zlen_nonneg v).
  destruct (pos <? zlen v) eqn:E0; cbn [negb]; bools.
  2:{ exists []. split; auto. constructor. intros n x k (len & K & _). lia. }
  rewrite zlen_slice by lia.
  destruct (Z.eqb_spec (Z.max 0 (Z.min (pos + 4 - pos) (zlen v - pos))) 4) as [E1|E1]; cbn [negb].
  2:{ exists []. split; auto. constructor. intros n x k (len & K & _). lia. }
  pose proof (fld_bound 4 v pos ltac:(lia) ltac:(lia) B) as B0. set (next := fld 4 v pos) in *.
  set (block := if 0 <? next then _ else _).
  set (len := if next =? 0 then zlen v - pos else Z.min next (zlen v - pos)).
  assert (EB : block = slice v pos (pos + len)).
  { unfold block, len. destruct (Z.ltb_spec 0 next), (Z.eqb_spec next 0); try lia.
    - destruct (Z.min_spec next (zlen v - pos)) as [[? ->]|[? ->]]; auto.
      unfold slice. rewrite !ztake_all; auto; rewrite zlen_zdrop; lia.
    - unfold slice. rewrite ztake_all; auto; rewrite zlen_zdrop; lia. }
  assert (LL : 0 <= len <= zlen v - pos) by (unfold len; destruct (next =? 0); lia).
  assert (LB : zlen block = len) by (rewrite EB, zlen_slice; lia).
  rewrite LB. destruct (Z.ltb_spec len 9) as [H9|H9].
  { exists []. split; auto. constructor. intros n x k (len' & _ & -> & -> & K & _). fold next len in K. lia. }
  assert (F6 : fld 1 block 6 = fld 1 v (pos + 6)) by (rewrite EB; apply fld_slice; lia).
  assert (F4 : fld 2 block 4 = fld 2 v (pos + 4)) by (rewrite EB; apply fld_slice; lia).
  rewrite F6, F4.
  pose proof (fld_bound 1 v (pos + 6) ltac:(lia) ltac:(lia) B) as B6.
  destruct (fld 1 v (pos + 6) =? 0) eqn:E2; bools.
  { exists []. split; auto. constructor. intros n x k (len' & _ & _ & _ & _ & K & _). lia. }
  set (n := fld 1 v (pos + 6)) in *.
  assert (A : lxx_at v pos (slice block 7 (7 + n)) (slice block (7 + n) (7 + n + fld 2 v (pos + 4))) next).
  { exists len. fold n next len. rewrite EB. rewrite !slice_cut by lia.
    replace (pos + (7 + n)) with (pos + 7 + n) by lia.
    repeat (split; [solve [auto|lia]|]).
    split; f_equal; lia. }
  destruct (Z.ltb_spec 0 next).
  - destruct (IH (pos + next) ltac:(lia) ltac:(lia)) as (l & El & W). rewrite El.
    eexists. split; [reflexivity|]. eapply lxw_more; eauto.
  - eexists. split; [reflexivity|]. apply lxw_last. assert (next = 0) by lia. congruence.
Qed.

Lemma lxx_iff v l : bytes_ok v -> lxx_walk v 4 l <-> lxx_attributes v = (l, Done).
Proof.
  intro B. unfold lxx_attributes.
  destruct (lxx_loop_walk v B (S (length v)) 4 ltac:(lia) ltac:(unfold zlen; lia)) as (l' & E & W).
  rewrite E. split; intro H; [now rewrite (lxx_walk_fun _ _ _ H _ W)|injection H as <-; auto].
Qed.

Lemma lxi_len i next : zlen (lxi_bytes i next) = lxi_size i.
Proof. unfold lxi_bytes, lxi_size. lens. lia. Qed.

Lemma lxi_at pre i next rest : lxi_ok i -> next = lxi_size i \/ (next = 0 /\ rest = []) ->
  lxx_at (pre ++ lxi_bytes i next ++ rest) (zlen pre) (lxi_name i) (lxi_value i) next.
Proof.
  intros (H1 & H2 & H3) Hn.
  pose proof (zlen_nonneg (lxi_name i)). pose proof (zlen_nonneg (lxi_value i)).
  pose proof (zlen_nonneg (lxi_pad i)). pose proof (zlen_nonneg rest). pose proof (zlen_nonneg pre).
  assert (F : forall w o, 0 <= o -> fld w (pre ++ lxi_bytes i next ++ rest) (zlen pre + o) = fld w (lxi_bytes i next ++ rest) o).
  { intros. rewrite fld_app_r by lia. f_equal. lia. }
  assert (L : zlen (pre ++ lxi_bytes i next ++ rest) = zlen pre + lxi_size i + zlen rest) by (rewrite !zlen_app, lxi_len; lia).
  assert (E6 : fld 1 (lxi_bytes i next ++ rest) 6 = zlen (lxi_name i)).
  { unfold lxi_bytes. rewrite <- !app_assoc. fget. }
  assert (E4 : fld 2 (lxi_bytes i next ++ rest) 4 = zlen (lxi_value i)).
  { unfold lxi_bytes. rewrite <- !app_assoc. fget. }
  assert (E0 : fld 4 (lxi_bytes i next ++ rest) 0 = next).
  { unfold lxi_bytes. rewrite <- !app_assoc. fget. }
  exists (lxi_size i). rewrite !F, E6, E4 by lia.
  split; [lia|]. split. { replace (zlen pre) with (zlen pre + 0) by lia. now rewrite F, E0 by lia. }
  split. { destruct Hn as [->|[-> ->]].
    - destruct (Z.eqb_spec (lxi_size i) 0); lia.
    - change (0 =? 0) with true. cbv iota. change (zlen (@nil Z)) with 0 in L. lia. }
  split; [lia|]. split; [lia|].
  assert (EB : lxi_bytes i next ++ rest = (le_bytes 4 next ++ le_bytes 2 (zlen (lxi_value i)) ++ le_bytes 1 (zlen (lxi_name i))) ++
     lxi_name i ++ lxi_value i ++ lxi_pad i ++ rest) by (unfold lxi_bytes; now rewrite <- !app_assoc).
  rewrite EB. set (h := le_bytes 4 next ++ _). assert (LH : zlen h = 7) by (unfold h; lens; lia).
  unfold lxi_size. split; symmetry.
  - rewrite slice_app_r by lia. apply slice_app_mid; lia.
  - rewrite slice_app_r by lia. rewrite slice_app_r by lia. apply slice_app_mid; lia.
Qed.

Lemma lxis_walk l term : Forall lxi_ok l -> forall pre, lxx_walk (pre ++ lxis_bytes l term) (zlen pre) (map lxi_entry l).
Proof.
  induction 1 as [|i l Hi Hl IH]; intro pre; cbn [lxis_bytes map].
  - constructor. intros n x k (len & K & _). rewrite app_nil_r in K. lia.
  - assert (0 < lxi_size i) by (destruct Hi as (_ & _ & ?); lia).
    destruct l as [|j t].
    + assert (A : forall next, next = lxi_size i \/ next = 0 ->
        lxx_at (pre ++ lxi_bytes i next) (zlen pre) (lxi_name i) (lxi_value i) next).
      { intros next Hn. pose proof (lxi_at pre i next [] Hi) as A. rewrite app_nil_r in A. apply A. tauto. }
      destruct term.
      * apply lxw_last. apply A. lia.
      * eapply lxw_more; [apply A; auto|lia|].
        constructor. intros n x k (len & K & _). rewrite zlen_app, lxi_len in K. lia.
    + eapply lxw_more; [apply lxi_at; auto|lia|].
      rewrite app_assoc. replace (zlen pre + lxi_size i) with (zlen (pre ++ lxi_bytes i (lxi_size i))) by (rewrite zlen_app, lxi_len; lia). apply IH.
Qed.

Lemma lxx_round_trip l term : l <> [] -> Forall lxi_ok l -> bytes_ok (lxx_value l term) ->
  lxx_open (lxx_value l term) = Ok (lxx_value l term) /\
  lxx_attributes (lxx_value l term) = (map lxi_entry l, Done).
Proof.
  intros N H B. split.
  - unfold lxx_open.
    assert (9 <= zlen (lxis_bytes l term)).
    { destruct H as [|i l Hi Hl]; [congruence|]. destruct Hi as (_ & _ & Hi). cbn [lxis_bytes].
      destruct l; [rewrite lxi_len; lia|]. rewrite zlen_app, lxi_len.
      pose proof (zlen_nonneg (lxis_bytes (l :: l0) term)). lia. }
    assert (L : zlen (lxx_value l term) = 4 + zlen (lxis_bytes l term)).
    { unfold lxx_value. lens. lia. }
    destruct (Z.ltb_spec (zlen (lxx_value l term)) 12); [lia|].
    unfold u16. rewrite !unp_ok by lia. unfold lxx_value at 1 2. rewrite !fld_app_l by (vm_compute; congruence). reflexivity.
  - apply lxx_iff; auto. apply (lxis_walk l term H [0; 0; 1; 0]).
Qed.

(** ** Unix timestamps *)

Lemma double_rounding n k : 0 <= n -> 10 <= k -> rhe (rhe (n * 2 ^ k) 1000) (2 ^ k) = rhe n 1000.
Proof.
  intros Hn Hk.
  assert (P : 1024 <= 2 ^ k) by (change 1024 with (2 ^ 10); apply Z.pow_le_mono_r; lia).
  destruct (rhe_spec n 1000 ltac:(lia)) as [A B]. destruct (rhe_spec (n * 2 ^ k) 1000 ltac:(lia)) as [C _].
  set (q := rhe n 1000) in *.
  destruct (Z.eq_dec (2 * Z.abs (q * 1000 - n)) 1000) as [T|T].
  - specialize (B T).
    assert (E2 : 2 ^ k = 2 * 2 ^ (k - 1)) by (rewrite <- Z.pow_succ_r by lia; f_equal; lia).
    set (h := 2 ^ (k - 1)) in *.
    assert (M : rhe (n * 2 ^ k) 1000 = q * 2 ^ k + h \/ rhe (n * 2 ^ k) 1000 = q * 2 ^ k - h).
    { assert (N : n = q * 1000 + 500 \/ n = q * 1000 - 500) by lia. rewrite E2.
      destruct N as [N|N]; [left|right]; rewrite N.
      - replace ((q * 1000 + 500) * (2 * h)) with ((q * (2 * h) + h) * 1000) by ring. apply rhe_exact. lia.
      - replace ((q * 1000 - 500) * (2 * h)) with ((q * (2 * h) - h) * 1000) by ring. apply rhe_exact. lia. }
    apply rhe_unique; [lia| |auto]. destruct M as [-> | ->]; lia.
  - set (m := rhe (n * 2 ^ k) 1000) in *. set (p := 2 ^ k) in *. clearbody m p.
    assert (S : 2 * Z.abs (q * p - m) < p).
    { assert (A' : -499 <= q * 1000 - n <= 499) by lia. assert (C' : -500 <= m * 1000 - n * p <= 500) by lia.
      assert (G1 : (q * 1000 - n) * p <= 499 * p) by nia. assert (G2 : -499 * p <= (q * 1000 - n) * p) by nia.
      assert (E : 1000 * (q * p - m) = (q * 1000 - n) * p - (m * 1000 - n * p)) by ring. lia. }
    apply rhe_unique; lia.
Qed.

Lemma unix_us ns : 0 <= ns < 2 ^ 32 -> td_microseconds (py_div ns 1000) = rhe ns 1000.
Proof.
  intro H. unfold py_div. destruct (Z.eqb_spec ns 0) as [->|N]; [reflexivity|].
  change (Z.log2 1000) with 9.
  assert (L : 0 <= Z.log2 ns <= 31).
  { split; [apply Z.log2_nonneg|]. assert (Z.log2 ns < 32); [apply Z.log2_lt_pow2; lia|lia]. }
  assert (G : forall e, -70 <= e <= -30 -> td_microseconds (rhe (scaled_num ns e) (scaled_den 1000 e), e) = rhe ns 1000).
  { intros e He. unfold td_microseconds, scaled_num, scaled_den.
    replace (0 <=? e) with false by lia. rewrite Z.max_r by lia. rewrite Z.max_l by lia.
    change (2 ^ 0) with 1. rewrite Z.mul_1_r. apply double_rounding; lia. }
  destruct (_ <? _); apply G; lia.
Qed.

(** Calendar: years 1970 to 9999. *)
Lemma decode_unixtime_spec s ns : 0 <= s -> 0 <= ns < 2 ^ 32 ->
  decode_unixtime s ns =
  if s * 1000000 + rhe ns 1000 <? 253402300800 * 1000000 then Ok (s * 1000000 + rhe ns 1000) else Err OverflowError.
Proof.
  intros Hs Hn. unfold decode_unixtime. rewrite unix_us by auto.
  change ((ordinal_max + 1 - ordinal_1970) * us_per_day) with 253402300800000000.
  change (253402300800 * 1000000) with 253402300800000000.
  pose proof (rhe_nonneg ns 1000 ltac:(lia) ltac:(lia)).
  destruct (s / 86400 <=? 999999999) eqn:E1; bools.
  - destruct (Z.ltb_spec (s * 1000000) 253402300800000000); auto.
    destruct (Z.ltb_spec (s * 1000000 + rhe ns 1000) 253402300800000000); auto. lia.
  - destruct (Z.ltb_spec (s * 1000000 + rhe ns 1000) 253402300800000000); auto. lia.
Qed.
