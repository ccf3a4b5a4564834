(** The translation of offsets agrees with [sector]. *)
From Verif Require Import Base BaseLemmas FieldLemmas Sorting Shadow ShadowSpec.
From Coq Require Import Lia Sorted.

(** ** Bitmaps *)

Lemma bit_of_byte buf : forall k, bytes_ok buf -> 0 <= k -> forall b, znth buf (k / 8) = Some b ->
  Z.testbit b (k mod 8) = Z.testbit (le_val buf) k.
Proof.
  induction buf as [|x t IH]; intros k B K b E; [discriminate|].
  inversion B as [|? ? B1 B2]; subst. unfold is_byte in B1. cbn [znth le_val] in *.
  assert (V : x + 256 * le_val t = Z.lor (Z.shiftl (le_val t) 8) x).
  { rewrite lor_shiftl_add by lia. change (2 ^ 8) with 256. lia. }
  rewrite V, Z.lor_spec, Z.shiftl_spec by lia.
  destruct (Z.eqb_spec (k / 8) 0) as [Q|Q].
  - injection E as <-. replace (k mod 8) with k by lia. rewrite (Z.testbit_neg_r _ (k - 8)) by lia. auto.
  - assert (X : Z.testbit x k = false).
    { destruct (Z.eq_dec x 0) as [->|NX]; [apply Z.bits_0|]. apply Z.bits_above_log2; [lia|].
      assert (Z.log2 x < 8) by (apply Z.log2_lt_pow2; lia). lia. }
    rewrite X, orb_false_r. rewrite <- (IH (k - 8)) with (b := b); auto; try lia.
    + f_equal. lia.
    + rewrite <- E. f_equal. lia.
Qed.

Lemma bit_beyond buf k : bytes_ok buf -> 8 * zlen buf <= k -> Z.testbit (le_val buf) k = false.
Proof.
  intros B K. pose proof (le_val_bound _ B) as H. pose proof (zlen_nonneg buf).
  destruct (Z.eq_dec (le_val buf) 0) as [->|N]; [apply Z.bits_0|]. apply Z.bits_above_log2; [lia|].
  assert (Z.log2 (le_val buf) < 8 * zlen buf); [|lia]. apply Z.log2_lt_pow2; [lia|].
  change 256 with (2 ^ 8) in H. rewrite <- Z.pow_mul_r in H by lia. lia.
Qed.

Lemma bit0_pos x : (0 <? Z.land x 1) = Z.testbit x 0.
Proof. change 1 with (2 ^ 0) at 1. now rewrite land_pow2_pos. Qed.
Lemma bit1_pos x : (0 <? Z.land x 2) = Z.testbit x 1.
Proof. change 2 with (2 ^ 1) at 1. now rewrite land_pow2_pos. Qed.
Lemma bit1_zero x : (Z.land x 2 =? 0) = negb (Z.testbit x 1).
Proof. change 2 with (2 ^ 1) at 1. rewrite land_pow2 by lia. now destruct (Z.testbit x 1). Qed.

Lemma bit_set_spec a i : 0 <= i -> bit_set a i = Z.testbit a i.
Proof. intro H. unfold bit_set. rewrite bit0_pos, Z.shiftr_spec by lia. f_equal. Qed.

Lemma bit_at_spec bm o : bytes_ok bm -> 0 <= o ->
  bit_at bm o = if o / 16384 <? 8 * zlen bm then Some (Z.testbit (le_val bm) (o / 16384)) else None.
Proof.
  intros B O. unfold bit_at, index. set (k := o / 16384). assert (0 <= k) by (subst k; lia).
  pose proof (zlen_nonneg bm). destruct (Z.ltb_spec k (8 * zlen bm)) as [L|L].
  - destruct (znth_some bm (k / 8) ltac:(lia)) as [b E]. rewrite E. replace (k / 8 <? 0) with false by lia.
    rewrite bit0_pos, Z.shiftr_spec by lia. rewrite Z.add_0_l. f_equal. apply bit_of_byte; auto.
  - rewrite znth_none by lia. auto.
Qed.

Lemma check_bitmap_spec p o : bytes_ok (ps_bitmap p) -> bytes_ok (ps_prev p) -> 0 <= o -> check_bitmap p o = marked p o.
Proof.
  intros B1 B2 O. unfold check_bitmap, marked. rewrite !bit_at_spec by auto.
  set (k := o / 16384).
  assert (R : match (if k <? 8 * zlen (ps_bitmap p) then Some (Z.testbit (le_val (ps_bitmap p)) k) else None) with
              | Some b => b | None => false end = Z.testbit (le_val (ps_bitmap p)) k).
  { destruct (Z.ltb_spec k (8 * zlen (ps_bitmap p))); [auto|]. rewrite bit_beyond by auto. auto. }
  rewrite R. destruct (Z.ltb_spec k (8 * zlen (ps_prev p))), (Z.leb_spec (8 * zlen (ps_prev p)) k); try lia.
  - reflexivity.
  - cbn [orb]. now rewrite andb_true_r.
Qed.

(** ** The index *)

Lemma run_of_sorted l o : sorted_by e_orig l -> Forall (fun e => o <= e_orig e) l ->
  run_of l o = filter (fun e => e_orig e =? o) l.
Proof.
  unfold sorted_by. induction l as [|e t IH]; intros S F; [auto|]. cbn [run_of filter].
  inversion S as [|? ? S1 S2]; subst. inversion F as [|? ? F1 F2]; subst.
  destruct (Z.eqb_spec (e_orig e) o) as [Q|Q]; [f_equal; auto|].
  symmetry. clear - F1 Q S2. induction t as [|x t IHt]; [auto|]. cbn [filter].
  inversion S2 as [|? ? S3 S4]; subst. destruct (Z.eqb_spec (e_orig x) o); [lia|]. auto.
Qed.

Lemma dget_ddel {A} (d : list (Z * A)) k k' : dget (ddel d k) k' = if k' =? k then None else dget d k'.
Proof.
  unfold ddel. induction d as [|(a, v) t IH]; cbn; [destruct (_ =? _); auto|].
  destruct (Z.eqb_spec a k) as [->|N]; cbn.
  - rewrite IH. rewrite (Z.eqb_sym k k'). destruct (k' =? k); auto.
  - destruct (Z.eqb_spec a k') as [->|N']; [destruct (Z.eqb_spec k' k); [contradiction|auto]|auto].
Qed.

Lemma dget_dset {A} (d : list (Z * A)) k v k' : dget (dset d k v) k' = if k' =? k then Some v else dget d k'.
Proof.
  unfold dset. cbn. rewrite (Z.eqb_sym k k'), dget_ddel. destruct (k' =? k); auto.
Qed.

(** The index gives the first position of each offset. *)
Lemma diff_index_spec l : forall pos d o, dget (diff_index l pos d) o =
  match dget d o with
  | Some x => Some x
  | None => match find (fun q => e_orig (snd q) =? o) (combine (map (fun k => pos + Z.of_nat k) (seq 0 (length l))) l) with
            | Some q => Some (fst q) | None => None end
  end.
Proof.
  induction l as [|e t IH]; intros pos d o; cbn [diff_index length seq map combine find].
  - destruct (dget d o); auto.
  - rewrite IH. cbn [snd fst].
    assert (SH : map (fun k => pos + 1 + Z.of_nat k) (seq 0 (length t)) = map (fun k => pos + Z.of_nat k) (seq 1 (length t))).
    { rewrite <- seq_shift, map_map. apply map_ext. intro. lia. }
    rewrite SH. destruct (dget d (e_orig e)) as [y|] eqn:D.
    + destruct (dget d o) as [z|] eqn:D2; [auto|]. destruct (Z.eqb_spec (e_orig e) o); [congruence|auto].
    + rewrite dget_dset, (Z.eqb_sym o). destruct (Z.eqb_spec (e_orig e) o) as [Q|Q].
      * rewrite <- Q, D. cbn [fst]. f_equal. lia.
      * auto.
Qed.

Lemma entries_at_gen pre l o : sorted_by e_orig l -> Forall (fun e => e_orig e <> o) pre ->
  match find (fun q => e_orig (snd q) =? o) (combine (map (fun k => zlen pre + Z.of_nat k) (seq 0 (length l))) l) with
  | Some q => run_of (zdrop (fst q) (pre ++ l)) o
  | None => []
  end = filter (fun e => e_orig e =? o) l.
Proof.
  revert pre. induction l as [|e t IH]; intros pre S N; [auto|]. cbn [length seq map combine find snd filter].
  destruct (Z.eqb_spec (e_orig e) o) as [Q|Q].
  - cbn [fst]. rewrite zdrop_app_exact by lia. rewrite run_of_sorted; auto.
    + cbn [filter]. now rewrite Q, Z.eqb_refl.
    + inversion S as [|? ? S1 S2]; subst. constructor; [lia|auto].
  - inversion S as [|? ? S1 S2]; subst. rewrite <- (IH (pre ++ [e])); auto.
    + rewrite zlen_app, zlen_cons. change (zlen (@nil entry)) with 0. rewrite <- app_assoc. cbn [app].
      replace (map (fun k => zlen pre + (1 + 0) + Z.of_nat k) (seq 0 (length t)))
        with (map (fun k => zlen pre + Z.of_nat k) (seq 1 (length t))); [auto|].
      rewrite <- seq_shift, map_map. apply map_ext. intro. lia.
    + apply Forall_app. split; [auto|]. constructor; auto.
Qed.

Lemma entries_at_spec p o : sorted_by e_orig (ps_diff p) ->
  entries_at p (diff_index (ps_diff p) 0 []) o = at_off p o.
Proof.
  intros S. unfold entries_at, at_off. rewrite diff_index_spec. cbn [dget].
  pose proof (entries_at_gen [] (ps_diff p) o S ltac:(constructor)) as H. cbn [app] in H. change (zlen (@nil entry)) with 0 in H.
  rewrite <- H. destruct (find _ _); auto.
Qed.

(** ** Sectors *)

Lemma sectors_len : zlen sectors = 32. Proof. reflexivity. Qed.

Lemma znth_map_sectors {A} (f : Z -> A) i : 0 <= i < 32 -> znth (map f sectors) i = Some (f i).
Proof.
  intro H. rewrite znth_nth_error by lia. unfold sectors. rewrite map_map, nth_error_map.
  assert (E : nth_error (seq 0 32) (Z.to_nat i) = Some (Z.to_nat i)).
  { rewrite (nth_error_nth' (seq 0 32) O) by (rewrite seq_length; lia). now rewrite seq_nth by lia. }
  rewrite E. cbn [option_map]. do 2 f_equal. lia.
Qed.

Lemma list_sectors (l : list loc) f : zlen l = 32 -> (forall i, 0 <= i < 32 -> znth l i = Some (f i)) -> l = map f sectors.
Proof.
  intros L H. apply znth_ext; [rewrite zlen_map; auto|]. intros i R. rewrite H by lia. now rewrite znth_map_sectors by lia.
Qed.

Lemma null_block_map : null_block = map (fun _ => LZero) sectors. Proof. reflexivity. Qed.

Lemma put_go (sel : Z -> bool) (f : Z -> result loc) n : forall k (l : list loc), zlen l = 32 -> (k + n = 32)%nat ->
  (forall i, 0 <= i < 32 -> sel i = true -> exists x, f i = Ok x) ->
  exists l', fold_left (fun r i =>
    let! l := r in
    if sel i then let! x := f i in if i <? zlen l then Ok (zset l i x) else Err IndexError
    else Ok l) (map Z.of_nat (seq k n)) (Ok l) = Ok l' /\ zlen l' = 32 /\
   forall i, 0 <= i < 32 -> znth l' i =
     if (Z.of_nat k <=? i) && sel i then match f i with Ok x => Some x | Err _ => None end else znth l i.
Proof.
  induction n as [|n IH]; intros k l L K F; cbn [seq map fold_left].
  - exists l. split; [auto|]. split; [auto|]. intros i R. replace (Z.of_nat k <=? i) with false by lia. auto.
  - cbn [bind]. destruct (sel (Z.of_nat k)) eqn:ES.
    + destruct (F (Z.of_nat k)) as [x E]; [lia|auto|]. rewrite E. cbn [bind]. rewrite L.
      replace (Z.of_nat k <? 32) with true by lia.
      destruct (IH (S k) (zset l (Z.of_nat k) x)) as (l' & E' & L' & H); [rewrite zlen_zset; auto|lia|auto|].
      exists l'. split; [auto|]. split; [auto|]. intros i R. rewrite H by auto.
      destruct (Z.eq_dec i (Z.of_nat k)) as [->|N].
      * replace (Z.of_nat (S k) <=? Z.of_nat k) with false by lia. rewrite Z.leb_refl, ES, E. cbn [andb].
        apply znth_zset_same. lia.
      * rewrite znth_zset_other by lia. replace (Z.of_nat (S k) <=? i) with (Z.of_nat k <=? i) by lia. auto.
    + destruct (IH (S k) l) as (l' & E' & L' & H); [auto|lia|auto|].
      exists l'. split; [auto|]. split; [auto|]. intros i R. rewrite H by auto.
      destruct (Z.eq_dec i (Z.of_nat k)) as [->|N].
      * rewrite ES, !andb_false_r. auto.
      * replace (Z.of_nat (S k) <=? i) with (Z.of_nat k <=? i) by lia. auto.
Qed.

Lemma put_spec sel f g h : (forall i, 0 <= i < 32 -> sel i = true -> f i = Ok (g i)) ->
  put_sectors sel f (map h sectors) = Ok (map (fun i => if sel i then g i else h i) sectors).
Proof.
  intro F. unfold put_sectors. destruct (put_go sel f 32 0 (map h sectors)) as (l' & E & L & H).
  - reflexivity.
  - reflexivity.
  - intros i R S. rewrite F; eauto.
  - unfold sectors at 1. rewrite E. f_equal. apply list_sectors; [auto|]. intros i R. rewrite H by auto.
    replace (Z.of_nat 0 <=? i) with true by lia. cbn [andb]. destruct (sel i) eqn:S; [now rewrite F|].
    now rewrite znth_map_sectors by lia.
Qed.

(** ** The loop over the entries *)

Lemma last_of_snoc f l e : last_of f (l ++ [e]) = if f e then Some e else last_of f l.
Proof. unfold last_of. rewrite rev_app_distr. cbn. destruct (f e); auto. Qed.

Lemma filter_snoc {A} (f : A -> bool) l e : filter f (l ++ [e]) = filter f l ++ if f e then [e] else [].
Proof. rewrite filter_app. cbn. destruct (f e); auto. Qed.

Definition cum_of (l : list entry) : Z := fold_left (fun c e => Z.lor c (e_alloc e)) l 0.

Lemma cum_snoc l e : cum_of (l ++ [e]) = Z.lor (cum_of l) (e_alloc e).
Proof. unfold cum_of. now rewrite fold_left_app. Qed.

Lemma cum_bit l i : 0 <= i ->
  Z.testbit (cum_of l) i = match last_of (fun e => Z.testbit (e_alloc e) i) l with Some _ => true | None => false end.
Proof.
  intro H. induction l as [|e l IH] using rev_ind; [now rewrite Z.bits_0|].
  rewrite cum_snoc, last_of_snoc, Z.lor_spec, IH. destruct (Z.testbit (e_alloc e) i); [now rewrite orb_true_r|].
  now rewrite orb_false_r.
Qed.

Lemma map_sectors_ext {A} (f g : Z -> A) : (forall i, 0 <= i < 32 -> f i = g i) -> map f sectors = map g sectors.
Proof.
  intro H. apply map_ext_in. intros i I. apply H. unfold sectors in I. apply in_map_iff in I as (k & <- & J).
  apply in_seq in J. lia.
Qed.

Lemma zlen_sectors_map {A} (f : Z -> A) : zlen (map f sectors) = 32.
Proof. reflexivity. Qed.

Section Loop.
Variable p : pstate.
Variable off : Z.
Variables ign switch bitmap : bool.
Variable lookup : Z -> bool -> result (list loc).

(** What the sectors are filled with before the first overlay. *)
Definition base : result (list loc) :=
  if switch then lookup off false else if bitmap && ps_retnull p then Ok null_block else Ok (live_at off).

Definition ovls (l : list entry) : list entry := if ign then [] else filter is_overlay l.

Definition cover (l : list entry) (i : Z) : option entry := last_of (fun e => Z.testbit (e_alloc e) i) (ovls l).

Definition filled (b : Z -> loc) (l : list entry) (i : Z) : loc :=
  match cover l i with
  | Some v => LStore (e_vol v + i * 512)
  | None => match last_of is_regular l with Some r => LStore (e_vol r + i * 512) | None => b i end
  end.

Definition is_some {A} (x : option A) : bool := match x with Some _ => true | None => false end.

Definition inv (l : list entry) (st : tstate) : Prop :=
  t_fwd st = option_map e_store (last_of is_forward l) /\
  t_reg st = is_some (last_of is_regular l) /\
  t_ovl st = existsb is_overlay l /\
  t_cum st = cum_of (ovls l) /\
  ((last_of is_regular l = None /\ ovls l = [] /\ t_new st = []) \/
   (last_of is_regular l <> None /\ forall b, t_new st = map (filled b l) sectors) \/
   (last_of is_regular l = None /\ ovls l <> [] /\
      exists b, base = Ok (map b sectors) /\ t_new st = map (filled b l) sectors)).

(** Results of [lookup] describe 32 sectors. *)
Hypothesis LK : forall b, lookup off false = Ok b -> exists f, b = map f sectors.

Lemma base_map b : base = Ok b -> exists f, b = map f sectors.
Proof.
  unfold base. destruct switch; [apply LK|]. destruct (_ && _); intro E; injection E as <-.
  - exists (fun _ => LZero). reflexivity.
  - exists (fun i => LLive (off + i * 512)). reflexivity.
Qed.

Lemma filled_snoc_ovl b l e i : 0 <= i -> ign = false -> is_overlay e = true -> is_regular e = false ->
  filled b (l ++ [e]) i = if bit_set (e_alloc e) i then LStore (e_vol e + i * 512) else filled b l i.
Proof.
  intros I G O R. unfold filled, cover, ovls. rewrite G, filter_snoc, O, !last_of_snoc, R, bit_set_spec by auto.
  destruct (Z.testbit (e_alloc e) i); auto.
Qed.

Lemma ovls_snoc l e : ovls (l ++ [e]) = ovls l ++ if negb ign && is_overlay e then [e] else [].
Proof. unfold ovls. destruct ign; [reflexivity|]. cbn [negb andb]. now rewrite filter_snoc. Qed.

Lemma filled_snoc_fwd b l e i : is_overlay e = false -> is_regular e = false -> filled b (l ++ [e]) i = filled b l i.
Proof. intros O R. unfold filled, cover. now rewrite ovls_snoc, O, andb_false_r, app_nil_r, last_of_snoc, R. Qed.

Lemma base_of_step :
  (if switch then lookup off false else if negb bitmap then Ok (live_at off)
   else if ps_retnull p then Ok null_block else Ok (live_at off)) = base.
Proof. unfold base. destruct switch, bitmap, (ps_retnull p); auto. Qed.

Lemma t_step_ok l st e : inv l st ->
  match t_step p off ign switch bitmap lookup st e with
  | Ok st' => inv (l ++ [e]) st'
  | Err x => base = Err x
  end.
Proof.
  intros (I1 & I2 & I3 & I4 & I5). unfold t_step. rewrite bit0_pos, bit1_pos.
  destruct (Z.testbit (e_flags e) 0 && negb (e_orig e =? e_store e)) eqn:F.
  { (* a forwarder *)
    assert (IF : is_forward e = true) by auto.
    assert (IO : is_overlay e = false) by (unfold is_overlay; now rewrite IF).
    assert (IR : is_regular e = false) by (unfold is_regular; now rewrite IF).
    unfold inv. cbn [t_new t_fwd t_reg t_ovl t_cum].
    rewrite !last_of_snoc, IF, IR, ovls_snoc, IO, andb_false_r, app_nil_r, existsb_app.
    cbn [existsb]. rewrite IO, !orb_false_r. repeat (split; [auto|]).
    destruct I5 as [H|[(H1 & H2)|(H1 & H2 & b & H3 & H4)]]; [left; auto|right; left|right; right].
    - split; [auto|]. intro b. rewrite (H2 b). apply map_ext. intro i. symmetry. now apply filled_snoc_fwd.
    - split; [auto|]. split; [auto|]. exists b. split; [auto|]. rewrite H4. apply map_ext. intro i. symmetry.
      now apply filled_snoc_fwd. }
  assert (IF : is_forward e = false) by auto.
  destruct (Z.testbit (e_flags e) 1) eqn:FO.
  { (* an overlay *)
    assert (IO : is_overlay e = true) by (unfold is_overlay; now rewrite IF, FO).
    assert (IR : is_regular e = false) by (unfold is_regular; now rewrite IF, FO).
    destruct ign eqn:G.
    { unfold inv. cbn [t_new t_fwd t_reg t_ovl t_cum].
      rewrite !last_of_snoc, IF, IR, ovls_snoc, G, app_nil_r, existsb_app.
      cbn [existsb]. rewrite IO, orb_true_r. repeat (split; [auto|]).
      assert (FS : forall b i, filled b (l ++ [e]) i = filled b l i).
      { intros b i. unfold filled, cover. now rewrite ovls_snoc, G, app_nil_r, last_of_snoc, IR. }
      destruct I5 as [H|[(H1 & H2)|(H1 & H2 & b & H3 & H4)]]; [left; auto|right; left|right; right].
      - split; [auto|]. intro b. rewrite (H2 b). apply map_ext. auto.
      - split; [auto|]. split; [auto|]. exists b. split; [auto|]. rewrite H4. apply map_ext. auto. }
    rewrite base_of_step by auto.
    assert (INV : forall b0, (exists x, last_of is_regular l = Some x) \/ base = Ok (map b0 sectors) ->
       inv (l ++ [e]) (mk_tstate (map (filled b0 (l ++ [e])) sectors) (t_fwd st) (t_reg st) true (Z.lor (t_cum st) (e_alloc e)))
       ) .
    { intros b0 D. unfold inv. cbn [t_new t_fwd t_reg t_ovl t_cum].
      rewrite !last_of_snoc, IF, IR, ovls_snoc, G, existsb_app. cbn [negb andb existsb]. rewrite IO, orb_true_r.
      rewrite cum_snoc, I4. repeat (split; [auto|]).
      destruct (last_of is_regular l) as [r|] eqn:R.
      - right. left. split; [discriminate|]. intro b. apply map_ext. intro i. unfold filled.
        destruct (cover _ i); [auto|]. rewrite last_of_snoc, IR, R. auto.
      - right. right. split; [auto|]. split; [destruct (ovls l); discriminate|]. exists b0.
        destruct D as [(x & D)|D]; [discriminate|auto]. }
    destruct I5 as [(H1 & H2 & H3)|[(H1 & H2)|(H1 & H2 & b & H3 & H4)]].
    - rewrite H3. change (zlen (@nil loc) =? 0) with true. cbv iota.
      destruct base as [b|x] eqn:B; cbn [bind]; [|auto]. destruct (base_map _ B) as [f ->].
      rewrite put_spec with (g := fun i => LStore (e_vol e + i * 512)) by auto. cbn [bind].
      rewrite (map_sectors_ext _ (filled f (l ++ [e]))).
      + apply INV. auto.
      + intros i R. rewrite filled_snoc_ovl by (auto; lia). destruct (bit_set _ _); [auto|].
        unfold filled, cover. rewrite H1, H2. auto.
    - rewrite (H2 (fun _ => LZero)). rewrite zlen_sectors_map. change (32 =? 0) with false. cbv iota. cbn [bind].
      rewrite put_spec with (g := fun i => LStore (e_vol e + i * 512)) by auto. cbn [bind].
      rewrite (map_sectors_ext _ (filled (fun _ => LZero) (l ++ [e]))).
      + apply INV. destruct (last_of is_regular l); [eauto|contradiction].
      + intros i R. rewrite filled_snoc_ovl by (auto; lia). auto.
    - rewrite H4. rewrite zlen_sectors_map. change (32 =? 0) with false. cbv iota. cbn [bind].
      rewrite put_spec with (g := fun i => LStore (e_vol e + i * 512)) by auto. cbn [bind].
      rewrite (map_sectors_ext _ (filled b (l ++ [e]))).
      + apply INV. auto.
      + intros i R. rewrite filled_snoc_ovl by (auto; lia). auto. }
  (* a regular entry *)
  assert (IO : is_overlay e = false) by (unfold is_overlay; now rewrite IF, FO).
  assert (IR : is_regular e = true) by (unfold is_regular; now rewrite IF, FO).
  assert (INV : forall new, (forall b, new = map (filled b (l ++ [e])) sectors) ->
     inv (l ++ [e]) (mk_tstate new (t_fwd st) true (t_ovl st) (t_cum st))).
  { intros new D. unfold inv. cbn [t_new t_fwd t_reg t_ovl t_cum].
    rewrite !last_of_snoc, IF, IR, ovls_snoc, IO, andb_false_r, app_nil_r, existsb_app.
    cbn [existsb]. rewrite IO, !orb_false_r. repeat (split; [auto|]). right. left. split; [discriminate|auto]. }
  assert (FS : forall b i, 0 <= i -> filled b (l ++ [e]) i =
     if negb (bit_set (cum_of (ovls l)) i) then LStore (e_vol e + i * 512) else filled b l i).
  { intros b i I. rewrite bit_set_spec, cum_bit by auto. unfold filled, cover.
    rewrite ovls_snoc, IO, andb_false_r, app_nil_r, last_of_snoc, IR.
    destruct (last_of (fun e0 => Z.testbit (e_alloc e0) i) (ovls l)); auto. }
  destruct I5 as [(H1 & H2 & H3)|H5].
  - rewrite H3. change (zlen (@nil loc) =? 0) with true. cbv iota. cbn [bind]. apply INV. intro b.
    unfold store_at. apply map_sectors_ext. intros i R. rewrite FS by lia. rewrite H2.
    rewrite bit_set_spec by lia. unfold cum_of. cbn [fold_left]. rewrite Z.bits_0. auto.
  - assert (X : exists h, t_new st = map h sectors /\ forall b i, 0 <= i -> bit_set (cum_of (ovls l)) i = true -> h i = filled b l i).
    { destruct H5 as [(H1 & H2)|(H1 & H2 & b & H3 & H4)].
      - exists (filled (fun _ => LZero) l). split; [auto|]. intros b i I C. unfold filled.
        destruct (cover l i); [auto|]. destruct (last_of is_regular l); [auto|contradiction].
      - exists (filled b l). split; [auto|]. intros b' i I C. rewrite bit_set_spec, cum_bit in C by auto.
        unfold filled, cover. destruct (last_of _ (ovls l)); [auto|discriminate]. }
    destruct X as (h & X1 & X2). rewrite X1, zlen_sectors_map. change (32 =? 0) with false. cbv iota.
    rewrite put_spec with (g := fun i => LStore (e_vol e + i * 512)) by auto. cbn [bind]. apply INV. intro b.
    apply map_sectors_ext. intros i R. rewrite FS, I4 by lia. destruct (bit_set (cum_of (ovls l)) i) eqn:C; cbn [negb]; [|auto].
    apply X2; [lia|auto].
Qed.

Lemma t_run_ok t : forall l st, inv l st ->
  match t_run p off ign switch bitmap lookup st t with
  | Ok st' => inv (l ++ t) st'
  | Err x => base = Err x
  end.
Proof.
  induction t as [|e t IH]; intros l st I; cbn [t_run].
  - now rewrite app_nil_r.
  - pose proof (t_step_ok l st e I) as H. destruct (t_step _ _ _ _ _ _ st e) as [st'|x]; cbn [bind]; [|auto].
    specialize (IH _ _ H). rewrite <- app_assoc in IH. auto.
Qed.

Lemma inv_nil : inv [] (mk_tstate [] None false false 0).
Proof.
  assert (O : ovls [] = []) by (unfold ovls; destruct ign; reflexivity).
  unfold inv. rewrite O. cbn. repeat (split; [reflexivity|]). left. auto.
Qed.
End Loop.

Lemma can_switch_spec nx o : Forall selected nx -> can_switch nx o = Ok (saved_in nx o).
Proof.
  induction 1 as [|p t (S1 & S2 & S3 & _) F IH]; [auto|]. cbn [can_switch saved_in existsb].
  rewrite S2, entries_at_spec by auto.
  replace (existsb (fun e => Z.land (e_flags e) 2 =? 0) (at_off p o))
    with (existsb (fun e => negb (Z.testbit (e_flags e) 1)) (at_off p o)).
  - destruct (existsb _ (at_off p o)); [auto|]. exact IH.
  - induction (at_off p o) as [|x l IHl]; [auto|]. cbn [existsb]. now rewrite IHl, bit1_zero.
Qed.

Lemma existsb_filter {A} (f : A -> bool) l : existsb f l = match filter f l with [] => false | _ => true end.
Proof. induction l as [|x t IH]; [auto|]. cbn. destruct (f x); auto. Qed.

Lemma at_off_pos p o e : selected p -> In e (at_off p o) -> 0 <= e_store e /\ In e (ps_diff p).
Proof.
  intros (_ & _ & _ & _ & _ & F) I. apply filter_In in I as [I _]. rewrite Forall_forall in F. apply F in I as G. tauto.
Qed.

Lemma last_of_In f l e : last_of f l = Some e -> In e l /\ f e = true.
Proof. intro H. apply find_some in H. rewrite <- in_rev in H. auto. Qed.

Lemma bad_forward_tail vsize p q l : bad_forward vsize (q :: l) -> bad_forward vsize (p :: q :: l).
Proof. intros (x & e & I & H). exists x, e. split; [right; exact I|auto]. Qed.

Theorem translate_spec vsize : forall l o ign fwd, l <> [] -> Forall selected l -> 0 <= o ->
  match translate vsize l o ign fwd with
  | Ok r => r = map (sector l o ign fwd) sectors
  | Err e => e = ValueError /\ (bad_offset vsize o \/ bad_forward vsize l)
  end.
Proof.
  induction l as [|p nx IH]; intros o ign fwd NE F O; [contradiction|]. clear NE.
  inversion F as [|? ? SP SN]; subst. pose proof SP as (S1 & S2 & S3 & S4 & S5 & S6).
  cbn [translate]. unfold bad_offset at 1.
  destruct (Z.eqb_spec (o mod 16384) 0) as [AL|AL]; cbn [negb]; [|auto].
  destruct (match vsize with Some s => s <=? o | None => false end) eqn:EV.
  { split; [auto|]. left. right. destruct vsize; [lia|discriminate]. }
  rewrite S1. cbn [negb].
  replace ((ps_size p <=? o) && _) with false by (destruct vsize; [lia|now rewrite andb_false_r]).
  set (lookup := fun (o0 : Z) (fwd0 : bool) => _).
  assert (LK : forall o' fl, 0 <= o' ->
    match lookup o' fl with
    | Ok r => r = map (fun i => match nx with
                 | [] => if marked p o' && ps_retnull p && negb fl then LZero else LLive (o' + i * 512)
                 | _ => sector nx o' true fl i end) sectors
    | Err e => e = ValueError /\ nx <> [] /\ (bad_offset vsize o' \/ bad_forward vsize nx)
    end).
  { intros o' fl O'. unfold lookup. destruct nx as [|q nx'].
    - rewrite check_bitmap_spec by auto. destruct (marked p o'), (ps_retnull p), fl; reflexivity.
    - specialize (IH o' true fl ltac:(discriminate) SN O').
      destruct (translate vsize (q :: nx') o' true fl); [auto|]. destruct IH. split; [auto|]. split; [discriminate|auto]. }
  clearbody lookup. rewrite can_switch_spec by auto. cbn [bind]. rewrite S2, entries_at_spec by auto.
  rewrite check_bitmap_spec by auto.
  set (no_next := match nx with [] => true | _ => false end).
  assert (LKO : forall b, lookup o false = Ok b -> exists f, b = map f sectors).
  { intros b E. pose proof (LK o false O) as H. rewrite E in H. eauto. }
  pose proof (t_run_ok p o ign (saved_in nx o) (marked p o) lookup LKO (at_off p o) [] _
                (inv_nil p o ign (saved_in nx o) (marked p o) lookup)) as R. cbn [app] in R.
  assert (ERR : forall e, lookup o false = Err e -> e = ValueError /\ (bad_offset vsize o \/ bad_forward vsize (p :: nx))).
  { intros e E. pose proof (LK o false O) as H. rewrite E in H. destruct H as (H1 & H2 & H3). split; [auto|].
    destruct H3; [auto|]. right. destruct nx; [contradiction|]. now apply bad_forward_tail. }
  assert (ERF : forall f e, last_of is_forward (at_off p o) = Some f -> lookup (e_store f) true = Err e ->
     e = ValueError /\ (bad_offset vsize o \/ bad_forward vsize (p :: nx))).
  { intros f e L E. apply last_of_In in L as [L1 L2]. destruct (at_off_pos _ _ _ SP L1) as [L3 L4].
    pose proof (LK (e_store f) true L3) as H. rewrite E in H. destruct H as (H1 & H2 & H3). split; [auto|].
    right. destruct nx as [|q nx']; [contradiction|]. destruct H3; [|now apply bad_forward_tail].
    exists p, f. split; [now left|auto]. }
  destruct (t_run _ _ _ _ _ _ _ _) as [st|x]; cbn [bind].
  2:{ unfold base in R. destruct (saved_in nx o); [auto|]. destruct (_ && _); discriminate. }
  destruct R as (I1 & I2 & I3 & I4 & I5). unfold t_finish. cbv zeta.
  set (rest := t_rest _ _ _ _ _ _ _ _).
  set (E := at_off p o) in *. fold (ovls ign E) in *.
  pose (below := fun (o' : Z) (fl : bool) (i : Z) => match nx with
                 | [] => if marked p o' && ps_retnull p && negb fl then LZero else LLive (o' + i * 512)
                 | _ => sector nx o' true fl i end).
  assert (LK' : forall o' fl, 0 <= o' -> match lookup o' fl with
    | Ok r => r = map (below o' fl) sectors
    | Err e => e = ValueError /\ nx <> [] /\ (bad_offset vsize o' \/ bad_forward vsize nx) end) by exact LK.
  clear LK. rename LK' into LK.
  set (unsaved := match nx with [] => false | _ => negb (saved_in nx o) && ps_retnull p end).
  set (NT := unsaved && negb fwd && zin o (ps_nulls p)).
  assert (SEC : forall i, sector (p :: nx) o ign fwd i =
    match last_of is_regular E, last_of is_forward E, ovls ign E, cover ign E i with
    | Some _, _, _, Some v => LStore (e_vol v + i * 512)
    | Some r, _, _, None => LStore (e_vol r + i * 512)
    | None, Some f, [], _ => below (e_store f) true i
    | None, Some f, _ :: _, c =>
      if NT then LZero else
      match c with Some v => LStore (e_vol v + i * 512) | None => below (e_store f) true i end
    | None, None, [], _ =>
      if NT then LZero
      else if unsaved && marked p o && negb (existsb is_overlay E) then LZero
      else below o false i
    | None, None, _ :: _, c =>
      if NT then LZero else
      match c with
      | Some v => LStore (e_vol v + i * 512)
      | None =>
        if saved_in nx o then below o false i
        else if marked p o && ps_retnull p then LZero else LLive (o + i * 512)
      end
    end).
  { intro i. cbn [sector]. fold E. rewrite existsb_filter.
    replace (negb match filter is_overlay E with [] => false | _ :: _ => true end)
      with (match filter is_overlay E with [] => true | _ => false end) by (destruct (filter is_overlay E); auto).
    reflexivity. }
  clearbody below. rewrite (map_ext _ _ SEC). clear SEC.
  assert (RS : forall new, t_reg st = false -> rest new =
     if NT then Ok null_block
     else if match t_fwd st with None => true | Some _ => false end && negb (t_ovl st) && (unsaved && marked p o) then Ok null_block
     else if zlen new =? 0 then lookup o false else Ok new).
  { intros new G. unfold rest, t_rest. rewrite G. unfold NT, unsaved, no_next. destruct nx as [|q nx'].
    - repeat progress (rewrite ?andb_false_r; cbn [negb andb]). reflexivity.
    - cbn [negb andb]. rewrite !andb_true_r.
      replace (negb fwd && zin o (ps_nulls p) && negb (saved_in (q :: nx') o) && ps_retnull p)
        with (negb (saved_in (q :: nx') o) && ps_retnull p && negb fwd && zin o (ps_nulls p)) by
        (destruct (negb fwd), (zin o (ps_nulls p)), (negb (saved_in (q :: nx') o)), (ps_retnull p); auto).
      match goal with |- context [if ?c && negb (t_ovl st) && marked p o && ?s && ?r then _ else _] =>
        replace (c && negb (t_ovl st) && marked p o && s && r) with (c && negb (t_ovl st) && (s && r && marked p o))
          by (destruct c, (negb (t_ovl st)), (marked p o), s, r; auto) end.
      auto. }
  rewrite I1. destruct (last_of is_regular E) as [r|] eqn:REG.
  - (* a regular entry *)
    destruct I5 as [(X & _)|[(_ & I5)|(X & _)]]; [discriminate| |discriminate].
    assert (RS2 : rest (t_new st) = Ok (t_new st)).
    { unfold rest, t_rest. rewrite I2. cbn [negb andb is_some]. rewrite !andb_false_r. cbn [andb].
      rewrite (I5 (fun _ => LZero)), zlen_sectors_map. auto. }
    assert (GOAL : t_new st = map (fun i => match cover ign E i with
        | Some v => LStore (e_vol v + i * 512) | None => LStore (e_vol r + i * 512) end) sectors).
    { rewrite (I5 (fun _ => LZero)). apply map_ext. intro i. unfold filled. now rewrite REG. }
    rewrite I2. cbn [is_some negb]. rewrite RS2. destruct (option_map e_store (last_of is_forward E)); exact GOAL.
  - specialize (fun new => RS new I2). rewrite I2. cbn [is_some negb]. rewrite I1, I3 in RS.
    destruct (last_of is_forward E) as [f|] eqn:FW; cbn [option_map] in *.
    + destruct (at_off_pos p o f SP (proj1 (last_of_In _ _ _ FW))) as [FP _]. pose proof (LK (e_store f) true FP) as LF.
      destruct (ovls ign E) as [|v0 vs] eqn:OV.
      * assert (OI : t_ovl st && negb ign = false).
        { rewrite I3, existsb_filter. unfold ovls in OV. destruct ign; [now rewrite andb_false_r|]. now rewrite OV. }
        rewrite OI. destruct (lookup (e_store f) true) as [b|e] eqn:EL; [auto|]. eapply ERF; eauto.
      * assert (OI : t_ovl st && negb ign = true).
        { rewrite I3, existsb_filter. unfold ovls in OV. destruct ign; [discriminate|]. now rewrite OV. }
        rewrite OI. destruct (lookup (e_store f) true) as [b|e] eqn:EL; cbn [bind]; [|eapply ERF; eauto].
        destruct I5 as [(_ & X & _)|[(X & _)|(_ & _ & b0 & I6 & I7)]]; [discriminate X|elim X; reflexivity|].
        rewrite I7. subst b. rewrite put_spec with (g := fun i => below (e_store f) true i).
        2:{ intros i R _. apply index_ok. now apply znth_map_sectors. }
        cbn [bind]. rewrite RS, zlen_sectors_map. cbn [andb]. change (32 =? 0) with false. cbv iota.
        destruct NT; [reflexivity|]. apply map_sectors_ext. intros i R. rewrite I4, bit_set_spec by lia.
        rewrite cum_bit by lia. unfold filled, cover. rewrite OV. destruct (last_of _ (v0 :: vs)); reflexivity.
    + destruct (ovls ign E) as [|v0 vs] eqn:OV.
      * destruct I5 as [(_ & _ & I7)|[(X & _)|(_ & X & _)]]; [|elim X; reflexivity|elim X; reflexivity].
        rewrite RS, I7. change (zlen (@nil loc) =? 0) with true. cbv iota. cbn [andb].
        destruct NT; [reflexivity|]. pose proof (LK o false O) as LO.
        destruct (unsaved && marked p o), (existsb is_overlay E); cbn [negb andb]; try reflexivity;
          (destruct (lookup o false) as [b|e] eqn:EL; [exact LO|eapply ERR; eauto]).
      * destruct I5 as [(_ & X & _)|[(X & _)|(_ & _ & b0 & I6 & I7)]]; [discriminate X|elim X; reflexivity|].
        assert (EO : existsb is_overlay E = true).
        { rewrite existsb_filter. unfold ovls in OV. destruct ign; [discriminate|]. now rewrite OV. }
        rewrite RS, I7, zlen_sectors_map, EO. cbn [negb andb]. change (32 =? 0) with false. cbv iota.
        destruct NT; [reflexivity|]. apply map_sectors_ext. intros i R. unfold filled. rewrite REG.
        destruct (cover ign E i); [auto|]. unfold base in I6. destruct (saved_in nx o).
        -- pose proof (LK o false O) as LO. rewrite I6 in LO.
           assert (Q : znth (map b0 sectors) i = znth (map (fun i0 => below o false i0) sectors) i) by now rewrite LO.
           rewrite !znth_map_sectors in Q by lia. now injection Q.
        -- apply (f_equal (fun r => match r with Ok x => x | Err _ => [] end)) in I6.
           destruct (marked p o && ps_retnull p); cbv beta iota in I6.
           ++ assert (Q : znth (map b0 sectors) i = znth null_block i) by now rewrite I6.
              rewrite null_block_map in Q. rewrite !znth_map_sectors in Q by lia. now injection Q.
           ++ assert (Q : znth (map b0 sectors) i = znth (live_at o) i) by now rewrite I6.
              unfold live_at in Q. rewrite !znth_map_sectors in Q by lia. now injection Q.
Qed.
