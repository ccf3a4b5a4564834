(** FAT directories: what was written is read back. *)
From Verif Require Import Base BaseLemmas FieldLemmas Utf16 FatBasic FatDir FatSpec FatDirSpec FatProofs FatDirProofs.

Section Write.
Variables dec lower : list Z -> list Z.
Variable is32 : bool.

Fixpoint run_steps (st : dir_state) (slots : list (list Z)) : result (dir_state * list dir_item) :=
  match slots with
  | [] => Ok (st, [])
  | s :: r =>
    match dir_step dec lower is32 false st s with
    | Err e => Err e
    | Ok (st', out) => match run_steps st' r with Err e => Err e | Ok (st'', out') => Ok (st'', out ++ out') end
    end
  end.

Lemma dir_loop_app a : forall st st' out b, run_steps st a = Ok (st', out) ->
  dir_loop dec lower is32 false st (a ++ b) = gapp out (dir_loop dec lower is32 false st' b).
Proof.
  induction a as [|s a IH]; intros st st' out b E; cbn [run_steps app dir_loop] in *.
  - injection E as <- <-. unfold gapp. cbn. now destruct (dir_loop _ _ _ _ _ _).
  - destruct (dir_step dec lower is32 false st s) as [[st1 out1]|]; [|discriminate].
    destruct (run_steps st1 a) as [[st2 out2]|] eqn:E2; [|discriminate]. injection E as <- <-.
    rewrite (IH _ _ _ b E2). unfold gapp. cbn [fst snd]. now rewrite app_assoc.
Qed.

Lemma run_steps_app a : forall st st' out b st'' out', run_steps st a = Ok (st', out) -> run_steps st' b = Ok (st'', out') ->
  run_steps st (a ++ b) = Ok (st'', out ++ out').
Proof.
  induction a as [|s a IH]; intros st st' out b st'' out' E E'; cbn [run_steps app] in *.
  - injection E as <- <-. rewrite E'. reflexivity.
  - destruct (dir_step dec lower is32 false st s) as [[st1 out1]|]; [|discriminate].
    destruct (run_steps st1 a) as [[st2 out2]|] eqn:E2; [|discriminate]. injection E as <- <-.
    rewrite (IH _ _ _ _ _ _ E2 E'). now rewrite app_assoc.
Qed.

Definition clean (null : bool) : dir_state := mk_dir_state [] None null.

(** A complete run of parts is collected. *)
Lemma desc_steps ck n k L : lfn_desc ck n k L -> Forall slot_ok L ->
  exists o, run_steps (clean false) L = Ok (mk_dir_state (flat_map lfn_pieces L) (Some (o, ck)) false, []) /\
    real_order o = k /\ unused o = false.
Proof.
  induction 1 as [s N O R C|s k L D IH K N O C]; intro F.
  - inversion F as [|? ? [B LS] _]; subst. exists (64 + n). destruct (real_order_first n R) as [R1 R2]. split; auto.
    cbn [run_steps]. unfold dir_step. rewrite lfn_attr. unfold name_slot in N. apply andb_true_iff in N as [N1 N2]. rewrite N1.
    change (byte_at s 12) with (s_type s). rewrite N2. cbn [negb clean ds_prev ds_stash ds_null orb app].
    change (byte_at s 0) with (s_order s). change (byte_at s 13) with (s_check s).
    rewrite coherent_none, coherent_first by (apply fld1_byte; auto; lia). rewrite O. 
    replace ((65 <=? 64 + n) && (64 + n <=? 84)) with true by lia. rewrite orb_true_r. cbn [negb flat_map].
    rewrite app_nil_r. replace (64 + n =? 0) with false by lia. reflexivity.
  - apply Forall_app in F as [FL FS]. inversion FS as [|? ? [B LS] _]; subst.
    destruct (IH FL) as (o & I1 & I2 & I3). destruct (lfn_desc_bound _ _ _ _ D) as (BD1 & BD2 & _).
    exists (s_order s). destruct (real_order_next (s_order s) ltac:(lia)) as [R1 R2]. split; [|auto].
    change (@nil dir_item) with (@nil dir_item ++ []). eapply run_steps_app; [exact I1|].
    cbn [run_steps]. unfold dir_step. rewrite lfn_attr. unfold name_slot in N. apply andb_true_iff in N as [N1 N2]. rewrite N1.
    change (byte_at s 12) with (s_type s). rewrite N2. cbn [negb ds_prev ds_stash ds_null orb].
    change (byte_at s 0) with (s_order s). change (byte_at s 13) with (s_check s).
    assert (CO : coherent (s_order s) (s_check s) (Some (o, s_check s)) = true).
    { unfold coherent. rewrite R2, I3. cbn [andb negb]. rewrite <- (andb_assoc (s_check s =? s_check s)).
      rewrite next_order by (auto; apply fld1_byte; auto; lia). lia. }
    rewrite CO. cbn [negb]. rewrite flat_map_app. cbn [flat_map]. rewrite app_nil_r.
    replace (s_order s =? 0) with false by lia. reflexivity.
Qed.

(** The entry reported for a file. *)
Definition reports (f : list (list Z) * list Z) (e : file_entry) : Prop :=
  let '(L, s) := f in
  describes is32 s e /\ fe_deleted e = Some false /\
  (L = [] -> fe_long e = None) /\ (forall nm, L <> [] -> (fe_long e = Some nm <-> stored_name (stored_bytes L) nm)) /\
  (if (s_attr s / 8) mod 4 =? 1
   then fe_short_raw e = rstrip_space (fix_first (slice s 0 11)) /\ fe_short e = dec (rstrip_space (fix_first (slice s 0 11)))
   else parse_short_name_raw (slice s 0 11) = Some (fe_short_raw e) /\
        parse_short_name dec lower (negb ((fld 1 s 12 / 8) mod 2 =? 0)) (negb ((fld 1 s 12 / 16) mod 2 =? 0)) (slice s 0 11) = Some (fe_short e)).

Lemma nt_bits_full v : is_byte v -> exists nt, parse_nt_byte v = Ok nt /\ (nt_encrypted nt = true <-> v mod 2 = 1) /\
  nt_lower_base nt = negb ((v / 8) mod 2 =? 0) /\ nt_lower_ext nt = negb ((v / 16) mod 2 =? 0).
Proof.
  intro H. exists (nt_expected v). split; [now apply parse_nt_byte_spec|]. unfold nt_expected, bit.
  cbn [nt_encrypted nt_lower_base nt_lower_ext]. rewrite Z.pow_0_r, Z.div_1_r. change (2 ^ 3) with 8. change (2 ^ 4) with 16. lia.
Qed.

Lemma short_step L s st : Forall slot_ok L -> file_slots dec lower (L, s) ->
  (L = [] -> st = clean false) -> 
  (L <> [] -> exists o, st = mk_dir_state (flat_map lfn_pieces L) (Some (o, build_checksum (slice s 0 11))) false /\ real_order o = 1) ->
  exists e, dir_step dec lower is32 false st s = Ok (clean false, [FileE e]) /\ reports (L, s) e.
Proof.
  intros FL FS C0 C1. destruct FS as [_ FS].
  assert (S1 : slot_ok s /\ s_order s <> 0 /\ s_order s <> 229 /\ s_attr s <> 15 /\ (s_attr s / 8) mod 4 <> 3).
  { destruct FS as [[(A & B & C & D & E) _]|[(A & B & C & D & E & F) _]]; [|intuition lia].
    repeat split; auto; try apply A; [intro X; rewrite X in B; discriminate B|lia]. }
  destruct S1 as ([B LS] & O1 & O2 & A15 & K3).
  unfold dir_step. rewrite lfn_attr. replace (s_attr s =? 15) with false by lia.
  assert (AT : Z.land (byte_at s 11) 63 = s_attr s) by (rewrite land_64; reflexivity). rewrite AT.
  pose proof (fld1_byte s 12 B ltac:(lia)) as B12. destruct (nt_bits_full _ B12) as (nt & NT1 & NT2 & NT3 & NT4).
  change (byte_at s 12) with (fld 1 s 12). rewrite NT1. cbn [bind]. change (byte_at s 0) with (s_order s).
  assert (AR : 0 <= s_attr s < 64) by (unfold s_attr; lia).
  assert (UN : unused (s_order s) = false).
  { destruct (unused (s_order s)) eqn:U; auto. apply unused_spec in U. tauto. }
  rewrite UN. cbn [negb]. replace (s_order s =? 0) with false by lia.
  assert (NN : ds_null st = false).
  { destruct L as [|x L]; [rewrite C0 by auto; reflexivity|]. destruct C1 as (o & -> & _); [discriminate|reflexivity]. }
  rewrite NN. cbn [orb].
  assert (AE : all_eq 229 s || all_eq 0 s = false).
  { pose proof (byte0 dec lower s LS) as B0. unfold s_order in O1, O2. destruct s as [|x s]; [discriminate|].
    rewrite slice_0 in B0. change (ztake 11 (x :: s)) with (x :: ztake 10 s) in B0. cbn [hd] in B0.
    unfold all_eq. cbn [forallb].
    replace (x =? 229) with false by lia. replace (x =? 0) with false by lia. reflexivity. }
  rewrite kind_iff, AE by auto. rewrite negb_involutive.
  replace ((s_attr s / 8) mod 4 =? 3) with false by lia.
  unfold short_names. rewrite label_iff by auto.
  destruct FS as [[PS LN]|[PS LN]].
  - destruct PS as (_ & A8 & _ & _ & V). replace ((s_attr s / 8) mod 4 =? 1) with false by lia. cbn [negb].
    destruct (parse_both dec lower (nt_lower_base nt) (nt_lower_ext nt) (slice s 0 11)) as [Q1 Q2].
    destruct (parse_short_name dec lower (nt_lower_base nt) (nt_lower_ext nt) (slice s 0 11)) as [short|] eqn:E1.
    2:{ exfalso. destruct Q1 as [Q1 _]. specialize (Q1 eq_refl). congruence. }
    destruct (parse_short_name_raw (slice s 0 11)) as [norm|] eqn:E2.
    2:{ exfalso. destruct Q2 as [Q2 _]. specialize (Q2 eq_refl). congruence. }
    assert (RD : forall long, describes is32 s (build_entry is32 s (Some false) (Z.land (s_attr s) 24 =? 16) short norm long (s_attr s) (fld 1 s 12) (nt_encrypted nt))).
    { intro long. apply build_entry_describes; auto; split; auto. }
    destruct L as [|x L].
    + rewrite C0 by auto. cbn [clean ds_prev ds_stash orphan_if app andb negb]. eexists. split; [reflexivity|].
      unfold reports. split; [apply RD|]. split; [reflexivity|]. split; [reflexivity|]. split; [congruence|].
      replace ((s_attr s / 8) mod 4 =? 1) with false by lia. cbn [fe_short_raw fe_short build_entry]. rewrite E2, <- NT3, <- NT4, E1. auto.
    + destruct C1 as (o & -> & RO); [discriminate|]. cbn [ds_prev ds_stash andb negb]. rewrite RO, !Z.eqb_refl. cbn [andb app].
      eexists. split; [reflexivity|]. unfold reports. split; [apply RD|]. split; [reflexivity|]. split; [discriminate|].
      split; [intros nm _; cbn [fe_long build_entry]; apply run_name_iff; auto; discriminate|].
      replace ((s_attr s / 8) mod 4 =? 1) with false by lia. cbn [fe_short_raw fe_short build_entry]. rewrite E2, <- NT3, <- NT4, E1. auto.
  - subst L. rewrite C0 by auto. destruct PS as (_ & A8 & _ & _ & _ & V). replace ((s_attr s / 8) mod 4 =? 1) with true by lia. cbn [negb].
    assert (LF : forallb (fun c => negb (label_forbidden c)) (fix_first (slice s 0 11)) = true).
    { apply forallb_forall. intros c X. apply negb_true_iff. unfold label_forbidden. apply zin_false. cbn [In].
      assert (Y : In c (slice s 0 11) \/ c = 95 \/ c = 229).
      { destruct (slice s 0 11) as [|y t]; [left; exact X|]. cbn [fix_first] in X.
        destruct ((y =? 0) || (y =? 229)); [destruct X as [<-|X]; [auto|left; now right]|].
        destruct (y =? 5); [destruct X as [<-|X]; [auto|left; now right]|auto]. }
      destruct Y as [Y|[->| ->]]; try lia. rewrite Forall_forall in V. specialize (V c Y). lia. }
    rewrite LF. cbn [clean ds_prev ds_stash orphan_if app andb negb]. eexists. split; [reflexivity|].
    unfold reports. split; [apply build_entry_describes; auto; split; auto|]. split; [reflexivity|]. split; [reflexivity|]. split; [congruence|].
    replace ((s_attr s / 8) mod 4 =? 1) with true by lia. cbn [fe_short_raw fe_short build_entry]. auto.
Qed.

Lemma file_steps f : file_slots dec lower f ->
  exists e, run_steps (clean false) (fst f ++ [snd f]) = Ok (clean false, [FileE e]) /\ reports f e.
Proof.
  destruct f as [L s]. intro F. pose proof F as [FL FS]. cbn [fst snd].
  destruct L as [|x L].
  - destruct (short_step [] s (clean false) FL F) as (e & E1 & E2); auto; [congruence|].
    exists e. cbn [app run_steps]. rewrite E1. auto.
  - destruct FS as [[PS [LN|[n LN]]]|[PS LN]]; try discriminate.
    destruct (desc_steps _ _ _ _ LN FL) as (o & S1 & S2 & S3).
    destruct (short_step (x :: L) s (mk_dir_state (flat_map lfn_pieces (x :: L)) (Some (o, build_checksum (slice s 0 11))) false) FL F) as (e & E1 & E2);
      [discriminate|eauto|].
    exists e. split; auto. change [FileE e] with ([] ++ [FileE e]). eapply run_steps_app; [exact S1|]. cbn [run_steps]. rewrite E1. reflexivity.
Qed.

Lemma zero_tail k : forall nl, dir_loop dec lower is32 false (clean nl) (repeat (zeros 32) k) = ([], Done).
Proof.
  induction k as [|k IH]; intro nl; [reflexivity|]. cbn [repeat dir_loop].
  assert (E : dir_step dec lower is32 false (clean nl) (zeros 32) = Ok (clean true, [])).
  { destruct nl; vm_compute; reflexivity. }
  rewrite E. unfold gapp. rewrite IH. reflexivity.
Qed.

Lemma written_loop files k : Forall (file_slots dec lower) files ->
  exists es, dir_loop dec lower is32 false dir_init (flat_map (fun f => fst f ++ [snd f]) files ++ repeat (zeros 32) k) = (map FileE es, Done) /\
    Forall2 reports files es.
Proof.
  change dir_init with (clean false). induction 1 as [|f files F FS IH].
  - exists []. cbn [flat_map app map]. split; [apply zero_tail|constructor].
  - destruct IH as (es & I1 & I2). destruct (file_steps f F) as (e & E1 & E2).
    exists (e :: es). split; [|constructor; auto]. cbn [flat_map]. rewrite <- app_assoc.
    rewrite (dir_loop_app _ _ _ _ _ E1), I1. reflexivity.
Qed.

End Write.

(** ** The writer of long names *)

Lemma units_len u : zlen (flat_map utf16_unit u) = 2 * zlen u.
Proof.
  induction u as [|x u IH]; [reflexivity|]. cbn [flat_map]. rewrite zlen_app, IH, zlen_cons.
  unfold utf16_unit. rewrite le_bytes_len. lia.
Qed.

Lemma units_ok u : bytes_ok (flat_map utf16_unit u).
Proof. induction u as [|x u IH]; [constructor|]. cbn [flat_map]. apply bytes_ok_app. split; auto. apply le_bytes_ok. Qed.

Lemma lfn_part_len o ck u : zlen u = 13 -> zlen (lfn_part o ck u) = 32.
Proof.
  intro L. unfold lfn_part. pose proof (units_len u) as UL. rewrite L in UL. cbv zeta.
  rewrite !zlen_app, !zlen_slice by lia. rewrite UL. reflexivity.
Qed.

Lemma lfn_part_spec o ck u : zlen u = 13 -> is_byte o -> is_byte ck ->
  slot_ok (lfn_part o ck u) /\ name_slot (lfn_part o ck u) = true /\ s_order (lfn_part o ck u) = o /\ s_check (lfn_part o ck u) = ck /\
  part_bytes (lfn_part o ck u) = flat_map utf16_unit u.
Proof.
  intros L Ho Hc. pose proof (units_len u) as UL. rewrite L in UL. change (2 * 13) with 26 in UL.
  unfold lfn_part. set (b := flat_map utf16_unit u) in *. pose proof (units_ok u) as BO. fold b in BO. clearbody b. cbv zeta.
  assert (L1 : zlen (slice b 0 10) = 10) by (rewrite zlen_slice by lia; lia).
  assert (L2 : zlen (slice b 10 22) = 12) by (rewrite zlen_slice by lia; lia).
  assert (L3 : zlen (slice b 22 26) = 4) by (rewrite zlen_slice by lia; lia).
  set (x := slice b 0 10) in *. set (y := slice b 10 22) in *. set (z := slice b 22 26) in *.
  assert (EB : b = x ++ y ++ z).
  { unfold x, y, z. rewrite <- slice_split by lia. rewrite <- slice_split by lia. symmetry. apply slice_full. lia. }
  assert (BX : bytes_ok x /\ bytes_ok y /\ bytes_ok z) by (repeat split; now apply bytes_ok_slice). clearbody x y z.
  assert (F11 : forall i w, 11 <= i -> fld w ([o] ++ x ++ [15; 0; ck] ++ y ++ [0; 0] ++ z) i = fld w ([15; 0; ck] ++ y ++ [0; 0] ++ z) (i - 11)).
  { intros i w Hi. rewrite app_assoc. rewrite fld_app_r by (rewrite zlen_app; change (zlen [o]) with 1; lia). f_equal. rewrite zlen_app. change (zlen [o]) with 1. lia. }
  assert (N11 : fld 1 ([o] ++ x ++ [15; 0; ck] ++ y ++ [0; 0] ++ z) 11 = 15).
  { rewrite F11 by lia. change (11 - 11) with 0. rewrite fld_app_l by (try change (zlen [15;0;ck]) with 3; lia). reflexivity. }
  assert (N12 : fld 1 ([o] ++ x ++ [15; 0; ck] ++ y ++ [0; 0] ++ z) 12 = 0).
  { rewrite F11 by lia. change (12 - 11) with 1. rewrite fld_app_l by (try change (zlen [15;0;ck]) with 3; lia). reflexivity. }
  assert (N13 : fld 1 ([o] ++ x ++ [15; 0; ck] ++ y ++ [0; 0] ++ z) 13 = ck).
  { rewrite F11 by lia. change (13 - 11) with 2. rewrite fld_app_l by (try change (zlen [15;0;ck]) with 3; lia).
    change (fld 1 [15; 0; ck] 2) with (ck + 256 * 0). lia. }
  split; [|split; [|split; [|split]]].
  - split.
    + destruct BX as (X1 & X2 & X3).
      assert (P : forall k, is_byte k -> bytes_ok [k]) by (intros; constructor; [auto|constructor]).
      assert (Q : bytes_ok [15; 0; ck] /\ bytes_ok [0; 0]) by (split; repeat (constructor; [first [assumption|unfold is_byte; lia]|]); constructor).
      destruct Q. repeat first [assumption | apply P; assumption | apply bytes_ok_app; split].
    + rewrite !zlen_app. rewrite L1, L2, L3. reflexivity.
  - unfold name_slot, s_attr, s_type. rewrite N11, N12. reflexivity.
  - unfold s_order. rewrite fld_app_l by (try change (zlen [o]) with 1; lia). change (fld 1 [o] 0) with (o + 256 * 0). lia.
  - unfold s_check. exact N13.
  - unfold part_bytes. rewrite EB. f_equal; [|f_equal].
    + apply slice_app_mid; [reflexivity|]. rewrite L1. reflexivity.
    + rewrite (app_assoc [o]), (app_assoc ([o] ++ x)). apply slice_app_mid; rewrite !zlen_app, L1, ?L2; reflexivity.
    + rewrite (app_assoc [o]), (app_assoc ([o] ++ x)), (app_assoc (([o] ++ x) ++ [15; 0; ck])), (app_assoc ((([o] ++ x) ++ [15; 0; ck]) ++ y)).
      rewrite slice_app_r by (rewrite !zlen_app, L1, L2; change (zlen [o]) with 1; change (zlen [15; 0; ck]) with 3; change (zlen [0; 0]) with 2; lia).
      rewrite !zlen_app, L1, L2. change (zlen [o]) with 1. change (zlen [15; 0; ck]) with 3. change (zlen [0; 0]) with 2. apply slice_full. lia.
Qed.

Lemma slice_split3 (p : list Z) k : 0 <= k -> slice p 0 (13 * k) ++ slice p (13 * k) (13 * (k + 1)) = slice p 0 (13 * (k + 1)).
Proof. intro H. symmetry. apply slice_split; lia. Qed.

Lemma lfn_write_bytes ck n p k : Z.of_nat k <= n -> n <= 20 -> zlen p = 13 * n -> is_byte ck ->
  Forall slot_ok (lfn_write ck n p k) /\ stored_bytes (lfn_write ck n p k) = flat_map utf16_unit (slice p 0 (13 * Z.of_nat k)).
Proof.
  intros Hk Hn Lp Hc. induction k as [|k IH].
  - cbn [lfn_write]. split; [constructor|]. rewrite slice_empty by lia. reflexivity.
  - cbn [lfn_write]. destruct IH as [I1 I2]; [lia|].
    assert (LU : zlen (slice p (13 * Z.of_nat k) (13 * Z.of_nat (S k))) = 13) by (rewrite zlen_slice by lia; lia).
    set (o := if Z.of_nat (S k) =? n then 64 + n else Z.of_nat (S k)).
    assert (Ho : is_byte o) by (unfold o, is_byte; destruct (_ =? n); lia).
    destruct (lfn_part_spec o ck _ LU Ho Hc) as (S1 & S2 & S3 & S4 & S5).
    split; [constructor; auto|]. unfold stored_bytes in *. cbn [rev]. rewrite map_app, concat_app, I2. cbn [map concat].
    rewrite app_nil_r, S5, <- flat_map_app. f_equal. replace (Z.of_nat (S k)) with (Z.of_nat k + 1) by lia. apply slice_split3. lia.
Qed.

Lemma lfn_write_desc ck n p k : Z.of_nat k <= n -> 1 <= n <= 20 -> zlen p = 13 * n -> is_byte ck -> 
  forall L, lfn_desc ck n (Z.of_nat k + 1) L -> (1 <= k)%nat -> lfn_desc ck n 1 (L ++ lfn_write ck n p k).
Proof.
  intros Hk Hn Lp Hc. induction k as [|k IH]; intros L D K; [lia|]. cbn [lfn_write].
  assert (LU : zlen (slice p (13 * Z.of_nat k) (13 * Z.of_nat (S k))) = 13) by (rewrite zlen_slice by lia; lia).
  destruct (lfn_desc_bound _ _ _ _ D) as (D1 & _).
  replace (Z.of_nat (S k) =? n) with false by lia.
  destruct (lfn_part_spec (Z.of_nat (S k)) ck _ LU ltac:(unfold is_byte; lia) Hc) as (S1 & S2 & S3 & S4 & S5).
  assert (D' : lfn_desc ck n (Z.of_nat (S k)) (L ++ [lfn_part (Z.of_nat (S k)) ck (slice p (13 * Z.of_nat k) (13 * Z.of_nat (S k)))])).
  { apply ld_next; auto. lia. }
  destruct k as [|k].
  - exact D'.
  - match goal with |- lfn_desc _ _ _ (L ++ ?a :: ?r) => change (a :: r) with ([a] ++ r) end.
    rewrite app_assoc. apply IH; [lia| |lia]. replace (Z.of_nat (S k) + 1) with (Z.of_nat (S (S k))) by lia. exact D'.
Qed.

Lemma lfn_write_complete ck n p : 1 <= n <= 20 -> zlen p = 13 * n -> is_byte ck -> lfn_desc ck n 1 (lfn_write ck n p (Z.to_nat n)).
Proof.
  intros Hn Lp Hc. destruct (Z.to_nat n) as [|k] eqn:EK; [lia|]. cbn [lfn_write].
  assert (LU : zlen (slice p (13 * Z.of_nat k) (13 * Z.of_nat (S k))) = 13) by (rewrite zlen_slice by lia; lia).
  replace (Z.of_nat (S k) =? n) with true by lia.
  destruct (lfn_part_spec (64 + n) ck _ LU ltac:(unfold is_byte; lia) Hc) as (S1 & S2 & S3 & S4 & S5).
  match goal with |- lfn_desc _ _ _ (?a :: ?r) => change (a :: r) with ([a] ++ r) end.
  assert (D' : lfn_desc ck n n [lfn_part (64 + n) ck (slice p (13 * Z.of_nat k) (13 * Z.of_nat (S k)))]) by (constructor; auto).
  destruct k as [|k].
  - cbn [lfn_write app]. replace n with 1 in * by lia. exact D'.
  - apply lfn_write_desc; auto; try lia. replace (Z.of_nat (S k) + 1) with n by lia. exact D'.
Qed.

Definition units_of (s : list Z) : list Z :=
  flat_map (fun c => if c <? 65536 then [c] else [55296 + (c - 65536) / 1024; 56320 + (c - 65536) mod 1024]) s.

Lemma units_of_encode s : flat_map utf16_unit (units_of s) = utf16_encode s.
Proof.
  induction s as [|c s IH]; [reflexivity|]. unfold units_of, utf16_encode in *. cbn [flat_map]. rewrite flat_map_app, IH. f_equal.
  unfold utf16_char. destruct (c <? 65536); cbn [flat_map]; now rewrite app_nil_r.
Qed.

Lemma units_of_range s : Forall (fun c => scalar c /\ c <> 0) s -> Forall (fun x => 0 < x < 65536) (units_of s).
Proof.
  induction 1 as [|c s [H N] F IH]; [constructor|]. unfold units_of in *. cbn [flat_map]. apply Forall_app. split; auto. unfold scalar in H.
  destruct (c <? 65536) eqn:E; bools; repeat constructor; lia.
Qed.

Lemma units_of_len s : zlen s <= zlen (units_of s).
Proof.
  induction s as [|c s IH]; [apply Z.le_refl|]. unfold units_of in *. cbn [flat_map]. rewrite zlen_app, zlen_cons. destruct (c <? 65536); cbn [zlen length]; rewrite ?zlen_cons; unfold zlen in *; cbn [length]; lia.
Qed.

(** The slots for a long name. *)
Definition long_slots (ck : Z) (name : list Z) : list (list Z) :=
  let u := units_of name in
  let n := (zlen u + 12) / 13 in
  lfn_write ck n (padded u n) (Z.to_nat n).

Lemma padded_len u n : zlen u <= 13 * n -> zlen (padded u n) = 13 * n.
Proof.
  intro H. unfold padded. destruct (zlen u =? 13 * n) eqn:E; bools.
  - rewrite app_nil_r. exact E.
  - rewrite zlen_app, zlen_cons, zlen_repeat. lia.
Qed.

Lemma long_slots_spec ck name : is_byte ck -> Forall (fun c => scalar c /\ c <> 0) name -> name <> [] -> zlen (units_of name) <= 255 ->
  Forall slot_ok (long_slots ck name) /\ (exists n, lfn_desc ck n 1 (long_slots ck name)) /\ stored_name (stored_bytes (long_slots ck name)) name.
Proof.
  intros Hc F NE L. unfold long_slots. cbv zeta. set (u := units_of name) in *. set (n := (zlen u + 12) / 13).
  assert (NU : u <> []).
  { destruct name as [|c s]; [congruence|]. unfold u, units_of. cbn [flat_map]. destruct (c <? 65536); discriminate. }
  assert (LU : 1 <= zlen u) by (destruct u; [congruence|rewrite zlen_cons; pose proof (zlen_nonneg u); lia]).
  assert (Hn : 1 <= n <= 20 /\ zlen u <= 13 * n) by (unfold n; lia). destruct Hn as [Hn HL].
  pose proof (padded_len u n HL) as PL.
  destruct (lfn_write_bytes ck n (padded u n) (Z.to_nat n)) as [W1 W2]; auto; try lia.
  split; auto. split; [exists n; now apply lfn_write_complete|].
  rewrite W2. replace (13 * Z.of_nat (Z.to_nat n)) with (13 * n) by lia. rewrite slice_full by lia.
  assert (FU : Forall (fun x => 0 < x < 65536) u) by (now apply units_of_range).
  assert (NM : name = ztake 255 (utf16le (flat_map utf16_unit u))).
  { unfold u. rewrite units_of_encode, utf16_round_trip; [|eapply Forall_impl; [|exact F]; cbv beta; tauto].
    symmetry. apply ztake_all. pose proof (units_of_len name). fold u in H. lia. }
  rewrite NM. apply sn_intro; auto. unfold padded. rewrite flat_map_app. eexists. split; [reflexivity|].
  destruct (zlen u =? 13 * n); [left; reflexivity|]. right. cbn [flat_map utf16_unit le_bytes app]. eexists. reflexivity.
Qed.
