(** Proofs for the exFAT helpers and the boot region. *)
From Verif Require Import Base BaseLemmas FatBasic FatDir FatSpec FatProofs ExBasic ExBoot ExSpec.

(** ** Checksums *)

Lemma lor_pow2 n x : 0 <= n -> 0 <= x < 2 ^ n -> Z.lor (2 ^ n) x = 2 ^ n + x.
Proof.
  intros H X. assert (E : Z.land (2 ^ n) x = 0).
  { apply Z.bits_inj'. intros m M. rewrite Z.land_spec, Z.bits_0, Z.pow2_bits_eqb by lia. destruct (Z.eqb_spec n m) as [<-|]; [|reflexivity].
    cbn [andb]. apply Z.testbit_false; [lia|]. rewrite Z.div_small by lia. reflexivity. }
  rewrite Z.add_nocarry_lxor by exact E. now rewrite Z.lxor_lor by exact E.
Qed.

Lemma step_rot k c b : 1 <= k -> 0 <= c < 2 ^ k -> x_checksum_step k c b = rot k c b.
Proof.
  intros K C. unfold x_checksum_step, rot. rewrite land_pow by lia. f_equal. f_equal.
  rewrite (Z.shiftr_div_pow2 c 1) by lia. change (2 ^ 1) with 2. rewrite Z.shiftl_1_l. replace (Z.land c 1) with (c mod 2) by (symmetry; apply (land_pow 1 c); lia).
  assert (P : 2 ^ k = 2 * 2 ^ (k - 1)) by (rewrite <- Z.pow_succ_r by lia; f_equal; lia).
  destruct (Z.ltb_spec 0 (c mod 2)) as [L|L].
  - replace (c mod 2) with 1 by lia. rewrite lor_pow2; lia.
  - replace (c mod 2) with 0 by lia. lia.
Qed.

Lemma rot_range k c b : 1 <= k -> 0 <= rot k c b < 2 ^ k.
Proof. intro K. apply Z.mod_pos_bound. apply Z.pow_pos_nonneg; lia. Qed.

Lemma rot_inj_c k c d b : 1 <= k -> 0 <= c < 2 ^ k -> 0 <= d < 2 ^ k -> rot k c b = rot k d b -> c = d.
Proof.
  intros K C D E. unfold rot in E. assert (P : 2 ^ k = 2 * 2 ^ (k - 1)) by (rewrite <- Z.pow_succ_r by lia; f_equal; lia).
  assert (Q : 0 < 2 ^ (k - 1)) by (apply Z.pow_pos_nonneg; lia). rewrite P in *. generalize dependent (2 ^ (k - 1)). intros q C D E _ Q.
  assert (X : forall v, 0 <= v < 2 * q -> 0 <= v / 2 + q * (v mod 2) < 2 * q) by (intros v V; assert (O : v mod 2 = 0 \/ v mod 2 = 1) by lia; destruct O as [-> | ->]; lia).
  pose proof (X c C) as XC. pose proof (X d D) as XD. remember (c / 2 + q * (c mod 2)) as u eqn:EU. remember (d / 2 + q * (d mod 2)) as v eqn:EV.
  assert (UV : u = v).
  { assert (T : (u - v) mod (2 * q) = 0). { replace (u - v) with ((u + b) - (v + b)) by lia. rewrite Zminus_mod, E, Z.sub_diag. reflexivity. }
    apply Z.mod_divide in T as [z T]; [|lia]. assert (z = 0) by nia. nia. }
  rewrite UV in EU. rewrite EU in EV. clear - EV C D Q. assert (O : c mod 2 = 0 \/ c mod 2 = 1) by lia. assert (O2 : d mod 2 = 0 \/ d mod 2 = 1) by lia.
  destruct O as [O|O], O2 as [O2|O2]; rewrite O, O2 in EV; lia.
Qed.

Lemma rot_inj_b k c a b : 8 <= k -> is_byte a -> is_byte b -> rot k c a = rot k c b -> a = b.
Proof.
  intros K A B E. unfold rot in E. unfold is_byte in *. set (x := c / 2 + 2 ^ (k - 1) * (c mod 2)) in *. clearbody x.
  assert (P : 256 <= 2 ^ k) by (change 256 with (2 ^ 8); apply Z.pow_le_mono_r; lia). generalize dependent (2 ^ k). intros q E P.
  assert (T : (a - b) mod q = 0). { replace (a - b) with ((x + a) - (x + b)) by lia. rewrite Zminus_mod, E, Z.sub_diag. reflexivity. }
  apply Z.mod_divide in T as [z T]; [|lia]. assert (z = 0) by nia. nia.
Qed.

Lemma loop_range k skip l : 1 <= k -> forall idx c, 0 <= c < 2 ^ k -> 0 <= x_checksum_loop k skip idx c l < 2 ^ k.
Proof.
  intro K. induction l as [|b l IH]; intros idx c C; cbn [x_checksum_loop]; auto. apply IH. destruct (zin idx skip); auto.
  rewrite step_rot by auto. now apply rot_range.
Qed.

Lemma loop_app k skip a b : forall idx c, x_checksum_loop k skip idx c (a ++ b) = x_checksum_loop k skip (idx + zlen a) (x_checksum_loop k skip idx c a) b.
Proof.
  induction a as [|x a IH]; intros idx c; cbn [app x_checksum_loop]. { change (zlen (@nil Z)) with 0. now rewrite Z.add_0_r. }
  rewrite IH, zlen_cons. f_equal. lia.
Qed.

Lemma loop_inj k skip l : 1 <= k -> forall idx c d, 0 <= c < 2 ^ k -> 0 <= d < 2 ^ k ->
  x_checksum_loop k skip idx c l = x_checksum_loop k skip idx d l -> c = d.
Proof.
  intro K. induction l as [|b l IH]; intros idx c d C D E; cbn [x_checksum_loop] in E; auto. apply IH in E.
  - destruct (zin idx skip); auto. rewrite !step_rot in E by auto. eapply rot_inj_c; eauto.
  - destruct (zin idx skip); auto. rewrite step_rot by auto. now apply rot_range.
  - destruct (zin idx skip); auto. rewrite step_rot by auto. now apply rot_range.
Qed.

(** One changed byte changes the sum. *)
Lemma loop_byte k skip a x y b : 8 <= k -> is_byte x -> is_byte y -> zin (zlen a) skip = false ->
  x_checksum_loop k skip 0 0 (a ++ x :: b) = x_checksum_loop k skip 0 0 (a ++ y :: b) -> x = y.
Proof.
  intros K X Y S E. rewrite !loop_app in E. cbn [x_checksum_loop] in E. rewrite Z.add_0_l, S in E.
  assert (P : 0 < 2 ^ k) by (apply Z.pow_pos_nonneg; lia).
  pose proof (loop_range k skip a ltac:(lia) 0 0 ltac:(lia)) as R. rewrite !step_rot in E by lia.
  apply loop_inj in E; try lia; try (apply rot_range; lia). eapply rot_inj_b; eauto.
Qed.

(** Bytes at positions that are left out. *)
Lemma loop_skipped k skip l : forall idx c, (forall i, idx <= i < idx + zlen l -> zin i skip = true) -> x_checksum_loop k skip idx c l = c.
Proof.
  induction l as [|b l IH]; intros idx c H; auto. cbn [x_checksum_loop]. pose proof (zlen_nonneg l). rewrite zlen_cons in H.
  rewrite H by lia. apply IH. intros i Hi. apply H. lia.
Qed.

Lemma loop_kept k skip l : 1 <= k -> forall idx c, 0 <= c < 2 ^ k -> (forall i, idx <= i < idx + zlen l -> zin i skip = false) ->
  x_checksum_loop k skip idx c l = fold_left (rot k) l c.
Proof.
  intro K. induction l as [|b l IH]; intros idx c C H; auto. cbn [x_checksum_loop fold_left]. pose proof (zlen_nonneg l). rewrite zlen_cons in H.
  rewrite H by lia. rewrite step_rot by auto. apply IH; [now apply rot_range|]. intros i Hi. apply H. lia.
Qed.

Lemma fold_range k l : 1 <= k -> forall c, 0 <= c < 2 ^ k -> 0 <= fold_left (rot k) l c < 2 ^ k.
Proof. intro K. induction l as [|b l IH]; intros c C; auto. cbn [fold_left]. apply IH. now apply rot_range. Qed.

Lemma set_checksum_spec l : 4 <= zlen l -> x_checksum_loop 16 [2; 3] 0 0 l = rot_total 16 (set_bytes l).
Proof.
  intro L. assert (E : l = slice l 0 2 ++ slice l 2 4 ++ slice l 4 (zlen l)).
  { rewrite <- (slice_split l 2 4 (zlen l)) by lia. rewrite <- slice_split by lia. now rewrite slice_full. }
  rewrite E at 1. rewrite !loop_app. unfold rot_total, set_bytes. rewrite fold_left_app.
  assert (L1 : zlen (slice l 0 2) = 2) by (rewrite zlen_slice by lia; lia). assert (L2 : zlen (slice l 2 4) = 2) by (rewrite zlen_slice by lia; lia).
  rewrite L1, L2. rewrite (loop_skipped 16 [2; 3] (slice l 2 4)).
  2:{ intros i Hi. rewrite L2 in Hi. apply zin_In. cbn. lia. }
  rewrite (loop_kept 16 [2; 3] (slice l 0 2)) by (lia || (intros i Hi; rewrite L1 in Hi; apply zin_false; cbn; lia)).
  apply loop_kept; [lia|apply fold_range; lia|]. intros i Hi. apply zin_false. cbn. lia.
Qed.

Lemma boot_checksum_spec bps b : 113 <= 11 * bps -> 11 * bps <= zlen b ->
  x_checksum_loop 32 [106; 107; 112] 0 0 (slice b 0 (bps * 11)) = rot_total 32 (boot_bytes bps b).
Proof.
  intros L1 L2. rewrite (Z.mul_comm bps 11).
  assert (E : slice b 0 (11 * bps) = slice b 0 106 ++ slice b 106 108 ++ slice b 108 112 ++ slice b 112 113 ++ slice b 113 (11 * bps)).
  { rewrite <- (slice_split b 112 113) by lia. rewrite <- (slice_split b 108 112) by lia. rewrite <- (slice_split b 106 108) by lia. now rewrite <- slice_split by lia. }
  rewrite E. rewrite !loop_app. unfold rot_total, boot_bytes. rewrite !fold_left_app.
  assert (A1 : zlen (slice b 0 106) = 106) by (rewrite zlen_slice by lia; lia). assert (A2 : zlen (slice b 106 108) = 2) by (rewrite zlen_slice by lia; lia).
  assert (A3 : zlen (slice b 108 112) = 4) by (rewrite zlen_slice by lia; lia). assert (A4 : zlen (slice b 112 113) = 1) by (rewrite zlen_slice by lia; lia).
  rewrite A1, A2, A3, A4.
  rewrite (loop_kept 32 [106; 107; 112] (slice b 0 106)) by (lia || (intros i Hi; rewrite A1 in Hi; apply zin_false; cbn; lia)).
  rewrite (loop_skipped 32 [106; 107; 112] (slice b 106 108)) by (intros i Hi; rewrite A2 in Hi; apply zin_In; cbn; lia).
  rewrite (loop_kept 32 [106; 107; 112] (slice b 108 112)).
  2:{ lia. } 2:{ apply fold_range; lia. } 2:{ intros i Hi; rewrite A3 in Hi; apply zin_false; cbn; lia. }
  rewrite (loop_skipped 32 [106; 107; 112] (slice b 112 113)) by (intros i Hi; rewrite A4 in Hi; apply zin_In; cbn; lia).
  apply loop_kept; [lia| |].
  - apply fold_range; [lia|]. apply fold_range; lia.
  - intros i Hi. apply zin_false. cbn. lia.
Qed.

(** ** The boot region *)

Lemma shift_pow n : 0 <= n -> Z.shiftl 1 n = 2 ^ n.
Proof. intros _. apply Z.shiftl_1_l. Qed.

Lemma bps_spec b : bytes_ok b -> br_bytespersector b = if (9 <=? fld 1 b 108) && (fld 1 b 108 <=? 12) then Ok (bps_of b) else Err BootRegionException.
Proof.
  intro B. unfold br_bytespersector, bps_of. cbv zeta. pose proof (fld_nonneg 1 b 108 B). rewrite shift_pow by lia.
  destruct (Z.ltb_spec (fld 1 b 108) 9), (Z.ltb_spec 12 (fld 1 b 108)), (Z.leb_spec 9 (fld 1 b 108)), (Z.leb_spec (fld 1 b 108) 12); try lia; reflexivity.
Qed.

Lemma bps_range b : 9 <= fld 1 b 108 <= 12 -> bps_of b = 512 \/ bps_of b = 1024 \/ bps_of b = 2048 \/ bps_of b = 4096.
Proof. intro H. unfold bps_of. assert (E : fld 1 b 108 = 9 \/ fld 1 b 108 = 10 \/ fld 1 b 108 = 11 \/ fld 1 b 108 = 12) by lia. destruct E as [->|[->|[->| ->]]]; cbn; auto. Qed.

Lemma quads_eq b o i j : bytes_ok b -> 0 <= o + i -> 0 <= o + j -> o + i + 4 <= zlen b -> o + j + 4 <= zlen b ->
  (slice b (o + i) (o + i + 4) = slice b (o + j) (o + j + 4) <-> fld 4 b (o + i) = fld 4 b (o + j)).
Proof.
  intros B I J L1 L2. unfold fld. split; [congruence|]. intro E. apply le_val_inj; auto using bytes_ok_slice. rewrite !zlen_slice by lia. lia.
Qed.

(** The stored and the calculated checksum. *)
Lemma checksum_ok b : bytes_ok b -> 6144 <= zlen b ->
  ((exists v, br_checksum b = Ok v /\ br_calculate b = Ok v) <-> 9 <= fld 1 b 108 <= 12 /\ boot_checksum b).
Proof.
  intros B L. unfold br_checksum, br_calculate, boot_checksum. rewrite bps_spec by auto.
  destruct (Z.leb_spec 9 (fld 1 b 108)) as [L1|L1]; cbn [andb].
  2:{ split; [intros (v & E & _); discriminate|lia]. }
  destruct (Z.leb_spec (fld 1 b 108) 12) as [L2|L2].
  2:{ split; [intros (v & E & _); discriminate|lia]. }
  cbn [bind]. pose proof (bps_range b ltac:(lia)) as R. set (bps := bps_of b) in *. cbv zeta. rewrite (Z.mul_comm 11 bps).
  assert (R2 : 512 <= bps) by lia. clearbody bps. clear R. set (o := bps * 11).
  destruct (Z.ltb_spec (zlen b) o) as [S|S].
  { split; [intros (v & _ & E); discriminate|]. lia. }
  pose proof (boot_checksum_spec bps b ltac:(lia) ltac:(lia)) as S0. fold o in S0. rewrite S0. clear S0.
  set (sum := rot_total 32 (boot_bytes bps b)). clearbody sum.
  split.
  - intros (v & E1 & E2). injection E2 as <-.
    destruct (list_eqb _ _) eqn:Q1 in E1; cbn [negb orb] in E1; [|discriminate]. destruct (list_eqb _ _) eqn:Q2 in E1; cbn [negb] in E1; [|discriminate].
    destruct (Z.eqb_spec (zlen (slice b o (o + 4))) 4) as [Z4|Z4]; [|discriminate]. injection E1 as E1. apply fat_list_eqb_eq in Q1, Q2.
    assert (Z12 : zlen (slice b (o + 8) (o + 12)) = 4) by now rewrite <- Q2. rewrite zlen_slice in Z12, Z4 by lia.
    split; auto. split; [lia|]. intros i I. cbn [In] in I. unfold fld. destruct I as [<-|[<-|[<-|[]]]].
    + rewrite Z.add_0_r. exact E1.
    + replace (o + 4 + 4) with (o + 8) by lia. now rewrite <- Q1.
    + replace (o + 8 + 4) with (o + 12) by lia. now rewrite <- Q2.
  - intros (_ & Lo & H). exists sum. split; [|reflexivity].
    assert (X0 : le_val (slice b o (o + 4)) = sum) by (rewrite <- (H 0) by (cbn; auto); unfold fld; now rewrite Z.add_0_r).
    assert (X4 : le_val (slice b (o + 4) (o + 8)) = sum) by (rewrite <- (H 4) by (cbn; auto); unfold fld; now replace (o + 4 + 4) with (o + 8) by lia).
    assert (X8 : le_val (slice b (o + 8) (o + 12)) = sum) by (rewrite <- (H 8) by (cbn; auto); unfold fld; now replace (o + 8 + 4) with (o + 12) by lia).
    assert (E4 : slice b o (o + 4) = slice b (o + 4) (o + 8)) by (apply le_val_inj; auto using bytes_ok_slice; [rewrite !zlen_slice by lia; lia|congruence]).
    assert (E8 : slice b o (o + 4) = slice b (o + 8) (o + 12)) by (apply le_val_inj; auto using bytes_ok_slice; [rewrite !zlen_slice by lia; lia|congruence]).
    rewrite (proj2 (fat_list_eqb_eq _ _) E4), (proj2 (fat_list_eqb_eq _ _) E8). cbn [negb orb]. rewrite zlen_slice by lia.
    replace (_ =? 4) with true by lia. now rewrite X0.
Qed.

Lemma checksum_err b e : bytes_ok b -> br_checksum b = Err e -> e = BootRegionException \/ (e = StructError /\ zlen b < 11 * bps_of b + 4).
Proof.
  intros B. unfold br_checksum. rewrite bps_spec by auto. destruct (Z.leb_spec 9 (fld 1 b 108)), (Z.leb_spec (fld 1 b 108) 12); cbn [andb bind]; try (intro X; injection X as <-; auto).
  destruct (_ || _); [intro X; injection X as <-; auto|]. pose proof (bps_range b ltac:(lia)) as R. rewrite zlen_slice by lia.
  destruct (Z.eqb_spec (Z.max 0 (Z.min (bps_of b * 11 + 4 - bps_of b * 11) (zlen b - bps_of b * 11))) 4); [discriminate|]. intro X. injection X as <-. right. split; auto. lia.
Qed.

Theorem br_validate_spec b : bytes_ok b -> 6144 <= zlen b ->
  match br_validate b with
  | Ok _ => boot_checksum b /\ boot_fields (fld 4 b 92 * spc_of b) b
  | Err e => ~ (boot_checksum b /\ boot_fields (fld 4 b 92 * spc_of b) b) /\
      (In e [BootRegionException; BootRegionChecksumException] \/ (e = NotImplementedError /\ 2 <= fld 1 b 105 <= 99) \/ (e = StructError /\ zlen b < 11 * bps_of b + 4))
  end.
Proof.
  intros B L. unfold br_validate.
  destruct (list_eqb (slice b 3 11) exfat_name) eqn:E1; cbn [negb].
  2:{ split; [intros [_ F]; pose proof (bf_name _ _ F) as X; apply fat_list_eqb_eq in X; unfold exfat_name in E1; congruence|left; cbn; auto]. }
  destruct (list_eqb (slice b 510 512) [85; 170]) eqn:E2; cbn [negb].
  2:{ split; [intros [_ F]; pose proof (bf_signature _ _ F) as X; apply fat_list_eqb_eq in X; congruence|left; cbn; auto]. }
  destruct (list_eqb (slice b 11 64) (zeros 53)) eqn:E3; cbn [negb].
  2:{ split; [intros [_ F]; pose proof (bf_zero _ _ F) as X; apply fat_list_eqb_eq in X; change (repeat 0 53) with (zeros 53) in X; congruence|left; cbn; auto]. }
  apply fat_list_eqb_eq in E1, E2, E3. pose proof (checksum_ok b B L) as CK.
  destruct (br_checksum b) as [c1|e] eqn:EC; cbn [bind].
  2:{ split; [|destruct (checksum_err b e B EC) as [->|[-> S]]; [left; cbn; auto|auto]].
      intros [K F]. destruct (proj2 CK (conj (bf_sector _ _ F) K)) as (v & X & _). discriminate. }
  assert (SEC : 9 <= fld 1 b 108 <= 12).
  { unfold br_checksum in EC. rewrite bps_spec in EC by auto. destruct (Z.leb_spec 9 (fld 1 b 108)), (Z.leb_spec (fld 1 b 108) 12); cbn [andb bind] in EC; try discriminate. lia. }
  assert (BPS : br_bytespersector b = Ok (bps_of b)) by (rewrite bps_spec by auto; replace (_ && _) with true by lia; reflexivity).
  destruct (br_calculate b) as [c2|e] eqn:EL; cbn [bind].
  2:{ exfalso. unfold br_calculate in EL. unfold br_checksum in EC. rewrite BPS in *. cbn [bind] in *. destruct (Z.ltb_spec (zlen b) (bps_of b * 11)) as [S|S]; [|discriminate].
      destruct (_ || _); [discriminate|]. pose proof (bps_range b SEC). rewrite zlen_slice in EC by lia.
      destruct (Z.eqb_spec (Z.max 0 (Z.min (bps_of b * 11 + 4 - bps_of b * 11) (zlen b - bps_of b * 11))) 4); [lia|discriminate]. }
  destruct (Z.eqb_spec c1 c2) as [->|NE]; cbn [negb].
  2:{ split; [|left; cbn; auto]. intros [K F]. destruct (proj2 CK (conj SEC K)) as (v & X & Y). congruence. }
  assert (K : boot_checksum b) by (apply CK; eauto). clear CK. rewrite BPS. cbn [bind].
  unfold br_volumelength, br_numfats, br_heapoffset, br_fatoffset, br_fatlength, br_clustercount, br_rootcluster, br_major, br_minor, br_active_fat.
  unfold br_sectorspercluster. pose proof (fld_nonneg 1 b 109 B) as N109. rewrite (shift_pow (fld 1 b 109)) by auto. fold (spc_of b).
  replace (Z.land (fld 2 b 106) 1) with (fld 2 b 106 mod 2) by (symmetry; apply (land_pow 1); lia).
  pose proof (fld_nonneg 1 b 105 B) as N105. pose proof (fld_nonneg 2 b 106 B) as N106.
  set (vlen := fld 8 b 72). set (fo := fld 4 b 80). set (fl := fld 4 b 84). set (heap := fld 4 b 88). set (cc := fld 4 b 92). set (root := fld 4 b 96). set (nf := fld 1 b 110).
  set (bps := bps_of b). set (spc := spc_of b).
  Local Ltac rej := split; [intros [_ F]; destruct F; unfold bps_of, spc_of in *; lia|left; cbn; tauto].
  destruct (Z.ltb_spec (vlen * bps) (1024 * 1024)); [rej|].
  destruct (Z.ltb_spec fo 24); [rej|].
  destruct (Z.ltb_spec (heap - fl * nf) fo); [rej|].
  destruct (Z.ltb_spec (25 - fld 1 b 108) (fld 1 b 109)); cbn [bind]; [rej|].
  destruct (Z.ltb_spec (fl * bps) ((cc + 2) * 4)); [rej|].
  destruct (Z.ltb_spec (heap - fo) (fl * nf)); [lia|].
  destruct (Z.ltb_spec heap (fo + fl * nf)); [lia|].
  destruct (Z.ltb_spec (cc * spc) heap); [rej|].
  destruct (Z.ltb_spec 4294967285 cc); [rej|].
  destruct (Z.ltb_spec (vlen - heap) (cc * spc)); [rej|].
  destruct (Z.ltb_spec root 2); [rej|].
  destruct (Z.ltb_spec (cc + 1) root); [rej|].
  destruct (Z.eqb_spec (fld 1 b 105) 0); cbn [orb]; [rej|].
  destruct (Z.ltb_spec 99 (fld 1 b 105)); cbn [orb]; [rej|].
  destruct (Z.ltb_spec 99 (fld 1 b 104)); cbn [orb]; [rej|].
  destruct (Z.ltb_spec 1 (fld 1 b 105)); [split; [intros [_ F]; destruct F; lia|right; left; split; [auto|lia]]|].
  destruct (Z.eqb_spec nf 1); cbn [negb andb].
  - destruct (Z.ltb_spec 0 (fld 2 b 106 mod 2)); cbn [andb].
    + replace (negb (nf =? 2)) with true by lia. rej.
    + split; [exact K|]. constructor; auto; unfold bps, spc in *; try lia.
  - destruct (Z.eqb_spec nf 2); cbn [negb andb]; [|rej]. rewrite andb_false_r. split; [exact K|]. constructor; auto; unfold bps, spc in *; try lia.
Qed.
