(** Proofs about FAT names, dates, boot sectors and tables. *)
From Verif Require Import Base BaseLemmas FieldLemmas FatBasic FatBoot FatTable FatSpec.

(** ** Masks as remainders *)
Lemma land_pow n v : 0 <= n -> Z.land v (2 ^ n - 1) = v mod 2 ^ n.
Proof. intro H. rewrite <- Z.land_ones by auto. f_equal. rewrite Z.ones_equiv. lia. Qed.

Lemma shiftr_div v n : 0 <= n -> Z.shiftr v n = v / 2 ^ n.
Proof. apply Z.shiftr_div_pow2. Qed.

(** ** Checksum *)

Definition rot_add (c b : Z) : Z := (c / 2 + 128 * (c mod 2) + b) mod 256.

Lemma checksum_step_rot c b : is_byte c -> checksum_step c b = rot_add c b.
Proof.
  intro H. unfold is_byte in H. unfold checksum_step, rot_add. change 255 with (2 ^ 8 - 1). rewrite land_pow by lia.
  change 1 with (2 ^ 1 - 1) at 1. rewrite land_pow by lia. rewrite shiftr_div by lia. change (2 ^ 1) with 2. change (2 ^ 8) with 256.
  destruct (c mod 2 =? 0) eqn:E; bools.
  - rewrite E. f_equal. lia.
  - assert (L : Z.lor (c / 2) 128 = c / 2 + 128).
    { symmetry. rewrite Z.add_nocarry_lxor; [rewrite Z.lxor_lor; auto|].
      all: change 128 with (1 * 2 ^ 7); apply Z.bits_inj'; intros n Hn; rewrite Z.land_spec, Z.bits_0;
        rewrite Z.mul_pow2_bits by lia; destruct (Z.eq_dec n 7) as [->|N];
        [rewrite <- (Z.mod_small (c / 2) (2 ^ 7)) by lia; rewrite Z.mod_pow2_bits_high by lia; reflexivity
        |replace (Z.testbit 1 (n - 7)) with false; [apply andb_false_r|]; symmetry;
          destruct (Z.lt_ge_cases (n - 7) 0); [now apply Z.testbit_neg_r|];
          change 1 with (2 ^ 0); apply Z.pow2_bits_false; lia]. }
    rewrite L. f_equal. lia.
Qed.

Lemma rot_add_byte c b : is_byte (rot_add c b).
Proof. unfold rot_add, is_byte. lia. Qed.

Lemma rot_add_inj_c c d b : is_byte c -> is_byte d -> rot_add c b = rot_add d b -> c = d.
Proof.
  unfold is_byte, rot_add. intros Hc Hd E.
  assert (R : forall c, 0 <= c < 256 -> 0 <= c / 2 + 128 * (c mod 2) < 256) by lia.
  pose proof (R c Hc). pose proof (R d Hd). set (x := c / 2 + 128 * (c mod 2)) in *. set (y := d / 2 + 128 * (d mod 2)) in *.
  assert (x = y) by lia. subst x y. lia.
Qed.

Lemma rot_add_inj_b c a b : is_byte a -> is_byte b -> rot_add c a = rot_add c b -> a = b.
Proof. unfold is_byte, rot_add. intros Ha Hb E. set (x := c / 2 + 128 * (c mod 2)) in *. lia. Qed.

Definition rot_sum (s : Z) (l : list Z) : Z := fold_left rot_add l s.

Lemma rot_sum_byte l : forall s, is_byte s -> is_byte (rot_sum s l).
Proof. induction l as [|b l IH]; intros s H; auto. cbn [rot_sum fold_left]. apply IH. apply rot_add_byte. Qed.

Lemma rot_sum_inj l : forall s t, is_byte s -> is_byte t -> rot_sum s l = rot_sum t l -> s = t.
Proof.
  induction l as [|b l IH]; intros s t Hs Ht E; auto. cbn [rot_sum fold_left] in E.
  apply IH in E; auto using rot_add_byte. now apply rot_add_inj_c in E.
Qed.

Lemma checksum_rot l : forall s, is_byte s -> fold_left checksum_step l s = rot_sum s l.
Proof.
  induction l as [|b l IH]; intros s H; auto. cbn [fold_left rot_sum]. rewrite checksum_step_rot by auto.
  apply IH. apply rot_add_byte.
Qed.

Lemma build_checksum_rot n : build_checksum n = rot_sum 0 (slice n 0 11).
Proof. unfold build_checksum. apply checksum_rot. unfold is_byte; lia. Qed.

Lemma rot_sum_one_byte a x y b s : is_byte s -> is_byte x -> is_byte y ->
  rot_sum s (a ++ x :: b) = rot_sum s (a ++ y :: b) -> x = y.
Proof.
  intros Hs Hx Hy. unfold rot_sum. rewrite !fold_left_app. cbn [fold_left]. intro E.
  apply rot_sum_inj in E; auto using rot_add_byte. now apply rot_add_inj_b in E.
Qed.

(** ** Dates *)

Lemma is_leap_iff y : is_leap y = true <-> leap y.
Proof. unfold is_leap, leap. lia. Qed.

Lemma date_exists_iff y m d : 1 <= y <= 9999 -> (date_exists y m d = true <-> calendar_date y m d).
Proof.
  intro Hy. unfold date_exists, calendar_date.
  assert (L : forall n, month_length y m n <-> 1 <= m <= 12 /\ n = days_in_month y m).
  { intro n. unfold days_in_month. pose proof (is_leap_iff y) as HL. split.
    - intro H. destruct H as [m H|m H|H|H].
      + cbn [In] in H. cbn [zin existsb]. destruct H as [<-|[<-|[<-|[<-|[<-|[<-|[<-|[]]]]]]]]; split; try lia; reflexivity.
      + cbn [In] in H. cbn [zin existsb]. destruct H as [<-|[<-|[<-|[<-|[]]]]]; split; try lia; reflexivity.
      + apply HL in H. rewrite H. split; [lia|reflexivity].
      + split; [lia|]. cbn [Z.eqb Pos.eqb]. destruct (is_leap y); [exfalso; tauto|reflexivity].
    - intros [Hm ->]. cbn [zin existsb].
      assert (C : m = 1 \/ m = 2 \/ m = 3 \/ m = 4 \/ m = 5 \/ m = 6 \/ m = 7 \/ m = 8 \/ m = 9 \/ m = 10 \/ m = 11 \/ m = 12) by lia.
      repeat (destruct C as [->|C]); try subst m; cbn [Z.eqb Pos.eqb orb];
        try (apply ml_31; cbn [In]; tauto); try (apply ml_30; cbn [In]; tauto).
      destruct (is_leap y) eqn:E; [apply ml_29; now apply HL|apply ml_28]. intro X. apply HL in X. congruence. }
  split.
  - intro H. bools. exists (days_in_month y m). split; [apply L; lia|lia].
  - intros (n & N & D). apply L in N as [N ->]. lia.
Qed.

Lemma decode_fat_date_iff v y m d : 0 <= v < 65536 ->
  (decode_fat_date v = Some (y, m, d) <-> calendar_date y m d /\ 1980 <= y <= 2107 /\ v = fat_date_word y m d).
Proof.
  intro Hv. unfold decode_fat_date, fat_date_word.
  change 0x1F with (2 ^ 5 - 1). change 0x0F with (2 ^ 4 - 1). change 0x7F with (2 ^ 7 - 1).
  rewrite !land_pow, !shiftr_div by lia. change (2 ^ 5) with 32. change (2 ^ 4) with 16. change (2 ^ 9) with 512. change (2 ^ 7) with 128.
  change (128 - 1) with 127. cbv zeta.
  assert (CD : calendar_date y m d -> 1 <= m <= 12 /\ 1 <= d <= 31).
  { intros (n & N & D). destruct N as [m H|m H|H|H]; cbn [In] in *; lia. }
  destruct (v mod 32 =? 0) eqn:E1; bools; [split; [discriminate|]; intros (C & Y & W); specialize (CD C); lia|].
  destruct ((v / 32 mod 16 =? 0) || (12 <? v / 32 mod 16)) eqn:E2; bools; [split; [discriminate|]; intros (C & Y & W); specialize (CD C); lia|].
  replace (127 <? v / 512 mod 128) with false by lia.
  pose proof (date_exists_iff (v / 512 mod 128 + 1980) (v / 32 mod 16) (v mod 32) ltac:(lia)) as DE.
  destruct (date_exists _ _ _) eqn:E3.
  - split.
    + intro E. injection E as <- <- <-. split; [now apply DE|]. lia.
    + intros (C & Y & W). specialize (CD C). f_equal. f_equal; [f_equal|]; lia.
  - split; [discriminate|]. intros (C & Y & W). specialize (CD C).
    assert (EY : v / 512 mod 128 + 1980 = y) by lia. assert (EM : v / 32 mod 16 = m) by lia. assert (ED : v mod 32 = d) by lia.
    rewrite EY, EM, ED in DE. apply DE in C. discriminate.
Qed.

Lemma decode_fat_time_iff v h mi s : 0 <= v < 65536 ->
  (decode_fat_time v = Some (h, mi, s) <->
   0 <= h <= 23 /\ 0 <= mi <= 59 /\ 0 <= s <= 59 /\ s mod 2 = 0 /\ v = fat_time_word h mi s).
Proof.
  intro Hv. unfold decode_fat_time, fat_time_word.
  change 0x1F with (2 ^ 5 - 1). change 0x3F with (2 ^ 6 - 1). rewrite !land_pow, !shiftr_div by lia.
  change (2 ^ 5) with 32. change (2 ^ 6) with 64. change (2 ^ 11) with 2048.
  destruct (29 <? v mod 32) eqn:E1; bools; [split; [discriminate|lia]|].
  destruct (59 <? v / 32 mod 64) eqn:E2; bools; [split; [discriminate|lia]|].
  destruct (23 <? v / 2048 mod 32) eqn:E3; bools; [split; [discriminate|lia]|].
  split.
  - intro E. injection E as <- <- <-. lia.
  - intros (A & B & C & D & E). f_equal. f_equal; [f_equal|]; lia.
Qed.

(** ** The NT byte *)

Definition bit (v i : Z) : Z := (v / 2 ^ i) mod 2.

Definition nt_expected (v : Z) : nt_byte :=
  mk_nt_byte (bit v 3 =? 1) (bit v 4 =? 1) (bit v 0 =? 1) ((bit v 0 =? 1) && (bit v 1 =? 1))
    (if bit v 0 =? 1 then Some (bit v 2 + 2 * bit v 5 + 4 * bit v 6 + 8 * bit v 7) else None).

Definition nt_eqb (a b : nt_byte) : bool :=
  eqb (nt_lower_base a) (nt_lower_base b) && eqb (nt_lower_ext a) (nt_lower_ext b) &&
  eqb (nt_encrypted a) (nt_encrypted b) && eqb (nt_large_header a) (nt_large_header b) &&
  match nt_padding a, nt_padding b with Some x, Some y => x =? y | None, None => true | _, _ => false end.

Lemma nt_eqb_eq a b : nt_eqb a b = true -> a = b.
Proof.
  destruct a as [a1 a2 a3 a4 a5], b as [b1 b2 b3 b4 b5]. unfold nt_eqb. cbn. intro H.
  rewrite !andb_true_iff in H. destruct H as ((((H1 & H2) & H3) & H4) & H5).
  apply eqb_prop in H1, H2, H3, H4. subst. f_equal. destruct a5, b5; try discriminate; auto. f_equal. lia.
Qed.

Lemma all_bytes (P : Z -> bool) : forallb P (map Z.of_nat (seq 0 256)) = true -> forall b, is_byte b -> P b = true.
Proof.
  intros H b Hb. rewrite forallb_forall in H. apply H. unfold is_byte in Hb.
  apply in_map_iff. exists (Z.to_nat b). split; [lia|]. apply in_seq. lia.
Qed.

Lemma parse_nt_byte_spec v : is_byte v -> parse_nt_byte v = Ok (nt_expected v).
Proof.
  intro Hv. assert (H : (fun v => match parse_nt_byte v with Ok r => nt_eqb r (nt_expected v) | Err _ => false end) v = true).
  { revert v Hv. apply all_bytes. vm_compute. reflexivity. }
  cbv beta in H. destruct (parse_nt_byte v) as [r|]; [|discriminate]. f_equal. now apply nt_eqb_eq.
Qed.

(** ** The boot sector *)

Lemma zin_pow v : zin v [1; 2; 4; 8; 16; 32; 64; 128; 256] = true <-> power_of_two_upto_256 v.
Proof. apply zin_In. Qed.

Lemma totsec_spec f buf : match totsec f buf with Some t => total_sectors f buf t | None => forall t, ~ total_sectors f buf t end.
Proof.
  unfold totsec, totsec16, totsec32.
  destruct (fld 2 buf 19 =? 0) eqn:E1; cbn [negb]; bools; [|now apply ts_16].
  destruct (fld 4 buf 32 =? 0) eqn:E2; cbn [negb]; bools; [|now apply ts_32].
  unfold totsec64, bootsig, totsec16, totsec32. destruct f; cbn [andb].
  - destruct (fld 1 buf 66 =? 41) eqn:E3; bools; cbn [andb].
    + replace (fld 2 buf 19 =? 0) with true by lia. replace (fld 4 buf 32 =? 0) with true by lia. now apply ts_64.
    + intros t T. inversion T; subst; congruence.
  - intros t T. inversion T; subst; congruence.
Qed.

Lemma total_sectors_fun f buf t u : total_sectors f buf t -> total_sectors f buf u -> t = u.
Proof. intros T U. destruct T; destruct U; congruence. Qed.

Lemma clusters_fun f buf n m : clusters f buf n -> clusters f buf m -> n = m.
Proof. intros [t T] [u U]. now rewrite (total_sectors_fun _ _ _ _ T U). Qed.

Lemma fld_nonneg w buf off : bytes_ok buf -> 0 <= fld w buf off.
Proof. intro B. unfold fld. apply le_val_bound. now apply bytes_ok_slice. Qed.

(** In FAT32 mode the count exists exactly for a FAT32 layout. *)
Definition fat32_layout (buf : list Z) : Prop :=
  bpb_fat_sectors_16 buf = 0 /\ bpb_common buf /\ bpb_fat_sectors_32 buf <> 0.

Definition fat16_layout (buf : list Z) : Prop :=
  bpb_fat_sectors_16 buf <> 0 /\ bpb_common buf /\ In (bpb_bytes_per_sector buf) [512; 1024; 2048; 4096].

Lemma count32_spec buf : bytes_ok buf ->
  match count_of_clusters true buf with
  | Ok n => fat32_layout buf /\ clusters true buf n
  | Err e => (e = BootSectorException \/ e = TypeError) /\ ~ (fat32_layout buf /\ exists n, clusters true buf n) /\
             (bpb_fat_sectors_16 buf <> 0 -> e = BootSectorException)
  end.
Proof.
  intro B. unfold count_of_clusters, fatsz16, rsvdseccnt, numfats, fatsz32, secperclus.
  unfold fat32_layout, bpb_common, bpb_fat_sectors_16, bpb_fat_sectors_32, bpb_reserved, bpb_fats, bpb_sectors_per_cluster.
  pose proof (fld_nonneg 2 buf 22 B) as P1. pose proof (totsec_spec true buf) as T.
  destruct (0 <? fld 2 buf 22) eqn:E1; bools; cbn [andb bind]; [split; [auto|split; [lia|auto]]|].
  replace (0 <? fld 2 buf 22) with false by lia.
  destruct (fld 2 buf 14 =? 0) eqn:E2; bools; cbn [bind]; [split; [auto|split; [tauto|lia]]|].
  destruct (fld 1 buf 16 =? 0) eqn:E3; bools; cbn [bind]; [split; [auto|split; [tauto|lia]]|].
  cbn [negb]. destruct (fld 4 buf 36 =? 0) eqn:E4; bools; cbn [bind]; [split; [auto|split; [tauto|lia]]|].
  destruct (totsec true buf) as [t|]; cbn [sub_from bind].
  2:{ split; [auto|split; [|lia]]. intros [_ [n [t X]]]. exact (T _ X). }
  destruct (zin (if fld 1 buf 13 =? 0 then 256 else fld 1 buf 13) [1; 2; 4; 8; 16; 32; 64; 128; 256]) eqn:E5; cbn [bind].
  - apply zin_pow in E5. split; [repeat split; auto; lia|].
    pose proof (cl true buf t T) as C. unfold bpb_reserved, bpb_fats, fat_sectors, bpb_fat_sectors_32, bpb_sectors_per_cluster in C.
    rewrite Z.add_0_r in C. exact C.
  - apply zin_false in E5. split; [auto|split; [|lia]]. intros [(_ & (_ & _ & X) & _) _]. exact (E5 X).
Qed.

Lemma count16_spec buf : bytes_ok buf -> bpb_fat_sectors_16 buf <> 0 ->
  match count_of_clusters false buf with
  | Ok n => fat16_layout buf /\ clusters false buf n
  | Err e => (e = BootSectorException \/ e = TypeError) /\ ~ (fat16_layout buf /\ exists n, clusters false buf n)
  end.
Proof.
  intros B H. unfold count_of_clusters, fatsz16, rootentcnt, bytspersec, rsvdseccnt, numfats, fatsz32, secperclus.
  unfold fat16_layout, bpb_common, bpb_fat_sectors_16, bpb_bytes_per_sector, bpb_reserved, bpb_fats, bpb_sectors_per_cluster in *.
  pose proof (fld_nonneg 2 buf 22 B) as P1. pose proof (totsec_spec false buf) as T. rewrite !andb_false_r. cbn [bind].
  replace (0 <? fld 2 buf 22) with true by lia.
  destruct (zin (fld 2 buf 11) [512; 1024; 2048; 4096]) eqn:E0; cbn [bind].
  2:{ apply zin_false in E0. split; auto. tauto. }
  apply zin_In in E0.
  destruct (fld 2 buf 14 =? 0) eqn:E2; bools; cbn [bind]; [split; [auto|tauto]|].
  destruct (fld 1 buf 16 =? 0) eqn:E3; bools; cbn [bind]; [split; [auto|tauto]|].
  destruct (totsec false buf) as [t|]; cbn [sub_from bind].
  2:{ split; [auto|]. intros [_ [n [t X]]]. exact (T _ X). }
  destruct (zin (if fld 1 buf 13 =? 0 then 256 else fld 1 buf 13) [1; 2; 4; 8; 16; 32; 64; 128; 256]) eqn:E5; cbn [bind].
  - apply zin_pow in E5. split; [repeat split; auto; lia|].
    exact (cl false buf t T).
  - apply zin_false in E5. split; [auto|]. intros [(_ & (_ & _ & X) & _) _]. exact (E5 X).
Qed.

(** A table of FAT12/16 is looked for with the FAT32 size fields absent: an error. *)
Lemma count_none_spec buf : bytes_ok buf -> bpb_fat_sectors_16 buf = 0 ->
  exists e, count_of_clusters false buf = Err e /\ (e = BootSectorException \/ e = TypeError).
Proof.
  intros B H. unfold count_of_clusters, fatsz16, rsvdseccnt, numfats, fatsz32. unfold bpb_fat_sectors_16 in H.
  rewrite !andb_false_r. cbn [bind]. rewrite H. cbn [Z.ltb Z.compare].
  destruct (fld 2 buf 14 =? 0); cbn [bind]; [eauto|]. destruct (fld 1 buf 16 =? 0); cbn [bind negb]; eexists; split; eauto.
Qed.

Lemma is_fs32_spec buf : bytes_ok buf ->
  match is_fs32 true buf with
  | Ok b => b = true /\ fat32_layout buf /\ exists n, clusters true buf n
  | Err e => (e = BootSectorException \/ e = TypeError) /\ ~ (fat32_layout buf /\ exists n, clusters true buf n) /\
             (bpb_fat_sectors_16 buf <> 0 -> e = BootSectorException)
  end.
Proof.
  intro B. unfold is_fs32. pose proof (count32_spec buf B) as C.
  destruct (count_of_clusters true buf) as [n|e]; cbn [bind]; auto. destruct C as [L C].
  destruct (65525 <=? n); [eauto|]. pose proof L as (L1 & L2 & L3). unfold bpb_fat_sectors_16, bpb_fat_sectors_32 in *.
  unfold fatsz16, fatsz32. rewrite L1. cbn [Z.ltb Z.compare andb bind Z.eqb negb].
  replace (fld 4 buf 36 =? 0) with false by lia. cbn [bind]. pose proof (fld_nonneg 4 buf 36 B).
  replace (0 <? fld 4 buf 36) with true by lia. eauto.
Qed.

Lemma bsbpb_marked buf relaxed : zlen buf = 512 -> (relaxed = true \/ boot_marked buf) ->
  negb relaxed && negb (fld 2 buf 510 =? 43605) && negb (fld 1 buf 0 =? 233) && negb (fld 1 buf 0 =? 235) = false.
Proof.
  intros L [->|[H|[H|H]]]; [reflexivity| | |]; rewrite H; cbn [Z.eqb Pos.eqb negb]; rewrite ?andb_false_r; reflexivity.
Qed.

Lemma bsbpb_unmarked buf relaxed :
  negb relaxed && negb (fld 2 buf 510 =? 43605) && negb (fld 1 buf 0 =? 233) && negb (fld 1 buf 0 =? 235) = true ->
  ~ (relaxed = true \/ boot_marked buf).
Proof.
  intros H. rewrite !andb_true_iff, !negb_true_iff, !Z.eqb_neq in H. destruct H as (((H1 & H2) & H3) & H4). unfold boot_marked.
  destruct relaxed; [discriminate|]. intros [X|[X|[X|X]]]; congruence.
Qed.

(** The constructor in full. *)
Lemma bsbpb_open_spec buf relaxed : bytes_ok buf ->
  match bsbpb_open buf relaxed with
  | Ok true => zlen buf = 512 /\ (relaxed = true \/ boot_marked buf) /\ fat32_layout buf /\ (exists n, clusters true buf n) /\ fld 2 buf 42 = 0
  | Ok false => zlen buf = 512 /\ (relaxed = true \/ boot_marked buf) /\ fat16_layout buf /\ exists n, clusters false buf n /\ 0 < n < 65525
  | Err e => (e = BootSectorException \/ e = TypeError \/ e = NotImplementedError) /\
      ~ (zlen buf = 512 /\ (relaxed = true \/ boot_marked buf) /\ fat32_layout buf /\ (exists n, clusters true buf n) /\ fld 2 buf 42 = 0) /\
      ~ (zlen buf = 512 /\ (relaxed = true \/ boot_marked buf) /\ fat16_layout buf /\ exists n, clusters false buf n /\ 0 < n < 65525)
  end.
Proof.
  intro B. unfold bsbpb_open. destruct (zlen buf =? 512) eqn:E0; bools; cbn [negb]; [|split; [auto|split; tauto]].
  destruct (negb relaxed && _ && _ && _) eqn:E1.
  { apply bsbpb_unmarked in E1. split; [auto|split; tauto]. }
  assert (M : relaxed = true \/ boot_marked buf).
  { destruct relaxed; [now left|right]. cbn [negb andb] in E1. unfold boot_marked.
    destruct (Z.eqb_spec (fld 2 buf 510) 43605); [auto|]. destruct (Z.eqb_spec (fld 1 buf 0) 233); [auto|].
    destruct (Z.eqb_spec (fld 1 buf 0) 235); [auto|]. discriminate. }
  clear E1. pose proof (is_fs32_spec buf B) as S32.
  destruct (is_fs32 true buf) as [b|e]; cbn [bind].
  { destruct S32 as (-> & L & C). unfold fsver. cbn [negb]. destruct (fld 2 buf 42 =? 0) eqn:E2; bools.
    - repeat split; auto; apply L.
    - split; [auto|split; [tauto|]]. intros (_ & _ & (X & _) & _). apply X. apply L. }
  destruct S32 as (S1 & S2 & S3). destruct S1 as [-> | ->].
  2:{ split; [auto|split; [tauto|]]. intros (_ & _ & (X & _) & _). specialize (S3 X). discriminate. }
  destruct (Z.eq_dec (bpb_fat_sectors_16 buf) 0) as [Z16|Z16].
  { destruct (count_none_spec buf B Z16) as (e & C1 & C2). unfold is_fs16. rewrite C1. cbn [bind].
    split; [tauto|split; [tauto|]]. intros (_ & _ & (X & _) & _). exact (X Z16). }
  pose proof (count16_spec buf B Z16) as C. unfold is_fs16, is_fs12.
  destruct (count_of_clusters false buf) as [n|e]; cbn [bind].
  2:{ destruct C as [C1 C2]. split; [tauto|split; [tauto|]]. intros (_ & _ & X & (n & Y & _)). apply C2. eauto. }
  destruct C as [C1 C2].
  destruct ((n <? 65525) && (4085 <=? n)) eqn:E2; bools.
  { repeat split; auto; try apply C1. exists n. split; auto. lia. }
  destruct ((n <? 4085) && (0 <? n)) eqn:E3; bools.
  { repeat split; auto; try apply C1. exists n. split; auto. lia. }
  split; [auto|split; [tauto|]]. intros (_ & _ & _ & (m & Y & Z)). rewrite (clusters_fun _ _ _ _ Y C2) in Z. lia.
Qed.

Lemma fat_type_of_spec buf relaxed f : bytes_ok buf -> bsbpb_open buf relaxed = Ok f ->
  exists n, clusters f buf n /\ fat_type_of f buf = Ok (if f then 32 else if 4085 <=? n then 16 else 12).
Proof.
  intros B E. pose proof (bsbpb_open_spec buf relaxed B) as S. rewrite E in S. unfold fat_type_of. destruct f.
  - destruct S as (_ & _ & L & (n & C) & _). exists n. split; auto.
    pose proof (is_fs32_spec buf B) as I. destruct (is_fs32 true buf) as [b|e]; cbn [bind].
    + destruct I as (-> & _). reflexivity.
    + exfalso. apply I. eauto.
  - destruct S as (_ & _ & L & n & C & Hn). exists n. split; auto. pose proof L as (L1 & _).
    pose proof (count16_spec buf B L1) as I. unfold is_fs32, is_fs16, is_fs12.
    destruct (count_of_clusters false buf) as [m|e]; cbn [bind].
    + destruct I as [_ I]. rewrite (clusters_fun _ _ _ _ I C).
      replace (65525 <=? n) with false by lia. unfold fatsz16. rewrite andb_false_r. cbn [bind].
      unfold bpb_fat_sectors_16 in L1. replace (fld 2 buf 22 =? 0) with false by lia. cbn [negb bind].
      destruct (4085 <=? n) eqn:E2; bools.
      * replace (n <? 65525) with true by lia. reflexivity.
      * rewrite andb_false_r. cbn [bind].
        replace (n <? 4085) with true by lia. replace (0 <? n) with true by lia. reflexivity.
    + exfalso. apply I. eauto.
Qed.

(** ** The table *)

Lemma fld_number m l k : bytes_ok l -> 0 <= m -> 0 <= k -> k + m <= zlen l -> fld m l k = (le_val l / 256 ^ k) mod 256 ^ m.
Proof.
  intros B Hm Hk L.
  assert (D : l = slice l 0 k ++ slice l k (k + m) ++ slice l (k + m) (zlen l)).
  { rewrite <- (slice_split l k (k + m) (zlen l)) by lia. rewrite <- (slice_split l 0 k (zlen l)) by lia.
    symmetry. apply slice_full. lia. }
  assert (V : le_val l = le_val (slice l 0 k) + 256 ^ k * (fld m l k + 256 ^ m * le_val (slice l (k + m) (zlen l)))).
  { rewrite D at 1. rewrite !le_val_app. rewrite !zlen_slice by lia. unfold fld. f_equal. f_equal; [f_equal; lia|].
    f_equal. f_equal. f_equal. lia. }
  rewrite V. pose proof (le_val_bound (slice l 0 k) (bytes_ok_slice l 0 k B)) as Q1. rewrite zlen_slice in Q1 by lia.
  replace (Z.max 0 (Z.min (k - 0) (zlen l - 0))) with k in Q1 by lia.
  pose proof (fld_bound m l k Hk Hm B) as Q2. 
  assert (P1 : 0 < 256 ^ k) by (apply Z.pow_pos_nonneg; lia). assert (P2 : 0 < 256 ^ m) by (apply Z.pow_pos_nonneg; lia).
  rewrite (Z.mul_comm (256 ^ k)), Z.div_add by lia. rewrite (Z.div_small (le_val (slice l 0 k))) by lia. rewrite Z.add_0_l.
  rewrite (Z.mul_comm (256 ^ m)), Z.mod_add by lia. symmetry. apply Z.mod_small. lia.
Qed.

Definition fat_ok (f : fat) : Prop :=
  In (f_type f) [12; 16; 32] /\ 0 <= f_off f /\ 0 <= f_size f /\ bytes_ok (f_data f).
Definition table (f : fat) : list Z := slice (f_data f) (f_off f) (f_off f + f_size f).

Definition entryb (f : fat) (n : Z) : bool := (n <=? f_last f) && (f_type f * (n + 1) <=? 8 * zlen (table f)).

Lemma pow256 k : 0 <= k -> 256 ^ k = 2 ^ (8 * k).
Proof. intro H. rewrite Z.pow_mul_r by lia. reflexivity. Qed.

Lemma mod_mod_le a b c : 0 <= b <= c -> (a mod 2 ^ c) mod 2 ^ b = a mod 2 ^ b.
Proof.
  intro H. replace (2 ^ c) with (2 ^ b * 2 ^ (c - b)) by (rewrite <- Z.pow_add_r by lia; f_equal; lia).
  assert (0 < 2 ^ b) by (apply Z.pow_pos_nonneg; lia). assert (0 < 2 ^ (c - b)) by (apply Z.pow_pos_nonneg; lia).
  rewrite Z.rem_mul_r by lia. rewrite Z.mul_comm, Z.mod_add by lia. apply Z.mod_mod. lia.
Qed.

Lemma mod_div_pow a b c : 0 <= b <= c -> (a mod 2 ^ c) / 2 ^ b = (a / 2 ^ b) mod 2 ^ (c - b).
Proof.
  intro H. replace (2 ^ c) with (2 ^ b * 2 ^ (c - b)) by (rewrite <- Z.pow_add_r by lia; f_equal; lia).
  assert (0 < 2 ^ b) by (apply Z.pow_pos_nonneg; lia). assert (0 < 2 ^ (c - b)) by (apply Z.pow_pos_nonneg; lia).
  rewrite Z.rem_mul_r by lia. rewrite (Z.mul_comm (2 ^ b)), Z.div_add by lia. rewrite (Z.div_small (a mod 2 ^ b)); [lia|].
  apply Z.mod_pos_bound. lia.
Qed.

Lemma get_element_spec f n : fat_ok f -> 0 <= n ->
  get_element f n = if entryb f n then Ok (table_entry (f_type f) (table f) n) else Err FileAllocationTableException.
Proof.
  intros (T & Ho & Hs & B) Hn. unfold get_element, entryb, table_entry, packed_entry.
  assert (BT : bytes_ok (table f)) by (now apply bytes_ok_slice).
  assert (RD : forall o m, 0 <= o -> 0 <= m -> o + m <= f_size f ->
    read_at (f_data f) (f_off f + o) m = Ok (slice (table f) o (o + m))).
  { intros o m Ho' Hm HL. unfold read_at, table. replace (f_off f + o <? 0) with false by lia. f_equal.
    rewrite slice_slice by lia. f_equal; lia. }
  assert (LT : zlen (table f) <= f_size f).
  { unfold table. rewrite zlen_slice by lia. lia. }
  pose proof (zlen_nonneg (table f)) as LT0.
  destruct (Z.eq_dec (f_type f) 12) as [E|N12].
  - rewrite E. cbn [Z.eqb Pos.eqb]. 
    destruct ((f_size f <? n + n / 2 + 2) || (f_last f <? n)) eqn:E1; bools.
    { replace (_ && _) with false by lia. reflexivity. }
    rewrite RD by lia. cbn [bind].
    assert (LS : zlen (slice (table f) (n + n / 2) (n + n / 2 + 2)) = Z.max 0 (Z.min 2 (zlen (table f) - (n + n / 2)))).
    { rewrite zlen_slice by lia. lia. }
    rewrite LS. destruct (Z.le_gt_cases (n + n / 2 + 2) (zlen (table f))) as [L|L].
    2:{ replace (_ =? 2) with false by lia. cbn [negb]. replace (_ && _) with false by lia. reflexivity. }
    replace (_ =? 2) with true by lia. cbn [negb]. replace (_ && _) with true by lia. f_equal.
    change (le_val (slice (table f) (n + n / 2) (n + n / 2 + 2))) with (fld 2 (table f) (n + n / 2)).
    rewrite fld_number by (auto; lia). change (256 ^ 2) with (2 ^ 16). rewrite pow256 by lia.
    change 4095 with (2 ^ 12 - 1). rewrite land_pow, shiftr_div by lia.
    destruct (n mod 2 =? 0) eqn:E2; bools.
    + rewrite mod_mod_le by lia. do 3 f_equal. lia.
    + rewrite mod_div_pow by lia. change (16 - 4) with 12. f_equal.
      rewrite Z.div_div by (try apply Z.pow_nonzero; try apply Z.pow_pos_nonneg; lia). rewrite <- Z.pow_add_r by lia. do 2 f_equal. lia.
  - replace (f_type f =? 12) with false by lia.
    set (es := if f_type f =? 32 then 4 else 2).
    assert (W : f_type f = 8 * es /\ (es = 2 \/ es = 4)).
    { unfold es. cbn [In] in T. destruct T as [T|[T|[T|[]]]]; try lia; rewrite <- T; cbn; lia. }
    destruct W as [W Wes]. clearbody es. rewrite W.
    destruct ((f_size f <? n * es + es) || (f_last f <? n)) eqn:E1; bools.
    { replace (_ && _) with false by lia. reflexivity. }
    rewrite RD by nia. cbn [bind].
    assert (LS : zlen (slice (table f) (n * es) (n * es + es)) = Z.max 0 (Z.min es (zlen (table f) - n * es))).
    { rewrite zlen_slice by nia. lia. }
    rewrite LS. destruct (Z.le_gt_cases (n * es + es) (zlen (table f))) as [L|L].
    2:{ replace (_ =? es) with false by lia. cbn [negb]. replace (_ && _) with false by lia. reflexivity. }
    replace (_ =? es) with true by lia. cbn [negb]. replace (_ && _) with true by lia. f_equal.
    change (le_val (slice (table f) (n * es) (n * es + es))) with (fld es (table f) (n * es)).
    rewrite fld_number by (auto; nia). rewrite !pow256 by nia.
    replace (8 * (n * es)) with (8 * es * n) by lia. change 268435455 with (2 ^ 28 - 1). rewrite land_pow by lia.
    destruct Wes as [-> | ->]; reflexivity.
Qed.

Lemma get_element_iff f n v : fat_ok f -> 0 <= n ->
  (get_element f n = Ok v <-> has_entry (f_type f) (table f) (f_last f) n /\ v = table_entry (f_type f) (table f) n).
Proof.
  intros H Hn. rewrite get_element_spec by auto. unfold has_entry, entryb.
  destruct ((n <=? f_last f) && (f_type f * (n + 1) <=? 8 * zlen (table f))) eqn:E; bools.
  - split; [intro X; injection X as <-; repeat split; lia|intros [_ ->]; reflexivity].
  - split; [discriminate|lia].
Qed.

Lemma table_entry_nonneg w t n : 0 <= w -> 0 <= table_entry w t n.
Proof.
  intro H. unfold table_entry, packed_entry. assert (0 < 2 ^ w) by (apply Z.pow_pos_nonneg; lia).
  destruct (w =? 32); apply Z.mod_pos_bound; lia.
Qed.

(** ** Chains *)

Lemma fat_eoc_eq f : fat_eoc f = eoc (f_type f).
Proof. reflexivity. Qed.
Lemma fat_bad_eq f : fat_bad f = bad (f_type f).
Proof. unfold fat_bad, bad, eoc. destruct (f_type f =? 32), (f_type f =? 16); reflexivity. Qed.
Lemma bad_range w : 2 < bad w /\ eoc w = bad w + 1.
Proof. unfold bad, eoc. destruct (w =? 32), (w =? 16); lia. Qed.

Lemma chain_loop_spec f : fat_ok f -> forall fuel seen c, 0 <= c -> NoDup (c :: seen) ->
  Forall (fun k => 0 <= k < f_size f) seen ->
  (Z.to_nat (f_size f) < fuel + length seen)%nat ->
  match chain_loop fuel f (c :: seen) c with
  | Ok l => exists l', chain_from (f_type f) (table f) (f_last f) seen c l' /\ l = map Some (rev seen) ++ l'
  | Err e => e = FileAllocationTableException /\ forall l', ~ chain_from (f_type f) (table f) (f_last f) seen c l'
  end.
Proof.
  intros F. assert (LT : zlen (table f) <= f_size f).
  { destruct F as (_ & ? & ? & _). unfold table. rewrite zlen_slice by lia. lia. }
  assert (W : 12 <= f_type f). { destruct F as (T & _). cbn [In] in T. lia. }
  induction fuel as [|fuel IH]; intros seen c Hc ND FA HF.
  { exfalso. inversion ND as [|? ? _ ND']; subst. assert (length seen <= Z.to_nat (f_size f))%nat; [|lia].
    rewrite <- (seq_length (Z.to_nat (f_size f)) 0), <- (map_length Z.of_nat).
    apply NoDup_incl_length; auto. intros k Hk. rewrite Forall_forall in FA. specialize (FA k Hk).
    apply in_map_iff. exists (Z.to_nat k). split; [lia|]. apply in_seq; lia. }
  cbn [chain_loop]. pose proof (get_element_iff f c) as G.
  destruct (get_element f c) as [n|e] eqn:E; cbn [bind].
  2:{ split.
      - rewrite get_element_spec in E by auto. destruct (entryb f c); congruence.
      - intros l' X. assert (HE : has_entry (f_type f) (table f) (f_last f) c).
        { inversion X; subst; match goal with H : follows _ _ _ _ _ _ |- _ => inversion H; auto end. }
        destruct (G (table_entry (f_type f) (table f) c) F Hc) as [_ G2]. discriminate G2. auto. }
  destruct (proj1 (G n F Hc) eq_refl) as [G1 G2]. clear G. rewrite fat_eoc_eq, fat_bad_eq.
  destruct (bad_range (f_type f)) as [R1 R2].
  pose proof (table_entry_nonneg (f_type f) (table f) c ltac:(lia)) as Hn. rewrite <- G2 in Hn.
  assert (RS : map Some (rev (c :: seen)) = map Some (rev seen) ++ [Some c]).
  { cbn [rev]. now rewrite map_app. }
  destruct (zin n (c :: seen)) eqn:E1.
  { apply zin_In in E1. exists [Some c]. split; [|auto]. apply ch_stop. apply fo_stop with (n := n); auto. }
  apply zin_false in E1.
  destruct (eoc (f_type f) <=? n) eqn:E2; bools.
  { exists [Some c]. split; [|auto]. apply ch_stop. apply fo_stop with (n := n); auto. }
  destruct (n =? bad (f_type f)) eqn:E3; bools.
  { exists [Some c; None]. split.
    - apply ch_bad. apply fo_bad; auto; congruence.
    - rewrite RS. now rewrite <- app_assoc. }
  destruct (n =? 0) eqn:E4; bools.
  { exists [Some c]. split; [|auto]. apply ch_stop. apply fo_stop with (n := n); auto. lia. }
  destruct (n =? 1) eqn:E5; bools.
  { exists [Some c]. split; [|auto]. apply ch_stop. apply fo_stop with (n := n); auto. lia. }
  assert (FO : follows (f_type f) (table f) (f_last f) seen c (Next n)) by (apply fo_next; auto; lia).
  specialize (IH (c :: seen) n Hn). destruct (chain_loop fuel f (n :: c :: seen) n) as [l|e] eqn:EL.
  - destruct IH as (l' & L1 & L2).
    + constructor; auto.
    + constructor; auto. destruct G1. nia.
    + cbn [length]. lia.
    + exists (Some c :: l'). split; [eapply ch_next; eauto|]. rewrite L2, RS, <- app_assoc. reflexivity.
  - destruct IH as [I1 I2].
    + constructor; auto.
    + constructor; auto. destruct G1. nia.
    + cbn [length]. lia.
    + split; auto. intros l' X. inversion X as [? ? Y|? ? Y|? ? m l'' Y X']; subst.
      * inversion Y; subst. destruct H1 as [?|[?|?]]; congruence || lia.
      * inversion Y; subst. congruence.
      * inversion Y; subst. exact (I2 _ X').
Qed.

Lemma follows_fun w t last seen c a b : follows w t last seen c a -> follows w t last seen c b -> a = b.
Proof.
  destruct (bad_range w) as [R1 R2].
  intros A B. inversion A; inversion B; subst; auto; exfalso;
    repeat match goal with H : table_entry _ _ _ = _ |- _ => rewrite H in * end;
    try (match goal with H : _ \/ _ |- _ => destruct H as [?|[?|?]] end); try tauto; try congruence; try lia.
Qed.

Lemma chain_from_fun w t last seen c l : chain_from w t last seen c l -> forall m, chain_from w t last seen c m -> l = m.
Proof.
  induction 1 as [seen c H|seen c H|seen c n l H H' IH]; intros m M; inversion M as [? ? Y|? ? Y|? ? n' l' Y M']; subst; auto;
    pose proof (follows_fun _ _ _ _ _ _ _ H Y) as E; try discriminate.
  injection E as <-. f_equal. auto.
Qed.

Lemma fat_chain_iff f first l : fat_ok f -> 2 <= first -> first <> fat_bad f ->
  (fat_chain f first = Ok l <-> chain_from (f_type f) (table f) (f_last f) [] first l).
Proof.
  intros F H1 H2. unfold fat_chain. replace (first =? 0) with false by lia. replace (first =? 1) with false by lia.
  replace (first =? fat_bad f) with false by lia.
  pose proof (chain_loop_spec f F (S (S (Z.to_nat (f_size f)))) [] first ltac:(lia)) as S.
  specialize (S ltac:(constructor; [intros []|constructor]) ltac:(constructor) ltac:(cbn [length]; lia)).
  destruct (chain_loop _ f [first] first) as [m|e].
  - destruct S as (l' & L1 & L2). cbn [rev map app] in L2. subst m. split.
    + intro E. injection E as <-. auto.
    + intro X. now rewrite (chain_from_fun _ _ _ _ _ _ L1 _ X).
  - destruct S as [_ S]. split; [discriminate|]. intro X. exfalso. exact (S _ X).
Qed.

(** Every result or failure of a chain. *)
Lemma fat_chain_total f first : fat_ok f -> 0 <= first ->
  match fat_chain f first with Ok _ => True | Err e => e = FileAllocationTableException end.
Proof.
  intros F H. unfold fat_chain. destruct (first =? 0); auto. destruct (first =? 1); auto. destruct (first =? fat_bad f); auto.
  pose proof (chain_loop_spec f F (S (S (Z.to_nat (f_size f)))) [] first ltac:(lia)) as S.
  specialize (S ltac:(constructor; [intros []|constructor]) ltac:(constructor) ltac:(cbn [length]; lia)).
  destruct (chain_loop _ f [first] first) as [m|e]; auto. apply S.
Qed.

(** The clusters of a chain. *)
Definition somes (l : list (option Z)) : list Z := flat_map (fun o => match o with Some x => [x] | None => [] end) l.

Lemma chain_nodup w t last seen c l : chain_from w t last seen c l ->
  ~ In c seen -> NoDup (somes l) /\ forall x, In x (somes l) -> ~ In x seen.
Proof.
  induction 1 as [seen c H|seen c H|seen c n l H H' IH]; intro N; cbn [somes flat_map app].
  - split; [constructor; [intros []|constructor]|]. intros x [<-|[]]; auto.
  - split; [constructor; [intros []|constructor]|]. intros x [<-|[]]; auto.
  - fold (somes l). inversion H as [? ? ? NI ?| |]; subst.
    destruct (IH NI) as [I1 I2]. split.
    + constructor; auto. intro X. apply (I2 _ X). now left.
    + intros x [<-|X]; auto. intro Y. apply (I2 _ X). now right.
Qed.

Lemma chain_in_range w t last seen c l : chain_from w t last seen c l -> forall x, In x (somes l) -> has_entry w t last x.
Proof.
  induction 1 as [seen c H|seen c H|seen c n l H H' IH]; cbn [somes flat_map app]; intros x X.
  - destruct X as [<-|[]]. inversion H; auto.
  - destruct X as [<-|[]]. inversion H; auto.
  - fold (somes l) in X. destruct X as [<-|X]; auto. inversion H; auto.
Qed.

(** Consecutive elements are linked by the table. *)
Lemma chain_links w t last seen c l : chain_from w t last seen c l -> forall p a b q, l = p ++ a :: b :: q ->
  exists x, a = Some x /\ match b with Some y => table_entry w t x = y | None => table_entry w t x = bad w /\ q = [] end.
Proof.
  induction 1 as [seen c H|seen c H|seen c n l H H' IH]; intros p a b q E.
  - destruct p as [|? [|]]; discriminate.
  - destruct p as [|z p]; cbn [app] in E.
    + injection E as <- <- <-. exists c. split; auto. inversion H; subst; auto.
    + injection E as _ E. destruct p as [|? [|]]; discriminate.
  - destruct p as [|z p]; cbn [app] in E.
    + injection E as <- E. exists c. split; auto.
      assert (b = Some n). { inversion H'; subst; congruence. } subst b. inversion H; subst; auto.
    + injection E as _ E. eapply IH; eauto.
Qed.

(** Chains that were written: distinct clusters linked one to the next. *)
Fixpoint linked (w : Z) (t : list Z) (last : Z) (l : list Z) : Prop :=
  match l with
  | [] => True
  | c :: r => has_entry w t last c /\
      match r with [] => eoc w <= table_entry w t c | n :: _ => 2 <= n < bad w /\ table_entry w t c = n end /\
      linked w t last r
  end.

Lemma linked_chain w t last l : forall c seen, linked w t last (c :: l) -> NoDup (c :: l) ->
  (forall x, In x (c :: l) -> ~ In x seen) -> chain_from w t last seen c (map Some (c :: l)).
Proof.
  induction l as [|n l IH]; intros c seen (H1 & H2 & H3) ND NI.
  - apply ch_stop. apply fo_stop with (n := table_entry w t c); auto.
  - destruct H2 as [H2 H2']. inversion ND as [|? ? N1 N2]; subst. cbn [map]. apply ch_next with (n := table_entry w t c).
    + apply fo_next; auto. intros [X|X]; [apply N1; now left|]. apply (NI (table_entry w t c)); [right; now left|auto].
    + apply IH; auto. intros x X [<-|Y]; [auto|]. apply (NI x); [now right|auto].
Qed.

(** ** Tables made of given entries *)

Lemma table_number_nonneg w vals : 0 <= w -> 0 <= table_number w vals.
Proof.
  intro H. assert (0 < 2 ^ w) by (apply Z.pow_pos_nonneg; lia).
  induction vals as [|v r IH]; cbn [table_number fold_right]; [lia|].
  fold (table_number w r). pose proof (Z.mod_pos_bound v (2 ^ w)). nia.
Qed.

Lemma table_number_bound w vals : 0 <= w -> table_number w vals < 2 ^ (w * zlen vals).
Proof.
  intro H. assert (0 < 2 ^ w) by (apply Z.pow_pos_nonneg; lia).
  induction vals as [|v r IH]; cbn [table_number fold_right].
  - change (zlen (@nil Z)) with 0. rewrite Z.mul_0_r. reflexivity.
  - fold (table_number w r). pose proof (Z.mod_pos_bound v (2 ^ w)). rewrite zlen_cons. pose proof (zlen_nonneg r).
    replace (w * (1 + zlen r)) with (w + w * zlen r) by lia. rewrite Z.pow_add_r by nia. nia.
Qed.

Lemma table_number_entry w vals : 0 <= w -> forall n v, znth vals n = Some v -> (table_number w vals / 2 ^ (w * n)) mod 2 ^ w = v mod 2 ^ w.
Proof.
  intro H. assert (P : 0 < 2 ^ w) by (apply Z.pow_pos_nonneg; lia).
  induction vals as [|x r IH]; intros n v Z; [destruct n; discriminate|].
  cbn [table_number fold_right]. fold (table_number w r).
  destruct (Z.eq_dec n 0) as [->|N].
  - injection Z as <-. rewrite Z.mul_0_r, Z.pow_0_r, Z.div_1_r. rewrite Z.mul_comm, Z.mod_add by lia. apply Z.mod_mod. lia.
  - assert (0 <= n) by (destruct (Z.lt_ge_cases n 0); [rewrite znth_neg in Z by lia; discriminate|lia]).
    cbn [znth] in Z. replace (n =? 0) with false in Z by lia.
    rewrite <- (IH (n - 1) v Z). replace (w * n) with (w + w * (n - 1)) by lia. rewrite Z.pow_add_r by nia.
    rewrite <- Z.div_div by (try lia; apply Z.pow_pos_nonneg; nia).
    f_equal. f_equal. rewrite (Z.mul_comm (2 ^ w)), Z.div_add by lia.
    rewrite Z.div_small by (apply Z.mod_pos_bound; lia). lia.
Qed.

(** ** Short names *)

Lemma fat_list_eqb_eq a : forall b, list_eqb a b = true <-> a = b.
Proof.
  induction a as [|x a IH]; intros [|y b]; cbn [list_eqb]; try (split; congruence).
  rewrite andb_true_iff, Z.eqb_eq, IH. split; [intros [-> ->]; auto|intro E; injection E; auto].
Qed.

Lemma rstrip_app l : exists k, l = rstrip_space l ++ repeat 32 k.
Proof.
  induction l as [|c t [k IH]]; [exists O; auto|]. cbn [rstrip_space].
  destruct (rstrip_space t) as [|x t'] eqn:E.
  - destruct (Z.eqb_spec c 32) as [->|N].
    + exists (S k). cbn [app repeat]. f_equal. exact IH.
    + exists k. cbn [app]. f_equal. exact IH.
  - exists k. cbn [app]. f_equal. exact IH.
Qed.

Lemma rstrip_inj l m : length l = length m -> rstrip_space l = rstrip_space m -> l = m.
Proof.
  intros L E. destruct (rstrip_app l) as [j A]. destruct (rstrip_app m) as [k B].
  assert (j = k). { rewrite A, B, E, !app_length, !repeat_length in L. lia. }
  rewrite A, B, E. now subst j.
Qed.

Lemma rstrip_forall (P : Z -> Prop) l : Forall P l -> Forall P (rstrip_space l).
Proof. intro H. destruct (rstrip_app l) as [k A]. rewrite A in H. now apply Forall_app in H as [H _]. Qed.

Lemma zdrop_In (l : list Z) n x : In x (zdrop n l) -> In x l.
Proof. intro H. rewrite <- (ztake_zdrop l n). apply in_or_app. now right. Qed.

Lemma slice_In (l : list Z) a b x : In x (slice l a b) -> In x l.
Proof.
  intro H. apply (zdrop_In l a). rewrite <- (ztake_zdrop (zdrop a l) (b - a)). apply in_or_app. now left.
Qed.

Lemma slice_0 {A} (l : list A) b : slice l 0 b = ztake b l.
Proof. unfold slice. rewrite zdrop_nonpos by lia. f_equal. lia. Qed.

Lemma forall_slice (P : Z -> Prop) l a b : Forall P l -> Forall P (slice l a b).
Proof. intro H. rewrite Forall_forall in *. intros x X. apply H. eapply slice_In; eauto. Qed.

Definition name_byte (c : Z) : Prop := fat_forbidden c = false /\ is_lower c = false.

Lemma name_byte_safe c : is_byte c -> name_byte c -> name_safe c /\ c <> 46.
Proof.
  intros B [F _]. unfold fat_forbidden in F. apply orb_false_iff in F as [F1 F2]. apply zin_false in F2.
  unfold is_byte in B. unfold name_safe. cbn [In] in *. split; [split; [lia|lia]|lia].
Qed.

(** What a valid name is. *)
Lemma validate_spec n : validate_short_name n = true ->
  zlen n = 11 /\ (n = dot_entry \/ n = dotdot_entry \/
    exists c t, n = c :: t /\ c <> 32 /\ is_lower c = false /\ (c = 5 \/ c = 0 \/ fat_forbidden c = false) /\ Forall name_byte t).
Proof.
  unfold validate_short_name. destruct (zlen n =? 11) eqn:E; bools; cbn [negb]; [|discriminate].
  destruct (list_eqb n dot_entry || list_eqb n dotdot_entry) eqn:E2.
  { intros _. split; auto. apply orb_true_iff in E2. rewrite !fat_list_eqb_eq in E2. tauto. }
  destruct n as [|c t]; [discriminate|]. intro H. apply andb_true_iff in H as [H1 H2]. split; auto. right. right.
  exists c, t. split; auto. unfold validate_first in H1.
  destruct (Z.eqb_spec c 32); [discriminate|]. destruct (is_lower c); [discriminate|].
  split; auto. split; auto. split.
  - destruct (Z.eqb_spec c 5); auto. destruct (Z.eqb_spec c 0); auto. destruct (fat_forbidden c); [discriminate|auto].
  - rewrite forallb_forall in H2. apply Forall_forall. intros x X. specialize (H2 x X). apply andb_true_iff in H2 as [A B].
    apply negb_true_iff in A, B. now split.
Qed.

(** The eleven bytes that are printed. *)
Lemma fixed_name n : bytes_ok n -> validate_short_name n = true ->
  n = dot_entry \/ n = dotdot_entry \/ (n <> dot_entry /\ n <> dotdot_entry /\ exists c t, fix_first n = c :: t /\ c <> 32 /\
     zlen (c :: t) = 11 /\ Forall (fun c => name_safe c /\ c <> 46) (c :: t)).
Proof.
  intros B V. apply validate_spec in V as [L [->|[->|(c & t & -> & N & LW & C & F)]]]; auto. right. right.
  inversion B as [|? ? Bc Bt]; subst.
  assert (C46 : c <> 46). { destruct C as [->|[->|C]]; try lia. intros ->. discriminate. }
  split; [intro X; injection X; lia|]. split; [intro X; injection X; lia|].
  assert (FT : Forall (fun c => name_safe c /\ c <> 46) t).
  { rewrite Forall_forall in *. intros x X. apply name_byte_safe; auto. }
  cbn [fix_first]. destruct ((c =? 0) || (c =? 229)) eqn:E1.
  - exists 95, t. repeat split; try lia; auto. constructor; auto. unfold name_safe. cbn [In]. lia.
  - bools. destruct (c =? 5) eqn:E2; bools.
    + exists 229, t. repeat split; try lia; auto. constructor; auto. unfold name_safe. cbn [In]. lia.
    + exists c, t. repeat split; auto. constructor; auto. apply name_byte_safe; auto. split; auto. destruct C as [?|[?|?]]; lia || auto.
Qed.

Lemma parse_short_name_safe dec lower lb le n s :
  (forall l, Forall name_safe l -> Forall name_safe (dec l)) -> (forall l, Forall name_safe l -> Forall name_safe (lower l)) ->
  bytes_ok n -> parse_short_name dec lower lb le n = Some s -> Forall name_safe s.
Proof.
  intros D LW B. unfold parse_short_name. destruct (validate_short_name n) eqn:V; cbn [negb]; [|discriminate].
  assert (S : Forall name_safe (fix_first n)).
  { destruct (fixed_name n B V) as [->|[->|(_ & _ & c & t & -> & _ & _ & F)]].
    - repeat constructor; try lia; cbn [In]; lia.
    - repeat constructor; try lia; cbn [In]; lia.
    - eapply Forall_impl; [|exact F]. cbv beta. tauto. }
  set (f := fix_first n) in *. clearbody f.
  assert (S1 : Forall name_safe (dec (rstrip_space (slice f 0 8)))) by (apply D, rstrip_forall, forall_slice, S).
  assert (S2 : Forall name_safe (dec (rstrip_space (zdrop 8 f)))).
  { apply D, rstrip_forall. rewrite Forall_forall in *. intros x X. apply S. eapply zdrop_In; eauto. }
  set (b := if lb then _ else _). assert (Sb : Forall name_safe b) by (unfold b; destruct lb; auto). clearbody b.
  set (e := if le then _ else _). assert (Se : Forall name_safe e) by (unfold e; destruct le; auto). clearbody e.
  destruct e as [|x e]; intro H; injection H as <-; auto.
  apply Forall_app. split; auto. constructor; auto. unfold name_safe. cbn [In]. lia.
Qed.

Lemma app_sep_inj (a b c d : list Z) : ~ In 46 a -> ~ In 46 c -> a ++ 46 :: b = c ++ 46 :: d -> a = c /\ b = d.
Proof.
  revert c. induction a as [|x a IH]; intros [|y c] NA NC E; cbn [app] in E.
  - now injection E.
  - exfalso. injection E as E _. apply NC. now left.
  - exfalso. injection E as E _. apply NA. now left.
  - injection E as -> E. apply IH in E as [-> ->]; auto; intro X; [apply NA|apply NC]; now right.
Qed.

(** The printed name determines the eleven bytes, but for the mark of deletion. *)
Lemma parse_short_name_raw_inj n m s : bytes_ok n -> bytes_ok m ->
  parse_short_name_raw n = Some s -> parse_short_name_raw m = Some s -> fix_first n = fix_first m.
Proof.
  intros Bn Bm. unfold parse_short_name_raw, parse_short_name.
  destruct (validate_short_name n) eqn:Vn; cbn [negb]; [|discriminate].
  destruct (validate_short_name m) eqn:Vm; cbn [negb]; [|discriminate].
  assert (K : forall n s, bytes_ok n -> validate_short_name n = true ->
    (match rstrip_space (zdrop 8 (fix_first n)) with [] => Some (rstrip_space (slice (fix_first n) 0 8))
      | _ => Some (rstrip_space (slice (fix_first n) 0 8) ++ [46] ++ rstrip_space (zdrop 8 (fix_first n))) end) = Some s ->
    (n = dot_entry /\ s = [46]) \/ (n = dotdot_entry /\ s = [46; 46]) \/
    exists b e, length b = 8%nat /\ length e = 3%nat /\ fix_first n = b ++ e /\ ~ In 46 (rstrip_space b) /\ ~ In 46 (rstrip_space e) /\ rstrip_space b <> [] /\
      s = match rstrip_space e with [] => rstrip_space b | _ => rstrip_space b ++ [46] ++ rstrip_space e end).
  { clear. intros n s B V E. destruct (fixed_name n B V) as [->|[->|(_ & _ & c & t & EQ & C & L & F)]].
    - left. vm_compute in E. injection E as <-. auto.
    - right. left. vm_compute in E. injection E as <-. auto.
    - right. right. rewrite EQ in *.
      exists (slice (c :: t) 0 8), (zdrop 8 (c :: t)).
      assert (L1 : length (slice (c :: t) 0 8) = 8%nat).
      { enough (zlen (slice (c :: t) 0 8) = 8) by (unfold zlen in *; lia). rewrite zlen_slice by lia. lia. }
      assert (L2 : length (zdrop 8 (c :: t)) = 3%nat).
      { enough (zlen (zdrop 8 (c :: t)) = 3) by (unfold zlen in *; lia). rewrite zlen_zdrop by lia. lia. }
      assert (A : c :: t = slice (c :: t) 0 8 ++ zdrop 8 (c :: t)).
      { rewrite slice_0. symmetry. apply ztake_zdrop. }
      assert (NI : forall l, Forall (fun c => name_safe c /\ c <> 46) l -> ~ In 46 l).
      { intros l Fl X. rewrite Forall_forall in Fl. destruct (Fl _ X). congruence. }
      assert (F2 : Forall (fun c => name_safe c /\ c <> 46) (slice (c :: t) 0 8 ++ zdrop 8 (c :: t))) by (rewrite <- A; auto).
      apply Forall_app in F2 as [F2 F3].
      repeat split; auto using rstrip_forall.
      + intro X. rewrite slice_0 in X. change (ztake 8 (c :: t)) with (c :: ztake 7 t) in X. cbn [rstrip_space] in X.
        destruct (rstrip_space (ztake 7 t)); [|discriminate]. replace (c =? 32) with false in X by lia. discriminate.
      + destruct (rstrip_space (zdrop 8 (c :: t))) as [|x r]; injection E as <-; auto. }
  intros En Em. apply K in En; auto. apply K in Em; auto. clear K.
  destruct En as [[-> En]|[[-> En]|(b1 & e1 & L1 & L2 & F1 & N1 & N2 & N3 & S1)]];
    destruct Em as [[-> Em]|[[-> Em]|(b2 & e2 & M1 & M2 & G1 & O1 & O2 & O3 & S2)]]; auto; try congruence.
  - exfalso. rewrite En in S2. destruct (rstrip_space e2) as [|x r]; [apply O1; rewrite <- S2; now left|].
    destruct (rstrip_space b2) as [|y b']; [congruence|]. cbn [app] in S2. injection S2 as <- _. apply O1. now left.
  - exfalso. rewrite En in S2. destruct (rstrip_space e2) as [|x r]; [apply O1; rewrite <- S2; now left|].
    destruct (rstrip_space b2) as [|y b']; [congruence|]. cbn [app] in S2. injection S2 as <- _. apply O1. now left.
  - exfalso. rewrite Em in S1. destruct (rstrip_space e1) as [|x r]; [apply N1; rewrite <- S1; now left|].
    destruct (rstrip_space b1) as [|y b']; [congruence|]. cbn [app] in S1. injection S1 as <- _. apply N1. now left.
  - exfalso. rewrite Em in S1. destruct (rstrip_space e1) as [|x r]; [apply N1; rewrite <- S1; now left|].
    destruct (rstrip_space b1) as [|y b']; [congruence|]. cbn [app] in S1. injection S1 as <- _. apply N1. now left.
  - rewrite F1, G1. subst s.
    destruct (rstrip_space e1) as [|x1 r1] eqn:R1; destruct (rstrip_space e2) as [|x2 r2] eqn:R2.
    + f_equal; apply rstrip_inj; congruence.
    + exfalso. apply N1. rewrite S2. apply in_or_app. right. now left.
    + exfalso. apply O1. rewrite <- S2. apply in_or_app. right. now left.
    + apply app_sep_inj in S2 as [A B]; auto. f_equal; apply rstrip_inj; congruence.
Qed.
