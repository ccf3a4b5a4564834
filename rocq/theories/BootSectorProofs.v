From Verif Require Import Base BaseLemmas FieldLemmas BootSector.

(** ** Specification: the fields of the BIOS parameter block. *)

Definition ntfs_boot (b : list Z) : Prop :=
  (exists k, 1 <= k /\ zlen b = 512 * k) /\ slice b 3 11 = [78; 84; 70; 83; 32; 32; 32; 32].

(** Number of sectors (or bytes) stored in one byte: a count up to 128, or a power
    of two as a negative exponent. *)
Definition cluster_code (c n : Z) : Prop := (1 <= c <= 128 /\ n = c) \/ (129 <= c <= 255 /\ n = 2 ^ (256 - c)).

Definition record_code (c cluster n : Z) : Prop :=
  (1 <= c <= 127 /\ n = c * cluster) \/ (128 <= c <= 255 /\ n = 2 ^ (256 - c)).

Lemma bs_open_iff b : (exists s, bs_open b = Ok s) <-> ntfs_boot b.
Proof.
  unfold bs_open, ntfs_boot. pose proof (zlen_nonneg b).
  destruct (_ || _) eqn:E; bools.
  - split; [intros [s K]; discriminate|]. intros [(k & K1 & K2) _]. lia.
  - destruct (zlist_eqb _ _) eqn:E2.
    + apply zlist_eqb_eq in E2. split; eauto. intros _. split; auto. exists (zlen b / 512). lia.
    + apply zlist_eqb_neq in E2. split; [intros [s K]; discriminate|tauto].
Qed.

Section Fields.
  Variable b : list Z.
  Hypothesis B : bytes_ok b.
  Hypothesis L : 512 <= zlen b.

  Lemma fld_byte off : 0 <= off -> 0 <= fld 1 b off <= 255.
  Proof. intro H. pose proof (fld_bound 1 b off H ltac:(lia) B). change (256 ^ 1) with 256 in *. lia. Qed.

  Lemma fld2_bytes off : 0 <= off -> off + 2 <= zlen b -> fld 2 b off = fld 1 b off + 256 * fld 1 b (off + 1).
  Proof.
    intros H1 H2. unfold fld. rewrite (slice_split b off (off + 1) (off + 2)) by lia.
    rewrite le_val_app, zlen_slice by lia. replace (off + 1 + 1) with (off + 2) by lia.
    replace (Z.max 0 _) with 1 by lia. lia.
  Qed.

  Lemma bps_iff n : bs_bytes_per_sector b = Ok n <-> (n = fld 2 b 11 /\ 512 <= n /\ n mod 512 = 0).
  Proof.
    unfold bs_bytes_per_sector, u8. rewrite !unp_ok by lia. cbn [bind].
    rewrite fld2_bytes by lia. pose proof (fld_byte 11 ltac:(lia)). pose proof (fld_byte 12 ltac:(lia)).
    change (11 + 1) with 12.
    destruct (Z.eqb_spec (fld 1 b 11) 0) as [E|E]; cbn [negb].
    - destruct (_ || _) eqn:E2; bools.
      + split; [discriminate|lia].
      + split; [intros [= <-]; lia|]. intros [-> _]. f_equal. lia.
    - split; [discriminate|]. intros (-> & K1 & K2). lia.
  Qed.

  Lemma bps_err e : bs_bytes_per_sector b = Err e -> e = BootSectorException.
  Proof.
    unfold bs_bytes_per_sector, u8. rewrite !unp_ok by lia. cbn [bind]. ifs; congruence.
  Qed.

  Lemma sbyte off : 0 <= off -> off + 1 <= zlen b ->
    unp_s 1 b off = Ok (if fld 1 b off <? 128 then fld 1 b off else fld 1 b off - 256).
  Proof.
    intros. unfold unp_s. rewrite unp_ok by lia. cbn [bind]. unfold to_signed. change (8 * 1 - 1) with 7.
    change (2 ^ 7) with 128. change (2 ^ (8 * 1)) with 256. destruct (_ <? _); auto.
  Qed.

  Lemma spc_iff n : bs_sectors_per_cluster b = Ok n <-> cluster_code (fld 1 b 13) n.
  Proof.
    unfold bs_sectors_per_cluster, u8, cluster_code. rewrite !unp_ok by lia. cbn [bind].
    pose proof (fld_byte 13 ltac:(lia)). set (c := fld 1 b 13) in *.
    destruct (Z.eqb_spec c 0); [split; [discriminate|lia]|].
    destruct (Z.leb_spec c 0x80).
    - split; [intros [= <-]; lia|]. intros [[_ ->]|[? _]]; [auto|lia].
    - rewrite sbyte by lia. fold c. cbn [bind]. replace (c <? 128) with false by lia.
      rewrite Z.shiftl_1_l. replace (Z.abs (c - 256)) with (256 - c) by lia.
      split; [intros [= <-]; right; split; [lia|auto]|]. intros [[? _]|[_ ->]]; [lia|auto].
  Qed.

  Lemma spc_err e : bs_sectors_per_cluster b = Err e -> e = BootSectorException.
  Proof.
    unfold bs_sectors_per_cluster, u8. rewrite !unp_ok by lia. cbn [bind]. rewrite sbyte by lia. cbn [bind].
    destruct (_ =? _); [congruence|]. destruct (_ <=? _); discriminate.
  Qed.

  Lemma nonzero_iff off n : 0 <= off -> off + 8 <= 512 -> nonzero_at b off = Ok n <-> (n = fld 8 b off /\ n <> 0).
  Proof.
    intros. unfold nonzero_at, u64. rewrite unp_ok by lia. cbn [bind].
    destruct (Z.eqb_spec (fld 8 b off) 0); split; try discriminate; try (intros [= <-]; auto); intros [-> ?]; tauto.
  Qed.

  Lemma nonzero_err off e : 0 <= off -> off + 8 <= 512 -> nonzero_at b off = Err e ->
    e = BootSectorException /\ fld 8 b off = 0.
  Proof.
    intros ? ?. unfold nonzero_at, u64. rewrite unp_ok by lia. cbn [bind].
    destruct (Z.eqb_spec (fld 8 b off) 0); [|discriminate]. intros [= <-]. auto.
  Qed.

  Lemma record_size_iff off n : 0 <= off -> off + 1 <= 512 ->
    record_size_at b off = Ok n <->
    (128 <= fld 1 b off /\ n = 2 ^ (256 - fld 1 b off)) \/
    (1 <= fld 1 b off <= 127 /\ exists spc bps, bs_sectors_per_cluster b = Ok spc /\
       bs_bytes_per_sector b = Ok bps /\ n = fld 1 b off * spc * bps).
  Proof.
    intros H1 H2. unfold record_size_at. rewrite sbyte by lia. cbn [bind].
    pose proof (fld_byte off H1). set (c := fld 1 b off) in *.
    destruct (Z.ltb_spec c 128).
    - replace (0 <=? c) with true by lia.
      destruct (bs_sectors_per_cluster b) as [spc|e] eqn:E1; cbn [bind].
      2:{ split; [discriminate|]. intros [[? _]|(_ & s & p & K & _)]; [lia|discriminate]. }
      destruct (bs_bytes_per_sector b) as [bps|e] eqn:E2; cbn [bind].
      2:{ split; [discriminate|]. intros [[? _]|(_ & s & p & _ & K & _)]; [lia|discriminate]. }
      apply spc_iff in E1. apply bps_iff in E2.
      assert (0 < spc).
      { destruct E1 as [[? ->]|[? ->]]; [lia|]. apply Z.pow_pos_nonneg; lia. }
      assert (0 < bps) by lia.
      destruct (Z.eqb_spec (c * spc * bps) 0) as [E0|E0].
      + split; [discriminate|]. intros [[? _]|(? & s & p & [= <-] & [= <-] & _)]; [lia|nia].
      + split.
        * intros [= <-]. right. split; [nia|]. exists spc, bps. auto.
        * intros [[? _]|(_ & s & p & [= <-] & [= <-] & ->)]; [lia|auto].
    - replace (0 <=? c - 256) with false by lia. cbn [bind]. rewrite Z.shiftl_1_l.
      replace (Z.abs (c - 256)) with (256 - c) by lia.
      pose proof (Z.pow_pos_nonneg 2 (256 - c) ltac:(lia) ltac:(lia)).
      replace (2 ^ (256 - c) =? 0) with false by lia.
      split; [intros [= <-]; auto|]. intros [[_ ->]|[? _]]; [auto|lia].
  Qed.

  Lemma record_size_err off e : 0 <= off -> off + 1 <= 512 -> record_size_at b off = Err e -> e = BootSectorException.
  Proof.
    intros H1 H2. unfold record_size_at. rewrite sbyte by lia. cbn [bind].
    set (s := if _ <? _ then _ else _). destruct (0 <=? s).
    - destruct (bs_sectors_per_cluster b) as [spc|x] eqn:E1; cbn [bind]; [|intros [= <-]; now apply spc_err].
      destruct (bs_bytes_per_sector b) as [bps|x] eqn:E2; cbn [bind]; [|intros [= <-]; now apply bps_err].
      destruct (_ =? _); congruence.
    - cbn [bind]. destruct (_ =? _); congruence.
  Qed.

  Lemma boot_code_iff : bs_boot_code_present b = Ok (negb (fld 2 b 0 =? 0) && (fld 2 b 510 =? 0xAA55)).
  Proof.
    unfold bs_boot_code_present, u16. rewrite !unp_ok by lia. cbn [bind].
    destruct (fld 2 b 0 =? 0); reflexivity.
  Qed.
End Fields.
