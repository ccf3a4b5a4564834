(** C41, C59: the exFAT boot region. *)
From Verif Require Import Base BaseLemmas FatBasic FatSpec FatProofs MappingPairsProofs ExBasic ExBoot ExSpec ExBasicProofs.

(** ** What is accepted *)

(** Exactly the regions with the right checksum whose fields obey the rules;
    the limit for the heap offset is the one of the code. *)
Theorem C59_exact b : bytes_ok b ->
  (br_open b = Ok tt <-> 6144 <= zlen b /\ zlen b mod 512 = 0 /\ boot_checksum b /\ boot_fields (fld 4 b 92 * spc_of b) b).
Proof.
  intro B. unfold br_open. destruct (Z.ltb_spec (zlen b) (12 * 512)); cbn [orb]; [split; [discriminate|lia]|].
  destruct (Z.eqb_spec (zlen b mod 512) 0); cbn [negb]; [|split; [discriminate|tauto]].
  pose proof (br_validate_spec b B ltac:(lia)) as S. destruct (br_validate b) as [[]|x]; [tauto|]. split; [discriminate|]. tauto.
Qed.

(** Regions that are not accepted give one of these exceptions. *)
Theorem C59_errors b e : bytes_ok b -> br_open b = Err e ->
  In e [BootRegionException; BootRegionChecksumException] \/ (e = NotImplementedError /\ 2 <= fld 1 b 105 <= 99) \/ (e = StructError /\ zlen b < 11 * bps_of b + 4).
Proof.
  intro B. unfold br_open. destruct (Z.ltb_spec (zlen b) (12 * 512)); cbn [orb]; [intro X; injection X as <-; cbn; auto|].
  destruct (Z.eqb_spec (zlen b mod 512) 0); cbn [negb]; [|intro X; injection X as <-; cbn; auto].
  pose proof (br_validate_spec b B ltac:(lia)) as S. intro E. rewrite E in S. tauto.
Qed.

(** ** Corruption *)

Lemma zset_split (b : list Z) i v : 0 <= i < zlen b -> exists x, znth b i = Some x /\
  b = ztake i b ++ x :: zdrop (i + 1) b /\ zset b i v = ztake i b ++ v :: zdrop (i + 1) b.
Proof.
  intro H. destruct (znth_some b i H) as [x X]. exists x. split; auto. rewrite <- (zdrop_cons_znth b i x X). split; [symmetry; apply ztake_zdrop|].
  revert i H X. induction b as [|y b IH]; intros i H X; [cbn in H; lia|]. rewrite zlen_cons in H. cbn [zset znth ztake zdrop] in *.
  replace (i + 1 <=? 0) with false by lia. destruct (Z.eqb_spec i 0) as [->|N].
  - cbn [Z.leb Z.compare app]. now rewrite zdrop_nonpos by lia.
  - replace (i <=? 0) with false by lia. cbn [app]. f_equal. rewrite (IH (i - 1)) by (auto; lia). do 2 f_equal. f_equal. lia.
Qed.

Lemma slice_zset_other (b : list Z) i v a c : 0 <= a -> ~ (a <= i < c) -> slice (zset b i v) a c = slice b a c.
Proof.
  intros A H. apply znth_ext. { now rewrite !zlen_slice, zlen_zset by auto. } intros j J. rewrite zlen_slice, zlen_zset in J by auto.
  rewrite !znth_slice by lia. apply znth_zset_other. lia.
Qed.

Lemma fld_zset_other w (b : list Z) i v o : 0 <= o -> ~ (o <= i < o + w) -> fld w (zset b i v) o = fld w b o.
Proof. intros O H. unfold fld. now rewrite slice_zset_other. Qed.

(** Changing one byte of the first eleven sectors is noticed, with the exception
    of the volume flags, the percentage in use and the sector size itself. *)
Theorem C41_detected b i v x : bytes_ok b -> br_open b = Ok tt -> 0 <= i < 11 * bps_of b -> ~ In i [106; 107; 108; 112] ->
  is_byte v -> znth b i = Some x -> v <> x -> br_open (zset b i v) <> Ok tt.
Proof.
  intros B O I NI V X NE O2. apply C59_exact in O as (L & M & [K1 K2] & F); auto.
  assert (B2 : bytes_ok (zset b i v)) by now apply zset_bytes_ok. apply C59_exact in O2 as (L2 & M2 & [K3 K4] & F2); auto.
  assert (BP : bps_of (zset b i v) = bps_of b) by (unfold bps_of; rewrite fld_zset_other; [reflexivity|lia|cbn in NI; lia]). rewrite BP in *.
  specialize (K2 0 ltac:(cbn; auto)). specialize (K4 0 ltac:(cbn; auto)). rewrite fld_zset_other in K4 by lia. rewrite K2 in K4.
  pose proof (bps_range b (bf_sector _ _ F)) as R.
  rewrite <- !boot_checksum_spec in K4 by (rewrite ?zlen_zset; lia). rewrite !slice_0 in K4.
  destruct (zset_split (ztake (bps_of b * 11) b) i v) as (y & Y & E1 & E2); [rewrite zlen_ztake; lia|].
  assert (T : ztake (bps_of b * 11) (zset b i v) = zset (ztake (bps_of b * 11) b) i v).
  { apply znth_ext. { now rewrite zlen_zset, !zlen_ztake, zlen_zset. } intros j J. rewrite zlen_ztake, zlen_zset in J.
    rewrite znth_ztake by lia. destruct (Z.eq_dec j i) as [->|].
    - rewrite !znth_zset_same; [reflexivity| |]; rewrite ?zlen_ztake; lia.
    - rewrite !znth_zset_other by auto. rewrite znth_ztake by lia. reflexivity. }
  rewrite T, E2 in K4. rewrite E1 in K4 at 1.
  assert (Y2 : y = x) by (rewrite znth_ztake in Y by lia; congruence). subst y.
  apply loop_byte in K4; [congruence|lia|exact (bytes_ok_znth _ _ _ B X)|auto|].
  rewrite !zlen_ztake. apply zin_false. replace (Z.max 0 (Z.min i (Z.max 0 (Z.min (bps_of b * 11) (zlen b))))) with i by lia. cbn in *. lia.
Qed.

(** Those bytes do not affect the checksum; the percentage does not matter at all. *)
Theorem C41_ignored b i v : bytes_ok b -> 6144 <= zlen b -> In i [106; 107; 112] -> is_byte v ->
  br_calculate (zset b i v) = br_calculate b /\ br_checksum (zset b i v) = br_checksum b.
Proof.
  intros B L I V. assert (B2 : bytes_ok (zset b i v)) by now apply zset_bytes_ok.
  assert (SH : fld 1 (zset b i v) 108 = fld 1 b 108) by (apply fld_zset_other; cbn in I; lia).
  assert (BP : bps_of (zset b i v) = bps_of b) by (unfold bps_of; now rewrite SH).
  unfold br_calculate, br_checksum. rewrite !bps_spec by auto. rewrite SH, BP, zlen_zset.
  destruct (Z.leb_spec 9 (fld 1 b 108)), (Z.leb_spec (fld 1 b 108) 12); cbn [andb bind]; auto.
  pose proof (bps_range b ltac:(lia)) as R. split.
  - destruct (Z.ltb_spec (zlen b) (bps_of b * 11)); auto. f_equal. rewrite !boot_checksum_spec by (rewrite ?zlen_zset; lia).
    unfold boot_bytes. cbn in I. rewrite !slice_zset_other by lia. reflexivity.
  - cbn in I. rewrite !slice_zset_other by lia. reflexivity.
Qed.

Theorem C41_percent b v : bytes_ok b -> is_byte v -> (br_open (zset b 112 v) = Ok tt <-> br_open b = Ok tt).
Proof.
  intros B V. assert (B2 : bytes_ok (zset b 112 v)) by now apply zset_bytes_ok. rewrite !C59_exact by auto. rewrite zlen_zset.
  assert (E : forall w o, 0 <= o -> ~ (o <= 112 < o + w) -> fld w (zset b 112 v) o = fld w b o) by (intros; apply fld_zset_other; lia).
  assert (BP : bps_of (zset b 112 v) = bps_of b) by (unfold bps_of; rewrite E by lia; reflexivity).
  assert (SP : spc_of (zset b 112 v) = spc_of b) by (unfold spc_of; rewrite E by lia; reflexivity).
  assert (F : boot_fields (fld 4 (zset b 112 v) 92 * spc_of (zset b 112 v)) (zset b 112 v) <-> boot_fields (fld 4 b 92 * spc_of b) b).
  { split; intros []; constructor; rewrite ?BP, ?SP, ?slice_zset_other, ?E in *; auto; lia. }
  rewrite F. split; intros (L & M & [K1 K2] & FF); (split; [auto|split; [auto|split; [|auto]]]); pose proof (bps_range b (bf_sector _ _ FF)) as R;
    unfold boot_checksum in *; rewrite ?BP, ?zlen_zset in *; (split; [lia|]); intros i I; specialize (K2 i I); unfold boot_bytes in *; cbn [In] in I;
    rewrite ?E, ?slice_zset_other in * by lia; auto.
Qed.
Print Assumptions C59_exact.
Print Assumptions C59_errors.
Print Assumptions C41_detected.
Print Assumptions C41_ignored.
Print Assumptions C41_percent.

(** ** Examples *)

(** A boot region: heap offset, cluster count, sector size shift; [n] sectors of it; without checksums. *)
Definition ex_head (heap count shift : Z) : list Z :=
  [0xEB; 0x76; 0x90] ++ [69; 88; 70; 65; 84; 32; 32; 32] ++ zeros 53 ++ zeros 8 ++ le_bytes 8 2048 ++ le_bytes 4 24 ++ le_bytes 4 2 ++
  le_bytes 4 heap ++ le_bytes 4 count ++ le_bytes 4 4 ++ le_bytes 4 0x1234 ++ [0; 1; 0; 0; shift; 3; 1; 0x80; 0] ++ zeros 397 ++ [0x55; 0xAA].
Definition with_sum (b : list Z) (bps : Z) : list Z :=
  let s := le_bytes 4 (x_checksum_loop 32 [106; 107; 112] 0 0 (slice b 0 (11 * bps))) in
  slice b 0 (11 * bps) ++ s ++ s ++ s ++ slice b (11 * bps + 12) (zlen b).
Definition ex_region : list Z := with_sum (ex_head 32 200 9 ++ zeros (11 * 512)) 512.

Example C41_example : br_open ex_region = Ok tt /\ br_open (zset ex_region 600 1) = Err BootRegionChecksumException /\
  br_open (zset ex_region 106 2) = Ok tt.
Proof. vm_compute. repeat split. Qed.

(** The claim fails for the byte with the sector size: both regions are
    accepted, as the sectors behind the first region may hold other checksums. *)
Definition ex_both : list Z :=
  let b := with_sum (ex_head 32 200 9 ++ zeros (23 * 512)) 512 in
  zset (with_sum (zset b 108 10) 1024) 108 9.

Theorem C41_sector_size_refuted : exists b, bytes_ok b /\ br_open b = Ok tt /\ znth b 108 = Some 9 /\ br_open (zset b 108 10) = Ok tt.
Proof.
  exists ex_both. split; [apply bytes_okb_ok; vm_compute; reflexivity|]. split; [vm_compute; reflexivity|]. split; vm_compute; reflexivity.
Qed.
Print Assumptions C41_sector_size_refuted.

(** A region that obeys the specification (the heap may begin anywhere as long
    as the clusters fit into the volume) is rejected. *)
Definition ex_far : list Z := with_sum (ex_head 1700 40 9 ++ zeros (11 * 512)) 512.

Theorem C59_valid_rejected_refuted : exists b, bytes_ok b /\ zlen b = 12 * bps_of b /\ boot_checksum b /\ boot_fields (2 ^ 32 - 1) b /\ br_open b = Err BootRegionException.
Proof.
  exists ex_far. assert (B : bytes_ok ex_far) by (apply bytes_okb_ok; vm_compute; reflexivity).
  assert (L : zlen ex_far = 6144) by (vm_compute; reflexivity). assert (P : bps_of ex_far = 512) by (vm_compute; reflexivity).
  assert (S : match br_checksum ex_far, br_calculate ex_far with Ok x, Ok y => x =? y | _, _ => false end = true) by (vm_compute; reflexivity).
  assert (F : br_open ex_far = Err BootRegionException) by (vm_compute; reflexivity).
  split; [exact B|]. split; [rewrite L, P; reflexivity|]. split; [|split; [|exact F]].
  - apply checksum_ok; [exact B|rewrite L; discriminate|].
    clear B L P F. destruct (br_checksum ex_far) as [x|]; [|discriminate S]. destruct (br_calculate ex_far) as [y|]; [|discriminate S]. exists x. split; [reflexivity|]. apply Z.eqb_eq in S. rewrite S. reflexivity.
  - constructor; rewrite ?P.
    + vm_compute. reflexivity.
    + vm_compute. reflexivity.
    + vm_compute. reflexivity.
    + split; vm_compute; discriminate.
    + vm_compute. discriminate.
    + vm_compute. discriminate.
    + vm_compute. discriminate.
    + vm_compute. discriminate.
    + vm_compute. discriminate.
    + vm_compute. discriminate.
    + vm_compute. discriminate.
    + vm_compute. discriminate.
    + split; vm_compute; discriminate.
    + split; [vm_compute; reflexivity|vm_compute; discriminate].
    + left. vm_compute. reflexivity.
    + vm_compute. discriminate.
Qed.
Print Assumptions C59_valid_rejected_refuted.
