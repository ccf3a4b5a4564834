(** Property C23. *)
From Verif Require Import Base BaseLemmas BootSector BootSectorProofs.

(** C23: what is accepted, and the meaning of every field, for every buffer. *)
Theorem C23_accepted : forall b, (exists s, bs_open b = Ok s) <-> ntfs_boot b.
Proof. exact bs_open_iff. Qed.
Print Assumptions C23_accepted.

Theorem C23_sector_size : forall b n, bytes_ok b -> ntfs_boot b ->
  (bs_bytes_per_sector b = Ok n <-> (n = fld 2 b 11 /\ 512 <= n /\ n mod 512 = 0)).
Proof. intros b n B [(k & K1 & K2) _]. apply bps_iff; auto. lia. Qed.
Print Assumptions C23_sector_size.

Theorem C23_cluster_size : forall b n, bytes_ok b -> ntfs_boot b ->
  (bs_sectors_per_cluster b = Ok n <-> cluster_code (fld 1 b 13) n).
Proof. intros b n B [(k & K1 & K2) _]. apply spc_iff; auto. lia. Qed.
Print Assumptions C23_cluster_size.

Theorem C23_record_sizes : forall b off n, bytes_ok b -> ntfs_boot b -> off = 64 \/ off = 68 ->
  (record_size_at b off = Ok n <->
   (128 <= fld 1 b off /\ n = 2 ^ (256 - fld 1 b off)) \/
   (1 <= fld 1 b off <= 127 /\ exists spc bps, bs_sectors_per_cluster b = Ok spc /\
      bs_bytes_per_sector b = Ok bps /\ n = fld 1 b off * spc * bps)).
Proof. intros b off n B [(k & K1 & K2) _] Ho. apply record_size_iff; auto; lia. Qed.
Print Assumptions C23_record_sizes.

Theorem C23_locations : forall b n, bytes_ok b -> ntfs_boot b ->
  (bs_total_sectors b = Ok n <-> n = fld 8 b 40 /\ n <> 0) /\
  (bs_mft_cluster b = Ok n <-> n = fld 8 b 48 /\ n <> 0) /\
  (bs_mftmirr_cluster b = Ok n <-> n = fld 8 b 56 /\ n <> 0).
Proof. intros b n B [(k & K1 & K2) _]. split; [|split]; apply nonzero_iff; lia. Qed.
Print Assumptions C23_locations.

(** A getter raises nothing but BootSectorException. *)
Theorem C23_errors : forall b e, bytes_ok b -> ntfs_boot b ->
  In (Err e) [bs_bytes_per_sector b; bs_sectors_per_cluster b; bs_total_sectors b; bs_mft_cluster b;
              bs_mftmirr_cluster b; bs_frs_size b; bs_index_size b; bs_serial b] -> e = BootSectorException.
Proof.
  intros b e B [(k & K1 & K2) _] H. assert (L : 512 <= zlen b) by lia. cbn [In] in H.
  destruct H as [H|[H|[H|[H|[H|[H|[H|[H|[]]]]]]]]].
  - eapply bps_err; eauto.
  - eapply spc_err; eauto.
  - eapply nonzero_err in H; try lia; tauto.
  - eapply nonzero_err in H; try lia; tauto.
  - eapply nonzero_err in H; try lia; tauto.
  - eapply record_size_err in H; auto; lia.
  - eapply record_size_err in H; auto; lia.
  - unfold bs_serial, u64 in H. rewrite unp_ok in H by lia. discriminate.
Qed.
Print Assumptions C23_errors.

Theorem C23_boot_code : forall b, bytes_ok b -> ntfs_boot b ->
  bs_boot_code_present b = Ok (negb (fld 2 b 0 =? 0) && (fld 2 b 510 =? 0xAA55)).
Proof. intros b B [(k & K1 & K2) _]. apply boot_code_iff; auto. lia. Qed.
Print Assumptions C23_boot_code.

(** A sector with the given bytes. *)
Definition boot_sample (bps_hi spc frs idx mft : Z) : list Z :=
  [235; 82; 144; 78; 84; 70; 83; 32; 32; 32; 32; 0; bps_hi; spc] ++ zeros 26 ++
  [255; 255; 0; 0; 0; 0; 0; 0] ++ le_bytes 8 mft ++ le_bytes 8 2 ++ [frs; 0; 0; 0; idx; 0; 0; 0] ++
  le_bytes 8 77 ++ zeros 430 ++ [85; 170].

Example C23_case :
  let b := boot_sample 2 8 246 1 786432 in
  let c := boot_sample 16 0xF4 246 1 0 in
  ntfs_boot b /\
  (bs_bytes_per_sector b, bs_sectors_per_cluster b, bs_mft_cluster b, bs_frs_size b, bs_index_size b,
   bs_boot_code_present b, bs_serial b)
  = (Ok 512, Ok 8, Ok 786432, Ok 1024, Ok 4096, Ok true, Ok 77) /\
  (bs_bytes_per_sector c, bs_sectors_per_cluster c, bs_mft_cluster c, bs_index_size c)
  = (Ok 4096, Ok 4096, Err BootSectorException, Ok (4096 * 4096)).
Proof.
  split; [|vm_compute; auto]. split; [exists 1; vm_compute; split; congruence|reflexivity].
Qed.

(** The power-of-two part of C23 is false: 1536-byte sectors and 3-sector clusters
    are accepted. *)
Theorem C23_power_of_two_refuted : exists b spc bps, bytes_ok b /\ ntfs_boot b /\
  bs_sectors_per_cluster b = Ok spc /\ bs_bytes_per_sector b = Ok bps /\
  (forall k, 0 <= k -> spc <> 2 ^ k) /\ (forall k, 0 <= k -> bps <> 2 ^ k).
Proof.
  exists (boot_sample 6 3 246 1 5), 3, 1536.
  split; [apply bytes_okb_ok; reflexivity|]. split; [split; [exists 1; vm_compute; split; congruence|reflexivity]|].
  split; [reflexivity|]. split; [reflexivity|].
  assert (G : forall lo k, 0 <= lo -> 0 <= k -> 2 ^ k = 2 ^ lo \/ 2 ^ k <= 2 ^ lo \/ 2 ^ (lo + 1) <= 2 ^ k).
  { intros lo k Hlo Hk. destruct (Z.le_gt_cases k lo) as [H|H]; right; [left|right]; apply Z.pow_le_mono_r; lia. }
  split; intros k Hk E.
  - specialize (G 1 k ltac:(lia) Hk). change (2 ^ 1) with 2 in G. change (2 ^ (1 + 1)) with 4 in G. lia.
  - specialize (G 10 k ltac:(lia) Hk). change (2 ^ 10) with 1024 in G. change (2 ^ (10 + 1)) with 2048 in G. lia.
Qed.
Print Assumptions C23_power_of_two_refuted.
