(** Properties C67, C68, C69: every accessor returns the field it is named after,
    for structures written field by field in the documented order. *)
From Verif Require Import Base BaseLemmas FieldLemmas Layout FieldsSpec FieldsProofs Filetime Utf16.
From Verif Require Import Frs Attributes BootSector MoveTable FatBoot FatTable ExBoot Getters.
From Verif Require Shadow.

Ltac fields H := repeat (first [split | progress (repeat getp H; cbn [bind])]); try reflexivity.

(** ** C67: NTFS *)

(** The header of a file record segment, with its 48-bit number. *)
Theorem C67_file_record : forall sig uo un lsn seq refs first flags free size base next number rest usa_off usa_n sug,
  parts_ok (frs_parts sig uo un lsn seq refs first flags free size base next number) -> 0 <= number < 2 ^ 48 ->
  let d := image (frs_parts sig uo un lsn seq refs first flags free size base next number) ++ rest in
  (h_lsn d, h_sequence d, h_refcount d, h_first_attr d, h_flags d, h_first_free d, h_size d, h_base_ref d, h_next_instance d) =
    (lsn, seq, refs, first, flags, free, size, base, next) /\
  h_in_use d = Z.testbit flags 0 /\ h_is_base d = (base =? 0) /\
  frs_mft_number (mk_frs d usa_off usa_n sug) = if usa_off <? 48 then sug else Some number.
Proof.
  intros * H Hn d. unfold frs_parts in *. subst d.
  unfold h_in_use, h_is_base, h_lsn, h_sequence, h_refcount, h_first_attr, h_flags, h_first_free, h_size, h_base_ref,
    h_next_instance, frs_mft_number, frs_short. cbn [frs_data frs_usa_offset frs_suggested]. repeat getp H.
  split; [reflexivity|]. split; [exact (land_pow2_pos flags 0 ltac:(lia))|]. split; [reflexivity|].
  destruct (usa_off <? 48); [reflexivity|]. f_equal. rewrite lor_shiftl_add by (lia || (apply Z.mod_pos_bound; lia)). lia.
Qed.
Print Assumptions C67_file_record.

(** $STANDARD_INFORMATION, both forms; the bits of the extra flags. *)
Theorem C67_standard_information : forall c m e a attrs maxv flags class rest,
  parts_ok (si_short_parts c m e a attrs maxv flags class) ->
  let v := image (si_short_parts c m e a attrs maxv flags class) ++ rest in
  si_ctime v = decode_filetime c true /\ si_mtime v = decode_filetime m true /\
  si_etime v = decode_filetime e true /\ si_atime v = decode_filetime a true /\
  si_file_attributes v = Ok attrs /\ si_maximum_versions v = Ok maxv /\ si_version_number v = Ok flags /\
  si_extra_flags v = Ok flags /\ si_class_id v = Ok class /\
  (rest = [] -> si_owner_id v = Ok None /\ si_security_id v = Ok None /\ si_quota_charged v = Ok None /\ si_usn v = Ok None).
Proof.
  intros * H v. unfold si_short_parts in *. subst v.
  unfold si_ctime, si_mtime, si_etime, si_atime, time_at, si_file_attributes, si_maximum_versions, si_version_number,
    si_extra_flags, si_class_id, u64, u32. repeat getp H. cbn [bind]. do 9 (split; [reflexivity|]).
  intros ->. rewrite app_nil_r. pose proof (image_len _ H) as L. cbn in L.
  unfold si_owner_id, si_security_id, si_quota_charged, si_usn, opt_at.
  repeat split; rewrite slice_beyond by lia; reflexivity.
Qed.
Print Assumptions C67_standard_information.

Theorem C67_standard_information_long : forall c m e a attrs maxv flags class owner security quota usn rest,
  parts_ok (si_long_parts c m e a attrs maxv flags class owner security quota usn) ->
  let v := image (si_long_parts c m e a attrs maxv flags class owner security quota usn) ++ rest in
  si_owner_id v = Ok (Some owner) /\ si_security_id v = Ok (Some security) /\ si_quota_charged v = Ok (Some quota) /\
  si_usn v = Ok (Some usn).
Proof.
  intros * H v. unfold si_long_parts in *. subst v.
  unfold si_owner_id, si_security_id, si_quota_charged, si_usn, opt_at.
  repeat split; repeat getp H; rewrite le_bytes_len; reflexivity.
Qed.
Print Assumptions C67_standard_information_long.

Theorem C67_extra_flags : forall c m e a attrs maxv case folder trust two reserve more class rest,
  0 <= case < 2 -> 0 <= folder < 8 -> 0 <= trust < 4 -> 0 <= two < 4 -> 0 <= reserve < 16 -> 0 <= more ->
  let flags := extra_flags case folder trust two reserve more in
  parts_ok (si_short_parts c m e a attrs maxv flags class) ->
  let v := image (si_short_parts c m e a attrs maxv flags class) ++ rest in
  si_case_sensitive v = Ok (case =? 1) /\ si_known_folder v = Ok folder /\ si_trust_level v = Ok trust /\
  si_storage_reserve_id v = Ok reserve.
Proof.
  intros * Hc Hf Ht H2 Hr Hm flags H v. unfold si_short_parts in *. subst v.
  unfold si_case_sensitive, si_known_folder, si_trust_level, si_storage_reserve_id, si_extra_flags, u32.
  repeat getp H. cbn [bind].
  destruct (extra_flags_bits case folder trust two reserve more Hc Hf Ht H2 Hr Hm) as [E1 [E2 [E3 E4]]].
  fold flags in E1, E2, E3, E4. rewrite E1, E2, E3, E4. repeat split. f_equal. destruct (Z.eqb_spec case 1); lia.
Qed.
Print Assumptions C67_extra_flags.

(** $FILE_NAME; the name comes back for every list of Unicode characters. *)
Theorem C67_file_name : forall parent c m e a alloc size attrs packed unpacked flags name rest,
  Forall scalar name ->
  parts_ok (fn_parts parent c m e a alloc size attrs packed unpacked flags (utf16_encode name)) ->
  let v := image (fn_parts parent c m e a alloc size attrs packed unpacked flags (utf16_encode name)) ++ rest in
  fna_parent v = Ok parent /\
  fna_ctime v = decode_filetime c true /\ fna_mtime v = decode_filetime m true /\
  fna_etime v = decode_filetime e true /\ fna_atime v = decode_filetime a true /\
  fna_allocated_length v = Ok alloc /\ fna_file_size v = Ok size /\ fna_file_attributes v = Ok attrs /\
  fna_packed_ea_size v = Ok packed /\ fna_unpacked_ea_diff v = Ok unpacked /\ fna_flags v = Ok flags /\
  fna_name_length v = Ok (zlen (utf16_encode name) / 2) /\ fna_name v = Ok name.
Proof.
  intros * Hs H v. unfold fn_parts in *. subst v.
  unfold fna_parent, fna_ctime, fna_mtime, fna_etime, fna_atime, time_at, fna_allocated_length, fna_file_size,
    fna_file_attributes, fna_packed_ea_size, fna_unpacked_ea_diff, fna_flags, fna_name, fna_name_length, fnd, u64, u32, u16, u8.
  rewrite ?unp_zdrop, ?unp_s_zdrop by lia. repeat getp H. cbn [bind]. repeat (split; [reflexivity|]).
  f_equal. replace (66 + 2 * (zlen (utf16_encode name) / 2)) with (66 + zlen (utf16_encode name))
    by (pose proof (utf16_encode_even name); lia).
  pose proof (slice_part _ rest H 66 (Raw (zlen (utf16_encode name)) (utf16_encode name)) eq_refl) as SP.
  cbn [width part_bytes] in SP. rewrite SP. now apply utf16_round_trip.
Qed.
Print Assumptions C67_file_name.

(** $VOLUME_INFORMATION, $VOLUME_NAME, $EA_INFORMATION. *)
Theorem C67_volume : forall reserved major minor flags rest name packed need unpacked,
  (parts_ok (vi_parts reserved major minor flags) ->
   let v := image (vi_parts reserved major minor flags) ++ rest in
   vi_major v = Ok major /\ vi_minor v = Ok minor /\ vi_flags v = Ok flags) /\
  (Forall scalar name -> vn_name (utf16_encode name) = name) /\
  (parts_ok (eai_parts packed need unpacked) ->
   let v := image (eai_parts packed need unpacked) ++ rest in
   eai_packed v = Ok packed /\ eai_need v = Ok need /\ eai_unpacked v = Ok unpacked).
Proof.
  intros. split; [|split].
  - intros H v. unfold vi_parts in *. subst v. unfold vi_major, vi_minor, vi_flags, u8, u16. repeat getp H. auto.
  - apply utf16_round_trip.
  - intros H v. unfold eai_parts in *. subst v. unfold eai_packed, eai_need, eai_unpacked, u32, u16. repeat getp H. auto.
Qed.
Print Assumptions C67_volume.

(** The index root and the header that follows it. *)
Theorem C67_index_root : forall type collation bytes blocks first free avail flags pad rest,
  parts_ok (ir_parts type collation bytes blocks ++ ih_parts first free avail flags pad) ->
  let v := image (ir_parts type collation bytes blocks ++ ih_parts first free avail flags pad) ++ rest in
  ir_type_code v = Ok type /\ ir_collation v = Ok collation /\ ir_bytes_per_buffer v = Ok bytes /\
  ir_blocks_per_buffer v = Ok blocks /\
  ih_first_entry (slice v 16 32) = Ok first /\ ih_first_free (slice v 16 32) = Ok free /\
  ih_available (slice v 16 32) = Ok avail /\ ih_flags (slice v 16 32) = Ok flags.
Proof.
  intros * H v.
  assert (E : slice v 16 32 = image (ih_parts first free avail flags pad) ++ []).
  { assert (H1 : parts_ok (ir_parts type collation bytes blocks)) by (apply Forall_app in H; tauto).
    assert (H2 : parts_ok (ih_parts first free avail flags pad)) by (apply Forall_app in H; tauto).
    subst v. rewrite image_app, app_nil_r, <- app_assoc. apply slice_app_mid; rewrite ?image_len by assumption; reflexivity. }
  assert (H2 : parts_ok (ih_parts first free avail flags pad)) by (apply Forall_app in H; tauto).
  rewrite E. subst v. unfold ir_parts, ih_parts in *. cbn [app] in *.
  unfold ir_type_code, ir_collation, ir_bytes_per_buffer, ir_blocks_per_buffer, ih_first_entry, ih_first_free, ih_available,
    ih_flags, u32, u8.
  repeat getp H. repeat getp H2. repeat split.
Qed.
Print Assumptions C67_index_root.

(** An index buffer: [used] are the bytes after the index header up to the first
    free one, the slack is everything after them. *)
Theorem C67_index_buffer : forall sig uo un lsn block first avail flags pad used slack,
  let parts := ib_parts sig uo un lsn block ++ ih_parts first (16 + zlen used) avail flags pad in
  parts_ok parts ->
  let v := image parts ++ used ++ slack in
  ib_lsn v = Ok lsn /\ ib_this_block v = Ok block /\ ib_slack v = Ok slack.
Proof.
  intros * H v.
  assert (H2 : parts_ok (ih_parts first (16 + zlen used) avail flags pad)) by (apply Forall_app in H; tauto).
  assert (E : slice v 24 40 = image (ih_parts first (16 + zlen used) avail flags pad) ++ []).
  { assert (H1 : parts_ok (ib_parts sig uo un lsn block)) by (apply Forall_app in H; tauto).
    subst v parts. rewrite image_app, app_nil_r, <- app_assoc. apply slice_app_mid; rewrite ?image_len by assumption; reflexivity. }
  unfold ib_slack. rewrite E. unfold ih_first_free, u32. unfold ih_parts in H2 |- *. repeat getp H2. cbn [bind].
  subst v. split; [|split].
  - unfold parts, ib_parts, ih_parts in *. cbn [app] in *. unfold ib_lsn, u64. now repeat getp H.
  - unfold parts, ib_parts, ih_parts in *. cbn [app] in *. unfold ib_this_block, u64. now repeat getp H.
  - f_equal. rewrite app_assoc. apply zdrop_app_exact. rewrite zlen_app, image_len by exact H. change (total parts) with 40. lia.
Qed.
Print Assumptions C67_index_buffer.

(** An index entry: the attribute unless it is the last entry, and the subnode at
    its end, if the flag says that there is one. *)
Theorem C67_index_entry : forall reference flags pad attr fill vcn rest,
  let len := 16 + zlen attr + zlen fill + 8 in
  parts_ok (ie_parts reference len (zlen attr) flags pad) -> 0 <= vcn < 2 ^ 64 ->
  let r := image (ie_parts reference len (zlen attr) flags pad) ++ attr ++ fill ++ le_bytes 8 vcn ++ rest in
  ie_reference r = Ok reference /\ ie_length r = Ok len /\ ie_attribute_length r = Ok (zlen attr) /\ ie_flags r = Ok flags /\
  ie_attribute r = Ok (if Z.testbit flags 1 then None else if zlen attr =? 0 then None else Some attr) /\
  ie_vcn r = Ok (if Z.testbit flags 0 then Some vcn else None).
Proof.
  intros * H Hv r. assert (L : zlen (image (ie_parts reference len (zlen attr) flags pad)) = 16)
    by (rewrite image_len by exact H; reflexivity).
  assert (S1 : slice r 16 (16 + zlen attr) = attr) by (apply slice_app_mid; lia).
  assert (S2 : slice r (len - 8) len = le_bytes 8 vcn).
  { unfold r. rewrite !app_assoc. rewrite <- (app_assoc _ (le_bytes 8 vcn)).
    apply slice_app_mid; rewrite ?zlen_app, ?le_bytes_len, ?L; unfold len; cbn; lia. }
  unfold ie_attribute, ie_vcn, ie_reference, ie_length, ie_attribute_length, ie_flags, u64, u16.
  assert (G : unp 8 r 0 = Ok reference /\ unp 2 r 8 = Ok len /\ unp 2 r 10 = Ok (zlen attr) /\ unp 2 r 12 = Ok flags).
  { unfold r. unfold ie_parts in *. repeat getp H. auto. }
  destruct G as [-> [-> [-> ->]]]. cbn [bind]. do 4 (split; [reflexivity|]). rewrite S1, S2. split.
  - f_equal. change INDEX_ENTRY_END with (2 ^ 1). rewrite land_pow2 by lia.
    destruct (Z.testbit flags 1); cbn [andb]; [reflexivity|]. pose proof (zlen_nonneg attr).
    destruct (Z.eqb_spec (zlen attr) 0) as [->|N]; [reflexivity|]. cbn [Z.eqb]. replace (0 <? zlen attr) with true by lia. reflexivity.
  - change INDEX_ENTRY_NODE with (2 ^ 0). rewrite land_pow2_pos by lia.
    pose proof (zlen_nonneg attr). pose proof (zlen_nonneg fill). replace (0 <? len - 8) with true by (unfold len; lia).
    destruct (Z.testbit flags 0); cbn [andb]; [|reflexivity].
    assert (E : unp 8 (le_bytes 8 vcn) 0 = Ok vcn).
    { replace (le_bytes 8 vcn) with (image [Num 8 vcn] ++ []) by (cbn [image flat_map part_bytes]; now rewrite !app_nil_r).
      apply get_unp with (n := 8%nat); [|reflexivity|reflexivity]. constructor; [|constructor].
      cbn [part_ok]. change (256 ^ Z.of_nat 8) with (2 ^ 64). exact Hv. }
    rewrite E. reflexivity.
Qed.
Print Assumptions C67_index_entry.

(** Reparse points of both kinds. *)
Theorem C67_reparse_point : forall tag reserved guid data rest,
  parts_ok (rp_parts tag (zlen data) reserved) -> zlen guid = 16 ->
  (Z.testbit tag 31 = true ->
   let v := image (rp_parts tag (zlen data) reserved) ++ data ++ rest in
   rp_tag v = Ok tag /\ rp_microsoft v = Ok true /\ rp_length v = Ok (zlen data) /\ rp_guid v = Ok None /\ rp_buffer v = Ok data) /\
  (Z.testbit tag 31 = false ->
   let v := image (rp_parts tag (zlen data) reserved) ++ guid ++ data ++ rest in
   rp_tag v = Ok tag /\ rp_microsoft v = Ok false /\ rp_length v = Ok (zlen data) /\ rp_guid v = Ok (Some guid) /\
   rp_buffer v = Ok data).
Proof.
  intros * H Hg. assert (L : zlen (image (rp_parts tag (zlen data) reserved)) = 8) by (rewrite image_len by exact H; reflexivity).
  assert (B : 0 <? Z.land tag 2147483648 = Z.testbit tag 31) by exact (land_pow2_pos tag 31 ltac:(lia)).
  split; intros Ht v.
  - assert (S : slice v 8 (8 + zlen data) = data) by (apply slice_app_mid; lia).
    assert (G : unp 4 v 0 = Ok tag /\ unp 2 v 4 = Ok (zlen data)) by (unfold v; unfold rp_parts in *; repeat getp H; auto).
    unfold rp_buffer, rp_guid, rp_microsoft, rp_length, rp_tag, u32, u16. destruct G as [-> ->]. cbn [bind]. rewrite B, Ht, S. auto.
  - assert (S : slice v 24 (24 + zlen data) = data)
      by (unfold v; rewrite app_assoc; apply slice_app_mid; rewrite zlen_app; lia).
    assert (S2 : slice v 8 24 = guid) by (apply slice_app_mid; lia).
    assert (G : unp 4 v 0 = Ok tag /\ unp 2 v 4 = Ok (zlen data)) by (unfold v; unfold rp_parts in *; repeat getp H; auto).
    unfold rp_buffer, rp_guid, rp_microsoft, rp_length, rp_tag, u32, u16. destruct G as [-> ->]. cbn [bind]. rewrite B, Ht, S, S2, Hg. auto.
Qed.
Print Assumptions C67_reparse_point.

(** $OBJECT_ID: the time is taken from time-based identifiers only. *)
Theorem C67_object_id : forall low mid hi version variant node extra,
  parts_ok (guid_parts low mid hi version variant node) -> 0 <= hi < 4096 ->
  let v := image (guid_parts low mid hi version variant node) ++ extra in
  oid_guid v = Some (image (guid_parts low mid hi version variant node)) /\ oid_extra v = extra /\
  (version = 1 -> 128 <= variant < 192 -> oid_timestamp v = decode_guid_time (guid_time_of low mid hi) true) /\
  (version <> 1 \/ ~ 128 <= variant < 192 -> oid_timestamp v = Ok None).
Proof.
  intros * H Hh v. pose proof (guid_len _ _ _ _ _ _ H) as L.
  assert (E : oid_guid v = Some (image (guid_parts low mid hi version variant node))).
  { unfold oid_guid, v. rewrite slice_prefix by lia. now rewrite L. }
  destruct (guid_fields _ _ _ _ _ _ [] Hh H) as [T [V R]]. rewrite app_nil_r in T, V, R.
  split; [exact E|]. split; [apply zdrop_app_exact; lia|]. unfold oid_timestamp. rewrite E, T, V. split.
  - intros -> Hv. rewrite (proj2 R Hv). reflexivity.
  - intros D. destruct (guid_rfc4122 _ && (version =? 1)) eqn:B; [|reflexivity].
    exfalso. bools. destruct D as [D|D]; [lia|]. apply D, R. assumption.
Qed.
Print Assumptions C67_object_id.

Theorem C67_object_id_short : forall v, zlen v < 16 -> oid_guid v = None /\ oid_timestamp v = Ok None /\ oid_extra v = [].
Proof.
  intros v H. assert (E : oid_guid v = None).
  { unfold oid_guid. rewrite slice_full by lia. now replace (zlen v =? 16) with false by lia. }
  split; [exact E|]. split; [unfold oid_timestamp; now rewrite E|]. apply zdrop_all. lia.
Qed.
Print Assumptions C67_object_id_short.

(** The boot sector. *)
Theorem C67_boot_sector : forall jump name bpb1 bpb2 bps spc total mft mirr frs pad1 idx pad2 serial rest,
  parts_ok (ntfs_boot_parts jump name bpb1 bpb2 bps spc total mft mirr frs pad1 idx pad2 serial) ->
  let b := image (ntfs_boot_parts jump name bpb1 bpb2 bps spc total mft mirr frs pad1 idx pad2 serial) ++ rest in
  0 < total -> 0 < mft -> 0 < mirr ->
  bs_total_sectors b = Ok total /\ bs_mft_cluster b = Ok mft /\ bs_mftmirr_cluster b = Ok mirr /\ bs_serial b = Ok serial /\
  (frs < 0 -> bs_frs_size b = Ok (2 ^ (- frs))) /\ (idx < 0 -> bs_index_size b = Ok (2 ^ (- idx))).
Proof.
  intros * H b Ht Hm Hi. unfold ntfs_boot_parts in *. subst b.
  unfold bs_total_sectors, bs_mft_cluster, bs_mftmirr_cluster, bs_serial, bs_frs_size, bs_index_size, nonzero_at, record_size_at, u64.
  repeat getp H. cbn [bind]. replace (total =? 0) with false by lia. replace (mft =? 0) with false by lia.
  replace (mirr =? 0) with false by lia. do 4 (split; [reflexivity|]).
  assert (P : forall x, x < 0 -> Z.shiftl 1 (Z.abs x) = 2 ^ (- x) /\ 0 < 2 ^ (- x)).
  { intros x Hx. rewrite Z.shiftl_mul_pow2 by lia. replace (Z.abs x) with (- x) by lia.
    split; [lia|]. apply Z.pow_pos_nonneg; lia. }
  split; intro N; destruct (P _ N) as [E G].
  - replace (0 <=? frs) with false by lia. cbn [bind]. rewrite E. now replace (2 ^ (- frs) =? 0) with false by lia.
  - replace (0 <=? idx) with false by lia. cbn [bind]. rewrite E. now replace (2 ^ (- idx) =? 0) with false by lia.
Qed.
Print Assumptions C67_boot_sector.

Example C67_case :
  let si := image (si_long_parts 1 2 3 4 5 6 (extra_flags 1 5 2 0 9 0) 8 9 10 11 12) in
  let rp := image (rp_parts 0x1F 3 0) ++ zeros 16 ++ [7; 8; 9] in
  frs_mft_number (mk_frs (image (frs_parts sig_FILE 48 3 0 1 1 56 1 400 1024 0 3 0x123456789ABC)) 48 3 None)
    = Some 0x123456789ABC /\
  (si_case_sensitive si, si_known_folder si, si_trust_level si, si_storage_reserve_id si, si_usn si)
    = (Ok true, Ok 5, Ok 2, Ok 9, Ok (Some 12)) /\
  rp_buffer rp = Ok [7; 8; 9] /\ rp_guid rp = Ok (Some (zeros 16)) /\
  fna_name (image (fn_parts 5 1 2 3 4 (-1) 0 0 0 0 3 (utf16_encode [97; 0x1F600]))) = Ok [97; 0x1F600] /\
  oid_timestamp (image (guid_parts 0x9ABCDEF0 0x5678 0x1EB 1 0x80 (zeros 7))) = decode_guid_time 0x1EB56789ABCDEF0 true.
Proof. vm_compute. auto 10. Qed.

(** ** C69: the move table and the blocks of shadow copies *)

Theorem C69_move_header : forall sig u16 flags u24 lo hi size name junk volume u32 t40 t48 f56 s60 i64 i68 i72 i76 i80 i84 i88 rest,
  ~ In 0 name ->
  let parts := mt_header_parts sig u16 flags u24 lo hi size (name ++ 0 :: junk) volume u32 t40 t48 f56 s60 i64 i68 i72 i76 i80 i84 i88 in
  parts_ok parts ->
  let b := image parts ++ rest in
  mth_unknown_16 b = Ok u16 /\ mth_flags b = Ok flags /\ mth_is_flushed b = Ok (Z.testbit flags 0) /\ mth_unknown_24 b = Ok u24 /\
  mth_expansion b = Ok (lo, hi, size) /\ mth_machine_id b = name /\ mth_volume_id b = volume /\
  mth_extended b = Ok (mk_ext name volume u32 t40 t48 f56 s60 i64 i68 i72 i76 i80 i84 i88).
Proof.
  intros * Hn parts H b. pose proof (image_len _ H) as L. change (total parts) with 132 in L.
  destruct (parts_ok_split parts 7 H) as [H1 H2].
  assert (L1 : zlen (image (firstn 7 parts)) = 40) by (rewrite image_len by exact H1; reflexivity).
  assert (L3 : zlen (image (skipn 7 parts)) = 92) by (rewrite image_len by exact H2; reflexivity).
  assert (E : slice b 40 132 = image (skipn 7 parts) ++ []).
  { assert (Eb : b = image (firstn 7 parts) ++ image (skipn 7 parts) ++ rest)
      by (unfold b; rewrite app_assoc, <- image_app, firstn_skipn; reflexivity).
    rewrite Eb, app_nil_r. apply slice_app_mid; lia. }
  assert (L2 : zlen (slice b 40 132) = 92) by (rewrite zlen_slice by lia; unfold b; rewrite zlen_app; pose proof (zlen_nonneg rest); lia).
  unfold mth_extended. rewrite L2. change (negb (92 =? 92)) with false. cbv iota. rewrite E.
  subst b. unfold parts, mt_header_parts in *. cbn [skipn] in *.
  unfold mth_unknown_16, mth_is_flushed, mth_flags, mth_unknown_24, mth_expansion, mth_machine_id, mth_volume_id, Base.u32.
  repeat getp H. repeat getp H2. cbn [bind]. rewrite !until_null_app by exact Hn.
  do 2 (split; [reflexivity|]). split; [f_equal; exact (land_pow2_pos flags 0 ltac:(lia))|]. repeat split.
Qed.
Print Assumptions C69_move_header.

Theorem C69_move_footer : forall body lowest next unused,
  parts_ok [Num 4 lowest; Num 4 next; Raw 8 unused] ->
  let s := body ++ image [Num 4 lowest; Num 4 next; Raw 8 unused] in
  mtf_lowest s = Ok lowest /\ mtf_next s = Ok next /\ mtf_unused s = unused.
Proof.
  intros * H s. pose proof (image_len _ H) as L. cbn [total fold_right width] in L. change (Z.of_nat 4 + (Z.of_nat 4 + (8 + 0))) with 16 in L.
  assert (E : slice s (zlen s - 16) (zlen s) = image [Num 4 lowest; Num 4 next; Raw 8 unused] ++ []).
  { rewrite app_nil_r. unfold s at 1. rewrite <- (app_nil_r (image _)) at 1. apply slice_app_mid; unfold s; rewrite zlen_app, L; lia. }
  unfold mtf_lowest, mtf_next, mtf_unused. rewrite !E. unfold u32. repeat getp H. split; [reflexivity|]. split; [reflexivity|].
  rewrite app_nil_r. cbn [image flat_map part_bytes]. rewrite app_nil_r, app_assoc. apply zdrop_app_exact.
  rewrite zlen_app, !le_bytes_len. reflexivity.
Qed.
Print Assumptions C69_move_footer.

Theorem C69_move_entry : forall next previous type index u16 object dv dobj name junk bv bo time u120 rest,
  ~ In 0 name ->
  let parts := mt_entry_parts next previous type index u16 object dv dobj (name ++ 0 :: junk) bv bo time u120 in
  parts_ok parts ->
  let b := image parts ++ rest in
  mte_next b = Ok next /\ mte_previous b = Ok previous /\ mte_type b = Ok type /\ mte_index b = Ok index /\
  mte_unknown_16 b = Ok u16 /\ mte_object_id b = object /\ mte_droid b = (dv, dobj) /\ mte_machine_id b = name /\
  mte_birth_droid b = (bv, bo) /\ mte_unknown_120 b = Ok u120 /\
  mte_timestamp b = (let! lo := decode_filetime (time * 2 ^ 32) true in
                     let! hi := decode_filetime (time * 2 ^ 32 + (2 ^ 32 - 1)) true in Ok (lo, hi)).
Proof.
  intros * Hn parts H b. subst b. unfold parts, mt_entry_parts in *.
  unfold mte_next, mte_previous, mte_type, mte_index, mte_unknown_16, mte_object_id, mte_droid, mte_machine_id, mte_birth_droid,
    mte_unknown_120, mte_timestamp, u32.
  repeat getp H. cbn [bind]. rewrite until_null_app by exact Hn. repeat (split; [reflexivity|]).
  change 4294967295 with (2 ^ 32 - 1). rewrite lor_shiftl_add by lia. rewrite Z.shiftl_mul_pow2 by lia. reflexivity.
Qed.
Print Assumptions C69_move_entry.

(** The times inside the three object identifiers of a log entry. *)
Theorem C69_move_guid_times : forall next previous type index u16 machine dv bv time u120 rest,
  forall l1 m1 h1 v1 n1, forall l2 m2 h2 v2 n2, forall l3 m3 h3 v3 n3,
  let g1 := guid_parts l1 m1 h1 1 v1 n1 in let g2 := guid_parts l2 m2 h2 1 v2 n2 in let g3 := guid_parts l3 m3 h3 4 v3 n3 in
  parts_ok g1 -> parts_ok g2 -> parts_ok g3 -> 0 <= h1 < 4096 -> 0 <= h2 < 4096 -> 0 <= h3 < 4096 ->
  128 <= v1 < 192 -> 128 <= v2 < 192 ->
  let parts := mt_entry_parts next previous type index u16 (image g1) dv (image g2) machine bv (image g3) time u120 in
  parts_ok parts ->
  mte_guid_timestamps (image parts ++ rest) =
    (let! a := decode_guid_time (guid_time_of l1 m1 h1) true in
     let! b := decode_guid_time (guid_time_of l2 m2 h2) true in Ok (a, b, None)).
Proof.
  intros * P1 P2 P3 Hh1 Hh2 Hh3 Hv1 Hv2 parts H.
  assert (G : forall l m h ver v n, parts_ok (guid_parts l m h ver v n) -> 0 <= h < 4096 ->
    guid_timestamp (image (guid_parts l m h ver v n)) =
      if guid_rfc4122 (image (guid_parts l m h ver v n)) && (ver =? 1) then decode_guid_time (guid_time_of l m h) true else Ok None).
  { intros l m h ver v n P Hh. destruct (guid_fields l m h ver v n [] Hh P) as [T [V _]]. rewrite app_nil_r in T, V.
    unfold guid_timestamp. now rewrite T, V. }
  assert (R : forall l m h ver v n, parts_ok (guid_parts l m h ver v n) -> 0 <= h < 4096 -> 128 <= v < 192 ->
    guid_rfc4122 (image (guid_parts l m h ver v n)) = true).
  { intros l m h ver v n P Hh Hv. destruct (guid_fields l m h ver v n [] Hh P) as [_ [_ Q]]. rewrite app_nil_r in Q. now apply Q. }
  unfold mte_guid_timestamps, mte_object_id, mte_droid, mte_birth_droid. cbn [snd].
  unfold parts, mt_entry_parts in *. repeat getp H.
  subst g1 g2 g3. rewrite !G by assumption. rewrite (R _ _ _ _ _ _ P1 Hh1 Hv1), (R _ _ _ _ _ _ P2 Hh2 Hv2).
  rewrite andb_false_r. cbn [andb Z.eqb Pos.eqb]. reflexivity.
Qed.
Print Assumptions C69_move_guid_times.

(** Shadow blocks, the start block and the two kinds of items. *)
Theorem C69_shadow_block : forall guid version type o1 o2 o3 gap payload,
  parts_ok (shadow_parts guid version type o1 o2 o3) -> zlen gap = 80 ->
  let b := image (shadow_parts guid version type o1 o2 o3) ++ gap ++ payload in
  sb_guid b = guid /\ sb_version b = Ok version /\ sb_type b = Ok type /\ sb_offset_1 b = Ok o1 /\ sb_offset_2 b = Ok o2 /\
  sb_offset_3 b = Ok o3 /\ sb_payload b = payload.
Proof.
  intros * H Hg b. pose proof (image_len _ H) as L. change (total (shadow_parts guid version type o1 o2 o3)) with 48 in L.
  assert (E : sb_payload b = payload) by (unfold sb_payload, b; rewrite app_assoc; apply zdrop_app_exact; rewrite zlen_app; lia).
  rewrite E. clear E L. subst b. unfold shadow_parts in *.
  unfold sb_guid, sb_version, sb_type, sb_offset_1, sb_offset_2, sb_offset_3, u64, u32. repeat getp H. repeat split.
Qed.
Print Assumptions C69_shadow_block.

Theorem C69_start_block : forall before guid version type o1 o2 o3 first max volume storage appl free hot days protection rest,
  let parts := start_parts before guid version type o1 o2 o3 first max volume storage appl free hot days protection in
  parts_ok parts ->
  let b := image parts ++ rest in
  st_max_size b = Ok max /\ st_volume_guid b = volume /\ st_storage_guid b = storage /\ st_app_flags b = Ok appl /\
  st_free_precopy b = Ok free /\ st_hot_precopy b = Ok hot /\ st_hot_days b = Ok days /\ st_protection b = Ok protection /\
  (first mod 16384 = 0 -> Shadow.first_control_block b = Ok first) /\
  (Shadow.storage_local b = true <-> volume = storage).
Proof.
  intros * H b. subst b. unfold parts, start_parts, shadow_parts in *. cbn [app] in *.
  unfold st_max_size, st_volume_guid, st_storage_guid, st_app_flags, st_free_precopy, st_hot_precopy, st_hot_days, st_protection,
    Shadow.first_control_block, Shadow.storage_local, u64, u32.
  repeat getp H. cbn [bind]. do 8 (split; [reflexivity|]). split; [|apply zlist_eqb_eq].
  intros ->. rewrite Z.eqb_refl. cbn [negb]. now rewrite andb_false_r.
Qed.
Print Assumptions C69_start_block.

Theorem C69_items : forall rest,
  (forall type priority pad size guid position flags time u56, parts_ok (item2_parts type priority pad size guid position flags time u56) ->
   let r := image (item2_parts type priority pad size guid position flags time u56) ++ rest in
   it_type r = Ok type /\ i2_get_priority r = Ok priority /\ i2_get_size r = Ok size /\ it_guid r = guid /\
   i2_get_position r = Ok position /\ i2_get_flags r = Ok flags /\ i2_get_time r = decode_filetime time true /\
   i2_get_unknown_56 r = Ok u56) /\
  (forall type u4 diff guid app loc bitmap reference alloc previous u80,
   parts_ok (item3_parts type u4 diff guid app loc bitmap reference alloc previous u80) ->
   let r := image (item3_parts type u4 diff guid app loc bitmap reference alloc previous u80) ++ rest in
   it_type r = Ok type /\ i3_get_diff_area r = Ok diff /\ it_guid r = guid /\ i3_get_app_info r = Ok app /\
   i3_get_location r = Ok loc /\ i3_get_bitmap r = Ok bitmap /\ i3_get_file_reference r = Ok reference /\
   i3_get_allocation r = Ok alloc /\ i3_get_previous r = Ok previous /\ i3_get_unknown_80 r = Ok u80).
Proof.
  intros. split; intros * H r; subst r.
  - unfold item2_parts in *. unfold it_type, i2_get_priority, i2_get_size, it_guid, i2_get_position, i2_get_flags, i2_get_time,
      i2_get_unknown_56, u64, u32, u16, u8. repeat getp H. repeat split.
  - unfold item3_parts in *. unfold it_type, i3_get_diff_area, it_guid, i3_get_app_info, i3_get_location, i3_get_bitmap,
      i3_get_file_reference, i3_get_allocation, i3_get_previous, i3_get_unknown_80, u64, u32. repeat getp H. repeat split.
Qed.
Print Assumptions C69_items.

(** Blocks whose own offset is not a multiple of the block size are accepted: the
    test in the constructors ("offset == 0 and offset % 0x4000 != 0") never fires. *)
Theorem C69_alignment_refuted : exists b, Shadow.block_ok 6 ShadowBlockException b = Ok tt /\
  exists o, sb_offset_2 b = Ok o /\ o mod 16384 <> 0.
Proof.
  exists (image (shadow_parts Shadow.vsp_guid 1 6 0 12345 0) ++ zeros (16384 - 48)). split; [vm_compute; reflexivity|].
  exists 12345. split; [vm_compute; reflexivity|discriminate].
Qed.
Print Assumptions C69_alignment_refuted.

Example C69_case :
  let e := image (mt_entry_parts 1 2 2 4 5 (zeros 16) (zeros 16) (zeros 16) [80; 67; 0; 1; 1; 1; 1; 1; 1; 1; 1; 1; 1; 1; 1; 1]
                    (repeat 1 16) (repeat 2 16) 30900000 6) in
  mte_open e = Ok e /\ mte_machine_id e = [80; 67] /\ mte_birth_droid e = (repeat 1 16, repeat 2 16) /\
  mte_index e = Ok 4.
Proof. vm_compute. auto. Qed.

(** ** C68: FAT and exFAT boot sectors *)

Theorem C68_bpb : forall jump oem bps spc rsvd nf rootent tot16 media fatsz spt heads hidden tot32 more,
  let parts := bpb_parts jump oem bps spc rsvd nf rootent tot16 media fatsz spt heads hidden tot32 in
  parts_ok parts ->
  let b := image parts ++ more in
  bs_jmpboot b = jump /\ bs_oemname b = oem /\ bpb_secpertrk b = Ok spt /\ bpb_numheads b = Ok heads /\
  bpb_hiddsec b = Ok hidden /\ totsec16 b = tot16 /\ totsec32 b = tot32 /\
  (In bps [512; 1024; 2048; 4096] -> bytspersec b = Ok bps) /\
  (In spc [1; 2; 4; 8; 16; 32; 64; 128] -> secperclus b = Ok spc) /\ (spc = 0 -> secperclus b = Ok 256) /\
  (rsvd <> 0 -> rsvdseccnt b = Ok rsvd) /\ (nf <> 0 -> numfats b = Ok nf) /\
  (~ In bps [512; 1024; 2048; 4096] -> bytspersec b = Err BootSectorException) /\
  (~ In spc [0; 1; 2; 4; 8; 16; 32; 64; 128] -> secperclus b = Err BootSectorException) /\
  (rsvd = 0 -> rsvdseccnt b = Err BootSectorException) /\ (nf = 0 -> numfats b = Err BootSectorException) /\
  rootentcnt false b = Ok rootent /\ fatsz16 false b = Ok fatsz.
Proof.
  intros * H b. subst b. unfold parts, bpb_parts in *.
  unfold bs_jmpboot, bs_oemname, bpb_secpertrk, bpb_numheads, bpb_hiddsec, totsec16, totsec32, bytspersec, secperclus, rsvdseccnt,
    numfats, rootentcnt, fatsz16, u32, u16. repeat getp H. rewrite !andb_false_r.
  do 7 (split; [reflexivity|]). split; [intro I; apply zin_In in I; now rewrite I|]. split.
  { intro I. cbn in I. repeat (destruct I as [<-|I]; [reflexivity|]). destruct I. }
  split; [now intros ->|]. split; [intro N; now replace (rsvd =? 0) with false by lia|].
  split; [intro N; now replace (nf =? 0) with false by lia|].
  split; [intro N; destruct (zin bps _) eqn:Z1; [apply zin_In in Z1; contradiction|auto]|].
  split. { intro N. destruct (Z.eqb_spec spc 0) as [->|N0]; [exfalso; apply N; now left|].
    destruct (zin spc _) eqn:Z1; [|auto]. exfalso. apply zin_In in Z1. pose proof (part_at_ok _ H 13 (Num 1 spc) eq_refl) as R. cbn in R, N, Z1. intuition lia. }
  split; [now intros ->|]. split; [now intros ->|]. auto.
Qed.
Print Assumptions C68_bpb.

(** The drive, the dirty flags and the extended fields, at their places in both formats. *)
Theorem C68_extended : forall jump oem bps spc rsvd nf rootent tot16 media fatsz spt heads hidden tot32
  fatsz32 ext ver root fsinfo backup reserved drive dirty sig id label fstype code magic (f32 : bool),
  let parts := bpb_parts jump oem bps spc rsvd nf rootent tot16 media fatsz spt heads hidden tot32 ++
    (if f32 then bpb32_parts fatsz32 ext ver root fsinfo backup reserved else []) ++
    ext_parts drive dirty sig id label fstype ++ [Raw (if f32 then 420 else 448) code; Raw 2 magic] in
  parts_ok parts ->
  let b := image parts ++ [] in
  bs_signature b = magic /\ bs_drvnum f32 b = Ok drive /\ bs_dirty_flags f32 b = Ok dirty /\
  bs_is_dirty f32 b = Ok (Z.testbit dirty 0, Z.testbit dirty 1) /\ bootsig f32 b = sig /\
  (sig = 0x29 -> bs_extfields f32 b = Ok (Some id, Some label, Some fstype)) /\
  (sig = 0x28 -> bs_extfields f32 b = Ok (Some id, None, None)) /\
  (sig <> 0x28 -> sig <> 0x29 -> bs_extfields f32 b = Ok (None, None, None)) /\
  (f32 = false -> bpb_fsinfo f32 b = Ok None /\ bpb_bkbootsec f32 b = Ok None /\ bpb_reserved f32 b = None) /\
  (f32 = true -> fsinfo <> 0 -> bpb_fsinfo f32 b = Ok (Some fsinfo)) /\
  (f32 = true -> backup <> 0 -> bpb_bkbootsec f32 b = Ok (Some backup)) /\
  (f32 = true -> fsinfo = 0 -> bpb_fsinfo f32 b = Err BootSectorException) /\
  (f32 = true -> backup = 0 -> bpb_bkbootsec f32 b = Err BootSectorException) /\
  (f32 = true -> bpb_reserved f32 b = Some reserved).
Proof.
  intros * H b. subst b.
  assert (D0 : 0 <? Z.land dirty 1 = Z.testbit dirty 0) by exact (land_pow2_pos dirty 0 ltac:(lia)).
  assert (D1 : 0 <? Z.land dirty 2 = Z.testbit dirty 1) by exact (land_pow2_pos dirty 1 ltac:(lia)).
  unfold parts, bpb_parts, bpb32_parts, ext_parts in *.
  unfold bs_is_dirty, bs_signature, bs_drvnum, bs_dirty_flags, bootsig, bs_extfields, bpb_fsinfo, bpb_bkbootsec, bpb_reserved,
    fat32_sector, bootsig, u32, u16, u8.
  destruct f32; cbn [app negb] in *; cbn [Z.add Pos.add Pos.succ]; repeat getp H; cbn [bind]; rewrite D0, D1.
  - do 5 (split; [reflexivity|]). split; [now intros ->|]. split; [now intros ->|].
    split; [intros N1 N2; replace (sig =? 41) with false by lia; now replace (sig =? 40) with false by lia|].
    split; [discriminate|]. split; [intros _ N; now replace (fsinfo =? 0) with false by lia|].
    split; [intros _ N; now replace (backup =? 0) with false by lia|]. split; [now intros _ ->|]. split; [now intros _ ->|]. reflexivity.
  - do 5 (split; [reflexivity|]). split; [now intros ->|]. split; [now intros ->|].
    split; [intros N1 N2; replace (sig =? 41) with false by lia; now replace (sig =? 40) with false by lia|].
    split; [auto|]. repeat split; discriminate.
Qed.
Print Assumptions C68_extended.

(** The clean and the hard error bits of the second element of the table. *)
Theorem C68_second_element : forall f v, get_element f 1 = Ok v ->
  (f_type f = 32 -> fat_is_dirty f = Ok (Some (negb (Z.testbit v 27))) /\ fat_hard_errors f = Ok (Some (negb (Z.testbit v 26)))) /\
  (f_type f = 16 -> fat_is_dirty f = Ok (Some (negb (Z.testbit v 15))) /\ fat_hard_errors f = Ok (Some (negb (Z.testbit v 14)))) /\
  (f_type f = 12 -> fat_is_dirty f = Ok None /\ fat_hard_errors f = Ok None).
Proof.
  intros f v E. unfold fat_is_dirty, fat_hard_errors, fat_bit_clear. rewrite E. cbn [bind].
  assert (B : forall k, 0 <= k -> (Z.land v (2 ^ k) =? 0) = negb (Z.testbit v k)).
  { intros k Hk. rewrite land_pow2 by lia. pose proof (Z.pow_pos_nonneg 2 k). destruct (Z.testbit v k); [|reflexivity].
    cbn [negb]. apply Z.eqb_neq. lia. }
  split; [|split]; intros ->.
  - split; cbn [Z.eqb Pos.eqb]; do 2 f_equal; [exact (B 27 ltac:(lia))|exact (B 26 ltac:(lia))].
  - split; cbn [Z.eqb Pos.eqb]; do 2 f_equal; [exact (B 15 ltac:(lia))|exact (B 14 ltac:(lia))].
  - auto.
Qed.
Print Assumptions C68_second_element.

(** The warned range is exactly where the published thresholds between FAT12 and
    FAT16 (4079, 4085) and the counts misread in practice (up to 4086) disagree. *)
Theorem C68_unusual : forall n,
  unusual_12_or_16 n = false <-> forall t, 4079 <= t <= 4087 -> (n <? t) = (n <? 4085).
Proof.
  intro n. unfold unusual_12_or_16. split.
  - intros H t Ht. lia.
  - intro H. pose proof (H 4079 ltac:(lia)). pose proof (H 4087 ltac:(lia)). lia.
Qed.
Print Assumptions C68_unusual.

Theorem C68_exfat : forall jump name zs po length fo fl heap count root serial minor major flags bs ss fats drive percent rest,
  let parts := exbr_parts jump name zs po length fo fl heap count root serial minor major flags bs ss fats drive percent in
  parts_ok parts ->
  let b := image parts ++ rest in
  br_jmpboot b = jump /\ br_fsname b = name /\ br_mustbezero b = zs /\ br_partitionoffset b = Ok po /\
  (br_volumelength b, br_fatoffset b, br_fatlength b, br_heapoffset b, br_clustercount b, br_rootcluster b, br_major b, br_minor b,
   br_numfats b) = (length, fo, fl, heap, count, root, major, minor, fats) /\
  br_active_fat b = Z.testbit flags 0 /\
  (0 <= percent <= 100 -> br_percent b = Some percent) /\ (100 < percent -> br_percent b = None).
Proof.
  intros * H b. subst b. unfold parts, exbr_parts in *.
  unfold br_jmpboot, br_fsname, br_mustbezero, br_partitionoffset, br_volumelength, br_fatoffset, br_fatlength, br_heapoffset,
    br_clustercount, br_rootcluster, br_major, br_minor, br_numfats, br_active_fat, br_percent, u64.
  repeat getp H. do 5 (split; [reflexivity|]). split; [exact (land_pow2_pos flags 0 ltac:(lia))|].
  split; intro.
  - now replace ((100 <? percent) || (percent =? 255)) with false by lia.
  - now replace ((100 <? percent) || (percent =? 255)) with true by lia.
Qed.
Print Assumptions C68_exfat.

Example C68_case :
  let b := image (bpb_parts [0xEB; 0x3C; 0x90] (zeros 8) 512 4 1 2 512 0 0xF8 200 63 255 63 200000 ++
                  ext_parts 0x80 3 0x29 0x12345678 (repeat 65 11) (repeat 66 8)) in
  bs_is_dirty false b = Ok (true, true) /\
  bs_extfields false b = Ok (Some 0x12345678, Some (repeat 65 11), Some (repeat 66 8)) /\
  map unusual_12_or_16 [4078; 4079; 4086; 4087] = [false; true; true; false].
Proof. vm_compute. auto. Qed.
