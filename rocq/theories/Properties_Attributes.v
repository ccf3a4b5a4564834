(** Properties C18 to C22, C56, C57. *)
From Verif Require Import Base BaseLemmas MappingPairs Frs FrsSpec FragmentedFile FragmentedFileSpec.
From Verif Require Import Filetime FiletimeProofs Usa UsaSpec UsaProofs FieldLemmas Utf16.
From Verif Require Import Attributes AttributesSpec AttributesProofs IndexProofs Wsl WslSpec ExtAttrProofs.

(** C18: each of the four timestamps, for every fragment and offset. *)
Theorem C18_fields : forall frag off k g, 0 <= off ->
  In (k, g) [(0, sip_ctime); (1, sip_mtime); (2, sip_etime); (3, sip_atime)] ->
  (covered frag off k -> g (sip_open frag off) = decode_filetime (covered_field frag off k) true) /\
  (~ covered frag off k -> g (sip_open frag off) = Ok None).
Proof.
  intros frag off k g Ho H.
  assert (G : forall k, 0 <= k ->
    let r := if (off <=? 8 * k) && (8 * k + 8 <=? zlen (zeros off ++ frag))
             then time_at (zeros off ++ frag) (8 * k) else Ok None in
    (covered frag off k -> r = decode_filetime (covered_field frag off k) true) /\
    (~ covered frag off k -> r = Ok None)).
  { clear k g H. intros k Hk r. unfold r. destruct (partial_field frag off k Ho Hk) as [P1 P2].
    destruct (_ && _) eqn:E.
    - assert (C : covered frag off k) by (apply P1; lia). split; [|tauto]. intros _.
      unfold time_at. now rewrite P2.
    - assert (C : ~ covered frag off k) by (intro C; apply P1 in C; lia). tauto. }
  cbn [In] in H. destruct H as [H|[H|[H|[H|[]]]]]; injection H as <- <-.
  - replace (sip_ctime (sip_open frag off)) with
      (if (off <=? 8 * 0) && (8 * 0 + 8 <=? zlen (zeros off ++ frag))
       then time_at (zeros off ++ frag) (8 * 0) else Ok None); [apply (G 0); lia|].
    unfold sip_ctime, sip_open. cbn [sip_value sip_offset]. change (8 * 0) with 0.
    replace (off <=? 0) with (off =? 0) by lia. reflexivity.
  - apply (G 1). lia.
  - apply (G 2). lia.
  - apply (G 3). lia.
Qed.
Print Assumptions C18_fields.

(** Nothing else is reported. *)
Theorem C18_never_raises : forall frag off g, 0 <= off ->
  In g [sip_ctime; sip_mtime; sip_etime; sip_atime] -> bytes_ok frag ->
  exists t, g (sip_open frag off) = Ok t.
Proof.
  intros frag off g Ho H B.
  assert (K : exists k, 0 <= k /\ In (k, g) [(0, sip_ctime); (1, sip_mtime); (2, sip_etime); (3, sip_atime)]).
  { cbn [In] in *. destruct H as [<-|[<-|[<-|[<-|[]]]]]; [exists 0|exists 1|exists 2|exists 3]; split; auto; lia. }
  destruct K as (k & Hk & HI). destruct (C18_fields frag off k g Ho HI) as [C1 C2].
  destruct (Z.le_gt_cases off (8 * k)) as [K1|K1]; [destruct (Z.le_gt_cases (8 * k + 8) (off + zlen frag)) as [K2|K2]|].
  - rewrite C1 by (split; auto). unfold decode_filetime, decode_time. destruct (_ <? _); eauto.
  - rewrite C2 by (intros [? ?]; lia). eauto.
  - rewrite C2 by (intros [? ?]; lia). eauto.
Qed.
Print Assumptions C18_never_raises.

(** Bytes 5 to 21 only: the second field (bytes 8 to 15) is covered. *)
Example C18_case :
  let frag := [9; 9; 9] ++ le_bytes 8 131000000000000000 ++ zeros 5 in
  let s := sip_open frag 5 in
  covered frag 5 1 /\ ~ covered frag 5 2 /\
  (sip_ctime s, sip_mtime s, sip_etime s, sip_atime s) = (Ok None, Ok (Some 13100000000000000), Ok None, Ok None) /\
  sip_ctime (sip_open (le_bytes 8 70) 0) = Ok (Some 7).
Proof. cbn zeta. unfold covered. repeat split; vm_compute; try congruence. intros [? ?]; auto. Qed.

(** C19: every value, and every list written out. *)
Theorem C19_any_bytes : forall v l, bytes_ok v -> al_walk v 0 l <-> al_entries v = (l, Done).
Proof. exact al_entries_iff. Qed.
Print Assumptions C19_any_bytes.

Theorem C19_total : forall v, bytes_ok v ->
  exists l, al_entries v = (l, Done) /\ 26 * zlen l <= zlen v.
Proof.
  intros v B. destruct (al_loop_walk v B (S (length v)) 0 ltac:(lia) ltac:(unfold zlen; lia)) as (l & E & W).
  exists l. split; auto. pose proof (al_walk_inside v 0 l W ltac:(lia) B). pose proof (zlen_nonneg v). lia.
Qed.
Print Assumptions C19_total.

Theorem C19_round_trip : forall l, Forall ali_ok l -> bytes_ok (al_whole l) ->
  al_entries (al_whole l) = (map ali_entry l, Done).
Proof. exact al_whole_entries. Qed.
Print Assumptions C19_round_trip.

(** Names survive UTF-16, so that the entries written are the ones read. *)
Theorem C19_names : forall s i, Forall scalar s -> s <> [] -> ali_name i = utf16_encode s ->
  al_name (ali_entry i) = Some s.
Proof.
  intros s i H N E. unfold ali_entry. cbn [al_name]. rewrite E.
  destruct (utf16_encode s) eqn:E2; [|now rewrite <- E2, utf16_round_trip].
  exfalso. apply N. rewrite <- (utf16_round_trip s H), E2. reflexivity.
Qed.
Print Assumptions C19_names.

Definition al_sample : list al_image :=
  [mk_ali 0x10 0 0x1000000000005 0 [] [] [] (zeros 6);
   mk_ali 0x80 0 0x2000000000007 3 (utf16_encode [97; 128512]) [1; 2] [7] (zeros 5);
   mk_ali 0x80 40 0x2000000000009 1 (utf16_encode [36]) [] [] (zeros 4)].

Example C19_case : Forall ali_ok al_sample /\
  al_entries (al_whole al_sample) =
  ([mk_al 0x10 None 0 0 0x1000000000005; mk_al 0x80 (Some [97; 128512]) 3 0 0x2000000000007;
    mk_al 0x80 (Some [36]) 1 40 0x2000000000009], Done).
Proof.
  split; [|vm_compute; reflexivity].
  repeat constructor; vm_compute; try congruence; try reflexivity.
Qed.

(** C20. *)
Theorem C20_accepted : forall raw, bytes_ok raw ->
  (index_sectors_ok raw -> exists out, unprotect_index raw = Ok (Some out) /\ same_body raw out /\
     (usa_off raw + 2 * usa_cnt raw <= 510 -> tails_restored raw out (usa_off raw))) /\
  (~ index_sectors_ok raw -> unprotect_index raw = Ok None).
Proof.
  intros raw B. pose proof (index_sectors_spec raw B) as S.
  destruct (unprotect_index raw) as [[out|]|e]; try tauto.
  split; [|tauto]. intros _. exists out. split; [auto|]. split; apply S.
Qed.
Print Assumptions C20_accepted.

Theorem C20_round_trip : forall rec usn, bytes_ok rec -> bytes_ok usn -> zlen usn = 2 ->
  1024 <= zlen rec -> zlen rec mod 512 = 0 -> ztake 4 rec = [73; 78; 68; 88] ->
  40 <= usa_off rec -> (usa_cnt rec - 1) * 512 = zlen rec -> usa_off rec + 2 * usa_cnt rec <= 510 ->
  unprotect_index (protect rec usn) = Ok (Some (with_array rec usn)).
Proof. exact index_round_trip. Qed.
Print Assumptions C20_round_trip.

(** A buffer of [n] sectors holding bytes 1..5 repeatedly. *)
Definition indx_sample (n uo : Z) : list Z :=
  [73; 78; 68; 88] ++ le_bytes 2 uo ++ le_bytes 2 (n + 1) ++ zeros 16 ++ le_bytes 4 16 ++ zeros 12 ++
  map (fun k => Z.of_nat k mod 5 + 1) (seq 0 (Z.to_nat (512 * n - 40))).

Example C20_case :
  let rec := indx_sample 8 40 in
  let raw := protect rec [7; 9] in
  zlen raw = 4096 /\ tail raw 7 = [7; 9] /\ unprotect_index raw = Ok (Some (with_array rec [7; 9])) /\
  unprotect_index (zset raw 1023 8) = Ok None /\ unprotect_index (zset raw 0 74) = Ok None.
Proof. vm_compute. repeat split. Qed.

(** The part "with every tail restored" fails when the array reaches the tail of
    the first sector: that tail is both the sequence number and an array entry. *)
Theorem C20_overlap_refuted : exists raw out, bytes_ok raw /\ index_sectors_ok raw /\
  unprotect_index raw = Ok (Some out) /\ ~ tails_restored raw out (usa_off raw).
Proof.
  pose (raw := [73; 78; 68; 88] ++ le_bytes 2 506 ++ le_bytes 2 3 ++ zeros 498 ++ [7; 9; 1; 2; 7; 9] ++ zeros 510 ++ [7; 9]).
  exists raw. destruct (unprotect_index raw) as [[out|]|] eqn:E; [|vm_compute in E; discriminate|vm_compute in E; discriminate].
  exists out. assert (B : bytes_ok raw) by (apply bytes_okb_ok; reflexivity).
  pose proof (index_sectors_spec raw B) as S. rewrite E in S. destruct S as [S _].
  split; [auto|]. split; [auto|]. split; [auto|].
  intro T. specialize (T 1022 ltac:(vm_compute; split; congruence) ltac:(vm_compute; congruence)).
  vm_compute in E. injection E as <-. vm_compute in T. discriminate.
Qed.
Print Assumptions C20_overlap_refuted.

(** C21: for index roots (header at 16, [stop] false) and buffers (24, true). *)
Theorem C21_entries : forall hb stop v, 0 <= hb -> bytes_ok v ->
  (hb + 8 <= zlen v -> exists ps st,
     ix_walk v (hb + fld 4 v (hb + 4)) stop (hb + fld 4 v hb) ps st /\
     index_entries_at hb stop v = (map (fun p => zdrop p v) ps, st)) /\
  (zlen v < hb + 8 -> index_entries_at hb stop v = ([], Raised StructError)).
Proof. exact index_entries_walk. Qed.
Print Assumptions C21_entries.

Theorem C21_deterministic : forall v lim stop pos l st l' st',
  ix_walk v lim stop pos l st -> ix_walk v lim stop pos l' st' -> l = l' /\ st = st'.
Proof. intros. eapply ix_walk_fun; eauto. Qed.
Print Assumptions C21_deterministic.

Theorem C21_positions : forall v lim stop pos ps st, ix_walk v lim stop pos ps st ->
  spaced pos ps /\ Forall (fun p => pos <= p /\ p < lim /\ p + 12 <= zlen v) ps /\
  (st = Done \/ st = Raised StructError).
Proof. exact ix_walk_positions. Qed.
Print Assumptions C21_positions.

(** Entries written are the entries read. *)
Theorem C21_round_trip : forall hb stop flags last slack pre l, 0 <= hb -> hb + 16 <= zlen pre ->
  0 <= flags < 65536 -> zlen last < 65520 -> Forall ixi_ok l ->
  let v := pre ++ ixis l ++ ixi_end flags last ++ slack in
  bytes_ok v -> hb + fld 4 v hb = zlen pre -> hb + fld 4 v (hb + 4) = zlen v - zlen slack ->
  exists rs, index_entries_at hb stop v = (rs, Done) /\ Forall2 decodes rs l.
Proof. exact index_entries_images. Qed.
Print Assumptions C21_round_trip.

Definition ix_sample : list ix_image :=
  [mk_ixi 0x5000000000020 0 [65; 66; 67] (zeros 5); mk_ixi 0x1000000000021 1 [68] (zeros 7 ++ le_bytes 8 9)].
Definition ib_sample : list Z :=
  zeros 24 ++ le_bytes 4 16 ++ le_bytes 4 88 ++ zeros 8 ++ ixis ix_sample ++ ixi_end 2 [] ++ [5; 5; 5].

Example C21_case : Forall ixi_ok ix_sample /\
  ib_index_entries ib_sample = ([zdrop 40 ib_sample; zdrop 64 ib_sample], Done) /\
  ie_attribute (zdrop 64 ib_sample) = Ok (Some [68]) /\ ie_vcn (zdrop 64 ib_sample) = Ok (Some 9) /\
  ib_slack ib_sample = Ok [5; 5; 5] /\
  snd (ib_index_entries (ztake 48 ib_sample)) = Raised StructError.
Proof.
  split; [|vm_compute; repeat split].
  repeat constructor; vm_compute; try congruence; try reflexivity.
Qed.

(** C56: index buffers of an $INDEX_ALLOCATION attribute.  [c] is the content of
    the file, in whole clusters. *)
Theorem C56_buffer_size : forall f c s, ff_bytes_ok f -> whole_content f c ->
  ia_buffer_size f = Ok (Some s) <->
  (4 < ff_size f /\ s = (fld 2 c 6 - 1) * 512 /\ s <= 119808 /\ index_sectors_ok (slice c 0 s)).
Proof. exact ia_buffer_size_iff. Qed.
Print Assumptions C56_buffer_size.

Theorem C56_buffers : forall f c size, ff_bytes_ok f -> whole_content f c ->
  ia_buffer_size f = Ok (Some size) ->
  exists l, ia_index_buffers f = (l, Done) /\ increasing 0 l /\
  forall k out, In (k, out) l <->
    (0 <= k /\ k * size < ff_size f /\ (k + 1) * size <= zlen c /\
     unprotect_index (slice c (k * size) ((k + 1) * size)) = Ok (Some out)).
Proof. exact ia_buffers. Qed.
Print Assumptions C56_buffers.

(** Three buffers of 1024 bytes; the second one is torn. *)
Definition ia_sample : list Z :=
  protect (indx_sample 2 40) [7; 9] ++ zset (protect (indx_sample 2 40) [7; 9]) 510 8 ++ protect (indx_sample 2 40) [1; 1].

Example C56_case :
  let f := ff_open ia_sample 0 512 [(Some 0, 6)] 3072 in
  ia_buffer_size f = Ok (Some 1024) /\
  ia_index_buffers f = ([(0, with_array (indx_sample 2 40) [7; 9]); (2, with_array (indx_sample 2 40) [1; 1])], Done) /\
  whole_clusters 512 3072 = zlen ia_sample.
Proof. vm_compute. repeat split. Qed.

(** C22. *)
Theorem C22_any_bytes : forall v l, bytes_ok v -> ea_walk v l <-> ea_data v = (l, Done).
Proof. exact ea_data_iff. Qed.
Print Assumptions C22_any_bytes.

Theorem C22_total : forall v, bytes_ok v -> exists l, ea_data v = (l, Done).
Proof.
  intros v B. destruct (ea_loop_walk (S (length v)) v B ltac:(lia)) as (l & E & _). eauto.
Qed.
Print Assumptions C22_total.

Theorem C22_round_trip : forall l term, Forall eai_ok l -> bytes_ok (eas_bytes l term) ->
  ea_data (eas_bytes l term) = (map eai_entry l, Done).
Proof. exact eas_round_trip. Qed.
Print Assumptions C22_round_trip.

Theorem C22_linux_any_bytes : forall v l, bytes_ok v -> lxx_walk v 4 l <-> lxx_attributes v = (l, Done).
Proof. exact lxx_iff. Qed.
Print Assumptions C22_linux_any_bytes.

Theorem C22_linux_total : forall v, bytes_ok v -> exists l, lxx_attributes v = (l, Done).
Proof.
  intros v B. destruct (lxx_loop_walk v B (S (length v)) 4 ltac:(lia) ltac:(unfold zlen; lia)) as (l & E & _). eauto.
Qed.
Print Assumptions C22_linux_total.

Theorem C22_linux_round_trip : forall l term, l <> [] -> Forall lxi_ok l -> bytes_ok (lxx_value l term) ->
  lxx_open (lxx_value l term) = Ok (lxx_value l term) /\
  lxx_attributes (lxx_value l term) = (map lxi_entry l, Done).
Proof. exact lxx_round_trip. Qed.
Print Assumptions C22_linux_round_trip.

Example C22_case :
  let eas := [mk_eai [76; 88] 0 [1; 2; 3] [0; 0]; mk_eai [65] 128 [] []; mk_eai [] 0 [9] []] in
  Forall eai_ok eas /\
  ea_data (eas_bytes eas true) = ([([76; 88; 0], 0, [1; 2; 3]); ([65; 0], 128, []); ([0], 0, [9])], Done) /\
  ea_data (eas_bytes eas false) = ea_data (eas_bytes eas true) /\
  lxx_attributes (lxx_value [mk_lxi [117; 46; 97] [1] []; mk_lxi [98] [2; 3] [0]] true)
  = ([([117; 46; 97], [1]); ([98], [2; 3])], Done).
Proof.
  split; [|vm_compute; repeat split].
  repeat constructor; vm_compute; try congruence; try reflexivity.
Qed.

(** The size condition of [lxi_ok] is needed: an attribute with a one-byte name and
    an empty value is eight bytes long and is dropped, with everything after it. *)
Theorem C22_linux_short_refuted : exists l, Forall (fun i => 0 < zlen (lxi_name i) < 256) l /\
  bytes_ok (lxx_value l true) /\ lxx_open (lxx_value l true) = Ok (lxx_value l true) /\
  lxx_attributes (lxx_value l true) = ([], Done) /\ zlen l = 2.
Proof.
  exists [mk_lxi [97] [] []; mk_lxi [98; 99] [1; 2] []].
  split; [repeat constructor; vm_compute; congruence|]. split; [apply bytes_okb_ok; reflexivity|].
  vm_compute. repeat split.
Qed.
Print Assumptions C22_linux_short_refuted.

(** C57: Unix timestamps are exact to the nearest microsecond, ties to even, and
    raise exactly past the year 9999. *)
Theorem C57_unix_time : forall s ns, 0 <= s -> 0 <= ns < 2 ^ 32 ->
  decode_unixtime s ns =
  if s * 1000000 + rhe ns 1000 <? 253402300800 * 1000000
  then Ok (s * 1000000 + rhe ns 1000) else Err OverflowError.
Proof. exact decode_unixtime_spec. Qed.
Print Assumptions C57_unix_time.

Theorem C57_nearest : forall s ns us, 0 <= s -> 0 <= ns < 2 ^ 32 -> decode_unixtime s ns = Ok us ->
  2 * Z.abs (1000 * us - (1000000000 * s + ns)) <= 1000.
Proof.
  intros s ns us Hs Hn H. rewrite decode_unixtime_spec in H by auto.
  destruct (_ <? _); [|discriminate]. injection H as <-.
  destruct (rhe_spec ns 1000 ltac:(lia)) as [A _]. lia.
Qed.
Print Assumptions C57_nearest.

Theorem C57_metadata : forall v, bytes_ok v -> lxb_open v = Ok v ->
  lxb_mode v = Ok (fld 4 v 4) /\ lxb_uid v = Ok (fld 4 v 8) /\ lxb_gid v = Ok (fld 4 v 12) /\ lxb_rdev v = Ok (fld 4 v 16) /\
  lxb_atime v = decode_unixtime (fld 8 v 32) (fld 4 v 20) /\
  lxb_mtime v = decode_unixtime (fld 8 v 40) (fld 4 v 24) /\
  lxb_chtime v = decode_unixtime (fld 8 v 48) (fld 4 v 28).
Proof.
  intros v B H. unfold lxb_open in H.
  destruct (Z.eqb_spec (zlen v) 56) as [E|E]; cbn [negb] in H; [|discriminate].
  unfold lxb_mode, lxb_uid, lxb_gid, lxb_rdev, lxb_atime, lxb_mtime, lxb_chtime, lxb_time, u32, u64.
  rewrite !unp_ok by lia. repeat split.
Qed.
Print Assumptions C57_metadata.

Example C57_case : decode_unixtime 1600000000 123456500 = Ok 1600000000123456 /\
  decode_unixtime 253402300799 999999499 = Ok 253402300799999999 /\
  decode_unixtime 253402300799 999999500 = Err OverflowError /\
  decode_unixtime (2 ^ 64 - 1) 0 = Err OverflowError.
Proof. vm_compute. repeat split. Qed.
