(** Properties C24 to C26. *)
From Coq Require Import String Sorted.
From Verif Require Import Base BaseLemmas Filetime Utf16 Usn UsnSpec UsnProofs.
Local Open Scope list_scope.
Local Open Scope Z_scope.

(** C24: a journal of records separated by zero padding gives back its records. *)
Theorem C24_journal : forall l t, Forall (fun x => ai_ok (snd x)) l -> bytes_ok (journal l) ->
  exists rs, usn_records (journal l ++ zeros t) = (rs, Done) /\ map fst rs = starts 0 l /\
    Forall2 (fun r x => ur_raw r = ai_bytes (snd x) /\ ai_decodes r (snd x)) (map snd rs) l.
Proof.
  intros l t H B. destruct (journal_walk t l H [] eq_refl) as (rs & W & M1 & M2).
  exists rs. split; [|auto]. apply usn_iff; auto. apply bytes_ok_app. split; [auto|apply bytes_ok_zeros].
Qed.
Print Assumptions C24_journal.

Theorem C24_bytes : forall l, Forall (fun x => ai_ok (snd x)) l -> bytes_ok (journal l).
Proof.
  intros l H. induction H as [|[k a] l Ha Hl IH]; cbn [journal flat_map]; [constructor|].
  cbn [fst snd] in *. rewrite !bytes_ok_app. split; [split; [apply bytes_ok_zeros|]|exact IH].
  destruct a as [i|i]; cbn [ai_ok ai_bytes] in *.
  - destruct Ha as (_ & _ & _ & _ & _ & _ & _ & _ & _ & _ & _ & B1 & B2 & B3).
    unfold ui_bytes, ui_ref. rewrite !bytes_ok_app. repeat (split; [apply le_bytes_ok|]). auto.
  - destruct Ha as (_ & _ & _ & _ & _ & _ & _ & _ & _ & _ & B1).
    unfold u4_bytes. rewrite !bytes_ok_app. repeat (split; [apply le_bytes_ok|]). split; auto.
    induction (u4_extents i) as [|e t IHe]; cbn [flat_map]; [constructor|].
    apply bytes_ok_app. split; auto. unfold extent_bytes. apply bytes_ok_app. split; apply le_bytes_ok.
Qed.
Print Assumptions C24_bytes.

(** Names written in UTF-16 come back. *)
Theorem C24_names : forall s, Forall scalar s -> utf16le (utf16_encode s) = s.
Proof. exact utf16_round_trip. Qed.
Print Assumptions C24_names.

Definition usn_sample : list (nat * any_image) :=
  [(3%nat, inl (mk_ui false 0 0x3000000000010 0x5000000000005 4096 131000000000000000 0x100 0 260 32 [] (utf16_encode [97; 46; 98]) (zeros 6)));
   (1024%nat, inr (mk_u4 0 (2 ^ 100 + 7) 5 4200 0x80000001 0 0 [(0, 4096); (8192, -1)] []));
   (0%nat, inl (mk_ui true 1 (2 ^ 127) 5 4296 131000000000000010 0x80000100 1 0 16 [1; 2; 3; 4] (utf16_encode [128512]) (zeros 4)))].

Example C24_case : Forall (fun x => ai_ok (snd x)) usn_sample /\
  map fst (fst (usn_records (journal usn_sample ++ zeros 13))) = [24; 8288; 8384] /\
  map (fun x => if ur_version (snd x) =? 4 then Ok [] else ur_file_name (snd x)) (fst (usn_records (journal usn_sample))) = [Ok [97; 46; 98]; Ok []; Ok [128512]] /\
  map (fun x => ur_usn (snd x)) (fst (usn_records (journal usn_sample))) = [Ok 4096; Ok 4200; Ok 4296].
Proof.
  split; [|vm_compute; repeat split].
  unfold usn_sample. repeat constructor; vm_compute; try congruence; try reflexivity.
Qed.

(** C25: any bytes. *)
Theorem C25_walk : forall data l, bytes_ok data -> usn_records data = (l, Done) <-> usn_walk data 0 l.
Proof. exact usn_iff. Qed.
Print Assumptions C25_walk.

Theorem C25_total : forall data, bytes_ok data -> exists l, usn_records data = (l, Done) /\
  apart 0 l /\
  forall p r, In (p, r) l <->
    (0 <= p /\ p mod 8 = 0 /\ (exists n k, usn_at data p n k /\ r = mk_ur k (slice data p (p + n))) /\
     forall q s, In (q, s) l -> ~ (q < p < q + zlen (ur_raw s))).
Proof.
  intros data B.
  destruct (usn_loop_walk data B (S (length data)) 0 ltac:(lia) ltac:(left; reflexivity) ltac:(unfold zlen; lia)) as (l & E & W).
  exists l. split; [exact E|]. split; [eapply usn_walk_apart; eauto|]. eapply usn_walk_greedy; eauto; lia.
Qed.
Print Assumptions C25_total.

Theorem C25_deterministic : forall data pos l, usn_walk data pos l -> forall l', usn_walk data pos l' -> l = l'.
Proof. exact usn_walk_fun. Qed.
Print Assumptions C25_deterministic.

(** The getters of a record yielded raise only for a name that does not fit. *)
Theorem C25_getters : forall r, bytes_ok (ur_raw r) -> usn_at (ur_raw r) 0 (zlen (ur_raw r)) (ur_version r) ->
  ur_record_length r = Ok (zlen (ur_raw r)) /\ ur_major r = Ok (ur_version r) /\
  (exists a b c d e f, ur_minor r = Ok a /\ ur_file_reference r = Ok b /\ ur_parent_reference r = Ok c /\
     ur_usn r = Ok d /\ ur_reason r = Ok e /\ ur_source r = Ok f) /\
  (ur_version r < 4 ->
   (exists t s a, ur_timestamp r = Ok t /\ ur_security_id r = Ok s /\ ur_file_attributes r = Ok a) /\
   exists off len, ur_name_offset r = Ok off /\ ur_name_length r = Ok len /\
     ur_file_name r = if off + len <=? zlen (ur_raw r) then Ok (utf16le (slice (ur_raw r) off (off + len)))
                      else if len =? 0 then Ok [] else Err ValueError) /\
  (ur_version r = 4 -> exists l, ur_extents r = (l, Done)).
Proof.
  intros [k v]. cbn [ur_raw ur_version]. intros B (_ & _ & Hk & Hn & H8 & E1 & E2). rewrite Z.add_0_l in E2.
  assert (M : 62 <= usn_min k /\ (k = 3 -> usn_min k = 78) /\ (k = 4 -> usn_min k = 80)).
  { unfold usn_min. assert (k = 2 \/ k = 3 \/ k = 4) as [->|[->| ->]] by lia; cbn; lia. }
  assert (F : forall w off, 0 <= off -> 0 <= w -> off + w <= zlen v -> unp w v off = Ok (fld w v off)) by (intros; now apply unp_ok).
  unfold ur_record_length, ur_major, ur_minor, ur_file_reference, ur_parent_reference, wide_ref, ur_usn, ur_reason, ur_source,
    ur_timestamp, ur_security_id, ur_file_attributes, ur_file_name, ur_name_offset, ur_name_length, ur_extents,
    ur_extent_count, ur_extent_size, ur_inc, u64, u32, u16. cbn [ur_raw ur_version].
  assert (T : forall t, exists o, decode_filetime t true = Ok o).
  { intro t. unfold decode_filetime, decode_time. destruct (_ <? _); eauto. }
  assert (k = 2 \/ k = 3 \/ k = 4) as [->|[->| ->]] by lia; cbn [Z.eqb Pos.eqb].
  - rewrite !F by lia. cbn [bind]. rewrite E1, E2. split; [auto|]. split; [auto|].
    split; [do 6 eexists; repeat split|]. split; [intros _|lia].
    destruct (T (fld 8 v (32 + 0))) as (o & ->). split; [do 3 eexists; repeat split|].
    exists (fld 2 v (58 + 0)), (fld 2 v (56 + 0)). split; [auto|]. split; [auto|].
    pose proof (fld_bound 2 v (58 + 0) ltac:(lia) ltac:(lia) B). pose proof (fld_bound 2 v (56 + 0) ltac:(lia) ltac:(lia) B).
    set (o2 := fld 2 v (58 + 0)) in *. set (n2 := fld 2 v (56 + 0)) in *.
    rewrite zlen_slice by lia. destruct (o2 + n2 <=? zlen v) eqn:Q; bools.
    + replace (Z.max 0 (Z.min (o2 + n2 - o2) (zlen v - o2)) =? n2) with true by lia. reflexivity.
    + destruct (Z.eqb_spec n2 0) as [Z0|Z0].
      * rewrite Z0. rewrite slice_empty by lia. replace (Z.max _ _ =? 0) with true by lia. reflexivity.
      * now replace (Z.max 0 (Z.min (o2 + n2 - o2) (zlen v - o2)) =? n2) with false by lia.
  - rewrite !F by lia. cbn [bind]. rewrite E1, E2. split; [auto|]. split; [auto|].
    split; [do 6 eexists; repeat split|]. split; [intros _|lia].
    destruct (T (fld 8 v (32 + 16))) as (o & ->). split; [do 3 eexists; repeat split|].
    exists (fld 2 v (58 + 16)), (fld 2 v (56 + 16)). split; [auto|]. split; [auto|].
    pose proof (fld_bound 2 v (58 + 16) ltac:(lia) ltac:(lia) B). pose proof (fld_bound 2 v (56 + 16) ltac:(lia) ltac:(lia) B).
    set (o2 := fld 2 v (58 + 16)) in *. set (n2 := fld 2 v (56 + 16)) in *.
    rewrite zlen_slice by lia. destruct (o2 + n2 <=? zlen v) eqn:Q; bools.
    + replace (Z.max 0 (Z.min (o2 + n2 - o2) (zlen v - o2)) =? n2) with true by lia. reflexivity.
    + destruct (Z.eqb_spec n2 0) as [Z0|Z0].
      * rewrite Z0. rewrite slice_empty by lia. replace (Z.max _ _ =? 0) with true by lia. reflexivity.
      * now replace (Z.max 0 (Z.min (o2 + n2 - o2) (zlen v - o2)) =? n2) with false by lia.
  - rewrite !F by lia. cbn [bind]. rewrite E1, E2. split; [auto|]. split; [auto|].
    split; [do 6 eexists; repeat split|]. split; [lia|]. intros _. eauto.
Qed.
Print Assumptions C25_getters.

(** Garbage, then a record that contains another record in its padding. *)
Example C25_case :
  let inner := ui_bytes (mk_ui false 0 1 2 3 4 5 6 7 8 [] [65; 0] (zeros 2)) in
  let outer := ui_bytes (mk_ui false 0 9 2 3 4 5 6 7 8 [] [66; 0] ([0; 0] ++ inner)) in
  let data := [255; 255; 0; 1; 2; 3; 4; 5] ++ outer ++ [1; 0; 0] in
  usn_records data = ([(8, mk_ur 2 outer)], Done) /\
  usn_records (zset data 8 1) = ([(72, mk_ur 2 inner)], Done).
Proof. vm_compute. split; reflexivity. Qed.

(** A record longer than the 8192-byte window is never found. *)
Theorem C24_long_record_lost_refuted : exists i, bytes_ok (ui_bytes i) /\ ui_size i mod 8 = 0 /\ ui_size i = 8200 /\
  usn_records (ui_bytes i) = ([], Done).
Proof.
  exists (mk_ui false 0 1 2 3 4 5 6 7 8 [] [65; 0] (zeros 8138)).
  split; [apply bytes_okb_ok; vm_compute; reflexivity|]. split; [vm_compute; reflexivity|]. split; vm_compute; reflexivity.
Qed.
Print Assumptions C24_long_record_lost_refuted.

(** C26. *)
Theorem C26_reasons : forall codes, 0 <= codes ->
  resolve_reason_codes codes =
  map (fun x => Named (snd x)) (filter (fun x => negb (Z.land codes (fst x) =? 0)) reason_list) ++
  (if Z.ldiff codes 0x80FFFF77 =? 0 then [] else [Hex (Z.ldiff codes 0x80FFFF77)]).
Proof. intros codes H. apply (resolve_spec reason_list codes); auto. Qed.
Print Assumptions C26_reasons.

Theorem C26_sources : forall codes, 0 <= codes ->
  resolve_source_codes codes =
  map (fun x => Named (snd x)) (filter (fun x => negb (Z.land codes (fst x) =? 0)) source_list) ++
  (if Z.ldiff codes 0xF =? 0 then [] else [Hex (Z.ldiff codes 0xF)]).
Proof. intros codes H. apply (resolve_spec source_list codes); auto. Qed.
Print Assumptions C26_sources.

Theorem C26_no_bit_lost : forall codes, 0 <= codes ->
  items_value reason_list (resolve_reason_codes codes) = Some codes /\
  items_value source_list (resolve_source_codes codes) = Some codes.
Proof.
  intros codes H. split; apply resolve_inverse; auto; [apply reason_bits|apply source_bits].
Qed.
Print Assumptions C26_no_bit_lost.

Theorem C26_injective : forall a b, 0 <= a -> 0 <= b ->
  (resolve_reason_codes a = resolve_reason_codes b -> a = b) /\
  (resolve_source_codes a = resolve_source_codes b -> a = b).
Proof.
  intros a b Ha Hb. destruct (C26_no_bit_lost a Ha) as [A1 A2]. destruct (C26_no_bit_lost b Hb) as [B1 B2].
  split; intro E; rewrite E in *; congruence.
Qed.
Print Assumptions C26_injective.

Example C26_case : resolve_reason_codes 0x80000109 =
  [Named "USN_REASON_DATA_OVERWRITE"; Named "USN_REASON_FILE_CREATE"; Named "USN_REASON_CLOSE"; Hex 8] /\
  resolve_source_codes 0x12 = [Named "USN_SOURCE_AUXILIARY_DATA"; Hex 16] /\
  StronglySorted Z.lt (map fst reason_list) /\ StronglySorted Z.lt (map fst source_list).
Proof.
  repeat split; try (vm_compute; reflexivity); repeat constructor.
Qed.
