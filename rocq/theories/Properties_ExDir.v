(** Properties of exFAT directories (C54). *)
From Verif Require Import Base BaseLemmas FieldLemmas Utf16 FatBasic FatDir FatSpec FatDirSpec FatProofs FatDirProofs FatDirWrite
  ExBasic ExSpec ExBasicProofs ExDir ExDirSpec ExDirProofs ExDirWrite Properties_ExBoot Properties_ExBasic.

(** A buffer that is not a positive whole number of sectors is refused. *)
Theorem C54_sizes root buf : zlen buf < 512 \/ zlen buf mod 512 <> 0 -> x_entries root buf = ([], Raised DirectoryEntriesException).
Proof. intro H. unfold x_entries. replace ((zlen buf <? 512) || negb (zlen buf mod 512 =? 0)) with true by lia. reflexivity. Qed.

(** Every other buffer is read as exactly what the slots mean. *)
Theorem C54_exact root slots l st : Forall slot_ok slots -> 16 <= zlen slots -> zlen slots mod 16 = 0 ->
  (x_entries root (concat slots) = (l, st) <-> listing root 0 0 slots l st).
Proof. intros O L M. rewrite entries_slots by auto. apply loop_listing_iff; auto; lia. Qed.

Lemma listing_file root a b slots l st e : listing root a b slots l st -> In (XFile e) l ->
  exists p s subs q, slots = p ++ s :: subs ++ q /\ file_set s subs e.
Proof.
  assert (C : forall (s : list Z) r, (exists p s0 subs q, r = p ++ s0 :: subs ++ q /\ file_set s0 subs e) ->
    exists p s0 subs q, s :: r = p ++ s0 :: subs ++ q /\ file_set s0 subs e).
  { intros s r (p & s0 & subs & q & -> & F). exists (s :: p), s0, subs, q. auto. }
  assert (CA : forall (x : list (list Z)) r, (exists p s0 subs q, r = p ++ s0 :: subs ++ q /\ file_set s0 subs e) ->
    exists p s0 subs q, x ++ r = p ++ s0 :: subs ++ q /\ file_set s0 subs e).
  { intros x r (p & s0 & subs & q & -> & F). exists (x ++ p), s0, subs, q. rewrite <- app_assoc. auto. }
  induction 1; intro I; cbn [In] in I; try contradiction; try (apply C; auto; fail);
    try (destruct I as [I|I]; [try discriminate I|try (apply C; auto; fail)]).
  - injection I as ->. exists [], s, subs, r. auto.
Qed.

(** Every file that is reported is described by a valid entry set of the directory. *)
Theorem C54_sound root slots l st e : Forall slot_ok slots -> 16 <= zlen slots -> zlen slots mod 16 = 0 ->
  x_entries root (concat slots) = (l, st) -> In (XFile e) l ->
  exists p s subs q, slots = p ++ s :: subs ++ q /\ file_set s subs e.
Proof. intros O L M E I. apply C54_exact in E; auto. eapply listing_file; eauto. Qed.

Lemma listing_status root a b slots l st : listing root a b slots l st -> st = Done \/ (root = true /\ st = Raised DirectoryEntriesException).
Proof. induction 1; auto. destruct root; auto. Qed.

(** Reading fails only in the root directory, with the exception for directories. *)
Theorem C54_failures root slots l st : Forall slot_ok slots -> 16 <= zlen slots -> zlen slots mod 16 = 0 ->
  x_entries root (concat slots) = (l, st) -> st = Done \/ (root = true /\ st = Raised DirectoryEntriesException).
Proof. intros O L M E. apply C54_exact in E; auto. eapply listing_status; eauto. Qed.

(** One label and two bitmaps at most; none outside of the root directory. *)
Definition labels_in (l : list x_item) : Z := zlen (filter (fun i => match i with XLabel _ => true | _ => false end) l).
Definition bitmaps_in (l : list x_item) : Z := zlen (filter (fun i => match i with XBitmap _ _ _ => true | _ => false end) l).
Lemma listing_counts root a b slots l st : listing root a b slots l st -> 0 <= a <= 1 -> 0 <= b <= 2 ->
  a + labels_in l <= 1 /\ b + bitmaps_in l <= 2 /\ (root = false -> labels_in l = 0 /\ bitmaps_in l = 0).
Proof.
  unfold labels_in, bitmaps_in. induction 1; intros A B; cbn [filter]; rewrite ?zlen_cons; change (zlen (@nil x_item)) with 0; try lia.
  all: destruct IHlisting as (I1 & I2 & I3); try lia; (split; [lia|split; [lia|]]); intro R; try congruence; destruct (I3 R); lia.
Qed.
Theorem C54_counts root slots l st : Forall slot_ok slots -> 16 <= zlen slots -> zlen slots mod 16 = 0 ->
  x_entries root (concat slots) = (l, st) ->
  labels_in l <= 1 /\ bitmaps_in l <= 2 /\ (root = false -> labels_in l = 0 /\ bitmaps_in l = 0).
Proof. intros O L M E. apply C54_exact in E; auto. destruct (listing_counts _ _ _ _ _ _ E ltac:(lia) ltac:(lia)) as (H1 & H2 & H3). split; [lia|]. split; [lia|exact H3]. Qed.

(** Directories that were written: the files are read back, in order. *)
Theorem C54_written root (files : list (xmeta * list Z)) k :
  let slots := flat_map (fun f => set_head (fst f) (snd f) :: sub_slots (fst f) (snd f)) files ++ repeat (zeros 32) k in
  Forall (fun f => xmeta_ok (fst f) /\ writable_name (snd f)) files -> 16 <= zlen slots -> zlen slots mod 16 = 0 ->
  x_entries root (concat slots) = (map (fun f => XFile (set_entry (fst f) (snd f))) files, Done).
Proof.
  intros slots F L M.
  assert (Z : Forall slot_ok (repeat (zeros 32) k)).
  { clear. induction k; cbn [repeat]; constructor; auto. split; [apply bytes_ok_zeros|reflexivity]. }
  apply C54_exact; auto.
  - unfold slots. apply Forall_app. split; auto. clear -F. induction F as [|[m nm] fs [H1 H2] F IH]; [constructor|]. cbn [flat_map fst snd].
    destruct (written_set m nm H1 H2) as (_ & O1 & O2). apply Forall_app. split; auto.
  - unfold slots. clear -F. induction F as [|[m nm] fs [H1 H2] F IH]; cbn [flat_map map fst snd app].
    + destruct k; cbn [repeat]; [constructor|]. apply li_end. reflexivity.
    + rewrite <- app_assoc. apply li_file; auto. now apply written_set.
Qed.

(** Corruption: a set in use, one byte behind the count changed; whatever
    follows, the slots are not reported as a file any more. *)
Theorem C54_corrupted s subs e i x v rest s' subs' :
  Forall slot_ok (s :: subs) -> file_set s subs e -> xe_deleted e = false ->
  znth (concat (s :: subs)) i = Some x -> 2 <= i -> is_byte v -> v <> x ->
  Forall slot_ok (s' :: subs' ++ rest) -> zlen subs' = zlen subs -> concat (s' :: subs') = zset (concat (s :: subs)) i v ->
  x_file s' (subs' ++ rest) = None.
Proof.
  intros O F D X I V NE O' L' E. destruct (x_file s' (subs' ++ rest)) as [[e' n]|] eqn:XF; auto. exfalso.
  inversion O as [|? ? O1 O2]; subst. inversion O' as [|? ? O1' O2']; subst.
  assert (BC : bytes_ok (concat (s :: subs))).
  { clear -O. induction O as [|y l [B _] _ IH]; [constructor|]. cbn [concat]. apply bytes_ok_app. auto. }
  assert (BX : is_byte x) by exact (bytes_ok_znth _ _ _ BC X).
  pose proof (znth_Some_range _ _ _ X) as RI.
  assert (HD : forall w o, 0 <= o -> o + w <= 32 -> 0 <= w -> fld w s' o = fld w (zset (concat (s :: subs)) i v) o).
  { intros w o Ho Hw Hw0. rewrite <- E. cbn [concat]. symmetry. apply fld_app_l; [lia|]. destruct O1' as [_ ->]. lia. }
  assert (HS : forall w o, 0 <= o -> o + w <= 32 -> 0 <= w -> fld w (concat (s :: subs)) o = fld w s o).
  { intros w o Ho Hw Hw0. cbn [concat]. apply fld_app_l; [lia|]. destruct O1 as [_ ->]. lia. }
  assert (H0 : fld 1 s' 0 = fld 1 s 0) by (rewrite HD, fld_zset_other, HS by lia; reflexivity).
  assert (H1 : fld 1 s' 1 = fld 1 s 1) by (rewrite HD, fld_zset_other, HS by lia; reflexivity).
  assert (K' : x_kind s' = 5). { unfold x_kind, x_type. rewrite H0. fold (x_type s). rewrite (fs_kind _ _ _ F), D. reflexivity. }
  apply x_file_iff in XF; auto. destruct XF as (subs'' & q & E2 & F' & _).
  assert (ES : subs'' = subs').
  { destruct (fs_count _ _ _ F') as [C' _]. destruct (fs_count _ _ _ F) as [C _]. assert (LL : zlen subs'' = zlen subs') by lia.
    assert (T1 : ztake (zlen subs') (subs' ++ rest) = subs') by (apply ztake_app_exact; auto).
    assert (T2 : ztake (zlen subs') (subs'' ++ q) = subs'') by (apply ztake_app_exact; auto). congruence. }
  subst subs''. assert (D' : xe_deleted e' = false).
  { pose proof (fs_kind _ _ _ F') as K1. pose proof (fs_kind _ _ _ F) as K2. unfold x_type in *. rewrite D in K2. rewrite H0, K2 in K1. destruct (xe_deleted e'); auto; discriminate. }
  pose proof (fs_checksum _ _ _ F D) as S1. pose proof (fs_checksum _ _ _ F' D') as S2. rewrite E in S2.
  assert (LC : zlen (concat (s :: subs)) = 32 * (1 + zlen subs)) by (rewrite concat_len by auto; rewrite zlen_cons; lia).
  pose proof (zlen_nonneg subs) as LP.
  assert (CV : x_set_checksum (concat (s :: subs)) = Ok (rot_total 16 (set_bytes (concat (s :: subs))))).
  { rewrite C37_exfat_value. rewrite LC. replace (_ && _) with true by lia. reflexivity. }
  assert (CV' : x_set_checksum (zset (concat (s :: subs)) i v) = Ok (rot_total 16 (set_bytes (zset (concat (s :: subs)) i v)))).
  { rewrite C37_exfat_value. rewrite zlen_zset, LC. replace (_ && _) with true by lia. reflexivity. }
  destruct (Z.le_gt_cases 4 i) as [I4|I4].
  - destruct (C37_exfat_detected _ i v x _ BX V CV X NE ltac:(lia) ltac:(lia)) as (d & D1 & D2). assert (D3 : d = rot_total 16 (set_bytes (zset (concat (s :: subs)) i v))) by congruence.
    apply D2. rewrite D3, <- S2, <- S1. rewrite HD, fld_zset_other, HS by lia. reflexivity.
  - (* the checksum field itself *)
    assert (SB : set_bytes (zset (concat (s :: subs)) i v) = set_bytes (concat (s :: subs))).
    { unfold set_bytes. rewrite zlen_zset. rewrite !slice_zset_other by lia. reflexivity. }
    rewrite SB, <- S1 in S2. rewrite HD in S2 by lia. rewrite <- HS in S2 by lia.
    unfold fld in S2. change (2 + 2) with 4 in S2.
    apply le_val_inj in S2.
    + assert (Q : znth (slice (zset (concat (s :: subs)) i v) 2 4) (i - 2) = znth (slice (concat (s :: subs)) 2 4) (i - 2)) by now rewrite S2.
      rewrite !znth_slice in Q by lia. replace (2 + (i - 2)) with i in Q by lia. rewrite X in Q.
      rewrite znth_zset_same in Q by lia. congruence.
    + apply bytes_ok_slice. now apply zset_bytes_ok.
    + now apply bytes_ok_slice.
    + rewrite !zlen_slice by (rewrite ?zlen_zset; lia). rewrite zlen_zset. lia.
Qed.

Print Assumptions C54_sizes.
Print Assumptions C54_exact.
Print Assumptions C54_sound.
Print Assumptions C54_failures.
Print Assumptions C54_counts.
Print Assumptions C54_written.
Print Assumptions C54_corrupted.

(** Examples: two files, one of them with a name of two entries. *)
Definition ex_meta : xmeta := mk_xmeta 0x20 0 1431655765 1431655765 1431655765 100 0 0x97 0xD8 0 true 0 100 5 100.
Definition ex_long_name : list Z := [97;98;99;100;101;102;103;104;105;106;107;108;109;110;111;112;46;116;120;116].
Definition ex_xdir : list (list Z) :=
  (set_head ex_meta [104; 105] :: sub_slots ex_meta [104; 105]) ++ (set_head ex_meta ex_long_name :: sub_slots ex_meta ex_long_name) ++ repeat (zeros 32) 9.
Example C54_example : exists a b, x_entries false (concat ex_xdir) = ([XFile a; XFile b], Done) /\ xe_name a = [104; 105] /\ xe_name b = ex_long_name /\
  xe_no_chain a = true /\ xe_size a = 100 /\ xe_first a = 5 /\ xe_ctz a = Some 23 /\ xe_mtz a = Some (-40) /\ xe_atz a = None.
Proof. eexists. eexists. split; [vm_compute; reflexivity|]. vm_compute. repeat split. Qed.

(** With one byte of the stream entry changed, the name is an orphan. *)
Example C54_example_corrupted : exists b, x_entries false (zset (concat ex_xdir) 60 1) = ([XOrphan [104; 105]; XFile b], Done) /\ xe_name b = ex_long_name.
Proof. eexists. split; vm_compute; reflexivity. Qed.

(** The two first bytes are not protected: with the bit "in use" cleared the
    set is a deleted file, which has no checksum. *)
Theorem C54_type_byte_refuted : exists b, x_entries false (zset (concat ex_xdir) 0 5) = ([XFile b; XFile (set_entry ex_meta ex_long_name)], Done) /\
  xe_deleted b = true /\ xe_name b = [104; 105].
Proof. eexists. split; [vm_compute; reflexivity|]. vm_compute. split; reflexivity. Qed.
Print Assumptions C54_type_byte_refuted.

(** One invalid slot ends a directory: the files behind it are not reported. *)
Theorem C54_later_files_lost_refuted : exists slots, Forall slot_ok slots /\
  slots = [le_bytes 1 0x83 ++ zeros 31] ++ (set_head ex_meta [104; 105] :: sub_slots ex_meta [104; 105]) ++ repeat (zeros 32) 12 /\
  x_entries false (concat slots) = ([], Done).
Proof.
  eexists. split; [|split; [reflexivity|vm_compute; reflexivity]].
  assert (H : forallb (fun s => forallb (fun b => (0 <=? b) && (b <? 256)) s && (zlen s =? 32))
    ([le_bytes 1 0x83 ++ zeros 31] ++ (set_head ex_meta [104; 105] :: sub_slots ex_meta [104; 105]) ++ repeat (zeros 32) 12) = true) by (vm_compute; reflexivity).
  rewrite forallb_forall in H. apply Forall_forall. intros s I. specialize (H s I). apply andb_true_iff in H as [H1 H2].
  split; [|lia]. apply bytes_okb_ok. exact H1.
Qed.
Print Assumptions C54_later_files_lost_refuted.
