(** Properties of FAT directories (C36). *)
From Verif Require Import Base BaseLemmas FieldLemmas Utf16 FatBasic FatDir FatSpec FatDirSpec FatProofs FatDirProofs FatDirWrite.

(** Buffers of a wrong size are refused. *)
Theorem C36_sizes dec lower is32 so buf :
  ~ (512 <= zlen buf /\ zlen buf mod 512 = 0) -> dir_entries dec lower is32 so buf = ([], Raised DirectoryEntriesException).
Proof.
  intro H. unfold dir_entries. destruct ((zlen buf <? 512) || negb (zlen buf mod 512 =? 0)) eqn:E; [reflexivity|].
  exfalso. apply H. apply orb_false_iff in E as [E1 E2]. apply negb_false_iff in E2. lia.
Qed.

Lemma slots_of buf : bytes_ok buf -> 512 <= zlen buf -> zlen buf mod 512 = 0 ->
  Forall slot_ok (cut_slots (Z.to_nat (zlen buf / 32)) buf) /\ concat (cut_slots (Z.to_nat (zlen buf / 32)) buf) = buf.
Proof. intros. apply cut_slots_spec; auto. lia. Qed.

Lemma entries_eq dec lower is32 so buf : 512 <= zlen buf -> zlen buf mod 512 = 0 ->
  dir_entries dec lower is32 so buf = dir_loop dec lower is32 so dir_init (cut_slots (Z.to_nat (zlen buf / 32)) buf).
Proof. intros H1 H2. unfold dir_entries. replace (zlen buf <? 512) with false by lia. rewrite H2. reflexivity. Qed.

(** All others are read to the end; every file entry reported says what one slot
    of the buffer says; it is marked as deleted exactly if the slot is, and its
    status is unknown exactly if the slot is in use but follows an end mark. *)
Theorem C36_entries dec lower is32 buf : bytes_ok buf -> 512 <= zlen buf -> zlen buf mod 512 = 0 ->
  snd (dir_entries dec lower is32 false buf) = Done /\
  forall e, In (FileE e) (fst (dir_entries dec lower is32 false buf)) ->
    exists p s q, buf = concat (p ++ s :: q) /\ Forall slot_ok (p ++ s :: q) /\ s_attr s <> 15 /\ describes is32 s e /\
      (fe_deleted e = Some true <-> s_order s = 0 \/ s_order s = 0xE5) /\
      (fe_deleted e = None <-> s_order s <> 0 /\ s_order s <> 0xE5 /\ exists x, In x p /\ s_order x = 0).
Proof.
  intros B L1 L2. rewrite entries_eq by auto. destruct (slots_of buf B L1 L2) as [S1 S2].
  destruct init_run as [R1 R2].
  destruct (dir_loop_spec dec lower is32 _ [] dir_init (Forall_nil _) S1 R1 R2) as [D1 D2]. split; auto.
  intros e X. destruct (D2 e X) as (p & s & q & E & [raw SF1 SF2 SF3 SF4 SF5 SF6 SF7]). exists p, s, q.
  rewrite <- E. cbn [app] in *. auto 10.
Qed.

(** A long name reported for an entry that is not deleted is kept in the slots
    right before it (slots with the attributes of a long name but another type
    are passed over): parts n, n - 1, ..., 1, all with the checksum of this short name. *)
Theorem C36_attached dec lower is32 buf e nm : bytes_ok buf -> 512 <= zlen buf -> zlen buf mod 512 = 0 ->
  In (FileE e) (fst (dir_entries dec lower is32 false buf)) -> fe_long e = Some nm -> fe_deleted e <> Some true ->
  exists a b s q n, buf = concat (a ++ b ++ s :: q) /\ Forall slot_ok (a ++ b ++ s :: q) /\ describes is32 s e /\
    Forall (fun x => s_attr x = 15) b /\
    lfn_desc (build_checksum (if (s_attr s / 8) mod 4 =? 1 then fix_first (slice s 0 11) else slice s 0 11)) n 1 (filter name_slot b) /\
    stored_name (stored_bytes (filter name_slot b)) nm.
Proof.
  intros B L1 L2 X LN ND. rewrite entries_eq in X by auto. destruct (slots_of buf B L1 L2) as [S1 S2].
  destruct init_run as [R1 R2].
  destruct (dir_loop_spec dec lower is32 _ [] dir_init (Forall_nil _) S1 R1 R2) as [_ D2].
  destruct (D2 e X) as (p & s & q & E & [raw SF1 SF2 SF3 SF4 SF5 SF6 SF7]). cbn [app] in *.
  destruct (SF7 nm LN) as (a & b & EP & FB & NE & SN & DE). destruct (DE ND) as [n LD]. subst raw.
  exists a, b, s, q, n. rewrite app_assoc, <- EP, <- E. split; auto. split; auto. split; auto. split; auto.
  eapply Forall_impl; [|exact FB]. cbv beta. unfold name_slot, other_slot. intros t [H|H]; apply andb_true_iff in H as [H _]; lia.
Qed.

(** The run of parts of a long name is complete: [n] parts. *)
Theorem C36_parts ck n L : lfn_desc ck n 1 L -> zlen L = n /\ Forall (fun s => s_check s = ck) L /\
  forall i, 0 <= i < n -> exists s, znth L i = Some s /\ s_order s = n - i + (if i =? 0 then 0x40 else 0).
Proof.
  intro D. assert (G : forall k, lfn_desc ck n k L -> zlen L = n - k + 1 /\ Forall (fun s => s_check s = ck) L /\
    forall i, 0 <= i < n - k + 1 -> exists s, znth L i = Some s /\ s_order s = n - i + (if i =? 0 then 0x40 else 0)).
  { clear D. induction 1 as [s N O R C|s k L D IH K N O C].
    - change (zlen [s]) with 1. split; [lia|]. split; [repeat constructor; auto|]. intros i Hi. assert (i = 0) by lia. subst i.
      exists s. split; [reflexivity|]. cbn. lia.
    - destruct IH as (I1 & I2 & I3). destruct (lfn_desc_bound _ _ _ _ D) as (B1 & _).
      rewrite zlen_app. change (zlen [s]) with 1. split; [lia|]. split; [apply Forall_app; split; auto|].
      intros i Hi. destruct (Z.eq_dec i (zlen L)) as [->|NE].
      + exists s. split; [rewrite znth_app2 by lia; rewrite Z.sub_diag; reflexivity|]. replace (zlen L =? 0) with false by lia. lia.
      + rewrite znth_app1 by lia. apply I3. lia. }
  destruct (G 1 D) as (G1 & G2 & G3). split; [lia|]. split; auto. intros i Hi. apply G3. lia.
Qed.

(** Completeness: a directory with files (each one with the parts of a long name, or
    without them) and unused space is read as exactly these files, in order. *)
Theorem C36_complete dec lower is32 files k :
  let slots := flat_map (fun f => fst f ++ [snd f]) files ++ repeat (zeros 32) k in
  Forall (file_slots dec lower) files -> 512 <= 32 * zlen slots -> 32 * zlen slots mod 512 = 0 ->
  exists es, dir_entries dec lower is32 false (concat slots) = (map FileE es, Done) /\ Forall2 (reports dec lower is32) files es.
Proof.
  intros slots F L1 L2. 
  assert (SO : Forall slot_ok slots).
  { unfold slots. apply Forall_app. split.
    - clear L1 L2 slots. induction F as [|[L s] fs [F1 F2] F IH]; [constructor|]. cbn [flat_map fst snd]. apply Forall_app. split; auto.
      apply Forall_app. split; auto. constructor; [|constructor]. destruct F2 as [[[H _] _]|[[H _] _]]; auto.
    - clear. induction k; cbn [repeat]; constructor; auto. split; [apply bytes_ok_zeros|reflexivity]. }
  assert (LC : zlen (concat slots) = 32 * zlen slots).
  { clear -SO. induction SO as [|s l [_ H] _ IH]; [reflexivity|]. cbn [concat]. rewrite zlen_app, zlen_cons. lia. }
  rewrite entries_eq by lia.
  replace (Z.to_nat (zlen (concat slots) / 32)) with (length slots) by (rewrite LC; unfold zlen; rewrite Z.mul_comm, Z.div_mul by lia; lia).
  rewrite cut_slots_concat by auto. unfold slots. apply written_loop. auto.
Qed.

(** The same with names: what was written is read. *)
Theorem C36_written dec lower is32 (files : list (option (list Z) * list Z)) k :
  let one (f : option (list Z) * list Z) := 
    (match fst f with None => [] | Some nm => long_slots (build_checksum (slice (snd f) 0 11)) nm end) ++ [snd f] in
  let slots := flat_map one files ++ repeat (zeros 32) k in
  Forall (fun f => plain_short dec lower (snd f) /\
    match fst f with None => True | Some nm => nm <> [] /\ Forall (fun c => scalar c /\ c <> 0) nm /\ zlen (units_of nm) <= 255 end) files ->
  512 <= 32 * zlen slots -> 32 * zlen slots mod 512 = 0 ->
  exists es, dir_entries dec lower is32 false (concat slots) = (map FileE es, Done) /\
    Forall2 (fun f e => fe_long e = fst f /\ fe_deleted e = Some false /\ describes is32 (snd f) e /\
      parse_short_name_raw (slice (snd f) 0 11) = Some (fe_short_raw e)) files es.
Proof.
  intros one slots F L1 L2.
  set (conv := fun f : option (list Z) * list Z => (match fst f with None => [] | Some nm => long_slots (build_checksum (slice (snd f) 0 11)) nm end, snd f)).
  assert (ES : slots = flat_map (fun f => fst f ++ [snd f]) (map conv files) ++ repeat (zeros 32) k).
  { unfold slots. f_equal. clear. induction files as [|f fs IH]; [reflexivity|]. cbn [flat_map map]. now rewrite IH. }
  assert (BC : forall s, bytes_ok s -> is_byte (build_checksum s)).
  { intros s _. rewrite build_checksum_rot. apply rot_sum_byte. unfold is_byte. lia. }
  assert (FS : Forall (file_slots dec lower) (map conv files)).
  { apply Forall_forall. intros x X. apply in_map_iff in X as (f & <- & I). rewrite Forall_forall in F. destruct (F f I) as [P N].
    unfold conv, file_slots. destruct (fst f) as [nm|] eqn:E; [|split; [constructor|left; split; auto]].
    destruct N as (N1 & N2 & N3). destruct (long_slots_spec (build_checksum (slice (snd f) 0 11)) nm) as (S1 & S2 & S3); auto.
    apply BC. apply bytes_ok_slice. apply P. }
  destruct (C36_complete dec lower is32 (map conv files) k FS) as (es & E1 & E2); cbv zeta; rewrite <- ?ES; auto.
  cbv zeta in E1. rewrite <- ES in E1. exists es. split; [exact E1|]. clear -F E2 BC. revert es E2.
  induction files as [|f fs IH]; intros es E2; cbn [map] in E2; inversion E2 as [|x e xs es' R RS]; subst; constructor.
  - inversion F as [|? ? [P N] _]; subst. unfold conv, reports in R. destruct R as (R1 & R2 & R3 & R4 & R5).
    destruct P as (P0 & P1 & P2 & P3 & P4). replace ((s_attr (snd f) / 8) mod 4 =? 1) with false in R5 by lia. destruct R5 as [R5 _].
    split; [|auto]. destruct (fst f) as [nm|]; [|auto].
    destruct N as (N1 & N2 & N3). destruct (long_slots_spec (build_checksum (slice (snd f) 0 11)) nm) as (S1 & (n & S2) & S3); auto.
    { apply BC. apply bytes_ok_slice. apply P0. }
    apply R4; auto. eapply lfn_desc_bound; eauto.
  - inversion F; subst. apply IH; auto.
Qed.

(** Two units of five letters each. *)
Definition ex_short : list Z := [72;69;76;76;79;126;49;32;84;88;84; 32;0;0; 0;0;33;0;0;0;0;0;0;0;33;0; 5;0; 7;0;0;0].
Definition ex_long : list Z := [104;101;108;108;111;32;119;111;114;108;100;46;116;120;116].
Definition ex_dir : list Z := concat (long_slots (build_checksum (slice ex_short 0 11)) ex_long ++ [ex_short] ++ repeat (zeros 32) 13).

Example C36_example : match dir_entries (fun x => x) (fun x => x) false false ex_dir with
  | ([FileE e], Done) => fe_long e = Some ex_long /\ fe_size e = 7 /\ fe_first_cluster e = 5 /\ fe_deleted e = Some false
  | _ => False end.
Proof. vm_compute. repeat split. Qed.

(** With another checksum the long name is not attached; it is reported on its own. *)
Definition ex_dir_bad : list Z := concat (long_slots ((build_checksum (slice ex_short 0 11) + 1) mod 256) ex_long ++ [ex_short] ++ repeat (zeros 32) 13).
Example C36_example_checksum : match dir_entries (fun x => x) (fun x => x) false false ex_dir_bad with
  | ([OrphanE (Some nm); FileE e], Done) => fe_long e = None /\ nm = ex_long
  | _ => False end.
Proof. vm_compute. repeat split. Qed.

(** An orphan long entry may have no name at all (a part that starts with a null
    unit): the value [None] is then reported in place of the name. *)
Theorem C36_orphan_without_name_refuted : exists buf, bytes_ok buf /\
  dir_entries (fun x => x) (fun x => x) false false buf = ([OrphanE None], Done).
Proof.
  exists (concat (repeat (zeros 32) 15 ++ [0x41 :: zeros 10 ++ [15] ++ zeros 20])). split; [|vm_compute; reflexivity].
  vm_compute. repeat (constructor; [split; discriminate || reflexivity|]). constructor.
Qed.

Print Assumptions C36_sizes.
Print Assumptions C36_entries.
Print Assumptions C36_attached.
Print Assumptions C36_parts.
Print Assumptions C36_complete.
Print Assumptions C36_written.
Print Assumptions C36_orphan_without_name_refuted.
