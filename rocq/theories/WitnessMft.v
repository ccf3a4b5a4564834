(** The conditions of the completeness theorems (C70, C72, C73, C76) hold for
    file tables that pass a simple check. *)
From Verif Require Import Base BaseLemmas MappingPairs Frs FrsSpec FrsProofs FieldLemmas FileRecord FileRecordSpec FileRecordProofs Mft MftSpec MftProofs
  Attributes AttributesSpec AttributesProofs IndexProofs ExtAttrProofs Filetime Wsl WslSpec Report ReportSpec ReportMore ReportMoreSpec ReportSound FragmentedFile.

(** A table whose segments all are base segments. *)
Lemma slot_empty data size k : 0 < size -> 0 <= k -> zlen data <= k * size -> slot data size k = [].
Proof.
  intros S K L. unfold slot. now apply slice_beyond.
Qed.

Lemma segments_in data size n : forall k0 k f, k0 <= k < k0 + Z.of_nat n -> frs_open (slot data size k) true (Some k) = Ok f ->
  In (k, f) (segments data size k0 n).
Proof.
  induction n as [|n IH]; intros k0 k f R E; [lia|]. cbn [segments]. destruct (Z.eq_dec k k0) as [->|N].
  - rewrite E. now left.
  - specialize (IH (k0 + 1) k f ltac:(lia) E). destruct (frs_open (slot data size k0) true (Some k0)); [now right|auto].
Qed.

Definition basesb (data : list Z) (size : Z) : bool :=
  (0 <? size) && (zlen data mod size =? 0) && forallb (fun x => base_reference (snd x) =? 0) (table data size).

Lemma record_of data size k seq fr : basesb data size = true -> record_at (table data size) data size k seq fr ->
  exists f, In (k, f) (table data size) /\ fr = mk_fr f [].
Proof.
  unfold basesb. intros H (f & s & (K & O) & _ & _ & _ & ->). apply andb_prop in H as [H A]. apply andb_prop in H as [H1 H2].
  apply Z.ltb_lt in H1. apply Z.eqb_eq in H2. exists f. split.
  - unfold table. apply segments_in; [|auto]. pose proof (Z.div_mod (zlen data) size ltac:(lia)) as D. pose proof (zlen_nonneg data).
    assert (k * size < zlen data).
    { destruct (Z.lt_ge_cases (k * size) (zlen data)) as [|G]; [auto|]. rewrite slot_empty in O by lia. cbn in O. discriminate. }
    assert (0 <= zlen data / size) by (apply Z.div_pos; lia). rewrite Z2Nat.id by lia. nia.
  - f_equal. unfold children_in. rewrite forallb_forall in A. clear O.
    assert (X : filter (fun kc => child_of (number_in k f) s (snd kc)) (table data size) = []); [|now rewrite X].
    induction (table data size) as [|x l IH]; [reflexivity|]. cbn [filter]. unfold child_of at 1. rewrite (A x) by now left. cbn [negb andb].
    apply IH. intros y Y. apply A. now right.
Qed.

(** ** Undamaged records *)
Definition entryb (e : list Z) : bool :=
  (14 <=? zlen e) && (Z.testbit (fld 2 e 12) 1 || (65 <=? fld 2 e 10) && (81 <=? zlen e)).
Definition indexb (v : list Z) : bool :=
  (4 <=? zlen v) && (negb (fld 4 v 0 =? 0x30) || (24 <=? zlen v) &&
    match index_loop (S (length v)) false v (16 + fld 4 v 20) (16 + fld 4 v 16) with
    | (es, Done) => forallb entryb es
    | _ => false
    end).
Definition lxb (e : list Z * Z * list Z) : bool :=
  let b := snd e in
  match decode_unixtime (fld 8 b 40) (fld 4 b 24), decode_unixtime (fld 8 b 32) (fld 4 b 20), decode_unixtime (fld 8 b 48) (fld 4 b 28) with
  | Ok _, Ok _, Ok _ => true
  | _, _, _ => false
  end.
Definition attrb (a : attr) : bool :=
  match a with
  | Resident ty _ v => bytes_okb v && (negb (ty =? 0x10) || (32 <=? zlen v)) && (negb (ty =? 0x30) || (66 <=? zlen v)) &&
      (negb (ty =? 0x90) || indexb v) && (negb (ty =? 0xE0) || match ea_data v with (l, Done) => forallb lxb l | _ => false end) &&
      negb (ty =? 0xA0)
  | _ => true
  end.
Definition recordb (fr : file_record) : bool :=
  match fr_attributes fr with (items, Done) => forallb attrb items | _ => false end.

Lemma entryb_ok v q : 0 <= q <= zlen v -> entryb (zdrop q v) = true -> sound_entry v q.
Proof.
  unfold entryb, sound_entry. intros Q H. apply andb_prop in H as [H1 H2]. rewrite zlen_zdrop in H1, H2. rewrite !fld_zdrop in H2 by lia. apply Z.leb_le in H1. split; [lia|]. intro T.
  rewrite T in H2. cbn [orb] in H2. apply andb_prop in H2 as [H2 H3]. apply Z.leb_le in H2, H3. lia.
Qed.

Lemma indexb_ok v : bytes_ok v -> indexb v = true -> sound_index v.
Proof.
  unfold indexb, sound_index. intros B H. apply andb_prop in H as [H1 H2]. split; [now apply Z.leb_le|]. intro E. rewrite E in H2. cbn [negb orb Z.eqb Pos.eqb] in H2.
  apply andb_prop in H2 as [H2 H3]. apply Z.leb_le in H2. split; [auto|].
  pose proof (fld_nonneg 4 v 16 B).
  destruct (index_loop_walk v (16 + fld 4 v 20) false B (S (length v)) (16 + fld 4 v 16)) as (ps & st & EL & W); [lia|unfold zlen; lia|].
  rewrite EL in H3. destruct st; [|discriminate]. exists ps. split; [auto|]. destruct (ix_walk_positions _ _ _ _ _ _ W) as (_ & P & _).
  rewrite forallb_forall in H3. apply Forall_forall. intros q Q. rewrite Forall_forall in P. specialize (P q Q).
  apply entryb_ok; [lia|]. apply H3. apply in_map_iff. eauto.
Qed.

Lemma recordb_ok fr : recordb fr = true -> sound_record fr.
Proof.
  unfold recordb, sound_record. destruct (fr_attributes fr) as [items [|e]]; [|discriminate]. intro H. exists items. split; [auto|].
  rewrite forallb_forall in H. apply Forall_forall. intros a A. specialize (H a A). destruct a as [ty n v|]; cbn [sound_attr]; [|auto].
  cbn [attrb] in H. repeat (apply andb_prop in H as [H ?]). apply bytes_okb_ok in H.
  split; [|split; [|split; [|split]]]; intro; subst ty; cbn [negb orb Z.eqb Pos.eqb] in *.
  - now apply Z.leb_le.
  - now apply Z.leb_le.
  - intros _. now apply indexb_ok.
  - intros l e W I _. apply ea_data_iff in W; [|auto]. rewrite W in *. rewrite forallb_forall in *.
    match goal with K : forall x, In x l -> lxb x = true |- _ => specialize (K e I); unfold lxb in K end. unfold lx_times.
    destruct (decode_unixtime (fld 8 (snd e) 40) (fld 4 (snd e) 24)); [|discriminate].
    destruct (decode_unixtime (fld 8 (snd e) 32) (fld 4 (snd e) 20)); [|discriminate].
    destruct (decode_unixtime (fld 8 (snd e) 48) (fld 4 (snd e) 28)); [|discriminate]. do 3 eexists. repeat split.
  - discriminate.
Qed.

Definition tableb (data : list Z) (size : Z) : bool :=
  basesb data size && forallb (fun x => recordb (mk_fr (snd x) [])) (table data size).

Lemma tableb_ok data size k seq fr : tableb data size = true -> record_at (table data size) data size k seq fr -> sound_record fr.
Proof.
  intros H R. apply andb_prop in H as [H1 H2]. destruct (record_of _ _ _ _ _ H1 R) as (f & I & ->).
  rewrite forallb_forall in H2. apply recordb_ok. exact (H2 _ I).
Qed.

Lemma tableb_clean data size : tableb data size = true -> all_clean (table data size) data size.
Proof. intros H k seq fr R. eapply sound_names, tableb_ok; eauto. Qed.

(** Buffers *)
Definition bufferb (b : list Z) : bool :=
  bytes_okb b && match index_loop (S (length b)) true b (24 + fld 4 b 28) (24 + fld 4 b 24) with (_, Done) => true | _ => false end.
Definition buffersb (vol : list Z) (voff cs : Z) (a : attr) : bool :=
  match a with
  | Nonresident 0xA0 (Some [36; 73; 51; 48]) _ runs _ _ n =>
    match ia_index_buffers (ff_open vol voff cs runs n) with (bufs, Done) => forallb (fun x => bufferb (snd x)) bufs | _ => false end
  | _ => true
  end.
Definition directoryb (vol : list Z) (voff cs : Z) (fr : file_record) : bool :=
  match fr_attributes_merged fr with (items, Done) => forallb (buffersb vol voff cs) items | _ => false end.

Lemma bufferb_ok b : bufferb b = true -> sound_buffer b.
Proof.
  unfold bufferb, sound_buffer. intro H. apply andb_prop in H as [B H]. apply bytes_okb_ok in B. pose proof (fld_nonneg 4 b 24 B).
  destruct (index_loop_walk b (24 + fld 4 b 28) true B (S (length b)) (24 + fld 4 b 24)) as (ps & st & EL & W); [lia|unfold zlen; lia|].
  rewrite EL in H. destruct st; [|discriminate]. eauto.
Qed.

Lemma directoryb_ok vol voff cs fr : directoryb vol voff cs fr = true -> sound_directory vol voff cs fr.
Proof.
  unfold directoryb, sound_directory. destruct (fr_attributes_merged fr) as [items [|e]]; [|discriminate]. intro H. exists items. split; [auto|].
  rewrite forallb_forall in H. apply Forall_forall. intros a A. specialize (H a A). unfold buffersb in H. unfold sound_buffers.
  repeat match goal with |- context [match ?x with _ => _ end] => is_var x; destruct x; auto end.
  destruct (ia_index_buffers _) as [bufs [|e]]; [|discriminate]. exists bufs. split; [auto|]. rewrite forallb_forall in H.
  apply Forall_forall. intros b Hb. apply in_map_iff in Hb as (x & <- & X). apply bufferb_ok. exact (H _ X).
Qed.

Definition directoriesb (vol : list Z) (voff cs : Z) (data : list Z) (size : Z) : bool :=
  basesb data size && forallb (fun x => directoryb vol voff cs (mk_fr (snd x) [])) (table data size).
Lemma directoriesb_ok vol voff cs data size k fr : directoriesb vol voff cs data size = true ->
  record_at (table data size) data size k None fr -> sound_directory vol voff cs fr.
Proof.
  intros H R. apply andb_prop in H as [H1 H2]. destruct (record_of _ _ _ _ _ H1 R) as (f & I & ->).
  rewrite forallb_forall in H2. apply directoryb_ok. exact (H2 _ I).
Qed.
