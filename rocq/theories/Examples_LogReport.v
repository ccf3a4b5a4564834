(** The completeness theorem of the report on the log (C76), applied to a log
    whose records meet its condition. *)
From Coq Require Import String Sorted.
From Verif Require Import Base BaseLemmas FieldLemmas Frs FrsSpec FileRecord Mft MftSpec MftProofs MftPathProofs MftSamples Filetime Usn UsnSpec UsnProofs
  Attributes LogFile LogSpec LogRecord LogParse LogParseSpec LogRecordProofs LogFileProofs LogImages LogParseTop Properties_LogParse
  Report ReportSpec ReportMoreSpec ReportTable Properties_Mft Properties_Report LogReport LogReportSpec LogTextProofs LogPartsProofs LogBlocksProofs
  Properties_LogReport WitnessMft.
Local Open Scope Z_scope.

(** A check of a record that does not create a file record. *)
Definition piece (b : list Z) (o n : Z) : option (list Z) :=
  if fld 2 b n =? 0 then Some []
  else if (0 <? fld 2 b o) && (fld 2 b o <? 32) then None else Some (slice b (fld 2 b o) (fld 2 b o + fld 2 b n)).
Lemma piece_ok b o n d : piece b o n = Some d -> part b o n d.
Proof.
  unfold piece, part. destruct (Z.eqb_spec (fld 2 b n) 0); [intro H; injection H as <-; auto|].
  destruct (_ && _) eqn:E; [discriminate|]. intro H. injection H as <-. right. split; [auto|]. split; [lia|auto].
Qed.
Definition valueb (buf : list Z) : bool :=
  (negb (fld 4 buf 0 =? 0x10) || (36 <=? fld 4 buf 16)) && (negb (fld 4 buf 0 =? 0x30) || (65 <=? fld 4 buf 16)).
Definition usnb (v : list Z) : bool :=
  let u := slice v 0 (fld 4 v 0) in let o := if fld 2 v 4 =? 2 then 56 else 72 in
  (fld 2 u o =? 0) || (fld 2 u (o + 2) + fld 2 u o <=? zlen u).
Definition itemb (i : item) : bool :=
  match i with
  | Area _ _ => true
  | Rec b _ _ cluster _ _ _ => (0 <=? target_byte cluster b) && negb (fld 2 b 0 =? 2) &&
      match piece b 4 6, piece b 8 10 with
      | Some redo, Some undo => valueb redo && valueb undo && (bytes_okb redo && bytes_okb undo) &&
          (negb ((fld 2 b 0 =? 12) || (fld 2 b 0 =? 14) || (fld 2 b 0 =? 16)) || (14 <=? zlen redo)) &&
          (negb ((fld 2 b 2 =? 12) || (fld 2 b 2 =? 14) || (fld 2 b 2 =? 16)) || (14 <=? zlen undo)) &&
          (negb (fld 2 b 0 =? 8) || usnb redo) && (negb (fld 2 b 2 =? 8) || usnb undo)
      | _, _ => false
      end
  end.

Lemma valueb_ok buf v : bytes_ok buf -> valueb buf = true -> has_value buf v -> sound_value (fld 4 buf 0) v.
Proof.
  intros B H (H1 & H2 & H3 & H4 & H5 & ->). unfold valueb in H. apply andb_prop in H as [HA HB].
  assert (L : zlen (slice buf (fld 2 buf 20) (fld 2 buf 20 + fld 4 buf 16)) = fld 4 buf 16) by (rewrite zlen_slice; lia).
  unfold sound_value. rewrite L. split; intro E; rewrite E in *; cbn [negb orb Z.eqb Pos.eqb] in *; lia.
Qed.

Lemma usnb_ok v u k : usnb v = true -> usn_in v u k -> name_fits u (if k =? 2 then 56 else 72).
Proof.
  unfold usnb. intros H (_ & <- & -> & _). unfold name_fits. destruct (_ =? 0) eqn:E in H; [left; lia|]. cbn [orb] in H. right. lia.
Qed.

Lemma itemb_ok i : itemb i = true -> sound_item i.
Proof.
  destruct i as [b l|b lsn tid cluster t od ad]; [cbn; auto|]. cbn [itemb sound_item]. intro H. apply andb_prop in H as [H K].
  apply andb_prop in H as [H1 H2]. apply Z.leb_le in H1. split; [auto|].
  destruct (piece b 4 6) as [redo|] eqn:ER; [|discriminate]. destruct (piece b 8 10) as [undo|] eqn:EU; [|discriminate].
  exists redo, undo. split; [now apply piece_ok|]. split; [now apply piece_ok|]. intros _.
  apply andb_prop in K as [K J2]. apply andb_prop in K as [K J1]. apply andb_prop in K as [K I2]. apply andb_prop in K as [K I1].
  apply andb_prop in K as [K B]. apply andb_prop in K as [V1 V2]. apply andb_prop in B as [B1 B2]. apply bytes_okb_ok in B1, B2.
  apply negb_true_iff, Z.eqb_neq in H2. split; [intro; contradiction|]. split; [|split].
  - intros buf v C HV. assert (X : buf = redo \/ buf = undo) by (unfold created in C; tauto).
    destruct X as [->| ->]; eapply valueb_ok; eauto.
  - unfold entry_in, indexes. intros e [[I ->]|(N & I & ->)]; apply Z.leb_le.
    + destruct I as [I|[I|I]]; rewrite I in I1; exact I1.
    + destruct I as [I|[I|I]]; rewrite I in I2; exact I2.
  - intros _ ref _ v u k U _ [[E ->]|[E ->]]; [rewrite E in J1; apply (usnb_ok redo); auto|rewrite E in J2; apply (usnb_ok undo); auto].
Qed.

Definition busy_log : list Z :=
  log_of [(2, area_image); (1, rec_of 29 0 (table_image (8 + 2 ^ 48))); (1, rec_of 30 0 (names_of [36; 74])); (1, rec_of 8 24 usn_sample);
          (1, rec_of 5 24 (si_attr 48)); (1, dealloc 8)].
Lemma the_table_opens : exists p, mft_open the_table true = Ok p.
Proof.
  assert (X : match mft_open the_table true with Ok _ => true | Err _ => false end = true) by (vm_compute; reflexivity).
  destruct (mft_open the_table true) as [p|]; [eauto|discriminate].
Qed.
Lemma the_table_sound : tableb the_table (fld 4 the_table 28) = true.
Proof. vm_compute. reflexivity. Qed.
Lemma the_table_bytes : bytes_ok the_table.
Proof. apply bytes_okb_ok. vm_compute. reflexivity. Qed.
Lemma the_table_fits : fits the_table.
Proof. unfold fits. vm_compute. discriminate. Qed.
Lemma busy_bytes : bytes_ok busy_log.
Proof. apply bytes_okb_ok. vm_compute. reflexivity. Qed.
Lemma busy_checked :
  match log_open busy_log with
  | Ok lf => match parse_ntfs_records lf no_order true (start_world busy_log) with
             | (is, _, (_, Done)) => (zlen is =? 6) && forallb itemb is
             | _ => false
             end
  | Err _ => false
  end = true.
Proof. vm_compute. reflexivity. Qed.
Local Opaque busy_log the_table.

Example C76_complete_example : snd (process_log no_order busy_log the_table) = Done /\
  6 <= zlen (fst (process_log no_order busy_log the_table)) <= 7.
Proof.
  destruct the_table_opens as [p P]. pose proof busy_checked as C. destruct (log_open busy_log) as [lf|] eqn:O; [|discriminate].
  destruct (parse_ntfs_records lf no_order true (start_world busy_log)) as [[is w] [w' [|e]]] eqn:E; [|discriminate].
  apply andb_prop in C as [L C]. apply Z.eqb_eq in L.
  destruct (C76_complete no_order busy_log the_table lf p is w w' busy_bytes the_table_bytes the_table_fits O P E) as [D N]; [| |split; [exact D|lia]].
  - exact (tableb_clean the_table (fld 4 the_table 28) the_table_sound).
  - apply Forall_forall. intros i I. apply itemb_ok. rewrite forallb_forall in C. auto.
Qed.
