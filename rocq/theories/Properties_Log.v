From Coq Require Import Permutation Sorted.
From Verif Require Import Base BaseLemmas FieldLemmas FrsSpec FrsProofs Usa UsaSpec UsaProofs Crc32 Crc32Proofs.
From Verif Require Import LogPage LogFile LogSpec LogPageProofs LogFileProofs LogReadProofs LogWalkProofs LogClientProofs LogCollectProofs LogImages.

(** * C27: LSNs and file offsets *)

(** The page and the offset are those of the low bits of the LSN, in units of
    eight bytes; the sequence number is what is above. *)
Theorem C27_offset_of_lsn : forall data lf lsn, bytes_ok data -> log_open data = Ok lf ->
  let (n, off) := lsn_to_offset lf lsn in
  n * 4096 + off = 8 * (lsn mod 2 ^ (64 - lf_bits lf)) /\ 0 <= off < 4096 /\
  lsn_to_seqnum lf lsn = lsn / 2 ^ (64 - lf_bits lf).
Proof.
  intros data lf lsn B O. apply log_open_iff in O; auto. pose proof (opened_ok _ _ B O) as K.
  pose proof (lsn_to_offset_spec lf lsn K) as [H1 H2]. destruct (lsn_to_offset lf lsn) as [n off]. cbn [fst snd] in *.
  rewrite (lsn_to_seqnum_spec lf lsn K). unfold lsn_seq. auto.
Qed.
Print Assumptions C27_offset_of_lsn.

Theorem C27_lsn_round_trip : forall data lf lsn, bytes_ok data -> log_open data = Ok lf ->
  offset_to_lsn lf (fst (lsn_to_offset lf lsn)) (snd (lsn_to_offset lf lsn)) (lsn_to_seqnum lf lsn) = lsn.
Proof.
  intros data lf lsn B O. apply log_open_iff in O; auto. apply lsn_round_trip. exact (opened_ok _ _ B O).
Qed.
Print Assumptions C27_lsn_round_trip.

Theorem C27_offset_round_trip : forall data lf n off seq, bytes_ok data -> log_open data = Ok lf ->
  0 <= n -> 0 <= off < 4096 -> off mod 8 = 0 -> n * 4096 + off < 8 * 2 ^ (64 - lf_bits lf) ->
  lsn_to_offset lf (offset_to_lsn lf n off seq) = (n, off) /\ lsn_to_seqnum lf (offset_to_lsn lf n off seq) = seq.
Proof.
  intros data lf n off seq B O H1 H2 H3 H4. apply log_open_iff in O; auto. pose proof (opened_ok _ _ B O) as K.
  destruct (offset_to_lsn_pos lf n off seq K H1 H2 H3 H4) as [P S]. split.
  - apply lsn_to_offset_iff; auto.
  - rewrite lsn_to_seqnum_spec; auto.
Qed.
Print Assumptions C27_offset_round_trip.

(** Beyond that range (which a restart page may well declare too small for the
    file) an offset is not recovered. *)
Definition tight_lf : log_file :=
  match log_open tight_log with Ok lf => lf | Err _ => {| lf_size := 0; lf_rp1 := None; lf_rp2 := None; lf_psize := 0;
    lf_major := 0; lf_minor := 0; lf_hl := 0; lf_doff := 0; lf_bits := 0 |} end.

Theorem C27_out_of_range_refuted : exists data lf n off seq,
  log_open data = Ok lf /\ n * 4096 + off < zlen data /\ off mod 8 = 0 /\
  lsn_to_offset lf (offset_to_lsn lf n off seq) <> (n, off).
Proof.
  exists tight_log, tight_lf, 2, 64, 1. split; [vm_compute; reflexivity|]. split; [vm_compute; reflexivity|].
  split; [reflexivity|]. vm_compute. discriminate.
Qed.
Print Assumptions C27_out_of_range_refuted.

Example C27_example :
  match log_open wrap_log with
  | Ok lf => lsn_to_offset lf 33556496 = (4, 128) /\ lsn_to_seqnum lf 33556496 = 2 /\ offset_to_lsn lf 4 128 2 = 33556496
  | Err _ => False
  end.
Proof. vm_compute. auto. Qed.

(** * C28: torn writes *)

Theorem C28_accepted_iff : forall raw out e, bytes_ok raw ->
  (unprotect raw = Ok (out, e) <-> unprotects raw out e).
Proof. exact unprotect_iff. Qed.
Print Assumptions C28_accepted_iff.

Theorem C28_errors : forall raw e, bytes_ok raw -> unprotect raw = Err e -> e = UpdateSequenceArrayException.
Proof. intros raw e B E. pose proof (unprotect_spec raw B) as H. rewrite E in H. apply H. Qed.
Print Assumptions C28_errors.

Theorem C28_torn_rejected : forall raw uo us k, bytes_ok raw -> log_geometry raw uo us -> ~ crc_protected raw uo us ->
  0 <= k -> 512 * (k + 1) <= zlen raw -> tail raw k <> usn_of raw uo ->
  unprotect raw = Err UpdateSequenceArrayException.
Proof.
  intros raw uo us k B G NC H1 H2 T. pose proof (unprotect_spec raw B) as H.
  destruct (unprotect raw) as [[out e]|x]; [|destruct H as [-> _]; reflexivity].
  exfalso. destruct H as (uo' & us' & G' & _ & H).
  assert (uo' = uo /\ us' = us) as [-> ->].
  { destruct G as (_ & _ & E1 & E2 & _), G' as (_ & _ & E1' & E2' & _). split; congruence. }
  destruct H as [[C _]|(_ & A & _)]; [contradiction|]. apply T. exact (A k H1 H2).
Qed.
Print Assumptions C28_torn_rejected.

(** A block protected as the driver does is read back as it was (with the array
    filled in), unless it happens to look protected by a checksum. *)
Theorem C28_round_trip : forall rec usn uo us, bytes_ok rec -> bytes_ok usn -> zlen usn = 2 ->
  1024 <= zlen rec -> fld 2 rec 4 = uo -> fld 2 rec 6 = us -> 8 <= uo -> (us - 1) * 512 = zlen rec -> uo + 2 * us <= 510 ->
  ~ crc_protected (protect rec usn) uo us ->
  exists out, unprotect (protect rec usn) = Ok (out, uo + 2 * us) /\ zlen out = zlen rec /\
    forall p, 0 <= p < zlen rec -> p < uo \/ uo + 2 * us <= p -> znth out p = znth rec p.
Proof.
  intros rec usn uo us B Bu Lu L E1 E2 H1 H2 H3 NC.
  pose proof (protect_facts rec usn uo us Lu E1 H1 H2 H3) as (P1 & P2 & P3 & P4 & P5 & P6 & P7). cbv zeta in *.
  specialize (P3 B Bu). set (raw := protect rec usn) in *.
  assert (FL : forall w off, 0 <= off -> off + w <= uo -> fld w raw off = fld w rec off).
  { intros w off Q1 Q2. unfold fld. f_equal. apply slice_ext; [lia|auto|]. intros i Hi. apply P4. lia. }
  assert (G : log_geometry raw uo us).
  { unfold log_geometry. rewrite P1, !FL by lia. repeat split; auto; try lia. }
  pose proof (unprotect_spec raw P3) as H. destruct (unprotect raw) as [[out e]|x].
  - exists out. destruct H as (uo' & us' & G' & -> & H).
    assert (uo' = uo /\ us' = us) as [-> ->].
    { destruct G as (_ & _ & Q1 & Q2 & _), G' as (_ & _ & Q1' & Q2' & _). split; congruence. }
    destruct H as [[C _]|(_ & _ & S & T)]; [contradiction|].
    apply (turn_restored raw out uo us ltac:(lia) ltac:(lia) ltac:(lia)) in T.
    rewrite (P7 out S T). split; auto.
  - exfalso. destruct H as [_ H]. apply (H (with_array rec usn) (uo + 2 * us)).
    pose proof (usa_apply_turn raw uo us ltac:(lia) ltac:(lia) ltac:(lia)) as U.
    destruct (usa_apply raw uo us) as [[o|]|y]; [|contradiction|contradiction].
    destruct U as (_ & S & T). pose proof T as T'.
    apply (turn_restored raw o uo us ltac:(lia) ltac:(lia) ltac:(lia)) in T'. rewrite <- (P7 o S T').
    exists uo, us. do 2 (split; [auto|]). right. auto.
Qed.
Print Assumptions C28_round_trip.

(** Changing up to four bytes in a row of the data of a block protected by a
    checksum makes the checksum wrong. *)
Theorem C28_checksum_detects : forall a u v b uo us, bytes_ok a -> bytes_ok u -> bytes_ok v -> bytes_ok b ->
  zlen u = zlen v -> zlen u <= 4 -> 0 <= uo -> 4 <= 2 * us -> uo + 2 * us <= zlen a ->
  crc_protected (a ++ u ++ b) uo us -> u <> v -> ~ crc_protected (a ++ v ++ b) uo us.
Proof.
  intros a u v b uo us Ba Bu Bv Bb L L4 H0 H1 H2 [_ C] N [_ C'].
  apply N. apply (crc32_window (put a uo (zeros (2 * us))) u v b); auto.
  - unfold put. apply bytes_ok_app. split; [apply bytes_ok_ztake; auto|].
    apply bytes_ok_app. split; [apply bytes_ok_zeros|apply bytes_ok_zdrop; auto].
  - assert (P : forall w, put (a ++ w ++ b) uo (zeros (2 * us)) = put a uo (zeros (2 * us)) ++ w ++ b).
    { intro w. unfold put. rewrite zlen_zeros by lia. rewrite ztake_app_le by lia. rewrite zdrop_app_le by lia.
      rewrite <- !app_assoc. reflexivity. }
    assert (Q : forall w, fld 4 (a ++ w ++ b) uo = fld 4 a uo).
    { intro w. unfold fld, slice. rewrite zdrop_app_le by lia. rewrite ztake_app_le; [reflexivity|]. rewrite zlen_zdrop. lia. }
    rewrite P, Q in C. rewrite P, Q in C'. congruence.
Qed.
Print Assumptions C28_checksum_detects.

(** The exception in [C28_round_trip] is real: the tails of the sectors and the
    sequence number may look like a checksum that is right, and then the block
    is returned with its tails not restored. *)
Definition lookalike : list Z :=
  puts (zeros 1024) [(0, sig_RCRD); (4, le_bytes 2 40); (6, le_bytes 2 3); (46, [67; 52]); (100, le_bytes 4 100929);
                     (510, [21; 197]); (1022, [67; 82])].

Theorem C28_identity_refuted : exists rec usn out e, bytes_ok rec /\ bytes_ok usn /\ zlen usn = 2 /\
  log_geometry rec 40 3 /\ unprotect (protect rec usn) = Ok (out, e) /\ znth out 1022 <> znth rec 1022.
Proof.
  exists lookalike, [1; 0], (protect lookalike [1; 0]), 46.
  split; [apply bytes_okb_ok; vm_compute; reflexivity|]. split; [apply bytes_okb_ok; reflexivity|]. split; [reflexivity|].
  split; [unfold log_geometry; vm_compute; repeat split; congruence|]. split; [vm_compute; reflexivity|].
  vm_compute. discriminate.
Qed.
Print Assumptions C28_identity_refuted.

Example C28_example :
  let rec := puts (zeros 4096) [(0, sig_RCRD); (4, le_bytes 2 40); (6, le_bytes 2 9); (100, pay (Z.to_nat 3996))] in
  let raw := protect rec [7; 9] in
  unprotect raw = Ok (with_array rec [7; 9], 58) /\ unprotect (zset raw 1023 8) = Err UpdateSequenceArrayException /\
  znth raw 1022 = Some 7 /\ znth (with_array rec [7; 9]) 1022 = znth rec 1022.
Proof. vm_compute. auto. Qed.

(** * C61: opening a log file *)

Theorem C61_open_iff : forall data lf, bytes_ok data -> (log_open data = Ok lf <-> opened data lf).
Proof. exact log_open_iff. Qed.
Print Assumptions C61_open_iff.

Theorem C61_errors : forall data e, bytes_ok data -> log_open data = Err e ->
  log_exn e = true \/ e = NotImplementedError \/ e = StructError.
Proof.
  intros data e B E. pose proof (opened_spec data B) as H. rewrite E in H. tauto.
Qed.
Print Assumptions C61_errors.

(** With one restart page damaged, the file opens with the settings of the
    other, whichever it is. *)
Theorem C61_one_page_enough : forall data raw1 raw2 buf area, bytes_ok data ->
  raw1 = slice data 0 4096 -> raw2 = slice data 4096 8192 -> 8192 <= zlen data ->
  (restart_ok raw1 buf /\ restart_state raw2 None) \/ (restart_ok raw2 buf /\ restart_state raw1 None) ->
  ~ (forall p, 0 <= p < 8192 -> znth data p = Some 255) ->
  area_ok buf area -> 40 <= zlen area -> 48 <= fld 2 area 36 -> 3 <= fld 4 area 16 <= 63 ->
  exists lf, log_open data = Ok lf /\ lf_major lf = fld 2 buf 28 /\ lf_minor lf = fld 2 buf 26 /\
    lf_hl lf = fld 2 area 36 /\ lf_doff lf = fld 2 area 38 /\ lf_bits lf = fld 4 area 16.
Proof.
  intros data raw1 raw2 buf area B E1 E2 L H NF A LA HL HB.
  set (lf r1 r2 := {| lf_size := zlen data; lf_rp1 := r1; lf_rp2 := r2; lf_psize := 4096;
    lf_major := fld 2 buf 28; lf_minor := fld 2 buf 26; lf_hl := fld 2 area 36; lf_doff := fld 2 area 38;
    lf_bits := fld 4 area 16 |}).
  assert (O : exists r1 r2, opened data (lf r1 r2)).
  { destruct H as [[H1 H2]|[H1 H2]].
    - exists (Some buf), None. unfold opened, lf. cbn [lf_size lf_rp1 lf_rp2 lf_psize lf_major lf_minor lf_hl lf_doff lf_bits].
      rewrite <- E1, <- E2. do 6 (split; [auto|]). exists buf, area. split; [constructor|]. auto 12.
    - exists None, (Some buf). unfold opened, lf. cbn [lf_size lf_rp1 lf_rp2 lf_psize lf_major lf_minor lf_hl lf_doff lf_bits].
      rewrite <- E1, <- E2. do 6 (split; [auto|]). exists buf, area. split; [constructor|]. auto 12. }
  destruct O as (r1 & r2 & O). exists (lf r1 r2). split; [apply log_open_iff; auto|]. cbn. auto 10.
Qed.
Print Assumptions C61_one_page_enough.

Example C61_example :
  let torn := zset wrap_log 1022 77 in
  match log_open torn, log_open wrap_log with
  | Ok a, Ok b => lf_rp1 a = None /\ lf_rp2 a = lf_rp2 b /\ lf_bits a = 40 /\ lf_hl a = 48 /\ lf_doff a = 64
  | _, _ => False
  end /\ log_open (zset torn 5118 77) = Err LogFileException.
Proof. vm_compute. auto 10. Qed.

(** * C29: the collected LSNs *)

(** [data0] is the file when it was opened, [data] when the LSNs are collected
    (pages may have been copied in between); [ord] is the order in which Python
    iterates over sets. *)
Theorem C29_sorted_and_valid : forall data0 data lf ord c, bytes_ok data0 -> bytes_ok data ->
  log_open data0 = Ok lf -> addressable lf data -> (forall k l, Permutation (ord k l) l) ->
  match collect_lsns lf data ord c with
  | Ok (l, _) => restarts_readable lf /\ StronglySorted Z.lt l /\
      forall x, In x l -> valid_lsn lf data x /\ exists cd, get_client_data lf data (cf_cluster c) x = Ok cd
  | Err e => ~ restarts_readable lf /\ (e = StructError \/ e = RestartAreaException \/ e = ClientRecordException)
  end.
Proof.
  intros data0 data lf ord c B0 B O AD OP. apply log_open_iff in O; auto.
  pose proof (opened_ok _ _ B0 O) as K. pose proof (opened_kept _ _ B0 O) as PK.
  pose proof (first_lsns_spec lf data K B PK) as F. destruct (first_lsns lf data) as [s0|e] eqn:E0.
  - destruct F as [RR _].
    destruct (collect_stages lf data ord K B PK OP c RR AD) as (s2 & s3 & s4 & s5 & s6 & c' & -> & N & V & _).
    split; auto. split; [apply sorted_strict; auto|]. intros x Hx. apply Sorting.sort_by_In in Hx.
    rewrite Forall_forall in V. specialize (V x Hx). split; auto.
    destruct (valid_data lf data (cf_cluster c) x K B V) as (n & off & h & out & _ & _ & _ & ->). eauto.
  - rewrite (collect_err lf data ord c e E0). tauto.
Qed.
Print Assumptions C29_sorted_and_valid.

(** Nothing reachable is lost: from the LSNs of the restart pages and of the
    log record pages, following records forwards (in a log written once), then
    previous links, then undo links; and what a client restart area found in
    this way names is collected too. *)
Theorem C29_complete : forall data0 data lf ord c l c', bytes_ok data0 -> bytes_ok data ->
  log_open data0 = Ok lf -> addressable lf data -> (forall k l, Permutation (ord k l) l) ->
  collect_lsns lf data ord c = Ok (l, c') ->
  forall s x y z, seed_lsn lf data s ->
    s = x \/ (exists q, one_pass lf data q /\ chain (follows lf data) s x) ->
    chain (links lf data 8) x y -> chain (links lf data 16) y z ->
    In z l /\ forall w, restart_area_names lf data z w -> valid_lsn lf data w -> In w l.
Proof.
  intros data0 data lf ord c l c' B0 B O AD OP E. pose proof O as O'. apply log_open_iff in O'; auto.
  pose proof (C29_sorted_and_valid data0 data lf ord c B0 B O AD OP) as H. rewrite E in H.
  apply (collect_complete lf data ord (opened_ok _ _ B0 O') B (opened_kept _ _ B0 O') OP c l c'); tauto.
Qed.
Print Assumptions C29_complete.

(** Whatever the file, the collection ends. *)
Theorem C29_terminates : forall data0 data lf ord c, bytes_ok data0 -> bytes_ok data -> log_open data0 = Ok lf ->
  collect_lsns lf data ord c <> Err OutOfFuel.
Proof.
  intros data0 data lf ord c B0 B O E. apply log_open_iff in O; auto.
  pose proof (collect_any lf data ord c (opened_ok _ _ B0 O) B (opened_kept _ _ B0 O)) as H. rewrite E in H.
  destruct H as [H|[H|[H|[H|H]]]]; discriminate.
Qed.
Print Assumptions C29_terminates.

(** When the restart page declares too few bits for the offsets, the method may
    collect an LSN that points to page 0 and fail. *)
Theorem C29_unaddressable_refuted : exists data lf c, bytes_ok data /\ log_open data = Ok lf /\ restarts_readable lf /\
  collect_lsns lf data no_order c = Err AttributeError_py.
Proof.
  exists tight_log, tight_lf, no_config. assert (B : bytes_ok tight_log) by (apply bytes_okb_ok; vm_compute; reflexivity).
  assert (O : log_open tight_log = Ok tight_lf) by (vm_compute; reflexivity).
  split; [exact B|]. split; [exact O|]. split; [|vm_compute; reflexivity].
  pose proof O as O'. apply log_open_iff in O'; [|exact B].
  pose proof (first_lsns_spec tight_lf tight_log (opened_ok _ _ B O') B (opened_kept _ _ B O')) as F.
  destruct (first_lsns tight_lf tight_log) as [s|e] eqn:E; [exact (proj1 F)|]. exfalso. clear -E. vm_compute in E. discriminate.
Qed.
Print Assumptions C29_unaddressable_refuted.

Example C29_example : collected plain_log = Ok [lsn40 1 4 64; lsn40 1 4 128; lsn40 1 4 192; lsn40 1 5 64].
Proof. vm_compute. reflexivity. Qed.

(** * C30: client data *)

(** The data of an LSN can be read exactly if its place holds a record header
    (get_client_data does not compare LSNs); it is [record_data]. *)
Theorem C30_data : forall data0 data lf cluster lsn cd, bytes_ok data0 -> bytes_ok data -> log_open data0 = Ok lf ->
  (get_client_data lf data cluster lsn = Ok cd <->
   exists n off h, lsn_pos lf lsn n off /\ record_at lf data n off h /\ record_data lf data n off h (cd_buf cd) /\
     cd_type cd = fld 4 h 32 /\ cd_lsn cd = lsn /\ cd_tid cd = fld 4 h 36 /\ cd_cluster cd = cluster).
Proof.
  intros data0 data lf cluster lsn cd B0 B O. apply log_open_iff in O; auto. pose proof (opened_ok _ _ B0 O) as K.
  pose proof (lsn_to_offset_spec lf lsn K) as P.
  destruct (lsn_to_offset lf lsn) as [n off]. cbn [fst snd] in P.
  pose proof (lsn_pos_bounds _ _ _ _ K P) as (Hn & Ho & _).
  pose proof (fetch_spec lf data n off K B Hn ltac:(lia)) as F.
  destruct (fetch lf data n off) as [[h|]|x]; [| |contradiction].
  - destruct (get_client_data_ok lf data K B cluster lsn n off h P F) as (out & RD & ->). split.
    + intro E. injection E as <-. exists n, off, h. cbn. auto 10.
    + intros (n' & off' & h' & P' & R' & RD' & T). destruct (lsn_pos_fun _ _ _ _ _ _ P P') as [<- <-].
      pose proof (record_at_fun _ _ _ _ _ _ F R') as <-. rewrite (record_data_fun lf data _ _ _ _ _ RD RD').
      destruct cd as [b t l i k]. cbn in *. destruct T as (-> & -> & -> & ->). reflexivity.
  - destruct (get_client_data_err lf data K B cluster lsn n off P F) as (e & -> & _). split; [discriminate|].
    intros (n' & off' & h' & P' & R' & _). destruct (lsn_pos_fun _ _ _ _ _ _ P P') as [<- <-]. destruct (F _ R').
Qed.
Print Assumptions C30_data.

(** It has the declared length, unless a page it needs cannot be read. *)
Theorem C30_length : forall data0 data lf n off h out, bytes_ok data0 -> bytes_ok data -> log_open data0 = Ok lf ->
  record_at lf data n off h -> record_data lf data n off h out ->
  zlen out <= fld 4 h 24 /\ (zlen out = fld 4 h 24 \/ exists m, forall buf e, ~ log_page_at lf data m buf e).
Proof.
  intros data0 data lf n off h out B0 B O R (rest & DA & ->). apply log_open_iff in O; auto.
  pose proof (opened_ok _ _ B0 O) as K.
  pose proof (record_at_facts _ _ _ _ _ K B R) as (_ & LH & _ & Hd & _ & _ & Hoh & _).
  pose proof (header_fields _ _ _ _ _ K B R) as (_ & _ & _ & _ & _ & _ & _ & _ & _ & _ & BD).
  pose proof K as (_ & Eh & _).
  destruct (data_after_len lf data B _ _ _ DA ltac:(lia) ltac:(lia)) as [L1 L2].
  rewrite zlen_app, zlen_slice, LH by lia. split; [lia|]. destruct L2 as [L2|L2]; [left; lia|auto].
Qed.
Print Assumptions C30_length.

Theorem C30_errors : forall data0 data lf cluster lsn e, bytes_ok data0 -> bytes_ok data -> log_open data0 = Ok lf ->
  get_client_data lf data cluster lsn = Err e -> e = AttributeError_py \/ e = LogFileException.
Proof.
  intros data0 data lf cluster lsn e B0 B O E. apply log_open_iff in O; auto.
  pose proof (get_client_data_any lf data cluster lsn (opened_ok _ _ B0 O) B) as H. rewrite E in H. exact H.
Qed.
Print Assumptions C30_errors.

(** A record of two pages, read in full; without its second page, in part. *)
Example C30_example :
  match log_open long_log with
  | Ok lf =>
    match get_client_data lf long_log 4096 rec_x, get_client_data lf (ztake 24576 long_log) 4096 rec_x with
    | Ok cd, Ok cd' => zlist_eqb (cd_buf cd) (pay (Z.to_nat 7952)) = true /\ zlen (cd_buf cd') = 3984
    | _, _ => False
    end
  | Err _ => False
  end.
Proof. vm_compute. auto. Qed.

(** * C31: following records *)

(** What the parser takes for the next record is a record: at the place where
    it should be, with the sequence number of the LSN the walk started from, or
    the next one. *)
Theorem C31_next_sound : forall data0 data lf seed x y, bytes_ok data0 -> bytes_ok data -> log_open data0 = Ok lf ->
  addressable lf data -> find_next lf data seed x = Ok (Some y) ->
  valid_lsn lf data y /\ (lsn_seq lf y = lsn_seq lf seed \/ lsn_seq lf y = lsn_seq lf seed + 1).
Proof.
  intros data0 data lf seed x y B0 B O AD E. apply log_open_iff in O; auto. pose proof (opened_ok _ _ B0 O) as K.
  split; [eapply find_next_valid; eauto|].
  destruct (find_next_sound lf data seed x y K B E) as (n & off & q & H1 & H2 & H3 & H4 & (h & R & _) & EQ).
  pose proof (record_at_facts _ _ _ _ _ K B R) as (_ & _ & _ & _ & _ & _ & Hh & Hd). unfold addressable in AD.
  destruct (offset_to_lsn_pos lf n off q K) as [_ S]; try lia. { destruct K as (_ & ? & _). lia. }
  { destruct K as (_ & ? & _). lia. }
  rewrite EQ, S. exact H4.
Qed.
Print Assumptions C31_next_sound.

(** The record after another is found, as long as the end of the file is not
    reached and the walk started with the same sequence number. *)
Theorem C31_next_found : forall data0 data lf seed x y, bytes_ok data0 -> bytes_ok data -> log_open data0 = Ok lf ->
  addressable lf data -> lsn_seq lf seed = lsn_seq lf x -> follows lf data x y ->
  find_next lf data seed x = Ok (Some y).
Proof.
  intros data0 data lf seed x y B0 B O AD S F. apply log_open_iff in O; auto.
  apply follows_next; auto. exact (opened_ok _ _ B0 O).
Qed.
Print Assumptions C31_next_found.

(** So in a log written once, everything after a starting point is collected. *)
Theorem C31_forward_complete : forall data0 data lf ord c l c' q, bytes_ok data0 -> bytes_ok data ->
  log_open data0 = Ok lf -> addressable lf data -> (forall k l, Permutation (ord k l) l) -> one_pass lf data q ->
  collect_lsns lf data ord c = Ok (l, c') ->
  forall s x, seed_lsn lf data s -> chain (follows lf data) s x -> In x l.
Proof.
  intros data0 data lf ord c l c' q B0 B O AD OP Q E s x HS CH.
  destruct (C29_complete data0 data lf ord c l c' B0 B O AD OP E s x x x HS) as [I _]; auto using chain_nil.
  right. exists q. auto.
Qed.
Print Assumptions C31_forward_complete.

(** Across the end of the file the walk goes one record too short: after the
    first record of the new pass it still expects the old sequence number (line
    886 reads [lsn], not [current_lsn]).  Here [c] is not collected although it
    directly follows [b], which is. *)
Definition wrap_lf : log_file := match log_open wrap_log with Ok lf => lf | Err _ => tight_lf end.

Theorem C31_wrap_refuted : exists data lf b c l c',
  bytes_ok data /\ log_open data = Ok lf /\ addressable lf data /\
  collect_lsns lf data no_order no_config = Ok (l, c') /\
  In b l /\ find_next lf data b b = Ok (Some c) /\ ~ In c l.
Proof.
  exists wrap_log, wrap_lf, rec_b, rec_c, [rec_a; rec_b; rec_d], no_config.
  split; [apply bytes_okb_ok; vm_compute; reflexivity|]. split; [vm_compute; reflexivity|].
  split; [vm_compute; discriminate|]. split; [vm_compute; reflexivity|]. split; [right; left; reflexivity|].
  split; [vm_compute; reflexivity|]. vm_compute. intros [H|[H|[H|[]]]]; discriminate.
Qed.
Print Assumptions C31_wrap_refuted.

(** And a record of several pages that ends in the last page is not followed to
    the first page, where a shorter one would be. *)
Definition long_lf : log_file := match log_open long_log with Ok lf => lf | Err _ => tight_lf end.

Theorem C31_long_wrap_refuted : exists data lf x y,
  bytes_ok data /\ log_open data = Ok lf /\ lsn_to_offset lf y = (first_page lf, lf_doff lf) /\
  lsn_to_seqnum lf y = lsn_to_seqnum lf x + 1 /\ locate lf data x <> Ok None /\ locate lf data y <> Ok None /\
  find_next lf data x x = Ok None.
Proof.
  exists long_log, long_lf, rec_x, rec_y.
  split; [apply bytes_okb_ok; vm_compute; reflexivity|]. split; [vm_compute; reflexivity|].
  split; [vm_compute; reflexivity|]. split; [vm_compute; reflexivity|].
  split; [vm_compute; discriminate|]. split; [vm_compute; discriminate|]. vm_compute. reflexivity.
Qed.
Print Assumptions C31_long_wrap_refuted.

Example C31_example :
  find_next wrap_lf wrap_log rec_a rec_a = Ok (Some rec_b) /\ find_next wrap_lf wrap_log rec_b rec_b = Ok (Some rec_c) /\
  find_next wrap_lf wrap_log rec_a rec_b = Ok (Some rec_a).
Proof. vm_compute. auto. Qed.
