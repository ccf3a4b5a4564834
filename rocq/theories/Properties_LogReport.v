(** Properties C76 and C77: the report on the log. *)
From Coq Require Import String Sorted.
From Verif Require Import Base BaseLemmas FieldLemmas Frs FrsSpec FileRecord Mft MftSpec MftProofs MftPathProofs MftSamples Filetime Usn UsnSpec UsnProofs
  Attributes LogFile LogSpec LogRecord LogParse LogParseSpec LogRecordProofs LogFileProofs LogImages LogParseTop Properties_LogParse
  Report ReportSpec ReportMoreSpec ReportTable Properties_Mft Properties_Report LogReport LogReportSpec LogTextProofs LogPartsProofs LogBlocksProofs.
Local Open Scope Z_scope.
Local Set Warnings "-abstract-large-number".

Lemma blocks_in_order p : forall l st0 rs st, grows_in (fun i => grun (item_block p i) (fun r => ([r], Done))) l st0 = (rs, st) ->
  (st = st0 /\ Forall2 (fun i r => item_block p i = Ok r) l rs) \/
  exists l1 x l2 e, l = l1 ++ x :: l2 /\ Forall2 (fun i r => item_block p i = Ok r) l1 rs /\ item_block p x = Err e /\ st = Raised e.
Proof.
  induction l as [|i l IH]; intros st0 rs st H; cbn [grows_in] in H.
  - injection H as <- <-. left. auto.
  - destruct (item_block p i) as [r|e] eqn:E; cbn [grun] in H.
    + unfold gapp in H. destruct (grows_in _ l st0) as [rs' st'] eqn:G. cbn [fst snd app] in H. injection H as <- <-.
      destruct (IH _ _ _ G) as [[-> F]|(l1 & x & l2 & e & -> & F & X & ->)].
      * left. split; [auto|]. constructor; auto.
      * right. exists (i :: l1), x, l2, e. split; [auto|]. split; [constructor; auto|auto].
    + injection H as <- <-. right. exists [], i, l, e. auto.
Qed.

(** C76: a block for each restart area and each log record, in the order in which
    they are read, then one block for the deallocated file records.  The report
    ends early only when the parse of the log does, or when an item is damaged or
    a path cannot be built. *)
Theorem C76_log_report : forall ord data mft_data lf p is w w' pst blocks st,
  bytes_ok data -> bytes_ok mft_data -> fits mft_data -> log_open data = Ok lf -> mft_open mft_data true = Ok p ->
  parse_ntfs_records lf ord true (start_world data) = (is, w, (w', pst)) ->
  process_log ord data mft_data = (blocks, st) ->
  let t := known mft_data true in let size := fld 4 mft_data 28 in
  let shown i r := item_shown_as t mft_data size i (fst r) (snd r) in
  exists rs last, blocks = map fst rs ++ last /\
  match st with
  | Done => pst = Done /\ Forall2 shown is rs /\ deleted_shown (present (map snd rs)) last
  | Raised e => last = [] /\
      ((pst = Raised e /\ Forall2 shown is rs) \/
       exists l1 x l2, is = l1 ++ x :: l2 /\ Forall2 shown l1 rs /\ ~ (all_clean t mft_data size /\ sound_item x))
  end.
Proof.
  intros ord data mft_data lf p is w w' pst blocks st B BM F O H E R t size shown.
  destruct (mft_open_spec _ _ _ BM H) as [HP _]. fold (known mft_data true) in HP. fold t size in HP.
  assert (I : Forall item_ok is).
  { pose proof (parse_items_ok lf ord true (start_world data) (proj1 (top_ok data lf B O))) as K. rewrite E in K. cbn [fst] in K.
    apply K. unfold files_ok. cbn. auto. }
  unfold process_log in R. rewrite O, H in R. cbn [grun] in R. rewrite E in R. unfold grows in R. cbn [fst snd] in R.
  destruct (grows_in _ is pst) as [rs st'] eqn:G. injection R as <- <-. exists rs.
  exists (match st' with Done => deleted_block (somes (map snd rs)) | Raised _ => [] end). split; [reflexivity|].
  assert (SH : forall l rs, Forall item_ok l -> Forall2 (fun i r => item_block p i = Ok r) l rs -> Forall2 shown l rs).
  { intros l q IL V. induction V as [|i [ls del] l q Hi V IH]; [constructor|]. inversion IL; subst. constructor; [|auto].
    unfold shown. cbn [fst snd]. eapply item_block_shown; eauto. }
  destruct (blocks_in_order _ _ _ _ _ G) as [[-> V]|(l1 & x & l2 & e & -> & V & X & ->)].
  - destruct pst as [|e].
    + split; [auto|]. split; [auto|]. change (somes (map snd rs)) with (present (map snd rs)). destruct (present (map snd rs)) as [|c l] eqn:P; [left; auto|].
      right. exists (spread (c :: l)). split; [apply spread_cells; discriminate|reflexivity].
    + split; [auto|]. left. auto.
  - split; [auto|]. right. exists l1, x, l2. apply Forall_app in I as [I1 I2]. inversion I2; subst. split; [auto|]. split; [auto|].
    intros [CL S]. destruct (item_block_total mft_data size t p F HP x CL) as [r Er]; auto. congruence.
Qed.
Print Assumptions C76_log_report.

(** Nothing is left out when the table and the items are undamaged. *)
Theorem C76_complete : forall ord data mft_data lf p is w w',
  bytes_ok data -> bytes_ok mft_data -> fits mft_data -> log_open data = Ok lf -> mft_open mft_data true = Ok p ->
  parse_ntfs_records lf ord true (start_world data) = (is, w, (w', Done)) ->
  all_clean (known mft_data true) mft_data (fld 4 mft_data 28) -> Forall sound_item is ->
  snd (process_log ord data mft_data) = Done /\ zlen is <= zlen (fst (process_log ord data mft_data)) <= zlen is + 1.
Proof.
  intros ord data mft_data lf p is w w' B BM F O H E CL S. destruct (process_log ord data mft_data) as [blocks st] eqn:R. cbn [fst snd].
  destruct (C76_log_report ord data mft_data lf p is w w' Done blocks st B BM F O H E R) as (rs & last & -> & K). destruct st as [|e].
  - split; [auto|]. destruct K as (_ & V & D).
    assert (L : zlen is = zlen (map fst rs)) by (unfold zlen; rewrite map_length; f_equal; clear - V; induction V; cbn; congruence).
    rewrite zlen_app, L. destruct D as [[_ ->]|(s & _ & ->)]; unfold zlen; cbn [length]; lia.
  - exfalso. destruct K as [_ [[K _]|(l1 & x & l2 & -> & _ & N)]]; [discriminate|]. apply N. split; [auto|].
    apply Forall_app in S as [_ S]. now inversion S.
Qed.
Print Assumptions C76_complete.

(** The number shown for a target in the table is the only one possible. *)
Theorem C76_number_unique : forall cluster b n m, bytes_ok b -> number_is cluster b n -> number_is cluster b m -> n = m.
Proof. intros cluster b n m B [H1 H2] [H3 H4]. pose proof (frs_size_pos b B). nia. Qed.
Print Assumptions C76_number_unique.

(** A file record that is deallocated was a target by number, so its number is
    always known. *)
Theorem C76_deleted_known : forall t data size b lsn tid cluster o od ad ls del, 32 + 8 * fld 2 b 14 <= zlen b ->
  record_shown t data size b lsn tid cluster o od ad ls del ->
  fld 2 b 0 = 3 <-> exists n, number_is cluster b n /\ resident b /\ del = Some (Num n).
Proof.
  intros t data size b lsn tid cluster o od ad ls del L (redo & undo & o1 & o2 & tl & name & ol & rest & _ & _ & _ & _ & _ & _ & _ & [(X & _)|(_ & D & _)]); [lia|].
  destruct D as [(E & n & N & ->)|(E & ->)].
  - split; [|auto]. intros _. exists n. split; [auto|]. split; [now apply dealloc_resident|auto].
  - split; [contradiction|]. intros (n & _ & _ & X). discriminate.
Qed.
Print Assumptions C76_deleted_known.

(** ** Examples *)
Definition dealloc (n : Z) : list Z :=
  written_record {| f_redo_op := 3; f_undo_op := 2; f_target := 24; f_record := 0; f_attr := 0; f_block := 2 * (n mod 4);
    f_size := 2; f_vcn := n / 4; f_lcns := [7]; f_redo := []; f_undo := [] |}.
Definition the_table : list Z := sample_table 1024 3 [].
Definition journal_log (u : list Z) : list Z :=
  log_of [(2, area_image); (1, rec_of 29 0 (table_image (8 + 2 ^ 48))); (1, rec_of 30 0 (names_of [36; 74])); (1, rec_of 8 24 u); (1, dealloc 8)].

Definition ended (data : list Z) : Z * status := let (l, st) := process_log no_order data the_table in (zlen l, st).

(** The record of the journal "8" in "/b/x" (as the attribute table says) with a
    change of the same file, then its deallocation. *)
Example C76_case :
  let '(blocks, st) := process_log no_order (journal_log usn_sample) the_table in
  zlen blocks = 6 /\ st = Done /\
  ztake 8 (nth 3 blocks []) = [
    [Txt (txt "LSN: "); Num 16779318]; [Txt (txt "Transaction ID: "); Num 1];
    [Txt (txt "Log record, redo operation: "); Txt (txt "UpdateNonresidentValue"); Txt (txt ", undo operation: "); Txt (txt "Noop")];
    [Txt (txt "Target (file reference number): "); Num (8 + 2 ^ 48)]; [Txt (txt "Target (attribute name): "); Txt (txt "$J")];
    [Txt (txt "Target path (from $MFT): "); Txt path_bx]; [Txt (txt "Offset in target: "); Num 0]; [Txt (txt "Redo data:")]] /\
  zdrop 13 (nth 3 blocks []) = [
    [Txt (txt "USN record:")]; [Txt (txt " Number: "); Num 3]; [Txt (txt " Source: "); Txt (txt "USN_SOURCE_AUXILIARY_DATA")];
    [Txt (txt " Reason: "); Txt (txt "USN_REASON_FILE_CREATE | USN_REASON_CLOSE")];
    [Txt (txt " File reference number: "); Num (8 + 2 ^ 48)]; [Txt (txt " Parent file reference number: "); Num (7 + 2 ^ 48)];
    [Txt (txt " Timestamp: "); Stamp epoch_1970]; [Txt (txt " File name: "); Txt [65]]; [Txt []]] /\
  nth 4 blocks [] = [
    [Txt (txt "LSN: "); Num 16779336]; [Txt (txt "Transaction ID: "); Num 1];
    [Txt (txt "Log record, redo operation: "); Txt (txt "DeallocateFileRecordSegment"); Txt (txt ", undo operation: "); Txt (txt "InitializeFileRecordSegment")];
    [Txt (txt "Target (file number): "); Num 8];
    [Txt (txt "Target path (from $MFT, likely wrong if the file was deleted later): "); Txt path_bx];
    [Txt (txt "Offset in target: "); Num 0]; [Txt (txt "LCN(s): "); Num 7]; [Txt (txt "Redo data:")]; [Txt [45]]; [Txt []];
    [Txt (txt "Undo data:")]; [Txt [45]]; [Txt []]] /\
  nth 5 blocks [] = [[Txt (txt "Files and directories with these MFT numbers were deleted (in this order):")]; [Num 8]].
Proof. vm_compute. repeat split; reflexivity. Qed.

(** A new attribute, and a change of the times of $STANDARD_INFORMATION. *)
Definition si_attr (n : Z) : list Z := le_bytes 4 0x10 ++ le_bytes 4 (24 + n) ++ zeros 8 ++ le_bytes 4 n ++ le_bytes 2 24 ++ zeros 2 ++ zeros n.
Definition si_write : list Z :=
  written_record {| f_redo_op := 7; f_undo_op := 0; f_target := 24; f_record := 56; f_attr := 24; f_block := 0;
    f_size := 2; f_vcn := 2; f_lcns := []; f_redo := le_bytes 8 116444736000000010; f_undo := [] |}.
Example C76_values :
  let '(blocks, st) := process_log no_order (log_of [(2, area_image); (1, rec_of 5 24 (si_attr 48)); (1, si_write)]) the_table in
  st = Done /\ zlen blocks = 3 /\
  zdrop (zlen (nth 1 blocks []) - 7) (nth 1 blocks []) = [
    [Txt (txt "$STANDARD_INFORMATION:")]; [Txt (txt " * M timestamp: "); zero_time]; [Txt (txt " * A timestamp: "); zero_time];
    [Txt (txt " * C timestamp: "); zero_time]; [Txt (txt " * E timestamp: "); zero_time]; [Txt (txt " * File attributes: "); Txt []]; [Txt []]] /\
  zdrop (zlen (nth 2 blocks []) - 6) (nth 2 blocks []) = [
    [Txt (txt "Possible update to $STANDARD_INFORMATION (redo data):")]; [Txt (txt " * M timestamp: "); Txt (txt "N/A")];
    [Txt (txt " * A timestamp: "); Txt (txt "N/A")]; [Txt (txt " * C timestamp: "); Stamp epoch_1970]; [Txt (txt " * E timestamp: "); Txt (txt "N/A")]; [Txt []]].
Proof. vm_compute. repeat split; reflexivity. Qed.

(** One damaged record ends the whole report: the later records and the list of
    deallocated records are lost, although the log itself is read completely. *)
Definition lost (bad : list Z) (e : exn) : Prop :=
  let data := log_of [(2, area_image); (1, bad); (1, dealloc 8)] in
  bytes_ok data /\ outcome data = Some ([lsn40 1 4 64; lsn40 1 4 192; lsn40 1 4 ((192 + 48 + zlen bad + 7) / 8 * 8)], Done) /\
  ended data = (1, Raised e).
Theorem C76_short_entry_refuted : lost (rec_of 14 24 [1; 2; 3; 4]) StructError.
Proof. split; [apply bytes_okb_ok; vm_compute; reflexivity|]. split; vm_compute; reflexivity. Qed.
Print Assumptions C76_short_entry_refuted.
Theorem C76_short_value_refuted : lost (rec_of 5 24 (si_attr 32)) StructError.
Proof. split; [apply bytes_okb_ok; vm_compute; reflexivity|]. split; vm_compute; reflexivity. Qed.
Print Assumptions C76_short_value_refuted.
Theorem C76_bad_name_refuted : bytes_ok (journal_log (zset usn_sample 56 200)) /\
  option_map (fun x => (zlen (fst x), snd x)) (outcome (journal_log (zset usn_sample 56 200))) = Some (5, Done) /\
  ended (journal_log (zset usn_sample 56 200)) = (3, Raised ValueError).
Proof. split; [apply bytes_okb_ok; vm_compute; reflexivity|]. split; vm_compute; reflexivity. Qed.
Print Assumptions C76_bad_name_refuted.

(** ** C77: the texts *)
Lemma hex_start n s : hex_shown n s -> znth s 0 = Some 48 /\ zlen s >= 3.
Proof.
  intros (d & -> & _ & N & _). split; [reflexivity|]. rewrite zlen_app. destruct d; [congruence|]. unfold zlen. cbn [length]. lia.
Qed.

Lemma txt_inj a : forall b, txt a = txt b -> a = b.
Proof.
  unfold txt. induction a as [|x a IH]; intros [|y b] H; cbn in H; try discriminate; [auto|].
  injection H as H1 H2. f_equal; [|auto]. apply N2Z.inj in H1. apply (f_equal Ascii.ascii_of_N) in H1.
  now rewrite !Ascii.ascii_N_embedding in H1.
Qed.

(** The operation is shown without loss. *)
Theorem C77_operation : forall n, 0 <= n -> operation_shown n (resolve_operation n).
Proof. exact operation_text. Qed.
Print Assumptions C77_operation.

Theorem C77_operation_unique : forall n m s, operation_shown n s -> operation_shown m s -> n = m.
Proof.
  assert (U : forall s, znth s 0 = Some 48 -> ~ exists c name, In (c, name) operations /\ s = txt name).
  { intros s H (c & name & I & ->).
    assert (X : forallb (fun x => match znth (txt (snd x)) 0 with Some c => negb (c =? 48) | None => true end) operations = true) by (vm_compute; reflexivity).
    rewrite forallb_forall in X. specialize (X _ I). cbn [snd] in X. rewrite H in X. discriminate. }
  assert (D : forall c c' name, In (c, name) operations -> In (c', name) operations -> c = c').
  { assert (X : forallb (fun x => forallb (fun y => implb (String.eqb (snd x) (snd y)) (fst x =? fst y)) operations) operations = true) by (vm_compute; reflexivity).
    intros c c' name I J. rewrite forallb_forall in X. specialize (X _ I). rewrite forallb_forall in X. specialize (X _ J).
    cbn [fst snd] in X. rewrite String.eqb_refl in X. cbn [implb] in X. lia. }
  intros n m s [(a & I & ->)|[_ X]] [(b & J & E)|[_ Y]].
  - apply txt_inj in E as ->. eauto.
  - exfalso. apply (U (txt a)); [eapply hex_start; eauto|eauto].
  - exfalso. apply (U s); [eapply hex_start; eauto|eauto].
  - eapply hex_shown_inj; eauto.
Qed.
Print Assumptions C77_operation_unique.
Example C77_operation_case : resolve_operation 0x25 = txt "ZeroEndOfFileRecord" /\ resolve_operation 0x26 = txt "0x26" /\ resolve_operation 0x100 = txt "0x100".
Proof. vm_compute. auto. Qed.

(** The reason and source codes are shown without loss. *)
Definition plain_text (s : list Z) : Prop := s <> [] /\ ~ In 32 s.
Lemma bars_inj l s : bars l s -> Forall plain_text l -> forall m, bars m s -> Forall plain_text m -> l = m.
Proof.
  assert (SP : forall (x y s t : list Z), ~ In 32 x -> ~ In 32 y -> x ++ 32 :: s = y ++ 32 :: t -> x = y /\ s = t).
  { induction x as [|a x IH]; intros [|b y] s' t' N M E; cbn in E.
    - injection E as ->. auto.
    - injection E as <- _. exfalso. apply M. now left.
    - injection E as -> _. exfalso. apply N. now left.
    - injection E as <- E. destruct (IH y s' t') as [-> ->]; auto; intro I; [apply N|apply M]; now right. }
  assert (NE : forall l s, bars l s -> Forall plain_text l -> l <> [] -> s <> []).
  { intros l' s' H F N. destruct H; [congruence| |]; inversion F as [|? ? [P _] _]; subst; [auto|]. intro E. apply app_eq_nil in E as [E _]. auto. }
  assert (HI : forall (x y t : list Z), ~ In 32 x -> x = y ++ [32; 124; 32] ++ t -> False).
  { intros x y t N ->. apply N, in_or_app. right. now left. }
  intro H. induction H as [|x|x y l s H IH]; intros F m K G.
  - destruct m as [|z m]; [auto|]. exfalso. apply (NE _ _ K G); [discriminate|reflexivity].
  - inversion F as [|? ? [P Q] _]; subst. inversion K; subst; [congruence|reflexivity|]. exfalso. eapply HI; [exact Q|reflexivity].
  - inversion F as [|? ? [P Q] F']; subst. remember (x ++ [32; 124; 32] ++ s) as z. destruct K as [|x'|x' y' l' s' K].
    + exfalso. destruct x; [congruence|discriminate].
    + inversion G as [|? ? [_ Q'] _]; subst. exfalso. eapply HI; [exact Q'|reflexivity].
    + inversion G as [|? ? [P' Q'] G']; subst. cbn [app] in Heqz. apply SP in Heqz as [-> E]; auto. injection E as ->. f_equal. eapply IH; eauto.
Qed.

Lemma low_plain d : forall a n, low_number a d = Some n -> ~ In 32 d.
Proof.
  induction d as [|c d IH]; cbn [low_number]; intros a n H; [auto|]. intros [->|I]; [discriminate H|].
  destruct (low_digit c); [|discriminate]. eapply IH; eauto.
Qed.
Lemma hex_plain n s : hex_shown n s -> plain_text s.
Proof.
  intros (d & -> & L & _ & _). split; [discriminate|]. intros [E|[E|I]]; try discriminate. eapply low_plain; eauto.
Qed.

Definition plain_names (table : list (Z * string)) : bool :=
  forallb (fun x => match txt (snd x) with c :: l => negb (c =? 48) && negb (zin 32 (c :: l)) | [] => false end) table.
Lemma codes_unique table n m s : plain_names table = true -> codes_shown table n s -> codes_shown table m s -> n = m.
Proof.
  intros PN (i1 & t1 & V1 & S1 & B1) (i2 & t2 & V2 & S2 & B2).
  assert (NM : forall x, code_value table (Named x) <> None -> plain_text (txt x) /\ znth (txt x) 0 <> Some 48).
  { intros x H. cbn [code_value] in H. destruct (find _ table) as [y|] eqn:E; [|congruence]. apply find_some in E as [I Q].
    unfold plain_names in PN. rewrite forallb_forall in PN. specialize (PN _ I). apply String.eqb_eq in Q. subst x.
    destruct (txt (snd y)) as [|c l] eqn:T; [discriminate|]. apply andb_true_iff in PN as [P1 P2]. split.
    - split; [discriminate|]. intro J. apply zin_In in J. rewrite J in P2. discriminate.
    - cbn. intro E. injection E as ->. discriminate. }
  assert (VAL : forall l v, items_value table l = Some v -> Forall (fun i => code_value table i <> None) l).
  { induction l as [|i l IH]; intros v H; [constructor|]. cbn [items_value] in H. destruct (code_value table i) eqn:E; [|discriminate].
    destruct (items_value table l) eqn:E2; [|discriminate]. constructor; [congruence|eauto]. }
  assert (PL : forall l t, Forall (fun i => code_value table i <> None) l -> Forall2 item_shown l t -> Forall plain_text t).
  { intros l t F H. induction H as [|i x l t H _ IH]; [constructor|]. inversion F; subst. constructor; [|auto].
    destruct i as [a|a]; cbn [item_shown] in H; [subst x; now apply NM|eapply hex_plain; eauto]. }
  pose proof (VAL _ _ V1) as F1. pose proof (VAL _ _ V2) as F2.
  assert (t1 = t2) by (eapply bars_inj; eauto). subst t2. clear B1 B2.
  assert (i1 = i2); [|congruence]. clear V1 V2. revert i2 S2 F2. induction S1 as [|i x l t H S1 IH]; intros i2 S2 F2; inversion S2; subst; [auto|].
  inversion F1; inversion F2; subst. f_equal; [|auto]. destruct i as [a|a], x0 as [b|b]; cbn [item_shown] in *.
  - f_equal. apply txt_inj. congruence.
  - exfalso. subst x. edestruct NM as [_ N]; [eauto|]. apply N. eapply hex_start; eauto.
  - exfalso. subst x. edestruct NM as [_ N]; [eauto|]. apply N. eapply hex_start; eauto.
  - f_equal. eapply hex_shown_inj; eauto.
Qed.

Theorem C77_codes : forall n, 0 <= n ->
  codes_shown reason_list n (codes_text (resolve_reason_codes n)) /\ codes_shown source_list n (codes_text (resolve_source_codes n)).
Proof. intros n H. split; [now apply reason_text|now apply source_text]. Qed.
Print Assumptions C77_codes.
Theorem C77_codes_unique : forall n m s,
  (codes_shown reason_list n s -> codes_shown reason_list m s -> n = m) /\ (codes_shown source_list n s -> codes_shown source_list m s -> n = m).
Proof. intros n m s. split; apply codes_unique; vm_compute; reflexivity. Qed.
Print Assumptions C77_codes_unique.
Example C77_codes_case : codes_text (resolve_reason_codes 0x84000001) = txt "USN_REASON_DATA_OVERWRITE | USN_REASON_CLOSE | 0x4000000".
Proof. vm_compute. reflexivity. Qed.

(** A GUID is shown without loss. *)
Theorem C77_guid : forall v, bytes_ok v -> guid_shown v (guid_text (oid_guid v)).
Proof. exact guid_text_shown. Qed.
Print Assumptions C77_guid.
Theorem C77_guid_unique : forall v w s, bytes_ok v -> bytes_ok w -> 16 <= zlen v -> guid_shown v s -> guid_shown w s ->
  16 <= zlen w /\ slice v 0 16 = slice w 0 16.
Proof.
  intros v w s BV BW L [(X & _)|(_ & a & b & c & d & e & Es & (A1 & A2) & (B1 & B2) & (C1 & C2) & (D1 & D2) & (E1 & E2))]; [lia|].
  assert (LS : zlen s = 36) by (subst s; rewrite !zlen_app; unfold zlen in *; cbn [length]; lia).
  intros [(X & ->)|(L' & a' & b' & c' & d' & e' & Es' & (A1' & A2') & (B1' & B2') & (C1' & C2') & (D1' & D2') & (E1' & E2'))]; [discriminate LS|].
  split; [auto|]. rewrite Es in Es'.
  assert (SP : forall (x y t u : list Z), zlen x = zlen y -> x ++ t = y ++ u -> x = y /\ t = u).
  { induction x as [|h x IH]; intros [|k y] t u Z E; try (unfold zlen in Z; cbn in Z; lia); [auto|].
    cbn in E. injection E as <- E. destruct (IH y t u) as [-> ->]; auto. unfold zlen in *. cbn in Z. lia. }
  apply SP in Es' as [<- Es']; [|lia]. cbn [app] in Es'. injection Es' as Es'.
  apply SP in Es' as [<- Es']; [|lia]. cbn [app] in Es'. injection Es' as Es'.
  apply SP in Es' as [<- Es']; [|lia]. cbn [app] in Es'. injection Es' as Es'.
  apply SP in Es' as [<- Es']; [|lia]. cbn [app] in Es'. injection Es' as <-.
  assert (V : forall o k, 0 <= o -> 0 <= k -> o + k <= 16 -> fld k v o = fld k w o -> slice v o (o + k) = slice w o (o + k)).
  { intros o k Ho Hk Lk E. apply le_val_inj; auto using bytes_ok_slice. rewrite !zlen_slice by lia. lia. }
  assert (S4 : slice v 0 4 = slice w 0 4) by (apply (V 0 4); try lia; congruence).
  assert (S6 : slice v 4 6 = slice w 4 6) by (apply (V 4 2); try lia; congruence).
  assert (S8 : slice v 6 8 = slice w 6 8) by (apply (V 6 2); try lia; congruence).
  assert (Q : 256 * fld 1 v 8 + fld 1 v 9 = 256 * fld 1 w 8 + fld 1 w 9) by congruence.
  pose proof (fld_bound 1 v 8 ltac:(lia) ltac:(lia) BV). pose proof (fld_bound 1 v 9 ltac:(lia) ltac:(lia) BV).
  pose proof (fld_bound 1 w 8 ltac:(lia) ltac:(lia) BW). pose proof (fld_bound 1 w 9 ltac:(lia) ltac:(lia) BW).
  assert (S9 : slice v 8 9 = slice w 8 9) by (apply (V 8 1); lia).
  assert (S10 : slice v 9 10 = slice w 9 10) by (apply (V 9 1); lia).
  assert (S16 : slice v 10 16 = slice w 10 16).
  { rewrite <- (rev_involutive (slice v 10 16)), <- (rev_involutive (slice w 10 16)). f_equal.
    apply le_val_inj; [apply Forall_rev, bytes_ok_slice; auto|apply Forall_rev, bytes_ok_slice; auto| |congruence].
    unfold zlen. rewrite !rev_length. change (zlen (slice v 10 16) = zlen (slice w 10 16)). rewrite !zlen_slice by lia. lia. }
  rewrite (slice_split v 0 4 16), (slice_split w 0 4 16), (slice_split v 4 6 16), (slice_split w 4 6 16), (slice_split v 6 8 16), (slice_split w 6 8 16),
    (slice_split v 8 9 16), (slice_split w 8 9 16), (slice_split v 9 10 16), (slice_split w 9 10 16) by lia. congruence.
Qed.
Print Assumptions C77_guid_unique.
Example C77_guid_case : guid_text (oid_guid [3; 2; 1; 0; 5; 4; 7; 6; 8; 9; 10; 11; 12; 13; 14; 255]) = txt "00010203-0405-0607-0809-0a0b0c0d0eff".
Proof. vm_compute. reflexivity. Qed.

(** The file attributes: each known bit by its name; the other bits are not
    shown, so values that differ in them look the same. *)
Theorem C77_attributes : forall n, 0 <= n -> attributes_shown n (resolve_file_attributes n).
Proof. exact attributes_text. Qed.
Print Assumptions C77_attributes.
Theorem C77_attributes_refuted : exists n m, 0 <= n < 2 ^ 32 /\ 0 <= m < 2 ^ 32 /\ n <> m /\ resolve_file_attributes n = resolve_file_attributes m.
Proof. exists 0x21, 0x200021. split; [lia|]. split; [lia|]. split; [lia|]. vm_compute; reflexivity. Qed.
Print Assumptions C77_attributes_refuted.

(** Which bits are lost: two values with the same text agree in all named bits. *)
Theorem C77_attributes_named : forall n m s, attributes_shown n s -> attributes_shown m s ->
  forall k name, In (k, name) attribute_bits -> Z.testbit n k = Z.testbit m k.
Proof.
  intros n m s A B.
  assert (PL : forall f, Forall plain_text (map (fun x => txt (snd x)) (filter f attribute_bits))).
  { intro f. apply Forall_forall. intros x I. apply in_map_iff in I as (y & <- & I). apply filter_In in I as [I _].
    assert (X : plain_names attribute_bits = true) by (vm_compute; reflexivity).
    unfold plain_names in X. rewrite forallb_forall in X. specialize (X _ I). destruct (txt (snd y)) as [|c l]; [discriminate|].
    apply andb_true_iff in X as [_ X]. split; [discriminate|]. intro J. apply zin_In in J. rewrite J in X. discriminate. }
  pose proof (bars_inj _ _ A (PL _) _ B (PL _)) as E.
  assert (M : forall n k name, In (k, name) attribute_bits ->
    Z.testbit n k = true <-> In (txt name) (map (fun x => txt (snd x)) (filter (fun x => Z.testbit n (fst x)) attribute_bits))).
  { intros q k name I. split.
    - intro T. apply in_map_iff. exists (k, name). split; [reflexivity|]. apply filter_In. auto.
    - intro J. apply in_map_iff in J as ((k' & name') & Q & J). apply filter_In in J as [J T]. cbn [fst snd] in *. apply txt_inj in Q as ->.
      assert (X : forallb (fun x => forallb (fun y => implb (String.eqb (snd x) (snd y)) (fst x =? fst y)) attribute_bits) attribute_bits = true) by (vm_compute; reflexivity).
      rewrite forallb_forall in X. specialize (X _ I). rewrite forallb_forall in X. specialize (X _ J).
      cbn [fst snd] in X. rewrite String.eqb_refl in X. cbn [implb] in X. apply Z.eqb_eq in X. now subst k'. }
  intros k name I. pose proof (M n k name I) as M1. pose proof (M m k name I) as M2. rewrite E in M1.
  destruct (Z.testbit n k), (Z.testbit m k); intuition congruence.
Qed.
Print Assumptions C77_attributes_named.
Example C77_attributes_case : resolve_file_attributes 0x26 = txt "HIDDEN | SYSTEM | ARCHIVE".
Proof. vm_compute. reflexivity. Qed.
