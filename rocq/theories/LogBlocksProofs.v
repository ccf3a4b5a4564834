(** Proofs about the report on the log: the block of an item. *)
From Coq Require Import String.
From Verif Require Import Base BaseLemmas FieldLemmas Frs FrsSpec FrsProofs FileRecord FileRecordSpec FileRecordProofs Mft MftSpec MftProofs MftPathProofs Filetime Usn UsnSpec UsnProofs
  Attributes AttributesSpec AttributesProofs
  LogFile LogSpec LogRecord LogParse LogParseSpec LogRecordProofs LogFileProofs LogReadProofs LogWalkProofs LogClientProofs LogCollectProofs LogItemsProofs LogParseTop
  Report ReportSpec ReportMoreSpec ReportProofs ReportTable ReportSound ReportMore HexdumpProofs
  LogReport LogReportSpec LogTextProofs LogPartsProofs.
Local Open Scope Z_scope.

(** ** What the items of a log hold *)
Definition item_ok (i : item) : Prop :=
  match i with
  | Area b _ => bytes_ok b /\ 64 <= zlen b
  | Rec b _ _ _ _ _ ad => bytes_ok b /\ 32 <= zlen b /\ forall names, ad = Some names -> bytes_ok names
  end.
Definition names_ok (s : loop_state) : Prop :=
  (forall d, ls_lan s = Some d -> bytes_ok d) /\ (forall d, ls_oan s = Some d -> bytes_ok d).

Lemma client_data_bytes lf data cluster lsn cd : lf_ok lf -> bytes_ok data -> get_client_data lf data cluster lsn = Ok cd -> bytes_ok (cd_buf cd).
Proof.
  intros K B H. pose proof (lsn_to_offset_spec lf lsn K) as P.
  destruct (lsn_to_offset lf lsn) as [n off]. cbn [fst snd] in P.
  pose proof (lsn_pos_bounds _ _ _ _ K P) as (Hn & Ho & _).
  pose proof (fetch_spec lf data n off K B Hn ltac:(lia)) as F.
  destruct (fetch lf data n off) as [[h|]|x]; [| |contradiction].
  - destruct (get_client_data_ok lf data K B cluster lsn n off h P F) as (out & R & E). rewrite E in H. injection H as <-. cbn [cd_buf].
    destruct R as (rest & D & ->). apply bytes_ok_app. split; [|eapply data_after_ok; eauto].
    apply bytes_ok_slice. apply (record_at_facts _ _ _ _ _ K B F).
  - destruct (get_client_data_err lf data K B cluster lsn n off P F) as (e & E & _). congruence.
Qed.

Lemma part_bytes b o n d : bytes_ok b -> part b o n d -> bytes_ok d.
Proof. intros B [[_ ->]|(_ & _ & ->)]; [constructor|now apply bytes_ok_slice]. Qed.

Lemma effect_names c b s s' : bytes_ok b -> 32 <= zlen b -> names_ok s -> record_effect c b s = Ok s' -> names_ok s'.
Proof.
  intros B L [N1 N2] H. unfold record_effect in H. apply bind_ok in H as (op & _ & H). destruct (_ =? _).
  - apply bind_ok in H as (name & _ & H). apply bind_ok in H as (i & _ & H). apply bind_ok in H as (entry & _ & H).
    destruct (entry_reference _ _) as [r|[]]; try discriminate; injection H as <-; split; auto.
  - apply bind_ok in H as (d & _ & H). destruct (d && _).
    { apply bind_ok in H as (dump & _ & H). injection H as <-. split; auto. }
    destruct (d && _); [|injection H as <-; split; auto].
    apply bind_ok in H as (dump & E & H). injection H as <-. split; [|exact N1]. cbn [ls_lan]. intros d' K. injection K as <-.
    pose proof (redo_data_spec b B L) as R. rewrite E in R. eapply part_bytes; eauto.
Qed.

Lemma client_loop_ok lf c data : lf_ok lf -> bytes_ok data -> forall l s, names_ok s -> Forall item_ok (fst (client_loop lf c data l s)).
Proof.
  intros K B. induction l as [|lsn l IH]; intros s N; cbn [client_loop]; [constructor|].
  destruct (get_client_data lf data (cf_cluster c) lsn) as [cd|e] eqn:E; [|constructor].
  pose proof (client_data_bytes _ _ _ _ _ K B E) as Bc. destruct (cd_type cd =? LfsClientRestart).
  - unfold ntfs_restart_area. destruct (Z.ltb_spec (zlen (cd_buf cd)) 64); [constructor|]. unfold gcons. cbn [fst]. constructor; [|auto].
    split; auto.
  - destruct (cd_type cd =? LfsClientRecord); [|auto]. unfold log_record. destruct (Z.ltb_spec (zlen (cd_buf cd)) 32); [constructor|]. cbn [bind].
    destruct (record_effect c (cd_buf cd) s) as [s'|e] eqn:E1; cbn [bind]; [|constructor].
    pose proof (effect_names _ _ _ _ Bc ltac:(lia) N E1) as N'.
    destruct (record_item c cd s') as [i|e] eqn:E2; cbn [bind]; [|constructor]. unfold gcons. cbn [fst]. constructor; [|auto].
    unfold record_item in E2. apply bind_ok in E2 as (d & _ & E2). destruct N' as [N1 N2].
    destruct (_ && _); [|destruct (_ && _)]; injection E2 as <-; (split; [auto|]; split; [lia|auto]). discriminate.
Qed.

Lemma clients_parse_ok lf c data : lf_ok lf -> bytes_ok data -> forall d, Forall item_ok (fst (clients_parse lf c data d)).
Proof.
  intros K B. induction d as [|[id l] d IH]; cbn [clients_parse]; [constructor|].
  pose proof (client_loop_ok lf c data K B l loop_start) as H.
  assert (N : names_ok loop_start) by (split; discriminate). specialize (H N).
  destruct (client_loop lf c data l loop_start) as [is [|e]]; cbn [fst] in *; [|auto].
  unfold gapp. cbn [fst]. apply Forall_app. auto.
Qed.

Lemma parse_items_ok lf ord r w : lf_ok lf -> files_ok w -> Forall item_ok (fst (fst (parse_ntfs_records lf ord r w))).
Proof.
  intros K F. unfold parse_ntfs_records.
  assert (F1 : files_ok (fst (if r then recover lf w else (w, Done)))) by (destruct r; [apply files_recover; auto|auto]).
  destruct (if r then recover lf w else (w, Done)) as [w1 st1]. cbn [fst] in F1.
  destruct st1; [|constructor]. destruct (collect_lsns _ _ _ _) as [[lsns c]|e]; [|constructor].
  destruct (sort_lsns _ _ _) as [d|e]; [|constructor].
  pose proof (clients_parse_ok lf c (w_data (set_config w1 c)) K (files_data _ F1) d) as P.
  destruct (clients_parse _ _ _ _) as [is' [|e]]; exact P.
Qed.

(** ** Restart areas *)
Lemma area_block_shown b lsn : 64 <= zlen b -> exists ls, area_block b lsn = Ok ls /\ area_shown b lsn ls.
Proof.
  intro L. unfold area_block. 
  repeat match goal with |- context [?f b] => progress (unfold f) end.
  unfold u32, u64. rewrite !unp_ok by lia. cbn [bind]. eexists. split; [reflexivity|]. split; [auto|reflexivity].
Qed.

(** ** Clusters *)
Lemma spread_cells l : l <> [] -> spaced_cells l (spread l).
Proof.
  induction l as [|x [|y l] IH]; intro N; [congruence|constructor|]. cbn [spread]. constructor. apply IH. discriminate.
Qed.

Lemma lcns_cases b : bytes_ok b -> 32 <= zlen b ->
  (zlen b < 32 + 8 * fld 2 b 14 /\ nr_lcns_for_page b = Err ClientException) \/
  (32 + 8 * fld 2 b 14 <= zlen b /\ exists l, nr_lcns_for_page b = Ok l /\ map Num l = cluster_cells b).
Proof.
  intros B L. unfold nr_lcns_for_page, nr_lcns. rewrite u16_ok by lia. cbn [bind]. pose proof (fld_nonneg 2 b 14 B) as Hn.
  unfold cluster_cells. set (n := Z.to_nat (fld 2 b 14)).
  assert (G : forall n i, 0 <= i ->
    (zlen b < 32 + 8 * (i + Z.of_nat n) /\ (n <> O -> lcns_loop n b i = Err ClientException)) \/
    (32 + 8 * (i + Z.of_nat n) <= zlen b /\ exists l, lcns_loop n b i = Ok l /\
       map Num l = map (fun j => Num (to_signed 64 (fld 8 b (32 + 8 * Z.of_nat j)))) (seq (Z.to_nat i) n))).
  { clear n. induction n as [|n IH]; intros i Hi.
    - destruct (Z.lt_ge_cases (zlen b) (32 + 8 * (i + Z.of_nat 0))); [left; split; [auto|congruence]|right; split; [lia|]]. exists []. auto.
    - cbn [lcns_loop]. cbn zeta. rewrite zlen_slice by lia. destruct (IH (i + 1) ltac:(lia)) as [[H1 H2]|(H1 & l & E & M)].
      + left. split; [lia|]. intros _. destruct (Z.eqb_spec (Z.max 0 (Z.min (40 + i * 8 - (32 + i * 8)) (zlen b - (32 + i * 8)))) 8) as [E|E]; [|reflexivity].
        cbn [negb]. unfold unp_s. rewrite unp_ok by (rewrite ?zlen_slice by lia; lia). cbn [bind]. destruct n as [|n].
        * exfalso. lia.
        * rewrite H2 by discriminate. reflexivity.
      + right. split; [lia|].
        replace (_ =? 8) with true by lia. cbn [negb]. unfold unp_s. rewrite unp_ok by (rewrite ?zlen_slice by lia; lia). cbn [bind].
        rewrite E. cbn [bind]. eexists. split; [reflexivity|]. cbn [seq map].
        replace (Z.to_nat (i + 1)) with (S (Z.to_nat i)) in M by lia. rewrite M. f_equal. f_equal. f_equal.
        rewrite fld_slice by lia. f_equal. lia. }
  destruct (G n 0 ltac:(lia)) as [[H1 H2]|(H1 & H2)].
  - left. split; [lia|]. apply H2. lia.
  - right. split; [lia|]. exact H2.
Qed.

Section Blocks.
  Variable data : list Z.
  Variable size : Z.
  Variable t : list (Z * frs).
  Variable p : mft.
  Hypothesis FI : fits data.
  Hypothesis HP : parser_of data size t p.

  Notation located := (located t data size).
  Notation located_any := (located_any t data size).

  (** ** Numbers of records *)
  Lemma lookup_negative n : n < 0 -> lookup_path p n None = Err ValueError.
  Proof.
    intro H. unfold lookup_path, by_number, frs_by_number. destruct HP as (_ & [S|S] & E1 & E2 & _); rewrite E2, S; unfold m_file_size.
    - pose proof (zlen_nonneg (m_data p)). replace (_ <? n * 1024) with false by lia. unfold read_at. replace (n * 1024 <? 0) with true by lia. reflexivity.
    - pose proof (zlen_nonneg (m_data p)). replace (_ <? n * 4096) with false by lia. unfold read_at. replace (n * 4096 <? 0) with true by lia. reflexivity.
  Qed.

  Lemma reached_any_iff n fr : 0 <= n -> by_number p n None true = Ok fr <-> reached_any t data size n fr.
  Proof.
    intro Hn. rewrite (by_number_true_iff _ _ _ _ _ _ _ FI HP Hn). unfold reached_any.
    split; (intros [H|H]; [left; exact H|right]).
    - destruct H as (f & s & H1 & H2 & H3 & _ & H5 & H6). exists f. auto.
    - destruct H as (f & H1 & H2 & H5 & H6). exists f, (effective_sequence f).
      split; [auto|]. split; [auto|]. split; [|auto]. apply last_sequence_iff; auto. eapply segment_at_bytes; [apply HP|exact H1].
  Qed.

  Lemma reached_any_opened n fr : reached_any t data size n fr -> opened_record fr.
  Proof. intros [H|(f & _ & _ & _ & H)]; eapply record_at_opened; eauto. Qed.

  Lemma lookup_any n o : 0 <= n -> lookup_path p n None = Ok o -> located_any n o.
  Proof.
    intros Hn H. unfold lookup_path in H.
    assert (K : forall s fr v l, reached_any t data size n fr -> paths_are t data size fr ((s, v) :: l) -> o = Some s).
    { intros s fr v l R P. pose proof (reached_any_opened _ _ R) as O. apply (reached_any_iff _ _ Hn) in R.
      apply (paths_iff data size t p FI HP _ _ O) in P. rewrite R in H. cbn [bind] in H. rewrite P in H. injection H as <-. reflexivity. }
    unfold LogReportSpec.located_any. destruct o as [s|].
    - destruct (by_number p n None true) as [fr|e] eqn:E; cbn [bind] in H.
      2:{ destruct (is_mft_exn e); discriminate. }
      apply (reached_any_iff _ _ Hn) in E. destruct (build_full_paths p fr) as [l|e] eqn:El.
      2:{ destruct (is_mft_exn e); discriminate. }
      destruct l as [|[s' v] l]; [discriminate|]. injection H as ->.
      exists fr, v, l. split; [auto|]. apply (paths_iff data size t p FI HP _ _ (reached_any_opened _ _ E)). auto.
    - intros s (fr & v & l & R & P). specialize (K s fr v l R P). discriminate.
  Qed.

  Lemma lookup_any_clean n : all_clean t data size -> 0 <= n -> exists o, lookup_path p n None = Ok o.
  Proof.
    intros CL Hn. unfold lookup_path. destruct (by_number p n None true) as [fr|e] eqn:E; cbn [bind].
    2:{ rewrite (by_number_err _ _ _ _ _ _ _ _ FI HP Hn E). eauto. }
    destruct (build_full_paths p fr) as [l|e] eqn:Eb; [eauto|].
    rewrite (paths_clean data size t p FI HP CL fr e); eauto. apply (reached_any_iff n fr Hn) in E.
    destruct E as [R|(f & _ & _ & _ & R)]; eauto.
  Qed.

  (** ** Names *)
  Lemma path_part_eq label o : path_part label o = path_line label o.
  Proof. destruct o; reflexivity. Qed.

  Lemma parent_shown v ls : parent_lines p v = Ok ls -> exists path, located (fld 8 v 0) path /\
    ls = text_line " * Parent (file reference number): " [Num (fld 8 v 0)] :: path_line " * Parent path (from $MFT): " path ++ [gap].
  Proof.
    intro H. unfold parent_lines in H. apply bind_ok in H as (ref & Er & H). apply bind_ok in H as (path & Ep & H). injection H as <-.
    unfold fna_parent, u64 in Er. apply unp_inv in Er as [_ ->]; try lia. exists path. split; [now apply (lookup_located data size t p FI HP)|].
    rewrite path_part_eq. reflexivity.
  Qed.
  Lemma parent_total v : all_clean t data size -> 8 <= zlen v -> exists ls, parent_lines p v = Ok ls.
  Proof.
    intros CL L. unfold parent_lines, fna_parent, u64. rewrite unp_ok by lia. cbn [bind]. rewrite decode_ref_all. cbn [fst snd].
    destruct (lookup_clean data size t p FI HP CL (fld 8 v 0 mod 2 ^ 48) (fld 8 v 0 / 2 ^ 48)) as [o ->]; [lia|]. cbn [bind]. eauto.
  Qed.

  Lemma fn_value_of title v times name parent : times_of (fna_mtime v) (fna_atime v) (fna_ctime v) (fna_etime v) = Ok times ->
    fna_name v = Ok name -> parent_lines p v = Ok parent ->
    fn_value t data size title v (ln title [] :: times ++ [ln " * File name: " [Txt name]] ++ parent).
  Proof.
    intros Et En Ep. apply fna_name_inv in En as [L ->]. apply fn_times in Et. apply parent_shown in Ep as (path & HL & ->).
    split; [auto|]. exists times, path. split; [auto|]. split; [auto|]. reflexivity.
  Qed.

  Lemma value_is_shown ty v ls : bytes_ok v -> value_lines p ty v = Ok ls -> value_shown t data size ty v ls.
  Proof.
    intros B H. unfold value_lines in H. unfold value_shown.
    destruct (Z.eqb_spec ty ATTR_TYPE_STANDARD_INFORMATION) as [E|E]; [left; split; [exact E|now apply si_shown]|right].
    destruct (Z.eqb_spec ty ATTR_TYPE_FILE_NAME) as [E2|E2]; [left; split; [exact E2|]|right].
    { unfold fn_lines in H. apply bind_ok in H as (times & Et & H). apply bind_ok in H as (name & En & H). apply bind_ok in H as (parent & Ep & H).
      injection H as <-. now apply fn_value_of. }
    destruct (Z.eqb_spec ty ATTR_TYPE_OBJECT_ID) as [E3|E3]; [left; split; [exact E3|now apply oid_shown]|right].
    split; [exact E|]. split; [exact E2|]. split; [exact E3|]. val.
  Qed.
  Lemma value_total ty v : all_clean t data size -> sound_value ty v -> exists ls, value_lines p ty v = Ok ls.
  Proof.
    intros CL [S1 S2]. unfold value_lines.
    destruct (Z.eqb_spec ty ATTR_TYPE_STANDARD_INFORMATION) as [E|E]; [apply si_total; auto|].
    destruct (Z.eqb_spec ty ATTR_TYPE_FILE_NAME) as [E2|E2].
    { specialize (S2 E2). unfold fn_lines. destruct (fn_times_total v) as [? ->]; [lia|]. cbn [bind]. rewrite fna_name_total by auto. cbn [bind].
      destruct (parent_total v CL) as [? ->]; [lia|]. cbn [bind]. eauto. }
    destruct (Z.eqb_spec ty ATTR_TYPE_OBJECT_ID) as [E3|E3]; [apply oid_total|eauto].
  Qed.

  (** ** A new file record *)
  Lemma init_shown l st ls : Forall item_bytes l -> init_lines p l st = Ok ls ->
    exists parts, Forall2 (attr_shown t data size) l parts /\ ls = concat parts.
  Proof.
    revert ls. induction l as [|a l IH]; intros ls B H; cbn [init_lines] in H.
    - exists []. split; [constructor|]. destruct st as [|e]; [val|]. destruct (is_mft_exn e); [val|discriminate].
    - inversion B as [|? ? Ba Bl]; subst. apply bind_ok in H as (x & Ex & H). apply bind_ok in H as (r & Er & H). injection H as <-.
      destruct (IH _ Bl Er) as (parts & F & ->). exists (x :: parts). split; [|reflexivity]. constructor; [|auto].
      unfold init_attr_lines in Ex. destruct a as [ty nm v|]; cbn [attr_shown]; [|val].
      destruct (Z.eqb_spec ty ATTR_TYPE_INDEX_ALLOCATION) as [|N]; [discriminate|]. split; [exact N|]. now apply value_is_shown.
  Qed.
  Lemma init_total l st : all_clean t data size -> (st = Done \/ exists e, st = Raised e /\ is_mft_exn e = true) ->
    Forall (fun a => match a with Resident ty _ v => ty <> 0xA0 /\ sound_value ty v | _ => True end) l -> exists ls, init_lines p l st = Ok ls.
  Proof.
    intros CL S F. induction F as [|a l Ha F [ls IH]]; cbn [init_lines].
    - destruct S as [->|(e & -> & ->)]; eauto.
    - rewrite IH. unfold init_attr_lines. destruct a as [ty nm v|]; cbn [bind]; [|eauto].
      destruct Ha as [N V]. replace (ty =? ATTR_TYPE_INDEX_ALLOCATION) with false by (symmetry; apply Z.eqb_neq; exact N).
      destruct (value_total ty v CL V) as [x ->]. cbn [bind]. eauto.
  Qed.

  Lemma exn_attr_mft e : exn_attr e -> is_mft_exn e = true.
  Proof. intros [->| ->]; reflexivity. Qed.
  Lemma exn_frs_mft e : exn_frs e -> is_mft_exn e = true.
  Proof. intros [->| ->]; reflexivity. Qed.

  Lemma attrs_are d f : bytes_ok d -> frs_open d false None = Ok f ->
    attrs_of d (ar_items (frs_attributes f)) /\ Forall item_bytes (ar_items (frs_attributes f)) /\
    (ar_status (frs_attributes f) = Done \/ exists e, ar_status (frs_attributes f) = Raised e /\ is_mft_exn e = true).
  Proof.
    intros B H. pose proof (frs_attributes_spec d false None f B H) as A. cbn zeta in A.
    pose proof (frs_open_false_spec d None B) as O. rewrite H in O. destruct O as [_ ->]. cbn [frs_data] in A.
    destruct A as (_ & _ & e & SQ & _ & ST). split; [|split].
    - exists e. split; [exact SQ|]. destruct (ar_status _); [destruct ST as [[? _]|(_ & ? & _)]; auto|destruct ST as (_ & _ & _ & ?); auto].
    - eapply attr_seq_bytes; eauto.
    - destruct (ar_status _) as [|x]; [auto|right]. exists x. split; [auto|]. apply exn_attr_mft. tauto.
  Qed.

  Lemma filled_bytes b redo : bytes_ok redo -> bytes_ok (filled b redo).
  Proof. intro B. unfold filled. apply bytes_ok_app. split; [auto|]. apply bytes_ok_zeros. Qed.

  Lemma new_record_shown b redo ls : 32 <= zlen b -> bytes_ok redo ->
    (if fld 2 b 0 =? InitializeFileRecordSegment then lr_new_record p b redo else Ok []) = Ok ls -> new_record t data size b redo ls.
  Proof.
    intros L B H. unfold new_record. change InitializeFileRecordSegment with 2 in H. destruct (Z.eqb_spec (fld 2 b 0) 2) as [E|E].
    2:{ left. split; [auto|val]. }
    unfold lr_new_record in H. rewrite frs_size_eq in H by auto. cbn [bind] in H. fold (filled b redo) in H.
    pose proof (filled_bytes b redo B) as Bf. pose proof (frs_open_false_spec (filled b redo) None Bf) as O.
    destruct (frs_open (filled b redo) false None) as [f|e] eqn:EO.
    2:{ destruct O as [X O]. left. split; [auto|]. rewrite (exn_frs_mft e X) in H. val. }
    right. split; [auto|]. split; [tauto|]. destruct (attrs_are _ _ Bf EO) as (A & IB & _). cbn zeta in H.
    destruct (init_shown _ _ _ IB H) as (parts & F & ->). eauto.
  Qed.
  Lemma new_record_total b redo : all_clean t data size -> 32 <= zlen b -> bytes_ok redo ->
    (fld 2 b 0 = 2 -> header_ok (filled b redo) -> forall items, attrs_of (filled b redo) items ->
         Forall (fun a => match a with Resident ty _ v => ty <> 0xA0 /\ sound_value ty v | _ => True end) items) ->
    exists ls, (if fld 2 b 0 =? InitializeFileRecordSegment then lr_new_record p b redo else Ok []) = Ok ls.
  Proof.
    intros CL L B S. change InitializeFileRecordSegment with 2. destruct (Z.eqb_spec (fld 2 b 0) 2) as [E|E]; [|eauto].
    unfold lr_new_record. rewrite frs_size_eq by auto. cbn [bind]. fold (filled b redo).
    pose proof (filled_bytes b redo B) as Bf. pose proof (frs_open_false_spec (filled b redo) None Bf) as O.
    destruct (frs_open (filled b redo) false None) as [f|e] eqn:EO.
    2:{ destruct O as [X O]. rewrite (exn_frs_mft e X). eauto. }
    destruct (attrs_are _ _ Bf EO) as (A & _ & ST). cbn zeta. apply init_total; auto. apply S; tauto.
  Qed.

  (** ** A new attribute *)
  Definition attr_body (buf : list Z) : result (list line) :=
    let! ty := u32 buf 0 in let! n := u32 buf 16 in let! off := u16 buf 20 in
    if (0 <? off) && (off mod 8 =? 0) && (0 <? n) then
      let v := slice buf off (off + n) in if zlen v =? n then value_lines p ty v else Ok []
    else Ok [].
  Lemma has_value_cases buf : bytes_ok buf ->
    (exists v, has_value buf v /\ bytes_ok v /\
      attr_body buf = value_lines p (fld 4 buf 0) v /\ 24 <= zlen buf) \/
    ((forall v, ~ has_value buf v) /\
      (24 <= zlen buf -> attr_body buf = Ok [])).
  Proof.
    intro B. destruct (Z.lt_ge_cases (zlen buf) 24) as [L|L].
    { right. split; [|lia]. intros v (H & _). lia. }
    unfold attr_body, u32, u16. rewrite !unp_ok by lia. cbn [bind]. cbn zeta. unfold has_value.
    pose proof (fld_nonneg 2 buf 20 B). set (off := fld 2 buf 20) in *. set (n := fld 4 buf 16) in *.
    destruct ((0 <? off) && (off mod 8 =? 0) && (0 <? n)) eqn:E.
    2:{ right. split; [|auto]. intros v (_ & H1 & H2 & H3 & _). lia. }
    rewrite zlen_slice by lia. destruct (Z.eqb_spec (Z.max 0 (Z.min (off + n - off) (zlen buf - off))) n) as [E2|E2].
    - left. exists (slice buf off (off + n)). split; [|split; [now apply bytes_ok_slice|auto]]. repeat split; auto; lia.
    - right. split; [|auto]. intros v (_ & H1 & H2 & H3 & H4 & _). lia.
  Qed.

  Definition chosen (b redo undo : list Z) : list Z :=
    if fld 2 b 0 =? 5 then redo else if fld 2 b 2 =? 5 then undo else if zlen undo <? zlen redo then redo else undo.
  Lemma chosen_bytes b redo undo : bytes_ok redo -> bytes_ok undo -> bytes_ok (chosen b redo undo).
  Proof. intros. unfold chosen. destruct (_ =? _); [auto|]. destruct (_ =? _); [auto|]. destruct (_ <? _); auto. Qed.
  Lemma created_cases b redo undo :
    ((fld 2 b 0 =? 5) || (fld 2 b 2 =? 5) || (fld 2 b 0 =? 4) || (fld 2 b 2 =? 4) = true /\
      forall buf, created b redo undo buf <-> buf = chosen b redo undo) \/
    ((fld 2 b 0 =? 5) || (fld 2 b 2 =? 5) || (fld 2 b 0 =? 4) || (fld 2 b 2 =? 4) = false /\ forall buf, ~ created b redo undo buf).
  Proof.
    unfold created, chosen. cbn zeta. set (r := fld 2 b 0). set (u := fld 2 b 2).
    destruct ((r =? 5) || (u =? 5) || (r =? 4) || (u =? 4)) eqn:E; [left|right; split; [auto|]; intro buf; lia].
    split; [auto|]. intro buf. destruct (Z.eqb_spec r 5) as [R|R]; [|destruct (Z.eqb_spec u 5) as [U|U]; [|destruct (Z.ltb_spec (zlen undo) (zlen redo))]].
    - split; [intros [[_ K]|[[K _]|[K _]]]; tauto|intros ->; tauto].
    - split; [intros [[K _]|[(_ & _ & K)|(_ & K & _)]]; tauto|intros ->; tauto].
    - split; [intros [[K _]|[(_ & K & _)|(_ & _ & _ & [[_ K]|[K _]])]]; [tauto|tauto|auto|lia]|intros ->; right; right; intuition lia].
    - split; [intros [[K _]|[(_ & K & _)|(_ & _ & _ & [[K _]|[_ K]])]]; [tauto|tauto|lia|auto]|intros ->; right; right; intuition lia].
  Qed.

  Lemma lr_attribute_eq b redo undo : lr_attribute p (fld 2 b 0) (fld 2 b 2) redo undo =
    if (fld 2 b 0 =? 5) || (fld 2 b 2 =? 5) || (fld 2 b 0 =? 4) || (fld 2 b 2 =? 4)
    then if 24 <=? zlen (chosen b redo undo) then attr_body (chosen b redo undo) else Ok [] else Ok [].
  Proof. reflexivity. Qed.

  Lemma attribute_shown b redo undo ls : bytes_ok redo -> bytes_ok undo ->
    lr_attribute p (fld 2 b 0) (fld 2 b 2) redo undo = Ok ls -> new_attribute t data size b redo undo ls.
  Proof.
    intros Br Bu H. rewrite lr_attribute_eq in H. unfold new_attribute. destruct (created_cases b redo undo) as [[E C]|[E C]]; rewrite E in H.
    2:{ right. split; [|val]. intros buf v K. destruct (C _ K). }
    assert (B : bytes_ok (chosen b redo undo)) by now apply chosen_bytes.
    destruct (has_value_cases _ B) as [(v & V & Bv & EQ & L)|[N EQ]].
    - left. exists (chosen b redo undo), v. split; [now apply C|]. split; [exact V|].
      replace (24 <=? zlen (chosen b redo undo)) with true in H by lia. rewrite EQ in H. now apply value_is_shown.
    - right. split.
      + intros buf v K. apply C in K. subst buf. apply N.
      + destruct (Z.leb_spec 24 (zlen (chosen b redo undo))); [|val]. rewrite EQ in H by auto. val.
  Qed.
  Lemma attribute_total b redo undo : all_clean t data size -> bytes_ok redo -> bytes_ok undo ->
    (forall buf v, created b redo undo buf -> has_value buf v -> sound_value (fld 4 buf 0) v) ->
    exists ls, lr_attribute p (fld 2 b 0) (fld 2 b 2) redo undo = Ok ls.
  Proof.
    intros CL Br Bu S. rewrite lr_attribute_eq. destruct (created_cases b redo undo) as [[E C]|[E C]]; rewrite E; [|eauto].
    assert (B : bytes_ok (chosen b redo undo)) by now apply chosen_bytes.
    destruct (Z.leb_spec 24 (zlen (chosen b redo undo))); [|eauto].
    destruct (has_value_cases _ B) as [(v & V & Bv & EQ & L)|[N EQ]].
    - rewrite EQ. apply value_total; auto. apply S; [now apply C|auto].
    - rewrite EQ by auto. eauto.
  Qed.

  (** ** Index entries *)
  Lemma zin_ops n : zin n [AddIndexEntryRoot; AddIndexEntryAllocation; WriteEndOfIndexBuffer] = true <-> indexes n.
  Proof. rewrite zin_In. unfold indexes. cbn. change AddIndexEntryRoot with 12. change AddIndexEntryAllocation with 14. change WriteEndOfIndexBuffer with 16. intuition. Qed.

  Definition entry_of (b redo undo : list Z) : list Z :=
    if zin (fld 2 b 0) [AddIndexEntryRoot; AddIndexEntryAllocation; WriteEndOfIndexBuffer] then redo else undo.
  Lemma entry_cases b redo undo :
    (zin (fld 2 b 0) [AddIndexEntryRoot; AddIndexEntryAllocation; WriteEndOfIndexBuffer] ||
     zin (fld 2 b 2) [AddIndexEntryRoot; AddIndexEntryAllocation; WriteEndOfIndexBuffer] = true /\
      forall e, entry_in b redo undo e <-> e = entry_of b redo undo) \/
    (zin (fld 2 b 0) [AddIndexEntryRoot; AddIndexEntryAllocation; WriteEndOfIndexBuffer] ||
     zin (fld 2 b 2) [AddIndexEntryRoot; AddIndexEntryAllocation; WriteEndOfIndexBuffer] = false /\ forall e, ~ entry_in b redo undo e).
  Proof.
    unfold entry_in, entry_of. pose proof (zin_ops (fld 2 b 0)) as Z1. pose proof (zin_ops (fld 2 b 2)) as Z2.
    destruct (zin (fld 2 b 0) _); destruct (zin (fld 2 b 2) _); cbn [orb]; [left|left|left|right]; (split; [reflexivity|]); intro e; intuition congruence.
  Qed.

  Lemma index_shown b redo undo ls : bytes_ok redo -> bytes_ok undo ->
    lr_index p (fld 2 b 0) (fld 2 b 2) redo undo = Ok ls -> index_entry t data size b redo undo ls.
  Proof.
    intros Br Bu H. unfold lr_index in H. cbn zeta in H. fold (entry_of b redo undo) in H. unfold index_entry.
    destruct (entry_cases b redo undo) as [[E C]|[E C]]; rewrite E in H.
    2:{ right. split; [|val]. intros e K. destruct (C _ K). }
    assert (B : bytes_ok (entry_of b redo undo)) by (unfold entry_of; destruct (zin _ _); auto).
    set (e := entry_of b redo undo) in *. apply bind_ok in H as (o & Eo & H). unfold ie_attribute in Eo.
    apply bind_ok in Eo as (n & En & Eo). apply bind_ok in Eo as (f & Ef & Eo).
    unfold ie_attribute_length, ie_flags, u16 in En, Ef. apply unp_inv in En as [_ ->]; try lia. apply unp_inv in Ef as [L ->]; try lia.
    change INDEX_ENTRY_END with (2 ^ 1) in Eo. rewrite land_pow2 in Eo by lia. change (2 ^ 1) with 2 in Eo.
    assert (NO : ls = [] -> (forall v, ~ entry_key e v) ->
      (exists e0 v, entry_in b redo undo e0 /\ entry_key e0 v /\ fn_value t data size "$FILE_NAME in index:" v ls) \/
      ((forall e0, entry_in b redo undo e0 -> 14 <= zlen e0 /\ (forall v, ~ entry_key e0 v)) /\ ls = [])).
    { intros -> K. right. split; [|auto]. intros e0 K0. apply C in K0. fold e in K0. subst e0. split; [lia|exact K]. }
    unfold entry_key in NO. pose proof (fld_nonneg 2 e 10 B).
    destruct (Z.testbit (fld 2 e 12) 1) eqn:ET; cbn [Z.eqb andb] in Eo.
    { injection Eo as <-. cbn beta iota in H. apply NO; [val|]. intros v (K & _). congruence. }
    destruct (Z.ltb_spec 0 (fld 2 e 10)).
    2:{ injection Eo as <-. cbn beta iota in H. apply NO; [val|]. intros v (_ & -> & K). rewrite zlen_slice in K by lia. lia. }
    assert (EV : o = Some (slice e 16 (16 + fld 2 e 10))) by congruence. subst o. clear Eo. set (v := slice e 16 (16 + fld 2 e 10)) in *. destruct (Z.ltb_spec 66 (zlen v)).
    2:{ apply NO; [val|]. intros w (_ & -> & K). fold v in K. lia. }
    apply bind_ok in H as (times & Et & H). apply bind_ok in H as (name & En & H). apply bind_ok in H as (parent & Ep & H). injection H as <-.
    left. exists e, v. split; [now apply C|]. split; [split; [auto|]; split; [reflexivity|lia]|]. now apply fn_value_of.
  Qed.
  Lemma index_total_log b redo undo : all_clean t data size -> (forall e, entry_in b redo undo e -> 14 <= zlen e) ->
    exists ls, lr_index p (fld 2 b 0) (fld 2 b 2) redo undo = Ok ls.
  Proof.
    intros CL S. unfold lr_index. cbn zeta. fold (entry_of b redo undo). destruct (entry_cases b redo undo) as [[E C]|[E C]]; rewrite E; [|eauto].
    specialize (S (entry_of b redo undo) ltac:(now apply C)). set (e := entry_of b redo undo) in *.
    unfold ie_attribute, ie_attribute_length, ie_flags, u16. rewrite !unp_ok by lia. cbn [bind].
    destruct (_ && _); cbn [bind]; [|eauto]. set (v := slice e 16 (16 + fld 2 e 10)). destruct (Z.ltb_spec 66 (zlen v)); [|eauto].
    destruct (fn_times_total v) as [? ->]; [lia|]. cbn [bind]. rewrite fna_name_total by lia. cbn [bind].
    destruct (parent_total v CL) as [? ->]; [lia|]. cbn [bind]. eauto.
  Qed.

  (** ** Targets *)
  Lemma frs_size_pos b : bytes_ok b -> 0 < frs_size b.
  Proof. intro B. unfold frs_size. pose proof (fld_nonneg 2 b 22 B). destruct (Z.eqb_spec (fld 2 b 22) 0); lia. Qed.

  Lemma number_is_div cluster b : bytes_ok b -> number_is cluster b (target_byte cluster b / frs_size b).
  Proof.
    intro B. unfold number_is. pose proof (frs_size_pos b B). set (x := target_byte cluster b). set (s := frs_size b) in *.
    pose proof (Z.div_mod x s ltac:(lia)). pose proof (Z.mod_pos_bound x s ltac:(lia)). nia.
  Qed.

  Lemma target_is_shown b cluster tb od ad number ls name : bytes_ok b -> 32 <= zlen b -> (forall names, ad = Some names -> bytes_ok names) ->
    mft_target_number cluster b = Ok number -> target_lines p b number tb od ad = Ok (ls, name) ->
    target_shown t data size cluster b tb od ad ls name /\
    (resident b -> exists n, number = Some n /\ number_is cluster b n).
  Proof.
    intros B L BA HN H. destruct (target_number_eq cluster b B L) as (y & Hy & E). rewrite E in HN. clear E.
    unfold target_lines in H. unfold target_shown. destruct y.
    - assert (R : resident b) by now apply Hy. injection HN as <-. set (n := target_byte cluster b / frs_size b) in *.
      pose proof (number_is_div cluster b B) as NI. fold n in NI. split; [|eauto].
      apply bind_ok in H as (path & Ep & H). injection H as <- <-. left. split; [auto|]. split; [auto|].
      destruct (Z.lt_ge_cases n 0) as [N|N]; [rewrite lookup_negative in Ep by auto; discriminate|].
      exists n, path. split; [auto|]. split; [auto|]. split; [now apply lookup_any|]. rewrite path_part_eq. reflexivity.
    - assert (R : ~ resident b) by (intro K; apply Hy in K; discriminate). injection HN as <-. split; [|tauto]. right.
      destruct (target_spec b tb od ad B L BA) as (res & E & T). rewrite E in H. cbn [bind] in H. destruct res as [[ref nm]|].
      + left. split; [auto|]. apply bind_ok in H as (path & Ep & H). injection H as <- <-. exists ref, nm, path. split; [auto|].
        split; [now apply (lookup_located data size t p FI HP)|]. split; [auto|]. rewrite path_part_eq. reflexivity.
      + right. split; [auto|]. split; [auto|]. unfold nr_target in H. rewrite u16_ok in H by lia. cbn [bind] in H. injection H as <- <-. auto.
  Qed.
  Lemma target_total b cluster tb od ad number : all_clean t data size -> bytes_ok b -> 32 <= zlen b -> (forall names, ad = Some names -> bytes_ok names) ->
    mft_target_number cluster b = Ok number -> (resident b -> 0 <= target_byte cluster b) ->
    exists ls name, target_lines p b number tb od ad = Ok (ls, name) /\
      (name = Some (txt "$J") -> ~ resident b /\ exists ref, target b tb od ad (Some (ref, Some (txt "$J")))).
  Proof.
    intros CL B L BA HN S. destruct (target_number_eq cluster b B L) as (y & Hy & E). rewrite E in HN. clear E.
    unfold target_lines. destruct y; injection HN as <-.
    - assert (R : resident b) by now apply Hy. pose proof (frs_size_pos b B). 
      destruct (lookup_any_clean (target_byte cluster b / frs_size b) CL) as [o ->]; [apply Z.div_pos; auto|]. cbn [bind].
      do 2 eexists. split; [reflexivity|]. discriminate.
    - assert (R : ~ resident b) by (intro K; apply Hy in K; discriminate).
      destruct (target_spec b tb od ad B L BA) as (res & E & T). rewrite E. cbn [bind]. destruct res as [[ref nm]|].
      + rewrite decode_ref_all. cbn [fst snd]. destruct (lookup_clean data size t p FI HP CL (ref mod 2 ^ 48) (ref / 2 ^ 48)) as [o ->]; [lia|]. cbn [bind].
        do 2 eexists. split; [reflexivity|]. intro K. split; [auto|]. exists ref. destruct nm as [s|]; [congruence|]. discriminate.
      + unfold nr_target. rewrite u16_ok by lia. cbn [bind]. do 2 eexists. split; [reflexivity|]. discriminate.
  Qed.

  Lemma offset_is_shown cluster b o : 32 <= zlen b -> offset_in_target cluster b = Ok o ->
    offset_shown cluster b (match o with Some o => ln "Offset in target: " [Num o] | None => ln "Unknown offset in target" [] end).
  Proof.
    intros L H. destruct (offset_in_target_eq cluster b L) as (y & z & Hy & Hz & E). rewrite E in H. injection H as <-. unfold offset_shown. cbn zeta.
    destruct y; [left; split; [tauto|]|right].
    { replace (fld 2 b 18 + fld 2 b 16) with (fld 2 b 16 + fld 2 b 18) by lia. reflexivity. }
    assert (R : ~ resident b) by (intro K; apply Hy in K; discriminate). destruct z; [left|right].
    - split; [auto|]. split; [tauto|]. replace (target_byte cluster b + fld 2 b 18 + fld 2 b 16) with (target_byte cluster b + (fld 2 b 16 + fld 2 b 18)) by lia. reflexivity.
    - split; [auto|]. split; [intro K; apply Hz in K; discriminate|]. reflexivity.
  Qed.

  (** ** Records *)
  Lemma dump_total buf : bytes_ok buf -> exists s, hexdump buf = Ok s /\ dump_is buf s.
  Proof.
    intro B. destruct buf as [|x buf]; [exists [45]; split; [reflexivity|left; auto]|].
    destruct (hexdump_shown (x :: buf) B ltac:(discriminate)) as (s & E & D). exists s. split; [auto|]. right. split; [discriminate|auto].
  Qed.

  Lemma dealloc_resident b : fld 2 b 0 = 3 -> resident b.
  Proof. intro E. left. rewrite E. apply zin_In. reflexivity. Qed.

  Lemma record_block_shown b lsn tid cluster tb od ad ls del : bytes_ok b -> 32 <= zlen b -> (forall names, ad = Some names -> bytes_ok names) ->
    log_record_block p b lsn tid cluster tb od ad = Ok (ls, del) -> record_shown t data size b lsn tid cluster tb od ad ls del.
  Proof.
    intros B L BA H. unfold log_record_block, nr_redo_op, nr_undo_op in H. rewrite !u16_ok in H by lia. cbn [bind] in H.
    apply bind_ok in H as (redo & Er & H). apply bind_ok in H as (undo & Eu & H). apply bind_ok in H as (number & En & H).
    apply bind_ok in H as ((tl & name) & Et & H). apply bind_ok in H as (offset & Eo & H). cbn zeta in H.
    pose proof (redo_data_spec b B L) as R. rewrite Er in R. pose proof (undo_data_spec b B L) as U. rewrite Eu in U.
    pose proof (part_bytes _ _ _ _ B R) as Br. pose proof (part_bytes _ _ _ _ B U) as Bu.
    destruct (target_is_shown _ _ _ _ _ _ _ _ B L BA En Et) as [T NR].
    pose proof (offset_is_shown _ _ _ L Eo) as O.
    assert (OP : forall o, operation_shown (fld 2 b o) (resolve_operation (fld 2 b o))) by (intro; apply operation_text; now apply fld_nonneg).
    exists redo, undo, (resolve_operation (fld 2 b 0)), (resolve_operation (fld 2 b 2)), tl, name. eexists. 
    destruct (lcns_cases b B L) as [[LS E]|(LS & lc & E & EM)]; rewrite E in H.
    - eexists. split; [exact R|]. split; [exact U|]. split; [apply OP|]. split; [apply OP|]. split; [exact T|]. split; [exact O|].
      injection H as <- <-. split; [|left; split; [auto|]; split; reflexivity]. cbn [app]. rewrite <- app_assoc. reflexivity.
    - apply bind_ok in H as (d1 & E1 & H). apply bind_ok in H as (d2 & E2 & H).
      apply bind_ok in H as (x1 & X1 & H). apply bind_ok in H as (x2 & X2 & H). apply bind_ok in H as (x3 & X3 & H).
      apply bind_ok in H as (x4 & X4 & H). apply bind_ok in H as (x5 & X5 & H). apply bind_ok in H as (x6 & X6 & H).
      destruct (dump_total redo Br) as (d1' & E1' & D1). rewrite E1 in E1'. injection E1' as <-.
      destruct (dump_total undo Bu) as (d2' & E2' & D2). rewrite E2 in E2'. injection E2' as <-.
      eexists. split; [exact R|]. split; [exact U|]. split; [apply OP|]. split; [apply OP|]. split; [exact T|]. split; [exact O|].
      injection H as <- <-. split.
      { rewrite <- !app_assoc. reflexivity. }
      right. split; [auto|]. split.
      { change DeallocateFileRecordSegment with 3. destruct (Z.eqb_spec (fld 2 b 0) 3) as [E3|E3]; [left|right; auto].
        split; [auto|]. destruct (NR (dealloc_resident b E3)) as (n & -> & NI). exists n. auto. }
      exists (match lc with [] => [] | _ => [ln "LCN(s): " (spread (map Num lc))] end), d1, d2, x1, x2, x3, x4, x5, x6.
      split.
      { pose proof (fld_nonneg 2 b 14 B). assert (LL : length lc = Z.to_nat (fld 2 b 14)).
        { apply (f_equal (@length _)) in EM. rewrite map_length in EM. rewrite EM. unfold cluster_cells. rewrite map_length, seq_length. reflexivity. }
        unfold clusters_shown. destruct lc as [|c lc]; [left; split; [cbn in LL; lia|reflexivity]|right; split; [cbn in LL; lia|]].
        exists (spread (map Num (c :: lc))). split; [|reflexivity]. rewrite <- EM. apply spread_cells. discriminate. }
      split; [auto|]. split; [auto|]. split; [now apply new_record_shown|]. split; [now apply attribute_shown|].
      split; [eapply lr_resident_shown; eauto|]. split; [now apply index_shown|]. split; [eapply lr_dup_shown; eauto|].
      split; [eapply lr_usn_shown; eauto|]. reflexivity.
  Qed.

  Lemma record_block_total b lsn tid cluster tb od ad : all_clean t data size -> bytes_ok b -> 32 <= zlen b ->
    (forall names, ad = Some names -> bytes_ok names) -> sound_log_record b cluster tb od ad ->
    exists r, log_record_block p b lsn tid cluster tb od ad = Ok r.
  Proof.
    intros CL B L BA (ST & redo & undo & R & U & S). unfold log_record_block, nr_redo_op, nr_undo_op. rewrite !u16_ok by lia. cbn [bind].
    pose proof (redo_data_spec b B L) as R'. destruct (nr_redo_data b) as [x|]; [|destruct R' as [_ R']; destruct (part_bad _ _ _ _ R R')].
    rewrite (part_fun _ _ _ _ _ R' R) in *. clear R' x. cbn [bind].
    pose proof (undo_data_spec b B L) as U'. destruct (nr_undo_data b) as [x|]; [|destruct U' as [_ U']; destruct (part_bad _ _ _ _ U U')].
    rewrite (part_fun _ _ _ _ _ U' U) in *. clear U' x. cbn [bind].
    pose proof (part_bytes _ _ _ _ B R) as Br. pose proof (part_bytes _ _ _ _ B U) as Bu.
    destruct (mft_target_number cluster b) as [number|e] eqn:En; [|destruct (target_number_eq cluster b B L) as (y & _ & E); congruence]. cbn [bind].
    destruct (target_total b cluster tb od ad number CL B L BA En ST) as (tl & name & -> & NJ). cbn [bind].
    destruct (offset_in_target cluster b) as [offset|e] eqn:Eo; [|destruct (offset_in_target_eq cluster b L) as (y & z & _ & _ & E); congruence]. cbn [bind].
    destruct (lcns_cases b B L) as [[LS E]|(LS & lc & E & EM)]; rewrite E; [eauto|]. cbn [bind].
    destruct (S LS) as (S1 & S2 & S3 & S4).
    destruct (dump_total redo Br) as (d1 & -> & _). cbn [bind]. destruct (dump_total undo Bu) as (d2 & -> & _). cbn [bind].
    destruct (new_record_total b redo CL L Br S1) as [x1 ->]. cbn [bind].
    destruct (attribute_total b redo undo CL Br Bu S2) as [x2 ->]. cbn [bind].
    destruct (lr_resident_total b (fld 2 b 0) (fld 2 b 2) offset redo undo L) as [x3 ->]. cbn [bind].
    destruct (index_total_log b redo undo CL S3) as [x4 ->]. cbn [bind].
    destruct (lr_dup_total (fld 2 b 0) (fld 2 b 2) redo undo) as [x5 ->]. cbn [bind].
    destruct (lr_usn_total name (fld 2 b 0) (fld 2 b 2) redo undo b Br Bu eq_refl eq_refl) as [x6 ->].
    { intros K. destruct (NJ K) as (NR & ref & T). exact (S4 NR ref T). }
    cbn [bind]. eauto.
  Qed.

  Lemma item_block_shown i ls del : item_ok i -> item_block p i = Ok (ls, del) -> item_shown_as t data size i ls del.
  Proof.
    destruct i as [b lsn|b lsn tid cluster tb od ad]; cbn [item_ok item_block item_shown_as].
    - intros [B L] H. destruct (area_block_shown b lsn L) as (l & E & S). rewrite E in H. cbn [bind] in H. injection H as <- <-. auto.
    - intros (B & L & BA) H. now apply record_block_shown.
  Qed.
  Lemma item_block_total i : all_clean t data size -> item_ok i -> sound_item i -> exists r, item_block p i = Ok r.
  Proof.
    destruct i as [b lsn|b lsn tid cluster tb od ad]; cbn [item_ok item_block sound_item].
    - intros _ [B L] _. destruct (area_block_shown b lsn L) as (l & -> & _). cbn [bind]. eauto.
    - intros CL (B & L & BA) S. now apply record_block_total.
  Qed.
End Blocks.
