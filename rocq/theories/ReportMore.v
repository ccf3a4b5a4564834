(** Proofs about the reports on the change journal and the index buffers, and
    about hexadecimal dumps. *)
From Coq Require Import String Sorted.
From Verif Require Import Base BaseLemmas FieldLemmas Usa UsaProofs MappingPairs MappingPairsProofs Frs FrsSpec FrsProofs FileRecord FileRecordSpec FileRecordProofs
  Mft MftSpec MftProofs MftPathProofs Filetime Usn UsnSpec UsnProofs Properties_Usn Wsl Attributes AttributesSpec AttributesProofs IndexProofs
  FileObject FragmentedFile FragmentedFileProofs FieldsProofs Carve CarveSpec CarveProofs
  Properties_Carve Report ReportSpec ReportProofs ReportTable ReportSound ReportMoreSpec.
Local Open Scope Z_scope.
Local Set Warnings "-abstract-large-number".

(** ** Change journal *)

Lemma wide_value v off : bytes_ok v -> 0 <= off -> off + 16 <= zlen v -> wide_ref v off = Ok (fld 16 v off).
Proof.
  intros B Ho L. unfold wide_ref, u64. rewrite !unp_ok by lia. cbn [bind]. f_equal.
  pose proof (fld_bound 8 v off ltac:(lia) ltac:(lia) B). rewrite lor_shiftl_add by lia. unfold fld.
  rewrite (slice_split v off (off + 8) (off + 16)) by lia. rewrite le_val_app, zlen_slice by lia.
  replace (Z.max 0 (Z.min (off + 8 - off) (zlen v - off))) with 8 by lia. replace (off + 8 + 8) with (off + 16) by lia. lia.
Qed.

Section Journal.
  Variable data : list Z.
  Variable size : Z.
  Variable t : list (Z * frs).
  Variable p : mft.
  Hypothesis FI : fits data.
  Hypothesis HP : parser_of data size t p.

  Lemma usn_row_shown k v w : bytes_ok v -> usn_at v 0 (zlen v) k -> usn_row_of p (mk_ur k v) = Ok w -> usn_shown t data size v k w.
  Proof.
    intros B A H. destruct A as (_ & _ & Hk & Hn & _ & _ & _).
    assert (M : 62 <= usn_min k /\ (k = 3 -> usn_min k = 78) /\ (k = 4 -> usn_min k = 80)).
    { unfold usn_min. assert (k = 2 \/ k = 3 \/ k = 4) as [->|[->| ->]] by lia; cbn; lia. }
    assert (F : forall w off, 0 <= off -> 0 <= w -> off + w <= zlen v -> unp w v off = Ok (fld w v off)) by (intros; now apply unp_ok).
    assert (NN : forall w off, 0 <= fld w v off) by (intros; now apply fld_nonneg).
    assert (FN : forall off, 0 <= off -> off + 4 <= zlen v ->
      (let! o := unp 2 v (off + 2) in let! n := unp 2 v off in
       if negb (zlen (slice v o (o + n)) =? n) then Err ValueError else Ok (utf16le (slice v o (o + n)))) =
      if (fld 2 v off =? 0) || (fld 2 v (off + 2) + fld 2 v off <=? zlen v)
      then Ok (utf16le (slice v (fld 2 v (off + 2)) (fld 2 v (off + 2) + fld 2 v off))) else Err ValueError).
    { intros off Ho L. rewrite !F by lia. cbn [bind]. cbn zeta. pose proof (NN 2 off). pose proof (NN 2 (off + 2)).
      rewrite zlen_slice by lia. set (a := fld 2 v off) in *. set (b := fld 2 v (off + 2)) in *.
      destruct (Z.eqb_spec a 0) as [->|]; cbn [orb].
      - replace (Z.max _ _ =? 0) with true by lia. reflexivity.
      - destruct (Z.leb_spec (b + a) (zlen v)).
        + replace (Z.max _ _ =? a) with true by lia. reflexivity.
        + replace (Z.max _ _ =? a) with false by lia. reflexivity. }
    unfold usn_row_of, usn_path, ur_file_reference, ur_parent_reference, ur_usn, ur_reason, ur_source,
      ur_timestamp, ur_file_name, ur_name_offset, ur_name_length, ur_inc, u64, u32, u16 in H. cbn [ur_raw ur_version] in H.
    assert (CV : forall w off, items_value reason_list (resolve_reason_codes (fld w v off)) = Some (fld w v off) /\
      items_value source_list (resolve_source_codes (fld w v off)) = Some (fld w v off)).
    { intros. apply C26_no_bit_lost. now apply fld_nonneg. }
    assert (k = 2 \/ k = 3 \/ k = 4) as [->|[->| ->]] by lia; cbn [Z.eqb Pos.eqb] in H;
      rewrite ?wide_value, ?(F 8), ?(F 4) in H by (auto; lia); cbn [bind] in H.
    - apply bind_ok in H as ((time & name) & E & H). apply bind_ok in H as (path & Ep & H). injection H as <-.
      apply bind_ok in Ep as (dir & Ed & Ep). injection Ep as <-. apply (lookup_located data size t p FI HP) in Ed.
      destruct (decode_quiet ordinal_1601 (fld 8 v (32 + 0))) as [o Eo]. change (decode_filetime) with (decode_time ordinal_1601) in E.
      rewrite Eo in E. cbn [bind] in E. change (58 + 0) with (56 + 2) in E. change (56 + 0) with 56 in E.
      rewrite (FN 56) in E by lia. destruct ((_ =? 0) || _) eqn:Q; [|discriminate]. cbn [bind] in E. injection E as <- <-.
      apply orb_true_iff in Q. apply (us t data size v 2); cbn [Z.eqb Pos.eqb]; [apply CV|apply CV|lia| |exact Ed].
      intros _. split; [now apply time_cell|]. split; [|reflexivity]. unfold name_fits. change (8 + 2 * 8 + 32) with 56. lia.
    - apply bind_ok in H as ((time & name) & E & H). apply bind_ok in H as (path & Ep & H). injection H as <-.
      apply bind_ok in Ep as (dir & Ed & Ep). injection Ep as <-. apply (lookup_located data size t p FI HP) in Ed.
      destruct (decode_quiet ordinal_1601 (fld 8 v (32 + 16))) as [o Eo]. change (decode_filetime) with (decode_time ordinal_1601) in E.
      rewrite Eo in E. cbn [bind] in E. change (58 + 16) with (72 + 2) in E. change (56 + 16) with 72 in E.
      rewrite (FN 72) in E by lia. destruct ((_ =? 0) || _) eqn:Q; [|discriminate]. cbn [bind] in E. injection E as <- <-.
      apply orb_true_iff in Q. apply (us t data size v 3); cbn [Z.eqb Pos.eqb]; [apply CV|apply CV|lia| |exact Ed].
      intros _. split; [now apply time_cell|]. split; [|reflexivity]. unfold name_fits. change (8 + 2 * 16 + 32) with 72. lia.
    - apply bind_ok in H as (path & Ep & H). injection H as <-.
      apply bind_ok in Ep as (dir & Ed & Ep). injection Ep as <-. apply (lookup_located data size t p FI HP) in Ed.
      apply (us t data size v 4); cbn [Z.eqb Pos.eqb]; [apply CV|apply CV|auto|lia|exact Ed].
  Qed.

  Lemma usn_row_total k v : all_clean t data size -> bytes_ok v -> usn_at v 0 (zlen v) k -> usn_sound v k -> exists w, usn_row_of p (mk_ur k v) = Ok w.
  Proof.
    intros CL B A S. destruct (C25_getters (mk_ur k v) B A) as (_ & _ & (a & b & c & d & e & f & _ & Eb & Ec & Ed & Ee & Ef) & T & _).
    cbn [ur_raw ur_version] in T. unfold usn_row_of. rewrite Ed, Ef, Ee, Eb, Ec. cbn [bind ur_version].
    assert (P : exists x, usn_path p b = Ok x).
    { unfold usn_path. rewrite decode_ref_all. cbn [fst snd]. destruct (lookup_clean data size t p FI HP CL (b mod 2 ^ 48) (b / 2 ^ 48)) as [o ->]; [lia|].
      cbn [bind]. eauto. }
    destruct P as [x Ex]. destruct A as (_ & _ & Hk & _).
    destruct (Z.eqb_spec k 4) as [->|N]; cbn [bind]; [rewrite Ex; cbn [bind]; eauto|].
    destruct (T ltac:(lia)) as ((tm & _ & _ & Et & _) & off & len & Eo & El & En). rewrite Et, En. cbn [bind].
    specialize (S N). unfold name_fits in S. unfold ur_name_offset, ur_name_length, ur_inc, u16 in Eo, El. cbn [ur_raw ur_version] in Eo, El.
    assert (k = 2 \/ k = 3) as [->| ->] by lia; cbn [Z.eqb Pos.eqb] in *; apply unp_inv in Eo as [_ ->]; try lia; apply unp_inv in El as [_ ->]; try lia.
    - change (56 + 2) with 58 in S. change (58 + 0) with 58. change (56 + 0) with 56. destruct (Z.leb_spec (fld 2 v 58 + fld 2 v 56) (zlen v)); cbn [bind].
      + rewrite Ex; cbn [bind]; eauto.
      + destruct (Z.eqb_spec (fld 2 v 56) 0); [|lia]. cbn [bind]. rewrite Ex; cbn [bind]; eauto.
    - change (72 + 2) with 74 in S. change (58 + 16) with 74. change (56 + 16) with 72. destruct (Z.leb_spec (fld 2 v 74 + fld 2 v 72) (zlen v)); cbn [bind].
      + rewrite Ex; cbn [bind]; eauto.
      + destruct (Z.eqb_spec (fld 2 v 72) 0); [|lia]. cbn [bind]. rewrite Ex; cbn [bind]; eauto.
  Qed.
End Journal.

(** ** Index buffers *)

Lemma read_piece_bytes f pos want out : bytes_ok (ff_volume f) -> read_piece f pos want = Ok out -> bytes_ok out.
Proof.
  intros B H. unfold read_piece in H. destruct (_ =? 0); [discriminate|]. apply bind_ok in H as (c & E & H). injection H as <-.
  apply bytes_ok_slice. unfold read_virtual_cluster in E. revert E. generalize 0 at 1. induction (ff_runs f) as [|[[o|] n] r IH]; intros s E; cbn [read_cluster_loop] in E.
  - discriminate.
  - destruct (_ <=? _); [eapply IH; eauto|]. apply bind_ok in E as (d & E & K). destruct (_ =? 0); [discriminate|]. destruct (negb _); [discriminate|].
    injection K as <-. unfold seek_read in E. destruct (_ <? _); [discriminate|]. destruct (_ <=? _); [discriminate|]. destruct (_ <=? _); [discriminate|].
    injection E as <-. now apply bytes_ok_slice.
  - destruct (_ <=? _); [eapply IH; eauto|]. injection E as <-. apply bytes_ok_zeros.
Qed.

Lemma ff_pread_bytes f off n out : bytes_ok (ff_volume f) -> ff_pread f off n = Ok out -> bytes_ok out.
Proof.
  intros B H. unfold ff_pread, ff_read in H. cbn [ff_set_pos ff_pos ff_size] in H.
  set (g := ff_set_pos f off) in *. assert (Bg : bytes_ok (ff_volume g)) by exact B.
  destruct (_ || _). { injection H as <-. constructor. }
  destruct (read_piece g off _) as [d|e] eqn:E; [|discriminate]. apply read_piece_bytes in E; auto.
  match type of H with context [read_loop ?a ?b ?c ?s d] => revert H; generalize a; intro fuel; generalize c, s; intros pos sz H end.
  revert pos d E H. induction fuel as [|fuel IH]; intros pos d E H; cbn [read_loop fst] in H; [discriminate|].
  destruct (0 <? _); [|injection H as <-; auto]. destruct (_ <=? _); [cbn [fst] in H; injection H as <-; auto|].
  destruct (read_piece g pos _) as [x|x] eqn:Ex; [|discriminate]. apply read_piece_bytes in Ex; auto.
  eapply IH; [|exact H]. now apply bytes_ok_app.
Qed.

Lemma buffers_bytes f bufs st : bytes_ok (ff_volume f) -> ia_index_buffers f = (bufs, st) ->
  Forall (fun b => bytes_ok (snd b) /\ 1024 <= zlen (snd b)) bufs.
Proof.
  intros B H. unfold ia_index_buffers in H. destruct (ia_buffer_size f) as [[s|]|]; [|injection H as <- <-; constructor|injection H as <- <-; constructor].
  revert H. generalize (S (S (Z.to_nat (ff_size f)))), 0. intros fuel. revert bufs.
  induction fuel as [|fuel IH]; intros bufs i H; cbn [ia_loop] in H; [injection H as <- <-; constructor|].
  destruct (ff_pread f _ _) as [raw|e] eqn:E; [|injection H as <- <-; constructor]. apply ff_pread_bytes in E; auto.
  destruct (negb _); [injection H as <- <-; constructor|].
  destruct (unprotect_index raw) as [[out|]|e] eqn:U; [|eapply IH; eauto|injection H as <- <-; constructor].
  unfold gcons in H. destruct (ia_loop fuel f s (i + 1)) as [l st'] eqn:EL. cbn [fst snd] in H. injection H as <- <-.
  constructor; [cbn [snd]|eapply IH; eauto]. pose proof (index_sectors_spec raw E) as SP. rewrite U in SP. destruct SP as (SO & (SL & _) & _).
  split; [|].
  - unfold unprotect_index in U. repeat (match type of U with (if ?b then _ else _) = _ => destruct b; [discriminate|] | bind _ _ = _ => apply bind_ok in U as (? & ? & U) end).
    match goal with K : usa_apply _ _ _ = Ok ?o |- _ => destruct o; [|discriminate]; apply usa_apply_bytes_ok in K; auto end.
    destruct (zlist_eqb _ _); [|discriminate]. congruence.
  - destruct SO as (SO & _). lia.
Qed.

Lemma attribute_at_bytes v q : bytes_ok v -> bytes_ok (attribute_at v q).
Proof.
  intro B. unfold attribute_at. apply bytes_ok_app. split; [|now apply bytes_ok_zdrop].
  destruct (8 <=? q); [now apply bytes_ok_slice|]. apply bytes_okb_ok. reflexivity.
Qed.

Section Index.
  Variable data : list Z.
  Variable size : Z.
  Variable t : list (Z * frs).
  Variable p : mft.
  Hypothesis FI : fits data.
  Hypothesis HP : parser_of data size t p.
  Variables n seq : Z.
  Hypothesis Hn : 0 <= n < 2 ^ 48.
  Hypothesis Hseq : 0 <= seq.
  Variable l : list (list Z * list Z).
  Let own := n + 2 ^ 48 * seq.

  Lemma own_ref : encode_ref n seq = own.
  Proof. rewrite encode_ref_value by lia. unfold own. lia. Qed.
  Lemma own_decoded : decode_ref own = (n, seq).
  Proof. rewrite decode_ref_all. unfold own. f_equal; lia. Qed.

  Lemma indx_row_shown source ref v r : bytes_ok v -> indx_row p n seq l source (Ok ref) v = Ok r ->
    indx_row_is t data size own l source ref v r.
  Proof.
    intros B H. unfold indx_row in H. apply bind_ok in H as (s & Es & H). cbn [bind] in H.
    apply bind_ok in H as (dir & Ed & H). apply bind_ok in H as (fn & Ef & H). apply bind_ok in H as (sz & Ez & H). injection H as <-.
    unfold indx_path in Es. apply bind_ok in Es as (parent & Ep & Es). apply bind_ok in Es as (path & Epath & Es).
    apply bind_ok in Es as (name & En & Es). injection Es as <-. apply fna_name_inv in En as [L ->].
    unfold fna_parent, u64 in Ep. apply unp_inv in Ep as [_ ->]; try lia.
    unfold fn_directory, fna_file_attributes, fnd, u32 in Ed. rewrite unp_zdrop, unp_ok in Ed by lia. cbn [bind] in Ed. injection Ed as <-.
    unfold fna_file_size, fnd in Ez. rewrite unp_s_zdrop in Ez by lia. unfold unp_s in Ez. rewrite unp_ok in Ez by lia.
    cbn [bind] in Ez. injection Ez as <-.
    rewrite under_child. change (8 + 40) with 48. apply ir; auto.
    - intro E. rewrite own_ref, E, Z.eqb_refl in Epath. injection Epath as <-. reflexivity.
    - intro E. rewrite own_ref in Epath. replace (fld 8 v 0 =? own) with false in Epath by lia.
      apply (lookup_located data size t p FI HP). rewrite own_decoded. exact Epath.
    - apply flag_cell. change (8 + 48) with 56. change DUP_FILE_NAME_INDEX_PRESENT with (2 ^ 28). 
      rewrite land_pow2 by lia. destruct (Z.testbit _ 28); cbn; split; congruence.
    - now apply fn_cells_shown.
  Qed.

  Lemma indx_row_total source ref v : all_clean t data size -> 65 <= zlen v -> exists r, indx_row p n seq l source (Ok ref) v = Ok r.
  Proof.
    intros CL L. unfold indx_row, indx_path. unfold fna_parent, u64. rewrite unp_ok by lia. cbn [bind].
    assert (P : exists x, (if fld 8 v 0 =? encode_ref n seq then Ok (first_path l) else lookup_path p n (Some seq)) = Ok x).
    { destruct (_ =? _); [eauto|]. apply (lookup_clean data size t p FI HP CL). lia. }
    destruct P as [x ->]. rewrite fna_name_total by lia. cbn [bind].
    unfold fn_directory, fna_file_attributes, fna_file_size, fnd, u32, unp_s. rewrite !unp_zdrop, !unp_ok by lia. cbn [bind].
    destruct (fn_cells_total v ltac:(lia)) as [fn ->]. cbn [bind]. eauto.
  Qed.

  Lemma indx_entry_shown b q rows : bytes_ok b -> 0 <= q /\ q + 12 <= zlen b /\ fld 2 b (q + 10) <> 0 ->
    indx_entry_rows p n seq l (zdrop q b) = (rows, Done) -> indx_entry t data size own l b q rows.
  Proof.
    intros B (Hq & L & N) H. unfold indx_entry. set (e := zdrop q b) in *. cbn zeta.
    assert (Be : bytes_ok e) by now apply bytes_ok_zdrop.
    assert (N' : fld 2 e 10 <> 0) by (unfold e; now rewrite fld_zdrop by lia).
    pose proof (fld_bound 2 e 10 ltac:(lia) ltac:(lia) Be).
    unfold indx_entry_rows in H. apply grun_done in H as (o & Eo & H). unfold ie_attribute in Eo.
    apply bind_ok in Eo as (x & En & Eo). apply bind_ok in Eo as (f & Ef & Eo).
    unfold ie_attribute_length, ie_flags, u16 in En, Ef. apply unp_inv in En as [_ ->]; try lia. apply unp_inv in Ef as [_ ->]; try lia.
    change INDEX_ENTRY_END with (2 ^ 1) in Eo. rewrite land_pow2 in Eo by lia. change (2 ^ 1) with 2 in Eo.
    replace (0 <? fld 2 e 10) with true in Eo by lia.
    destruct (Z.testbit (fld 2 e 12) 1); cbn [Z.eqb andb] in Eo.
    - left. injection Eo as <-. injection H as <-. auto.
    - assert (o = Some (slice e 16 (16 + fld 2 e 10))) by congruence. subst o. clear Eo. destruct (Z.leb_spec (zlen (slice e 16 (16 + fld 2 e 10))) 66).
      + left. injection H as <-. auto.
      + right. split; [auto|]. split; [auto|]. apply grun_done in H as (r & Er & H). injection H as <-. exists r. split; [auto|].
        unfold ie_reference, u64 in Er. rewrite unp_ok in Er by (unfold e; rewrite ?zlen_zdrop; lia). cbn [bind] in Er.
        apply indx_row_shown; auto. now apply bytes_ok_slice.
  Qed.

  Lemma indx_entry_total b q : all_clean t data size -> 0 <= q -> q + 14 <= zlen b -> exists r, indx_entry_rows p n seq l (zdrop q b) = (r, Done).
  Proof.
    intros CL Hq L. unfold indx_entry_rows, ie_attribute, ie_attribute_length, ie_flags, u16.
    rewrite !unp_zdrop, !unp_ok by lia. cbn [bind]. destruct (_ && _); cbn [grun]; [|eauto].
    destruct (Z.leb_spec (zlen (slice (zdrop q b) 16 (16 + fld 2 b (q + 10)))) 66); [eauto|].
    unfold ie_reference, u64. rewrite unp_zdrop, unp_ok by lia. cbn [bind].
    destruct (indx_row_total (txt "Index record") (Num (fld 8 b (q + 0))) (slice (zdrop q b) 16 (16 + fld 2 b (q + 10))) CL ltac:(lia)) as [r Er].
    rewrite Er. cbn [grun]. eauto.
  Qed.

  Lemma indx_buffer_shown b rows : bytes_ok b -> grows (indx_entry_rows p n seq l) (ib_index_entries b) = (rows, Done) ->
    indx_buffer t data size own l b rows.
  Proof.
    intros B H. unfold ib_index_entries in H. destruct (index_entries_walk 24 true b ltac:(lia) B) as [W S].
    destruct (Z.lt_ge_cases (zlen b) (24 + 8)) as [K|K]; [rewrite (S K) in H; discriminate|].
    destruct (W ltac:(lia)) as (ps & st & W' & E). rewrite E in H. unfold grows in H. cbn [fst snd] in H.
    apply grows_done in H as (-> & parts & F & ->). exists ps, parts. split; [exact W'|]. split; [|auto].
    pose proof (ix_walk_nonempty _ _ _ _ _ _ W' ltac:(pose proof (fld_nonneg 4 b 24 B); lia) B) as NE. clear - FI HP Hn Hseq B F NE.
    revert parts F. induction NE as [|q ps Q NE IH]; intros parts F; inversion F; subst; constructor; auto.
    now apply indx_entry_shown.
  Qed.

  Lemma walk_flags v lim pos ps : ix_walk v lim true pos ps Done -> 0 <= pos -> bytes_ok v -> Forall (fun q => 0 <= q /\ q + 14 <= zlen v) ps.
  Proof.
    intros W. remember true as st eqn:Es. remember Done as d eqn:Ed. revert Es Ed.
    induction W; intros Es Ed Hp B; try discriminate; constructor; auto; try (split; lia).
    apply IHW; auto. pose proof (fld_nonneg 2 v (pos + 8) B). lia.
  Qed.

  Lemma indx_buffer_total b : all_clean t data size -> bytes_ok b -> 1024 <= zlen b -> sound_buffer b ->
    exists rows, grows (indx_entry_rows p n seq l) (ib_index_entries b) = (rows, Done).
  Proof.
    intros CL B L (ps & W). unfold ib_index_entries. destruct (index_entries_walk 24 true b ltac:(lia) B) as [K _].
    destruct (K ltac:(lia)) as (ps' & st & W' & E). rewrite E. destruct (ix_walk_fun _ _ _ _ _ _ W _ _ W') as [<- <-].
    unfold grows. cbn [fst snd]. apply grows_total. apply Forall_map.
    eapply Forall_impl; [|exact (walk_flags _ _ _ _ W ltac:(pose proof (fld_nonneg 4 b 24 B); lia) B)].
    intros q [Q1 Q2]. now apply indx_entry_total.
  Qed.

  (** *** Slack *)
  Lemma ib_slack_value b : bytes_ok b -> 1024 <= zlen b -> ib_slack b = Ok (zdrop (24 + fld 4 b 28) b).
  Proof.
    intros B L. unfold ib_slack, ih_first_free, u32. rewrite unp_ok by (rewrite ?zlen_slice; lia). cbn [bind].
    rewrite fld_slice by lia. reflexivity.
  Qed.

  Definition slack_of (bs : list (list Z)) : list (list Z) :=
    filter (fun s => negb (zlen s <=? 8)) (map (fun b => zdrop (24 + fld 4 b 28) b) bs).

  Lemma ia_slack_value f bufs : bytes_ok (ff_volume f) -> ia_index_buffers f = (bufs, Done) -> ia_slack f = Ok (slack_of (map snd bufs)).
  Proof.
    intros B H. unfold ia_slack. rewrite H. pose proof (buffers_bytes _ _ _ B H) as BB. clear H.
    assert (E : ia_slack_loop bufs = Ok (slack_of (map snd bufs))).
    { induction BB as [|[i b] bufs [B1 B2] BB IH]; [reflexivity|]. cbn [ia_slack_loop snd] in *. rewrite ib_slack_value by auto. cbn [bind].
      rewrite IH. cbn [bind]. unfold slack_of. cbn [map snd filter]. destruct (zlen (zdrop (24 + fld 4 b 28) b) <=? 8); reflexivity. }
    rewrite E. reflexivity.
  Qed.


  Lemma no_partial v items i : slack_items v false items -> In i items -> exists q, plausible v q /\ i = CName (attribute_at v q).
  Proof.
    intros (ps & tl & S & -> & [(nm & K & _)|[-> _]]) I; [discriminate|]. rewrite app_nil_r in I.
    apply in_map_iff in I as (q & <- & I). exists q. split; [|auto]. clear - S I. induction S; [destruct I|].
    destruct I as [<-|I]; auto.
  Qed.

  Lemma indx_slack_shown v items rows : bytes_ok v -> slack_items v false items ->
    grows_in (indx_slack_rows p n seq l) items Done = (rows, Done) ->
    Forall2 (fun i r => exists v, i = CName v /\ indx_row_is t data size own l (txt "Index slack") question v r) items rows.
  Proof.
    intros B S H. apply grows_done in H as (_ & parts & F & ->).
    assert (BI : Forall (fun i => forall w, i = CName w -> bytes_ok w) items).
    { apply Forall_forall. intros i I w ->. destruct (no_partial v items _ S I) as (q & _ & E). injection E as ->. now apply attribute_at_bytes. }
    clear S. revert parts F. induction BI as [|i items Bi BI IH]; intros parts F; inversion F; subst; cbn [concat]; [constructor|].
    destruct i as [w|nm]; cbn [indx_slack_rows] in *; [|discriminate].
    match goal with K : grun _ _ = _ |- _ => apply grun_done in K as (r & Er & K); injection K as <- end. cbn [app]. constructor; auto.
    exists w. split; [auto|]. apply indx_row_shown; auto.
  Qed.

  Lemma indx_slack_total v items : all_clean t data size -> slack_items v false items ->
    exists rows, grows_in (indx_slack_rows p n seq l) items Done = (rows, Done).
  Proof.
    intros CL S. apply grows_total. apply Forall_forall. intros i I. destruct (no_partial v items i S I) as (q & P & ->). cbn [indx_slack_rows].
    assert (L : 65 <= zlen (attribute_at v q)).
    { destruct P as (Q & _ & L & _). unfold attribute_at. rewrite zlen_app, zlen_zdrop.
      destruct (Z.leb_spec 8 q); [rewrite zlen_slice by lia; lia|]. change (zlen (repeat 255 8)) with 8. lia. }
    destruct (indx_row_total (txt "Index slack") unsure _ CL L) as [r ->]. cbn [grun]. eauto.
  Qed.

  Lemma slacks_shown bs rows : Forall bytes_ok bs ->
    grows (indx_slack_rows p n seq l) (carve (slack_of bs) false) = (rows, Done) ->
    exists slack, Forall2 (indx_slack t data size own l) bs slack /\ rows = concat slack.
  Proof.
    intros B H. destruct (C52_carve (slack_of bs) false) as (ls & E & F). rewrite E in H. unfold grows in H. cbn [fst snd] in H. clear E.
    revert ls rows F H. induction B as [|b bs Bb B IH]; intros ls rows F H.
    - inversion F; subst. cbn in H. injection H as <-. exists []. auto.
    - unfold slack_of in F. cbn [map filter] in F. fold (slack_of bs) in F.
      set (s := zdrop (24 + fld 4 b 28) b) in *. assert (Bs : bytes_ok s) by now apply bytes_ok_zdrop.
      destruct (Z.leb_spec (zlen s) 8); cbn [negb] in F.
      + destruct (IH _ _ F H) as (slack & F' & ->). exists ([] :: slack). split; [|auto]. constructor; [|auto]. left. auto.
      + inversion F as [|? items ? ls' I1 I2]; subst. cbn [concat] in H. rewrite grows_app in H. apply gseq_done in H as (r1 & r2 & H1 & H2 & ->).
        destruct (IH _ _ I2 H2) as (slack & F' & ->). exists (r1 :: slack). split; [|auto]. constructor; [|auto]. right. split; [auto|].
        exists items. split; [auto|]. eapply indx_slack_shown; eauto.
  Qed.

  Lemma slacks_total bs : all_clean t data size -> exists rows, grows (indx_slack_rows p n seq l) (carve (slack_of bs) false) = (rows, Done).
  Proof.
    intro CL. destruct (C52_carve (slack_of bs) false) as (ls & E & F). rewrite E. unfold grows. cbn [fst snd]. clear E. revert F.
    generalize (slack_of bs) as vs. intros vs F.
    induction F as [|v items vs ls I F (rows & IH)]; cbn [concat]; [exists []; reflexivity|]. rewrite grows_app.
    destruct (indx_slack_total v items CL I) as [r ->]. rewrite IH. unfold gseq, gapp. cbn [fst snd]. eauto.
  Qed.

  Lemma buffers_shown bufs rows : Forall bytes_ok (map snd bufs) ->
    grows_in (fun b : Z * list Z => grows (indx_entry_rows p n seq l) (ib_index_entries (snd b))) bufs Done = (rows, Done) ->
    exists parts, Forall2 (indx_buffer t data size own l) (map snd bufs) parts /\ rows = concat parts.
  Proof.
    intros B H. apply grows_done in H as (_ & parts & F & ->). exists parts. split; [|auto]. revert parts F.
    induction bufs as [|b bufs IH]; intros parts F; inversion F; subst; cbn [map] in *; constructor; inversion B; subst; auto.
    now apply indx_buffer_shown.
  Qed.

  Variable vol : list Z.
  Variables voff cs : Z.
  Hypothesis Bvol : bytes_ok vol.

  Lemma i30_cases {A} ty nm mp runs lo hi sz (X Y : A) :
    (ty = 0xA0 /\ nm = Some [36; 73; 51; 48]) \/
    (name_eqb nm (Some name_I30) && (ty =? ATTR_TYPE_INDEX_ALLOCATION) = false /\
     match Nonresident ty nm mp runs lo hi sz with Nonresident 0xA0 (Some [36; 73; 51; 48]) _ _ _ _ _ => X | _ => Y end = Y).
  Proof.
    destruct (name_eqb nm (Some name_I30) && (ty =? ATTR_TYPE_INDEX_ALLOCATION)) eqn:E.
    - left. apply andb_true_iff in E as [E1 E2]. apply name_eqb_eq in E1. apply Z.eqb_eq in E2. auto.
    - right. split; [auto|]. apply andb_false_iff in E.
      assert (N : ~ (ty = 160 /\ nm = Some [36; 73; 51; 48])).
      { intros [-> ->]. destruct E as [E|E]; [|discriminate]. assert (K : name_eqb (Some [36; 73; 51; 48]) (Some name_I30) = true) by now apply name_eqb_eq.
        congruence. }
      clear E. cbn beta iota.
      repeat match goal with |- context [match ?x with _ => _ end] => destruct x; try reflexivity end. exfalso. apply N. auto.
  Qed.

  Lemma indx_attr_shown a rows : indx_attr_rows vol voff cs p n seq l a = (rows, Done) -> indx_attr t data size vol voff cs own l a rows.
  Proof.
    intro H. destruct a as [ty nm v|ty nm mp runs lo hi sz]; [now injection H as <-|]. cbn [indx_attr_rows] in H.
    destruct (i30_cases ty nm mp runs lo hi sz (exists bufs parts slack,
        ia_index_buffers (ff_open vol voff cs runs sz) = (bufs, Done) /\
        Forall2 (indx_buffer t data size own l) (map snd bufs) parts /\ Forall2 (indx_slack t data size own l) (map snd bufs) slack /\
        rows = concat parts ++ concat slack) (rows = [])) as [[-> ->]|[E K]].
    - clear - H FI HP Hn Hseq Bvol. cbn [indx_attr].
      change (name_eqb _ _ && _) with true in H. cbv iota in H.
      apply gseq_done in H as (r1 & r2 & H1 & H2 & ->). unfold grows at 1 in H1.
      destruct (ia_index_buffers (ff_open vol voff cs runs sz)) as [bufs st] eqn:EB. cbn [fst snd] in H1.
      assert (st = Done) by (apply grows_done in H1; tauto). subst st. exists bufs.
      pose proof (buffers_bytes (ff_open vol voff cs runs sz) bufs Done Bvol EB) as BB. assert (B : Forall bytes_ok (map snd bufs)).
      { apply Forall_map. eapply Forall_impl; [|exact BB]. tauto. }
      destruct (buffers_shown bufs r1 B H1) as (parts & F1 & ->).
      rewrite (ia_slack_value (ff_open vol voff cs runs sz) bufs Bvol EB) in H2. cbn [grun] in H2. destruct (slacks_shown _ _ B H2) as (slack & F2 & ->).
      exists parts, slack. auto.
    - assert (K' : indx_attr t data size vol voff cs own l (Nonresident ty nm mp runs lo hi sz) rows = (rows = [])) by exact K.
      rewrite K', E in *. now injection H as <-.
  Qed.

  Lemma indx_attr_total a : all_clean t data size -> sound_buffers vol voff cs a ->
    exists rows, indx_attr_rows vol voff cs p n seq l a = (rows, Done).
  Proof.
    intros CL S. destruct a as [ty nm v|ty nm mp runs lo hi sz]; [cbn; eauto|]. cbn [indx_attr_rows].
    destruct (i30_cases ty nm mp runs lo hi sz True True) as [[-> ->]|[E _]].
    2:{ rewrite E. eauto. }
    change (name_eqb _ _ && _) with true. cbv iota. destruct S as (bufs & EB & SB). cbn zeta. rewrite EB.
    pose proof (buffers_bytes (ff_open vol voff cs runs sz) bufs Done Bvol EB) as BB.
    assert (G : exists r, grows_in (fun b : Z * list Z => grows (indx_entry_rows p n seq l) (ib_index_entries (snd b))) bufs Done = (r, Done)).
    { apply grows_total. rewrite Forall_map in SB. rewrite Forall_forall in *. intros b I. destruct (BB b I). apply indx_buffer_total; auto. }
    destruct G as [r1 G]. unfold grows at 1. cbn [fst snd]. rewrite G. rewrite (ia_slack_value (ff_open vol voff cs runs sz) bufs Bvol EB). cbn [grun].
    destruct (slacks_total (map snd bufs) CL) as [r2 ->]. unfold gseq, gapp. cbn [fst snd]. eauto.
  Qed.
End Index.

Section IndexReport.
  Variable data : list Z.
  Variable size : Z.
  Variable t : list (Z * frs).
  Variable p : mft.
  Hypothesis FI : fits data.
  Hypothesis HP : parser_of data size t p.
  Variable vol : list Z.
  Variables voff cs : Z.
  Hypothesis Bvol : bytes_ok vol.

  Lemma numbers k s fr : record_at t data size k s fr ->
    frs_mft_number (fr_base fr) = Some (number_in k (fr_base fr)) /\ 0 <= number_in k (fr_base fr) < 2 ^ 48 /\
    0 <= h_sequence (frs_data (fr_base fr)).
  Proof.
    intros (f & s' & H & _ & _ & _ & ->). cbn [fr_base] in *.
    destruct (segment_at_bytes _ _ _ _ (proj1 HP) H) as [Bf S]. split; [now apply mft_number_spec|].
    split; [exact (number_in_bound _ _ _ _ FI (proj1 (proj2 HP)) (proj1 HP) H)|]. unfold h_sequence. now apply fld_nonneg.
  Qed.

  Lemma indx_record_block k s fr rows : record_at t data size k s fr -> indx_record_rows vol voff cs p fr = (rows, Done) ->
    indx_block t data size vol voff cs k fr rows.
  Proof.
    intros R H. pose proof (record_at_opened _ _ _ _ _ _ _ HP R) as O. destruct (numbers k s fr R) as (N1 & N2 & N3).
    unfold indx_record_rows in H. destruct (build_full_paths p fr) as [l|e] eqn:E.
    - right. rewrite N1 in H. destruct (fr_attributes_merged fr) as [items st] eqn:EM. unfold grows in H. cbn [fst snd] in H.
      apply grows_done in H as (-> & parts & F & ->). exists l, items, parts.
      split; [now apply (paths_iff data size t p FI HP)|]. split; [auto|]. split; [|auto].
      clear EM. induction F as [|a r items parts Ha F IH]; constructor; [|exact IH]. unfold h_sequence in *.
      exact (indx_attr_shown data size t p FI HP _ _ N2 N3 l vol voff cs Bvol a r Ha).
    - left. destruct (is_mft_exn e) eqn:X; [|discriminate]. injection H as <-. split; [|auto]. intros l P.
      apply (paths_iff data size t p FI HP) in P; auto. congruence.
  Qed.

  Lemma indx_record_total k s fr : all_clean t data size -> record_at t data size k s fr -> sound_directory vol voff cs fr ->
    exists rows, indx_record_rows vol voff cs p fr = (rows, Done).
  Proof.
    intros CL R (items & EM & F). destruct (numbers k s fr R) as (N1 & N2 & N3). unfold indx_record_rows.
    destruct (build_full_paths p fr) as [l|e] eqn:E.
    2:{ rewrite (paths_clean data size t p FI HP CL fr e (CL _ _ _ R) E). eauto. }
    rewrite N1, EM. unfold grows. cbn [fst snd]. apply grows_total. eapply Forall_impl; [|exact F].
    intros a Sa. cbn beta in Sa. eapply indx_attr_total; eauto.
  Qed.
End IndexReport.
