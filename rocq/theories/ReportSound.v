(** The report on undamaged file records is complete. *)
From Coq Require Import String Sorted.
From Verif Require Import Base BaseLemmas FieldLemmas MappingPairs MappingPairsProofs Frs FrsSpec FrsProofs FileRecord FileRecordSpec FileRecordProofs
  Mft MftSpec MftProofs MftPathProofs Filetime Wsl Attributes AttributesSpec AttributesProofs IndexProofs ExtAttrProofs FieldsProofs Carve CarveSpec CarveProofs
  Properties_Carve Report ReportSpec ReportProofs ReportTable.
Local Open Scope Z_scope.
Local Set Warnings "-abstract-large-number".

Lemma sound_names fr : sound_record fr -> exists vs, has_names fr vs.
Proof.
  intros (items & E & F). exists (name_values items), items. split; [auto|]. split; [|split; [auto|]].
  - eapply Forall_impl; [|exact F]. intros [ty n v|]; cbn; tauto.
  - clear E. induction F as [|a l Ha F IH]; [constructor|]. destruct a as [ty n v|]; cbn [name_values]; [|auto].
    destruct (Z.eqb_spec ty 0x30) as [->|]; [|auto]. constructor; [|auto]. cbn in Ha. tauto.
Qed.

(** ** Paths of clean records *)

Lemma preferred_clean fr vs e : has_names fr vs -> preferred_name fr = Err e -> e = MasterFileTableException.
Proof.
  intros H E. unfold preferred_name in E.
  set (g := fun v => let! f := fn_flags v in let! n := fn_name v in let! r := fn_parent v in Ok (f, (n, r))) in *.
  match type of E with context [gcollect ?f ?x] =>
    assert (EG : gcollect f x = gcollect (fun a => let! v := value_of_type ATTR_TYPE_FILE_NAME a in
                     match v with None => Ok None | Some v => let! b := g v in Ok (Some b) end) x) end.
  { apply collect_in_ext. intro a. destruct (value_of_type ATTR_TYPE_FILE_NAME a) as [[v|]|]; cbn [bind]; auto.
    unfold g. destruct (fn_flags v); cbn [bind]; auto. destruct (fn_name v); cbn [bind]; auto.
    destruct (fn_parent v); cbn [bind]; auto. }
  rewrite EG in E. clear EG.
  assert (Hg : forall v, g v = if 66 <=? zlen v then Ok (name_triple v) else Err StructError) by apply name_triple_ok.
  rewrite (proj2 (collect_has_names g name_triple fr Hg (map name_triple vs)) ltac:(eauto)) in E. cbn [bind] in E.
  destruct vs as [|v vs]; cbn [map] in E; [congruence|]. unfold name_triple at 1 in E.
  destruct (find _ _) as [[? ?]|]; discriminate.
Qed.

Section Sound.
  Variable data : list Z.
  Variable size : Z.
  Variable t : list (Z * frs).
  Variable p : mft.
  Hypothesis FI : fits data.
  Hypothesis HP : parser_of data size t p.
  Hypothesis CL : all_clean t data size.

  Lemma climb_clean : forall fuel track fr comps e vs, has_names fr vs -> climb fuel p track fr comps = Err e ->
    e = OutOfFuel \/ is_mft_exn e = true.
  Proof.
    induction fuel as [|fuel IH]; intros track fr comps e vs H E; cbn [climb] in E; [left; congruence|].
    destruct (preferred_name fr) as [[n r]|x] eqn:EP; cbn [bind] in E.
    2:{ injection E as <-. right. now rewrite (preferred_clean _ _ _ H EP). }
    rewrite decode_ref_all in E. cbn [fst snd] in E. destruct (zin _ _); [discriminate|]. rewrite by_number_false in E.
    assert (Hn : 0 <= r mod 2 ^ 48) by lia.
    destruct (by_number_base p (r mod 2 ^ 48) (Some (r / 2 ^ 48))) as [fr'|x] eqn:Eb.
    2:{ destruct (is_mft_exn x) eqn:X; [discriminate|]. right. injection E as <-.
        rewrite (by_number_base_err _ _ _ _ _ _ _ FI HP Hn Eb) in X. discriminate. }
    destruct (_ =? _); [discriminate|]. destruct (negb _); [discriminate|].
    apply (by_number_base_iff _ _ _ _ _ _ _ FI HP Hn) in Eb. destruct (CL _ _ _ Eb) as [ws W]. eapply IH; eauto.
  Qed.

  Lemma path_for_clean v e : 65 <= zlen v -> path_for p v = Err e -> is_mft_exn e = true.
  Proof.
    intros L E. pose proof (path_for_spec data size t p v FI HP L) as S. rewrite E in S. destruct S as [PE _].
    assert (K : e = OutOfFuel \/ is_mft_exn e = true).
    { unfold path_for in E. rewrite fn_name_cases, fn_parent_cases in E.
      replace (65 <=? zlen v) with true in E by (symmetry; apply Z.leb_le; lia).
      replace (8 <=? zlen v) with true in E by (symmetry; apply Z.leb_le; lia). cbn [bind] in E.
      rewrite decode_ref_all in E. cbn [fst snd] in E. set (r := fld 8 v 0) in *.
      destruct (_ =? _); [discriminate|]. rewrite by_number_false in E. assert (Hn : 0 <= r mod 2 ^ 48) by lia.
      destruct (by_number_base p (r mod 2 ^ 48) (Some (r / 2 ^ 48))) as [fr'|x] eqn:Eb.
      2:{ rewrite (by_number_base_err _ _ _ _ _ _ _ FI HP Hn Eb) in E. discriminate. }
      destruct (negb _); [discriminate|].
      apply (by_number_base_iff _ _ _ _ _ _ _ FI HP Hn) in Eb. destruct (CL _ _ _ Eb) as [ws W].
      remember (climb (S (S (length (m_data p)))) p [r mod 2 ^ 48] fr' [MftSpec.name_field v]) as c eqn:Ec.
      destruct c as [l|x]; [discriminate|]. cbn [bind] in E. injection E as ->. symmetry in Ec. eapply climb_clean; eauto. }
    destruct K as [->|]; [|auto]. destruct PE as [?|[?|[?|[?|?]]]]; discriminate.
  Qed.

  Lemma paths_clean fr e : (exists vs, has_names fr vs) -> build_full_paths p fr = Err e -> is_mft_exn e = true.
  Proof.
    intros [vs H] E. unfold build_full_paths in E.
    set (g := fun v => let! f := fn_flags v in Ok (f, v)) in *.
    match type of E with context [gcollect ?f ?x] =>
      assert (EG : gcollect f x = gcollect (fun a => let! v := value_of_type ATTR_TYPE_FILE_NAME a in
                       match v with None => Ok None | Some v => let! b := g v in Ok (Some b) end) x) end.
    { apply collect_in_ext. intro a. destruct (value_of_type ATTR_TYPE_FILE_NAME a) as [[v|]|]; cbn [bind]; auto.
      unfold g. destruct (fn_flags v); cbn [bind]; auto. }
    rewrite EG in E. clear EG.
    set (h := fun v => (fld 1 v 65, v)).
    assert (Hg : forall v, g v = if 66 <=? zlen v then Ok (h v) else Err StructError).
    { intro v. unfold g, h. rewrite fn_flags_cases. destruct (66 <=? zlen v); reflexivity. }
    rewrite (proj2 (collect_has_names g h fr Hg (map h vs)) ltac:(eauto)) in E. cbn [bind] in E.
    unfold h in E. rewrite order_names_spec in E.
    assert (W : Forall (fun v => 66 <= zlen v) (rev (filter long_name vs) ++ filter (fun v => negb (long_name v)) vs)).
    { destruct H as (i & _ & _ & _ & Hl). apply Forall_forall. intros x Hx. rewrite Forall_forall in Hl.
      apply Hl. apply in_app_iff in Hx as [Hx|Hx]; [apply in_rev in Hx|]; now apply filter_In in Hx. }
    revert E. generalize dependent (rev (filter long_name vs) ++ filter (fun v => negb (long_name v)) vs).
    induction 1 as [|v l Hv Hl IH]; cbn [paths_for]; intro E; [discriminate|].
    destruct (path_for p v) as [s|x] eqn:Ep; cbn [bind] in E.
    - destruct (paths_for p l); [discriminate|]. cbn [bind] in E. auto.
    - injection E as ->. eapply path_for_clean; [|exact Ep]. lia.
  Qed.

  Lemma lookup_clean n seq : 0 <= n -> exists o, lookup_path p n (Some seq) = Ok o.
  Proof.
    intro Hn. unfold lookup_path. destruct (by_number p n (Some seq) true) as [fr|e] eqn:E; cbn [bind].
    2:{ rewrite (by_number_err _ _ _ _ _ _ _ _ FI HP Hn E). eauto. }
    destruct (build_full_paths p fr) as [l|e] eqn:Eb; [eauto|].
    rewrite (paths_clean fr e); eauto. apply (reached_iff data size t p FI HP n seq fr Hn) in E.
    destruct E as [R|(f & _ & _ & _ & _ & R)]; eauto.
  Qed.

  (** ** Each part *)

  Lemma facts_total items dir : Forall item_bytes items -> Forall (sound_attr dir) items ->
    forall s, exists fa, facts_in s items Done = Ok fa.
  Proof.
    intros B F. induction F as [|a items Ha F IH]; intro s; cbn [facts_in]; [eauto|]. inversion B as [|? ? Ba Bt]; subst.
    assert (K : exists s', facts_step s a = Ok s').
    { unfold facts_step. destruct a as [ty nm v|]; [|eauto]. cbn in Ha, Ba. destruct Ha as (_ & _ & _ & HE & HA).
      replace (ty =? ATTR_TYPE_INDEX_ALLOCATION) with false by (symmetry; apply Z.eqb_neq; exact HA).
      assert (Q1 : exists o, match fa_objid s with None => if ty =? ATTR_TYPE_OBJECT_ID then oid_timestamp v else Ok None | x => Ok x end = Ok o).
      { destruct (fa_objid s); [eauto|]. destruct (_ =? _); [|eauto]. unfold oid_timestamp. destruct (oid_guid v); [|eauto].
        destruct (_ && _); [|eauto]. apply decode_quiet. }
      destruct Q1 as [o ->]. cbn [bind].
      assert (Q2 : exists w, match fa_wsl s with None => if ty =? ATTR_TYPE_EA then let (l, st) := ea_data v in wsl_in l st None else Ok None
                             | x => Ok x end = Ok w).
      { destruct (fa_wsl s); [eauto|]. destruct (Z.eqb_spec ty ATTR_TYPE_EA) as [->|]; [|eauto].
        destruct (ea_loop_walk (S (length v)) v Ba ltac:(lia)) as (l & E & W). unfold ea_data. rewrite E.
        specialize (HE eq_refl l). assert (G : forall e, In e l -> is_lx e -> exists m a c, lx_times (snd e) m a c) by eauto.
        clear - G. generalize (@None (Z * Z * Z)). induction l as [|[[n f] b] l IH]; intro w; cbn [wsl_in]; [eauto|].
        assert (G' : forall e, In e l -> is_lx e -> exists m a c, lx_times (snd e) m a c) by (intros; apply G; [right|]; auto).
        destruct (zlist_eqb n LXATTRB_NAME) eqn:En; [|auto]. apply zlist_eqb_eq in En.
        destruct (lxb_open_cases b) as [(b' & E & -> & K)|[E _]]; rewrite E; [|auto].
        destruct (G (n, f, b) ltac:(left; auto)) as (m & x & c & T1 & T2 & T3); [split; [exact En|cbn; tauto]|]. cbn [snd] in *.
        destruct K as (L & _). unfold lxb_atime, lxb_mtime, lxb_chtime, lxb_time, u32, u64. rewrite !unp_ok by lia. cbn [bind].
        rewrite T2. cbn [bind]. rewrite T1. cbn [bind]. rewrite T3. cbn [bind]. auto. }
      destruct Q2 as [w ->]. cbn [bind]. eauto. }
    destruct K as [s' ->]. cbn [bind]. auto.
  Qed.

  Lemma grows_total {A B} (f : A -> gen B) l : Forall (fun a => exists r, f a = (r, Done)) l -> exists rows, grows_in f l Done = (rows, Done).
  Proof.
    induction 1 as [|a l [r E] F [rows IH]]; cbn [grows_in]; [eauto|]. rewrite E, IH. unfold gapp. cbn [fst snd]. eauto.
  Qed.

  Lemma record_total tag k seq fr l : record_at t data size k seq fr -> sound_record fr -> Forall (fun sv => 40 <= zlen (snd sv)) l ->
    exists rows, record_rows tag fr l = (rows, Done).
  Proof.
    intros R (items & D & F) L. pose proof (record_at_opened _ _ _ _ _ _ _ HP R) as O. pose proof (fr_attributes_bytes fr O) as IB.
    unfold record_rows. rewrite D in *. cbn [fst] in IB.
    destruct (facts_total items _ IB F (mk_facts None None [] None None)) as [fa Ef].
    unfold facts_of. cbn [fst snd]. rewrite Ef. cbn [grun].
    assert (S : exists cells, si_cells (fa_si fa) = Ok cells).
    { destruct (fold_first _ _ step_si _ _ _ Ef eq_refl) as [[_ N]|(l1 & a & l2 & v & -> & _ & V & N)]; rewrite N; [cbn; eauto|].
      apply val_si_some in V as [nm ->]. apply Forall_app in F as [_ F]. inversion F as [|? ? Fa _]; subst. cbn in Fa.
      destruct Fa as (L32 & _). specialize (L32 eq_refl). unfold si_cells, si_mtime, si_atime, si_ctime, si_etime.
      destruct (filetime_total v 0 ltac:(lia) ltac:(lia)) as [? ->]. destruct (filetime_total v 8 ltac:(lia) ltac:(lia)) as [? ->].
      destruct (filetime_total v 16 ltac:(lia) ltac:(lia)) as [? ->]. destruct (filetime_total v 24 ltac:(lia) ltac:(lia)) as [? ->].
      cbn [bind]. unfold si_usn, opt_at. rewrite zlen_slice by lia.
      destruct (Z.eqb_spec (Z.max 0 (Z.min (64 + 8 - 64) (zlen v - 64))) 8); [rewrite unp_ok by lia|]; cbn [bind]; eauto. }
    destruct S as [si ->]. cbn [grun].
    assert (Q : exists ref, fr_reference fr = Ok ref).
    { destruct R as (f & s & H & _ & _ & _ & ->). unfold fr_reference. cbn [fr_base].
      destruct (segment_at_bytes _ _ _ _ (proj1 HP) H) as [Bf S]. rewrite (mft_number_spec f k Bf S). eauto. }
    destruct Q as [ref ->]. cbn [grun]. destruct l as [|x l]; [eauto|]. unfold grows. cbn [fst snd]. apply grows_total.
    eapply Forall_impl; [|exact L]. intros sv Hs. destruct (fn_cells_total (snd sv) Hs) as [fn ->]. cbn [grun]. eauto.
  Qed.

  Lemma name_row_total source ref s v : 65 <= zlen v -> exists r, name_row source ref (Ok s) v = Ok r.
  Proof.
    intro L. unfold name_row. cbn [bind]. unfold fn_directory, fna_file_attributes, fna_file_size, fnd, u32, unp_s.
    rewrite !unp_zdrop, !unp_ok by lia. cbn [bind]. destruct (fn_cells_total v ltac:(lia)) as [fn ->]. cbn [bind]. eauto.
  Qed.

  Lemma fna_name_total v : 65 <= zlen v -> fna_name v = Ok (name_in v).
  Proof. intro L. unfold fna_name, fna_name_length, u8. now rewrite unp_ok by lia. Qed.

  Lemma entry_total tag l v q : bytes_ok v -> 0 <= q -> sound_entry v q -> exists r, root_entry_rows tag l (zdrop q v) = (r, Done).
  Proof.
    intros B Hq [L S]. unfold root_entry_rows, ie_attribute, ie_attribute_length, ie_flags, u16.
    rewrite !unp_zdrop, !unp_ok by lia. cbn [bind].
    change INDEX_ENTRY_END with (2 ^ 1). rewrite land_pow2 by lia. change (2 ^ 1) with 2.
    destruct (Z.testbit (fld 2 v (q + 12)) 1); cbn [Z.eqb andb grun]; [eauto|]. destruct (S eq_refl) as [S1 S2].
    destruct (0 <? _); cbn [grun]; [|eauto].
    set (key := slice (zdrop q v) 16 (16 + fld 2 v (q + 10))).
    assert (LK : 65 <= zlen key).
    { unfold key. rewrite zlen_slice, zlen_zdrop by lia. lia. }
    rewrite fna_name_total by auto. cbn [bind]. unfold ie_reference, u64. rewrite unp_zdrop, unp_ok by lia. cbn [bind].
    match goal with |- context [name_row ?a ?b (Ok ?c) key] => destruct (name_row_total a b c key LK) as [r ->] end. cbn [grun]. eauto.
  Qed.

  Lemma index_total tag k seq fr l : record_at t data size k seq fr -> sound_record fr -> exists rows, index_rows tag fr l = (rows, Done).
  Proof.
    intros R (items & D & F). pose proof (fr_attributes_bytes fr (record_at_opened _ _ _ _ _ _ _ HP R)) as IB.
    rewrite D in IB. cbn [fst] in IB. pose proof (fr_directory_spec _ _ _ _ _ _ (proj1 HP) R) as HD.
    unfold index_rows. destruct (fr_directory fr); [|eauto]. assert (DIR : is_directory fr) by now apply HD.
    unfold name_index, gfirst. rewrite D. cbn [fst snd]. clear D R.
    match goal with |- context [first_in ?g _ _] => set (f := g) in * end.
    assert (K : exists o, first_in f items Done = Ok o /\ match o with Some v => bytes_ok v /\ fld 4 v 0 = 0x30 /\ sound_index v | None => True end).
    { induction F as [|a items Ha F IH]; cbn [first_in]; [exists None; auto|]. inversion IB as [|? ? Ba Bt]; subst. specialize (IH Bt).
      unfold f at 1. destruct a as [ty nm v|]; cbn [value_of_type bind]; [|exact IH].
      cbn in Ha, Ba. destruct Ha as (_ & _ & HI & _ & HA).
      replace (ty =? ATTR_TYPE_INDEX_ALLOCATION) with false by (symmetry; apply Z.eqb_neq; exact HA).
      destruct (Z.eqb_spec ty ATTR_TYPE_INDEX_ROOT) as [->|]; cbn [bind]; [|exact IH].
      specialize (HI eq_refl DIR). unfold ir_type_code, u32. rewrite unp_ok by (destruct HI; lia). cbn [bind].
      destruct (Z.eqb_spec (fld 4 v 0) ATTR_TYPE_FILE_NAME); [|exact IH]. exists (Some v). auto. }
    destruct K as ([v|] & -> & K); cbn [grun]; [|eauto]. destruct K as (B & K & _ & S).
    destruct (S K) as (L & ps & W & FS). destruct (index_entries_walk 16 false v ltac:(lia) B) as [W1 _].
    destruct (W1 L) as (ps' & st & W' & E). destruct (ix_walk_fun _ _ _ _ _ _ W' _ _ W) as [-> ->].
    pose proof (ix_walk_nonempty _ _ _ _ _ _ W ltac:(pose proof (fld_bound 4 v 16 ltac:(lia) ltac:(lia) B); lia) B) as NE.
    unfold grows, ir_index_entries. rewrite E. cbn [fst snd]. apply grows_total. rewrite Forall_map.
    rewrite Forall_forall in *. intros q Hq. apply entry_total; auto. now apply NE.
  Qed.

  Lemma slack_total tag fr items : fr_attributes fr = (items, Done) -> exists rows, slack_rows p tag fr = (rows, Done).
  Proof.
    intro D. assert (ND : Forall (fun f => snd (frs_gen f) = Done) (fr_base fr :: fr_children fr)).
    { unfold fr_attributes in D. change (frs_gen (fr_base fr) :: map frs_gen (fr_children fr)) with (map frs_gen (fr_base fr :: fr_children fr)) in D.
      revert items D. generalize (fr_base fr :: fr_children fr) as fs. induction fs as [|f fs IH]; intros items D; [constructor|].
      cbn [map gconcat] in D. destruct (snd (frs_gen f)) eqn:E; [|rewrite D in E; discriminate].
      constructor; [auto|]. unfold gapp in D. injection D as _ D. apply (IH (fst (gconcat (map frs_gen fs)))).
      rewrite <- D. now destruct (gconcat (map frs_gen fs)). }
    unfold slack_rows, fr_slack.
    assert (SG : exists l, gconcat (slack_gen (fr_base fr) :: map slack_gen (fr_children fr)) = (l, Done)).
    { change (slack_gen (fr_base fr) :: map slack_gen (fr_children fr)) with (map slack_gen (fr_base fr :: fr_children fr)).
      induction ND as [|f fs Hf ND [l IH]]; cbn [map gconcat]; [eauto|].
      assert (exists s, slack_gen f = (s, Done)) as [s E].
      { unfold slack_gen, frs_slack. unfold frs_gen in Hf. cbn [snd] in Hf. rewrite Hf. destruct (ar_real_size _); eauto. }
      rewrite E, IH. unfold gapp. cbn [fst snd]. eauto. }
    destruct SG as [l ->]. unfold grows at 1. cbn [fst snd]. apply grows_total. apply Forall_forall. intros v _.
    destruct (C52_carve [v] true) as (ls & E & _). rewrite E. unfold grows. cbn [fst snd]. apply grows_total. apply Forall_forall.
    intros [w|n] I; [|cbn; eauto].
    destruct (C52_only_plausible v true _ w E I) as (q & P & _ & -> & N). apply fna_name_inv in N as [L _].
    unfold slack_item_rows, fna_parent, u64. rewrite unp_ok by lia. cbn [bind].
    set (buf := attribute_at v q) in *. rewrite decode_ref_all. cbn [fst snd].
    destruct (lookup_clean (fld 8 buf 0 mod 2 ^ 48) (fld 8 buf 0 / 2 ^ 48) ltac:(lia)) as [o ->]. cbn [bind].
    rewrite fna_name_total by auto. cbn [bind].
    match goal with |- context [name_row ?a ?b (Ok ?c) buf] => destruct (name_row_total a b c buf L) as [r ->] end. cbn [grun]. eauto.
  Qed.

  Lemma record_block_total tag k seq fr : record_at t data size k seq fr -> sound_record fr ->
    exists rows, mft_record_rows p tag fr = (rows, Done).
  Proof.
    intros R S. pose proof (record_at_opened _ _ _ _ _ _ _ HP R) as O. unfold mft_record_rows.
    destruct (build_full_paths p fr) as [l|e] eqn:E.
    2:{ rewrite (paths_clean fr e (sound_names _ S) E). eauto. }
    assert (L : Forall (fun sv => 40 <= zlen (snd sv)) l).
    { apply (paths_iff data size t p FI HP fr l O) in E. destruct E as (vs & (i & _ & _ & _ & N) & F2).
      assert (N' : Forall (fun v => 66 <= zlen v) (in_order vs)).
      { apply Forall_forall. intros x Hx. rewrite Forall_forall in N. apply N. unfold in_order in Hx.
        apply in_app_iff in Hx as [Hx|Hx]; [apply in_rev in Hx|]; now apply filter_In in Hx. }
      revert N' F2. generalize (in_order vs) as ws. clear. intros ws N F2. induction F2 as [|v sv ws l [Es _] F2 IH]; constructor;
        inversion N; subst; auto. lia. }
    destruct (record_total tag k seq fr l R S L) as [a ->]. cbn [gseq].
    destruct (index_total tag k seq fr l R S) as [b ->]. cbn [gseq].
    destruct S as (items & D & _). destruct (slack_total tag fr items D) as [c ->]. unfold gapp. cbn [fst snd]. eauto.
  Qed.
End Sound.
