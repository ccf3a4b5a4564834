(** Proofs about the report on the file records. *)
From Coq Require Import String Sorted.
From Verif Require Import Base BaseLemmas FieldLemmas MappingPairs MappingPairsProofs Frs FrsSpec FrsProofs FileRecord FileRecordSpec FileRecordProofs
  Mft MftSpec MftProofs MftPathProofs Filetime Wsl Attributes AttributesSpec AttributesProofs IndexProofs FieldsProofs Carve CarveSpec Properties_Carve
  Report ReportSpec ReportProofs.
Local Open Scope Z_scope.
Local Set Warnings "-abstract-large-number".

(** ** Control flow *)

Lemma grows_done {A B} (f : A -> gen B) l st : forall rows, grows_in f l st = (rows, Done) ->
  st = Done /\ exists parts, Forall2 (fun a r => f a = (r, Done)) l parts /\ rows = concat parts.
Proof.
  induction l as [|a l IH]; intros rows H; cbn [grows_in] in H.
  - injection H as <- ->. split; [auto|]. exists []. auto.
  - destruct (f a) as [r [|e]] eqn:E; [|discriminate]. unfold gapp in H. destruct (grows_in f l st) as [r' st'] eqn:E'.
    cbn [fst snd] in H. injection H as <- ->. destruct (IH _ eq_refl) as (-> & parts & F & ->).
    split; [auto|]. exists (r :: parts). split; [constructor; auto|reflexivity].
Qed.

Lemma grows_raised {A B} (f : A -> gen B) l e : forall rows, grows_in f l Done = (rows, Raised e) ->
  exists l1 a l2 parts part, l = l1 ++ a :: l2 /\ Forall2 (fun a r => f a = (r, Done)) l1 parts /\
    f a = (part, Raised e) /\ rows = concat parts ++ part.
Proof.
  induction l as [|a l IH]; intros rows H; cbn [grows_in] in H; [discriminate|].
  destruct (f a) as [r [|x]] eqn:E.
  - unfold gapp in H. destruct (grows_in f l Done) as [r' st'] eqn:E'.
    cbn [fst snd] in H. injection H as <- ->. destruct (IH _ eq_refl) as (l1 & b & l2 & parts & part & -> & F & K & ->).
    exists (a :: l1), b, l2, (r :: parts), part. split; [auto|]. split; [constructor; auto|]. split; [auto|].
    cbn [concat]. now rewrite app_assoc.
  - injection H as <- <-. exists [], a, l, [], r. repeat split; auto.
Qed.

Lemma grun_done {A B} (r : result A) (k : A -> gen B) rows : grun r k = (rows, Done) -> exists x, r = Ok x /\ k x = (rows, Done).
Proof. destruct r; cbn; [eauto|discriminate]. Qed.

Lemma gseq_done {B} (g h : gen B) rows : gseq g h = (rows, Done) ->
  exists a b, g = (a, Done) /\ h = (b, Done) /\ rows = a ++ b.
Proof.
  unfold gseq. destruct g as [a [|e]]; [|discriminate]. unfold gapp. destruct h as [b st]. cbn [fst snd].
  intro H; injection H as <- ->. eauto.
Qed.

(** ** Values of a record are bytes *)

Lemma attr_seq_bytes d ff pos l e : bytes_ok d -> attr_seq d ff shows pos l e -> Forall item_bytes l.
Proof.
  intros B. induction 1 as [|pos len ty name c a l e H1 H2 H3 H4 IH]; constructor; auto.
  destruct a as [t n v|]; cbn; [|auto]. destruct c as [w|[[? [? ?]] ?]]; cbn in H3; [|contradiction].
  destruct H3 as (_ & _ & ->). inversion H2; subst. now apply bytes_ok_slice.
Qed.

Lemma fr_attributes_bytes fr : opened_record fr -> Forall item_bytes (fst (fr_attributes fr)).
Proof.
  assert (K : forall f, opened f -> Forall item_bytes (fst (frs_gen f))).
  { intros f O. pose proof (opened_bytes f O) as B. destruct O as [raw [ap [sug [Hb H]]]].
    pose proof (frs_attributes_spec raw ap sug f Hb H) as P; cbn zeta in P.
    destruct P as [_ [_ [e [P _]]]]. eapply attr_seq_bytes; [|exact P]; auto. }
  intros [H1 H2]; unfold fr_attributes; apply gconcat_Forall; constructor; [now apply K|].
  rewrite Forall_map. eapply Forall_impl; [|exact H2]. exact K.
Qed.

(** ** The rows of a record *)

Section Rows.
  Variable data : list Z.
  Variable size : Z.
  Variable t : list (Z * frs).
  Variable p : mft.
  Hypothesis FI : fits data.
  Hypothesis HP : parser_of data size t p.

  Lemma HB : bytes_ok data.
  Proof. exact (proj1 HP). Qed.
  Lemma HS : size_ok size.
  Proof. exact (proj1 (proj2 HP)). Qed.

  Lemma reference_value k seq fr ref : record_at t data size k seq fr -> fr_reference fr = Ok ref ->
    ref = number_in k (fr_base fr) + 2 ^ 48 * fld 2 (frs_data (fr_base fr)) 16.
  Proof.
    intros (f & s & H & _ & _ & _ & ->) E. cbn [fr_base] in *. unfold fr_reference in E. cbn [fr_base] in E.
    destruct (segment_at_bytes _ _ _ _ HB H) as [Bf S]. rewrite (mft_number_spec f k Bf S) in E. injection E as <-.
    pose proof (number_in_bound _ _ _ _ FI HS HB H). unfold h_sequence.
    rewrite encode_ref_value; [lia|auto|apply fld_nonneg; auto].
  Qed.

  Lemma record_rows_part tag k seq fr l rows : record_at t data size k seq fr ->
    record_rows tag fr l = (rows, Done) -> record_part tag k fr l rows.
  Proof.
    intros R H. pose proof (fr_attributes_bytes fr (record_at_opened _ _ _ _ _ _ _ HP R)) as IB.
    unfold record_rows in H. apply grun_done in H as (fa & Ef & H). apply grun_done in H as (si & Es & H).
    apply grun_done in H as (ref & Er & H). cbn zeta in H.
    assert (D : exists items, fr_attributes fr = (items, Done)).
    { destruct (fr_attributes fr) as [items [|e]]; [eauto|]. unfold facts_of in Ef. cbn [fst snd] in Ef. exfalso.
      revert Ef. generalize (mk_facts None None [] None None). induction items as [|a items IH]; intros s Ef; cbn [facts_in] in Ef; [discriminate|].
      apply bind_ok in Ef as (s' & _ & Ef). inversion IB; subst. eapply IH; eauto. }
    destruct D as [items D]. rewrite D in *. cbn [fst] in IB.
    exists items. split; [auto|].
    assert (RR : forall path fn, record_row tag k fr items path fn
      (([format_source (txt "File record") tag; Num ref; yes_no (fr_in_use fr); yes_no (fr_directory fr);
         Num (h_lsn (frs_data (fr_base fr)))] ++ [path] ++ si ++ fn ++ tail_cells fa))).
    { intros path fn. eapply rr; [apply source_cell|apply flag_cell, fr_in_use_spec|apply flag_cell; eapply fr_directory_spec; [exact HB|exact R]
        |eapply si_cells_shown; eauto|eapply objid_cell_shown; eauto|eapply size_cell_shown; eauto|eapply ads_cell_shown; eauto
        |eapply wsl_cells_shown; eauto|].
      rewrite (reference_value _ _ _ _ R Er). cbn [app]. unfold tail_cells. repeat f_equal. }
    destruct l as [|x l].
    - left. split; [auto|]. injection H as <-. eexists. split; [reflexivity|]. apply (RR empty [empty; empty; empty; empty]).
    - right. split; [discriminate|]. unfold grows in H. cbn [fst snd] in H.
      apply grows_done in H as (_ & parts & F & ->). remember (x :: l) as l' eqn:El. clear El x l.
      induction F as [|x r l parts Hx F IH]; cbn [concat]; [constructor|].
      apply grun_done in Hx as (fn & Ef' & Hx). injection Hx as <-. cbn [app]. constructor; [|exact IH].
      exists fn. split; [now apply fn_cells_shown|]. apply RR.
  Qed.

  (** ** Names found elsewhere *)

  Lemma name_row_shown source ref path v r : bytes_ok v -> name_row source ref (Ok path) v = Ok r -> 65 <= zlen v ->
    name_row_is source ref path v r.
  Proof.
    intros Bv H L. unfold name_row in H. cbn [bind] in H.
    apply bind_ok in H as (dir & Ed & H). apply bind_ok in H as (fn & Ef & H). apply bind_ok in H as (sz & Es & H). injection H as <-.
    unfold fn_directory, fna_file_attributes, fnd, u32 in Ed. rewrite unp_zdrop, unp_ok in Ed by lia. cbn [bind] in Ed. injection Ed as <-.
    unfold fna_file_size, fnd in Es. rewrite unp_s_zdrop in Es by lia. unfold unp_s in Es. rewrite unp_ok in Es by lia.
    cbn [bind] in Es. injection Es as <-.
    apply (nr source ref path v _ fn); [auto| |now apply fn_cells_shown].
    apply flag_cell. change DUP_FILE_NAME_INDEX_PRESENT with (2 ^ 28). rewrite land_pow2_pos by lia. reflexivity.
  Qed.

  Lemma fna_name_inv v n : fna_name v = Ok n -> 65 <= zlen v /\ n = name_in v.
  Proof.
    intro H. unfold fna_name, fna_name_length, u8 in H. apply bind_ok in H as (k & E & H). apply unp_inv in E as [L ->]; try lia.
    injection H as <-. split; [lia|reflexivity].
  Qed.

  Lemma under_child dir name : under dir name = child_path dir name.
  Proof. destruct dir; reflexivity. Qed.

  Lemma first_in_some {A B} (f : A -> result (option B)) l st b : first_in f l st = Ok (Some b) ->
    exists l1 a l2, l = l1 ++ a :: l2 /\ Forall (fun x => f x = Ok None) l1 /\ f a = Ok (Some b).
  Proof.
    induction l as [|a l IH]; cbn [first_in]; intro H; [destruct st; discriminate|].
    apply bind_ok in H as ([x|] & E & H).
    - injection H as ->. exists [], a, l. auto.
    - destruct (IH H) as (l1 & y & l2 & -> & F & K). exists (a :: l1), y, l2. auto.
  Qed.

  Lemma first_in_none {A B} (f : A -> result (option B)) l st : first_in f l st = Ok None ->
    Forall (fun x => f x = Ok None) l.
  Proof.
    induction l as [|a l IH]; cbn [first_in]; intro H; [constructor|].
    apply bind_ok in H as ([x|] & E & H); [discriminate|]. auto.
  Qed.

  Lemma ix_walk_nonempty v lim stop pos ps st : ix_walk v lim stop pos ps st -> 0 <= pos -> bytes_ok v ->
    Forall (fun q => 0 <= q /\ q + 12 <= zlen v /\ fld 2 v (q + 10) <> 0) ps.
  Proof.
    induction 1; intros; constructor; auto; try (repeat split; lia).
    apply IHix_walk; [|auto]. pose proof (fld_bound 2 v (pos + 8) ltac:(lia) ltac:(lia) ltac:(auto)). lia.
  Qed.

  Lemma entry_rows_shown tag l v q rows : bytes_ok v -> 0 <= q /\ q + 12 <= zlen v /\ fld 2 v (q + 10) <> 0 ->
    root_entry_rows tag l (zdrop q v) = (rows, Done) -> entry_row tag l v q rows.
  Proof.
    intros B (Hq & L & N) H. unfold entry_row. set (e := zdrop q v) in *. cbn zeta.
    assert (Be : bytes_ok e) by now apply bytes_ok_zdrop.
    assert (N' : fld 2 e 10 <> 0) by (unfold e; now rewrite fld_zdrop by lia).
    pose proof (fld_bound 2 e 10 ltac:(lia) ltac:(lia) Be).
    unfold root_entry_rows in H. apply grun_done in H as (o & Eo & H). unfold ie_attribute in Eo.
    apply bind_ok in Eo as (n & En & Eo). apply bind_ok in Eo as (f & Ef & Eo).
    unfold ie_attribute_length, ie_flags, u16 in En, Ef. apply unp_inv in En as [_ ->]; try lia. apply unp_inv in Ef as [_ ->]; try lia.
    change INDEX_ENTRY_END with (2 ^ 1) in Eo. rewrite land_pow2 in Eo by lia. change (2 ^ 1) with 2 in Eo.
    replace (0 <? fld 2 e 10) with true in Eo by lia.
    destruct (Z.testbit (fld 2 e 12) 1); cbn [Z.eqb andb] in Eo.
    - left. injection Eo as <-. injection H as <-. auto.
    - right. injection Eo as <-. split; [auto|]. apply grun_done in H as (r & Er & H). injection H as <-.
      apply bind_ok in Er as (name & Ename & Er). apply bind_ok in Er as (ref & Eref & Er).
      apply fna_name_inv in Ename as [L65 ->]. unfold ie_reference, u64 in Eref. apply unp_inv in Eref as [_ ->]; try lia.
      exists (format_source (txt "Index record") tag), r. split; [auto|]. split; [apply source_cell|].
      rewrite under_child in Er. change (first_path l) with (first_of l) in Er.
      apply name_row_shown; auto. now apply bytes_ok_slice.
  Qed.

  Lemma index_rows_part tag k seq fr l rows items : record_at t data size k seq fr -> fr_attributes fr = (items, Done) ->
    index_rows tag fr l = (rows, Done) -> index_part tag fr l rows.
  Proof.
    intros R D H. pose proof (fr_attributes_bytes fr (record_at_opened _ _ _ _ _ _ _ HP R)) as IB. rewrite D in IB. cbn [fst] in IB.
    pose proof (fr_directory_spec _ _ _ _ _ _ HB R) as HD.
    exists items. split; [auto|]. unfold index_rows in H. destruct (fr_directory fr).
    2:{ left. injection H as <-. split; [left|reflexivity]. intro K. apply HD in K. discriminate. }
    apply grun_done in H as (ir & Ei & H). unfold name_index, gfirst in Ei. rewrite D in Ei. cbn [fst snd] in Ei.
    match type of Ei with first_in ?g _ _ = _ => set (f := g) in * end.
    assert (FN : forall a, f a = Ok None -> ~ is_name_index a).
    { intros a Ha (nm & v & -> & K). unfold f in Ha. cbn [value_of_type] in Ha.
      change (0x90 =? ATTR_TYPE_INDEX_ALLOCATION) with false in Ha. change (0x90 =? ATTR_TYPE_INDEX_ROOT) with true in Ha.
      cbn [bind] in Ha. apply bind_ok in Ha as (ty & Et & Ha). unfold ir_type_code, u32 in Et. apply unp_inv in Et as [_ ->]; try lia.
      rewrite K in Ha. discriminate. }
    destruct ir as [v|].
    - right. split; [now apply HD|]. apply first_in_some in Ei as (l1 & a & l2 & -> & F & Ea).
      apply Forall_app in IB as [_ IB]. inversion IB as [|? ? Ba _]; subst.
      assert (A : exists nm, a = Resident 0x90 nm v /\ fld 4 v 0 = 0x30).
      { unfold f in Ea. apply bind_ok in Ea as (o & Eo & Ea). destruct o as [w|]; [|discriminate].
        apply bind_ok in Ea as (ty & Et & Ea). unfold ir_type_code, u32 in Et. apply unp_inv in Et as [_ ->]; try lia.
        destruct (Z.eqb_spec (fld 4 w 0) ATTR_TYPE_FILE_NAME) as [E|]; [|discriminate]. injection Ea as ->.
        destruct a as [ty nm w|]; cbn [value_of_type] in Eo; [|discriminate].
        destruct (ty =? ATTR_TYPE_INDEX_ALLOCATION); [discriminate|].
        destruct (Z.eqb_spec ty ATTR_TYPE_INDEX_ROOT) as [->|]; [|discriminate]. injection Eo as ->. exists nm. auto. }
      destruct A as (nm & -> & K). cbn in Ba.
      unfold grows in H. apply grows_done in H as (Est & parts & FP & ->).
      unfold ir_index_entries in *. destruct (index_entries_walk 16 false v ltac:(lia) Ba) as [W1 W2].
      destruct (Z.le_gt_cases (16 + 8) (zlen v)) as [L|L]; [|rewrite W2 in Est by lia; discriminate].
      destruct (W1 L) as (ps & st & W & E). rewrite E in *. cbn [fst snd] in *. subst st.
      exists nm, v, ps, parts. split; [|split; [exact W|split; [|reflexivity]]].
      + exists l1, l2. split; [auto|]. split; [eapply Forall_impl; [|exact F]; exact FN|]. exists nm, v. auto.
      + pose proof (ix_walk_nonempty _ _ _ _ _ _ W ltac:(pose proof (fld_bound 4 v 16 ltac:(lia) ltac:(lia) Ba); lia) Ba) as NE.
        clear - FP NE Ba. remember (map (fun q => zdrop q v) ps) as es eqn:Ees. revert ps Ees NE.
        induction FP as [|e r es parts He FP IH]; intros ps Ees NE; destruct ps as [|q ps]; try discriminate; [constructor|].
        injection Ees as -> ->. inversion NE; subst. constructor; [now apply entry_rows_shown|]. apply IH; auto.
    - left. injection H as <-. split; [right|reflexivity]. apply first_in_none in Ei. eapply Forall_impl; [|exact Ei]. exact FN.
  Qed.

  (** ** Slack space *)

  Lemma paths_iff fr l : opened_record fr -> build_full_paths p fr = Ok l <-> paths_are t data size fr l.
  Proof.
    intro O. rewrite (build_full_paths_iff _ _ _ _ _ _ FI HP O). unfold paths_are, in_order. split; intros (vs & H & F); exists vs;
      (split; [auto|]); [apply path_lines in F|apply path_lines]; auto using HS.
  Qed.

  Lemma reached_iff n seq fr : 0 <= n -> by_number p n (Some seq) true = Ok fr <-> reached t data size n seq fr.
  Proof.
    intro Hn. rewrite (by_number_true_iff _ _ _ _ _ _ _ FI HP Hn). unfold reached.
    split; (intros [H|H]; [left; exact H|right]).
    - destruct H as (f & s & H1 & H2 & H3 & [H4|H4] & H5 & H6); [discriminate|]. injection H4 as ->. exists f. auto.
    - destruct H as (f & H1 & H2 & H3 & H5 & H6). exists f, seq. auto 10.
  Qed.

  Lemma reached_opened n seq fr : reached t data size n seq fr -> opened_record fr.
  Proof.
    intros [H|(f & _ & _ & _ & _ & H)]; eapply record_at_opened; eauto.
  Qed.

  Lemma lookup_located ref o : lookup_path p (fst (decode_ref ref)) (Some (snd (decode_ref ref))) = Ok o -> located t data size ref o.
  Proof.
    rewrite decode_ref_all. cbn [fst snd]. intro H. unfold lookup_path in H.
    assert (Hn : 0 <= ref mod 2 ^ 48) by lia.
    assert (K : forall s fr v l, reached t data size (ref mod 2 ^ 48) (ref / 2 ^ 48) fr -> paths_are t data size fr ((s, v) :: l) ->
      o = Some s).
    { intros s fr v l R P. pose proof (reached_opened _ _ _ R) as O. apply (reached_iff _ _ _ Hn) in R. apply (paths_iff _ _ O) in P.
      rewrite R in H. cbn [bind] in H. rewrite P in H. injection H as <-. reflexivity. }
    unfold located. destruct o as [s|].
    - destruct (by_number p (ref mod 2 ^ 48) (Some (ref / 2 ^ 48)) true) as [fr|e] eqn:E; cbn [bind] in H.
      2:{ destruct (is_mft_exn e); discriminate. }
      apply (reached_iff _ _ _ Hn) in E. destruct (build_full_paths p fr) as [l|e] eqn:El.
      2:{ destruct (is_mft_exn e); discriminate. }
      destruct l as [|[s' v] l]; [discriminate|]. injection H as ->.
      exists fr, v, l. split; [auto|]. apply (paths_iff _ _ (reached_opened _ _ _ E)). auto.
    - intros s (fr & v & l & R & P). specialize (K s fr v l R P). discriminate.
  Qed.

  Lemma slack_item_shown tag item rows : (forall v, item = CName v -> bytes_ok v) -> slack_item_rows p tag item = (rows, Done) ->
    exists r, rows = [r] /\ carved_row t data size tag item r.
  Proof.
    intros Bi H. unfold slack_item_rows in H. destruct item as [v|n].
    - apply grun_done in H as (r & Er & H). injection H as <-. exists r. split; [auto|].
      exists (format_source (txt "Slack") tag). split; [apply source_cell|].
      unfold name_row in Er. apply bind_ok in Er as (s & Es & Er).
      apply bind_ok in Es as (ref & Eref & Es). apply bind_ok in Es as (dir & Ed & Es). apply bind_ok in Es as (name & En & Es). injection Es as <-.
      unfold fna_parent, u64 in Eref. apply unp_inv in Eref as [_ ->]; try lia. apply fna_name_inv in En as [L ->].
      exists dir. split; [now apply lookup_located|]. rewrite <- under_child.
      apply name_row_shown; auto.
    - injection H as <-. eexists. split; [reflexivity|]. exists (format_source (txt "Slack") tag). split; [apply source_cell|]. reflexivity.
  Qed.

  Lemma grows_app {A B} (f : A -> gen B) l1 l2 st : grows_in f (l1 ++ l2) st = gseq (grows_in f l1 Done) (grows_in f l2 st).
  Proof.
    induction l1 as [|a l1 IH]; cbn [app grows_in].
    - cbn [gseq]. unfold gapp. now destruct (grows_in f l2 st).
    - destruct (f a) as [r [|e]]; [|reflexivity]. rewrite IH.
      destruct (grows_in f l1 Done) as [r1 [|e]]; cbn [gseq gapp fst snd]; [|reflexivity].
      unfold gapp. cbn [fst snd]. now rewrite app_assoc.
  Qed.

  Lemma grows_concat {A B} (f : A -> gen B) gs rows : grows f (gconcat gs) = (rows, Done) ->
    exists parts, Forall2 (fun g r => grows f g = (r, Done)) gs parts /\ rows = concat parts.
  Proof.
    revert rows. induction gs as [|g gs IH]; intros rows H.
    - cbn in H. injection H as <-. exists []. auto.
    - cbn [gconcat] in H. destruct (snd g) eqn:Es.
      + unfold grows, gapp in H. cbn [fst snd] in H. rewrite grows_app in H. apply gseq_done in H as (a & b & H1 & H2 & ->).
        destruct (IH b H2) as (parts & F & ->). exists (a :: parts). split; [|reflexivity]. constructor; [|auto].
        unfold grows. now rewrite Es.
      + exfalso. unfold grows in H. apply grows_done in H as [H _]. congruence.
  Qed.

  Lemma segment_slack_shown tag f rows : opened f ->
    grows (fun s => grows (slack_item_rows p tag) (carve [s] true)) (slack_gen f) = (rows, Done) -> segment_slack t data size tag f rows.
  Proof.
    intros O H. pose proof (opened_bytes f O) as B. destruct O as (raw & ap & sug & Hb & Ho).
    pose proof (frs_attributes_spec raw ap sug f Hb Ho) as P; cbn zeta in P. destruct P as (_ & _ & e & W & _ & P).
    unfold slack_gen, frs_slack in H. destruct (ar_status (frs_attributes f)) as [|x] eqn:Es.
    2:{ unfold grows in H. cbn in H. discriminate. }
    destruct P as [[P1 P2]|(P1 & P2 & P3)].
    - rewrite P2 in H. injection H as <-. exists None. split; [|auto]. exists (ar_items (frs_attributes f)), e. auto.
    - rewrite P3 in H. exists (Some (zdrop (e + 4) (frs_data f))). split; [exists (ar_items (frs_attributes f)), e; auto|].
      unfold grows at 1 in H. cbn [fst snd grows_in] in H.
      set (v := zdrop (e + 4) (frs_data f)) in *. assert (Bv : bytes_ok v) by now apply bytes_ok_zdrop.
      destruct (grows (slack_item_rows p tag) (carve [v] true)) as [r [|x]] eqn:G; [|discriminate].
      unfold gapp in H. cbn [fst snd] in H. rewrite app_nil_r in H. injection H as ->.
      destruct (C52_carve [v] true) as (ls & E & F). inversion F as [|? l ? ? I1 I2]; subst. inversion I2; subst.
      cbn [concat] in E. rewrite app_nil_r in E. exists l. split; [auto|]. rewrite E in G.
      assert (BI : Forall (fun item => forall w, item = CName w -> bytes_ok w) l).
      { apply Forall_forall. intros item I w ->. destruct (C52_only_plausible v true l w E I) as (q & _ & _ & -> & _).
        unfold attribute_at. apply bytes_ok_app. split; [|now apply bytes_ok_zdrop].
        destruct (8 <=? q); [now apply bytes_ok_slice|]. apply bytes_okb_ok. reflexivity. }
      unfold grows in G. apply grows_done in G as (_ & parts & FP & ->). clear - FI HP FP BI. cbn [fst] in FP.
      induction FP as [|a r l parts Ha FP IH]; cbn [concat]; [constructor|]. inversion BI; subst.
      destruct (slack_item_shown tag a r H1 Ha) as (x & -> & C). cbn [app]. constructor; auto.
  Qed.

  Lemma slack_rows_part tag fr rows : opened_record fr -> slack_rows p tag fr = (rows, Done) -> slack_part t data size tag fr rows.
  Proof.
    intros [O1 O2] H. unfold slack_rows, fr_slack in H. apply grows_concat in H as (parts & F & ->).
    exists parts. split; [|auto]. change (slack_gen (fr_base fr) :: map slack_gen (fr_children fr)) with (map slack_gen (fr_base fr :: fr_children fr)) in F.
    assert (O : Forall opened (fr_base fr :: fr_children fr)) by (constructor; auto). revert O F.
    generalize (fr_base fr :: fr_children fr) as fs. clear - FI HP. intros fs O. revert parts.
    induction O as [|f fs Of O IH]; intros parts F; inversion F; subst; constructor; auto.
    now apply segment_slack_shown.
  Qed.

  Lemma record_rows_block tag k seq fr rows : record_at t data size k seq fr ->
    mft_record_rows p tag fr = (rows, Done) -> record_block t data size tag k fr rows.
  Proof.
    intros R H. pose proof (record_at_opened _ _ _ _ _ _ _ HP R) as O. unfold mft_record_rows in H.
    destruct (build_full_paths p fr) as [l|e] eqn:E.
    - right. apply gseq_done in H as (a & x & Ha & H & ->). apply gseq_done in H as (b & c & Hb & Hc & ->).
      exists l, a, b, c. split; [now apply paths_iff|]. pose proof (record_rows_part tag k seq fr l a R Ha) as RP.
      split; [exact RP|]. destruct RP as (items & D & _). split; [eapply index_rows_part; eauto|]. split; [|auto].
      now apply slack_rows_part.
    - destruct (is_mft_exn e); [|discriminate]. left. injection H as <-. split; [|auto].
      intros l P. apply (paths_iff _ _ O) in P. congruence.
  Qed.
End Rows.
