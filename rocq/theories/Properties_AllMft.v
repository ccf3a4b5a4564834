(** C84: the report on a volume and its shadow copies. *)
From Coq Require Import String.
From Verif Require Import Base BaseLemmas FieldLemmas Frs FrsSpec FileRecord FileRecordSpec FileRecordProofs MftSamples FragmentedFile FragmentedFileSpec
  Attributes Volume VolumeSpec VolumeProofs
  Properties_Volume Shadow ShadowSpec ShadowRead ShadowSelect Properties_Shadow FatDir Report LogReport ReportText ReportTextSpec
  ReportTextProofs Filetime FiletimeProofs Properties_Filetime Mount MountSpec Properties_Mount ShadowImages AllMft AllMftSpec.
Local Open Scope Z_scope.

(** ** Selections do not depend on earlier ones *)

Lemma select_any fuel depth v cbs cbs3 sel st st' :
  snd (select fuel depth v cbs cbs3 st sel) = snd (select fuel depth v cbs cbs3 st' sel) /\
  (snd (select fuel depth v cbs cbs3 st sel) = Ok tt ->
   fst (select fuel depth v cbs cbs3 st sel) = fst (select fuel depth v cbs cbs3 st' sel)).
Proof.
  destruct depth as [|d]; [cbn [select snd]; split; [reflexivity|discriminate]|]. cbn [select].
  unfold step at 1 3 5 7 9 11. destruct (find_items cbs cbs3 sel) as [it|e]; [|cbn [snd]; split; [reflexivity|discriminate]].
  destruct st as [p nx], st' as [p' nx'], it as [c2 c3]. unfold step.
  destruct (read_bitmap fuel v (i2_size c2) (i3_bitmap c3)) as [x1|e]; [|cbn [snd]; split; [reflexivity|discriminate]].
  destruct (read_bitmap fuel v (i2_size c2) (i3_prev c3)) as [x2|e]; [|cbn [snd]; split; [reflexivity|discriminate]].
  destruct (read_locations fuel v (i3_loc c3)) as [x3|e]; [|cbn [snd]; split; [reflexivity|discriminate]].
  destruct (read_app_info v (i3_app c3)) as [x4|e]; [|cbn [snd]; split; [reflexivity|discriminate]].
  destruct (read_diff_area fuel v (i3_diff c3)) as [x5|e]; [|cbn [snd]; split; [reflexivity|discriminate]].
  destruct (select fuel d v cbs cbs3 (new_pstate, []) (ByPos (i2_pos c2 + 1))) as [nst r].
  assert (D : forall n, set_done (set_index (set_diff (set_app (set_locs (set_prev (set_bitmap (set_items p (c2, c3)) x1) x2) x3) x4) x5) (diff_index x5 0 []))
      (null_targets (set_index (set_diff (set_app (set_locs (set_prev (set_bitmap (set_items p (c2, c3)) x1) x2) x3) x4) x5) (diff_index x5 0 []))) n =
    set_done (set_index (set_diff (set_app (set_locs (set_prev (set_bitmap (set_items p' (c2, c3)) x1) x2) x3) x4) x5) (diff_index x5 0 []))
      (null_targets (set_index (set_diff (set_app (set_locs (set_prev (set_bitmap (set_items p' (c2, c3)) x1) x2) x3) x4) x5) (diff_index x5 0 []))) n)
    by (intro n; reflexivity).
  destruct r as [[]|e]; [cbn [fst snd]; split; [reflexivity|intros _; now rewrite D]|].
  destruct e; cbn [fst snd]; (split; [reflexivity|first [discriminate|intros _; now rewrite D]]).
Qed.

(** The result of a selection, and what is shown then, are the same for a
    parser that was used before. *)
Theorem C84_fresh : forall fuel depth o st pos sel,
  snd (select_shadow fuel depth (set_state o st pos) sel) = snd (select_shadow fuel depth o sel) /\
  (snd (select_shadow fuel depth o sel) = Ok tt ->
   select_shadow fuel depth (set_state o st pos) sel = select_shadow fuel depth o sel).
Proof.
  intros fuel depth o st pos sel. unfold select_shadow. cbn [set_state sp_two sp_second sp_store sp_cbs sp_cbs3 sp_cur sp_next sp_pos].
  destruct (negb (sp_two o) && sp_second o); [cbn [snd]; split; [reflexivity|discriminate]|].
  destruct (select_any fuel depth (sp_store o) (sp_cbs o) (sp_cbs3 o) sel (fst st, snd st) (sp_cur o, sp_next o)) as [A B].
  destruct (select fuel depth (sp_store o) (sp_cbs o) (sp_cbs3 o) (fst st, snd st) sel) as [s1 r1].
  destruct (select fuel depth (sp_store o) (sp_cbs o) (sp_cbs3 o) (sp_cur o, sp_next o) sel) as [s2 r2]. cbn [fst snd] in *. subst r2.
  split; [reflexivity|]. intros ->. now rewrite (B eq_refl).
Qed.
Print Assumptions C84_fresh.

(** ** Tables *)

Lemma main_size_nonneg f fsize : opened_record (mk_fr f []) -> main_size f fsize -> 0 <= fsize.
Proof.
  intros O (items & ty & n & mp & r & hi & back & E & F). pose proof (fr_attributes_decodes _ O) as D. rewrite E in D. cbn [fst] in D.
  assert (I : In (Nonresident ty n mp r 0 hi fsize) items).
  { assert (I : In (Nonresident ty n mp r 0 hi fsize) (filter starts_stream (stream_parts None false items))) by (rewrite F; now left).
    apply filter_In in I as [I _]. unfold stream_parts in I. now apply filter_In in I as [I _]. }
  rewrite Forall_forall in D. specialize (D _ I). cbn in D. destruct D as (m & _ & _ & _ & D). exact D.
Qed.

(** The table is read as a whole exactly if it has content throughout. *)
Theorem C84_table : forall vol voff t, bytes_ok vol -> zlen vol < 2 ^ 63 -> 0 <= voff ->
  (table_of vol voff = Ok t <-> table_content vol voff t).
Proof.
  intros vol voff t B Hv Ho.
  assert (K : forall v cs runs fsize, volume_open vol voff = Ok v -> vo_file v = ff_open vol voff cs runs fsize ->
    table_located vol voff (vo_boot v) cs runs fsize -> 
    (ff_pread (vo_file v) 0 (ff_size (vo_file v)) = Ok t <-> reads (mk_layout vol voff cs runs) fsize 0 fsize t)).
  { intros v cs runs fsize V EF T. destruct (C66_content vol voff v B Hv Ho V) as (cs' & runs' & fsize' & T' & _ & R).
    assert (EQ : volume_open vol voff = Ok (mk_volume (vo_boot v) (ff_open vol voff cs' runs' fsize'))) by (apply C66_located; auto).
    rewrite V in EQ. injection EQ as EQ. assert (EF' : vo_file v = ff_open vol voff cs' runs' fsize') by (rewrite EQ; reflexivity).
    rewrite EF in EF'. unfold ff_open in EF'. injection EF' as E1 E2 E3. subst cs' runs' fsize'.
    assert (SZ : ff_size (vo_file v) = fsize) by (rewrite EF; reflexivity). rewrite SZ. apply R; [lia|].
    destruct T as (fs & c & f0 & runs0 & r & EB & G & OF & M & S & _).
    apply (main_size_nonneg f0); [|exact S]. split; [|constructor]. exists (slice vol (voff + c * cs) (voff + c * cs + fs)), true, (Some 0).
    split; [now apply bytes_ok_slice|exact OF]. }
  unfold table_of. rewrite bind_ok. split.
  - intros (v & V & E). destruct (C66_file vol voff v B Hv Ho V) as (cs & runs & fsize & EF & T).
    exists (vo_boot v), cs, runs, fsize. split; [exact T|]. now apply (K v cs runs fsize V EF T).
  - intros (boot & cs & runs & fsize & T & R). exists (mk_volume boot (ff_open vol voff cs runs fsize)).
    assert (V : volume_open vol voff = Ok (mk_volume boot (ff_open vol voff cs runs fsize))) by (apply C66_located; auto).
    split; [exact V|]. apply (K _ cs runs fsize V); auto.
Qed.
Print Assumptions C84_table.

(** ** Shadow copies *)

Definition shown_ok (o : parser) : Prop :=
  selected_parser o /\ bytes_ok (v_data (sp_live o)) /\ bytes_ok (v_data (sp_store o)) /\
  0 <= v_off (sp_live o) /\ 0 <= v_off (sp_store o) /\ sp_two o = false /\ sp_vsize o = None /\ sp_pos o = 0.

Lemma volume_bytes_ok o d : shown_ok o -> volume_bytes o false 0 d -> bytes_ok d.
Proof.
  intros (_ & BL & BS & _) V. apply Forall_forall. intros c I. apply (In_nth _ _ 0) in I as (k & K & E).
  destruct (V (Z.of_nat k)) as (c' & C & VB); [unfold zlen; lia|].
  assert (c' = c) as ->.
  { rewrite znth_nth_error in C by lia. rewrite Nat2Z.id, (nth_error_nth' _ 0 K) in C. congruence. }
  unfold virtual_byte, loc_byte in VB. cbn [is_filled andb] in VB.
  destruct (sector _ _ _ _ _) as [|a|a]; [injection VB as <-; unfold is_byte; lia| |].
  - eapply bytes_ok_znth in VB; eauto.
  - eapply bytes_ok_znth in VB; eauto.
Qed.


Lemma set_pos_same o : sp_pos o = 0 -> set_pos o 0 = o.
Proof. intro P. destruct o. cbn in *. now subst. Qed.

Lemma shadow_bytes_read o : shown_ok o -> exists p, read_result o false 0 None p (shadow_bytes o).
Proof.
  intros ((F & P) & BL & BS & LP & SP & N & V & P0). unfold shadow_bytes, sp_seek.
  assert (S1 : ps_sel (sp_cur o) = true) by (inversion F as [|? ? S ?]; apply S). rewrite S1. cbn [negb].
  change (0 =? 0) with true. change (0 <? 0) with false. cbn [bind]. rewrite set_pos_same by auto.
  pose proof (sp_read_spec o false LP SP F None P) as R.
  destruct (sp_read o None false) as [o' r]. destruct R as (_ & _ & R). cbn [snd]. rewrite P0 in R. eauto.
Qed.

Lemma shadow_bytes_shown o d : shown_ok o -> 0 < virtual_size o -> shadow_bytes o = Ok d -> shown_volume o d.
Proof.
  intros O S E. destruct (shadow_bytes_read o O) as [p R]. rewrite E in R. unfold read_result in R.
  destruct O as (_ & _ & _ & _ & _ & N & _). rewrite N in R. cbn [andb] in R. unfold wanted in R.
  replace (virtual_size o - 0) with (virtual_size o) in R by lia.
  replace ((virtual_size o <=? 0) || (virtual_size o <=? 0)) with false in R by lia. destruct R as (Ep & L & B & D).
  split; [exact L|]. split; [exact B|]. replace p with (zlen d) in D by lia. destruct D as [D|[D|D]]; [auto|left; lia|auto].
Qed.

Lemma volume_bytes_eq o d d' : volume_bytes o false 0 d -> volume_bytes o false 0 d' -> zlen d = zlen d' -> d = d'.
Proof.
  intros V V' L. apply znth_ext; [exact L|]. intros k K. destruct (V k K) as (c & C & B). destruct (V' k ltac:(lia)) as (c' & C' & B'). congruence.
Qed.

Lemma shown_unique o d d' : readable o false -> shown_volume o d -> shown_volume o d' -> d = d'.
Proof.
  intros (_ & RB & _) (L & V & D) (L' & V' & D').
  assert (X : forall d : list Z, zlen d <= virtual_size o -> zlen d = virtual_size o \/ unreadable o false (zlen d) -> zlen d = virtual_size o).
  { intros e LE [H|(x & X1 & X2)]; [auto|]. destruct (Z.eq_dec (zlen e) (virtual_size o)); [auto|]. exfalso. pose proof (zlen_nonneg e). apply (RB x); [lia|exact X2]. }
  apply (volume_bytes_eq o); auto. rewrite (X d), (X d'); auto.
Qed.

Lemma shadow_bytes_readable o : shown_ok o -> 0 < virtual_size o -> readable o false -> exists d, shadow_bytes o = Ok d.
Proof.
  intros O S (_ & _ & NE). destruct (shadow_bytes_read o O) as [p R]. destruct (shadow_bytes o) as [d|e]; [eauto|]. exfalso.
  unfold read_result in R. destruct O as (_ & _ & _ & _ & _ & N & _). rewrite N in R. cbn [andb] in R. unfold wanted in R.
  replace ((virtual_size o - 0 <=? 0) || (virtual_size o <=? 0)) with false in R by lia. destruct R as (Ep & R). eapply NE; [|exact R]. lia.
Qed.

(** ** The position in the tag *)

Lemma numeral_value_snoc s c : numeral_value (s ++ [c]) = 10 * numeral_value s + (c - 48).
Proof. rewrite numeral_value_app. change (zlen [c]) with 1. cbn [numeral_value]. change (zlen (@nil Z)) with 0. change (10 ^ 1) with 10. change (10 ^ 0) with 1. lia. Qed.
Lemma numeral_value_nonneg s : Forall digit s -> 0 <= numeral_value s.
Proof. induction s as [|c s IH] using rev_ind; intro D; [cbn; lia|]. apply Forall_app in D as [D1 D2]. inversion D2; subst. rewrite numeral_value_snoc. unfold digit in *. specialize (IH D1). lia. Qed.
Lemma numeral_value_pos s : Forall digit s -> s <> [] -> hd 0 s <> 48 -> 0 < numeral_value s.
Proof.
  intros D N H. destruct s as [|c s]; [congruence|]. inversion D as [|? ? D1 D2]; subst. cbn [hd] in H. cbn [numeral_value].
  pose proof (numeral_value_nonneg s D2). pose proof (Z.pow_pos_nonneg 10 (zlen s) ltac:(lia) (zlen_nonneg s)). unfold digit in *. nia.
Qed.
Lemma numeral_inj s : forall s', Forall digit s -> Forall digit s' -> (s = [] \/ hd 0 s <> 48) -> (s' = [] \/ hd 0 s' <> 48) ->
  numeral_value s = numeral_value s' -> s = s'.
Proof.
  induction s as [|c s IH] using rev_ind; intros s' D D' H H' E.
  - destruct s' as [|c' s']; [reflexivity|]. destruct H' as [H'|H']; [discriminate|].
    pose proof (numeral_value_pos (c' :: s') D' ltac:(discriminate) H'). change (numeral_value []) with 0 in E. lia.
  - apply Forall_app in D as [D1 D2]. inversion D2 as [|? ? D3 _]; subst.
    destruct s' as [|c' s' _] using rev_ind.
    + destruct H as [H|H]; [destruct s; discriminate|].
      pose proof (numeral_value_pos (s ++ [c])) as P. change (numeral_value []) with 0 in E. rewrite E in P. 
      assert (0 < 0) by (apply P; [apply Forall_app; auto|destruct s; discriminate|exact H]). lia.
    + apply Forall_app in D' as [D1' D2']. inversion D2' as [|? ? D3' _]; subst. rewrite !numeral_value_snoc in E. unfold digit in D3, D3'.
      assert (c = c') as -> by lia. f_equal. apply IH; auto; try lia.
      * destruct s; [now left|right]. destruct H as [H|H]; [destruct s; discriminate|exact H].
      * destruct s'; [now left|right]. destruct H' as [H'|H']; [destruct s'; discriminate|exact H'].
Qed.
Lemma integer_text_text s n : integer_text s n -> s = number_text n.
Proof.
  intro H. pose proof (number_text_ok n) as K. 
  assert (Z1 : forall s, zlen s = 1 -> Forall digit s -> s = [48] \/ hd 0 s <> 48).
  { intros [|c [|]] L D; unfold zlen in L; cbn [List.length] in L; try lia. cbn [hd]. destruct (Z.eq_dec c 48); [left; now subst|now right]. }
  assert (P : forall s n, numeral s n -> zlen s = 1 \/ hd 0 s <> 48 -> (s = [48] /\ n = 0) \/ (hd 0 s <> 48 /\ 0 < n)).
  { intros t m (NE & D & V) [L|L].
    - destruct (Z1 t L D) as [->|X]; [left; split; [reflexivity|rewrite <- V; reflexivity]|right; split; [exact X|rewrite <- V; now apply numeral_value_pos]].
    - right. split; [exact L|]. rewrite <- V. now apply numeral_value_pos. }
  inversion H as [s1 n1 A1 B1|s1 n1 A1 B1]; subst.
  - destruct (P _ _ A1 B1) as [[-> ->]|[Q1 Q2]]; [reflexivity|].
    inversion K as [s2 n2 A2 B2|s2 n2 A2 B2 E1 E2]; subst.
    + destruct (P _ _ A2 B2) as [[_ ->]|[Q3 _]]; [lia|]. apply numeral_inj; [apply A1|apply A2|now right|now right|].
      destruct A1 as (_ & _ & ->), A2 as (_ & _ & ->). reflexivity.
    + destruct (P _ _ A2 (or_intror B2)) as [[_ ->]|[_ Q3]]; lia.
  - destruct (P _ _ A1 (or_intror B1)) as [[-> _]|[Q1 Q2]]; [exfalso; now apply B1|].
    inversion K as [s2 n2 A2 B2|s2 n2 A2 B2 E1 E2]; subst.
    + destruct (P _ _ A2 B2) as [[_ Q]|[_ Q]]; lia.
    + f_equal. apply numeral_inj; [apply A1|apply A2|now right|now right|]. destruct A1 as (_ & _ & ->), A2 as (_ & _ & ->). lia.
Qed.

(** ** The report *)

Lemma open_one_plain fuel v o : open_one fuel v None = Ok o -> sp_two o = false /\ sp_cbs3 o = sp_cbs o.
Proof. unfold open_one. intro E. apply bind_ok in E as (start & S & E). do 2 apply bind_ok in E as (? & _ & E). injection E as <-. auto. Qed.

Lemma open_one_bytes fuel v o : bytes_ok (v_data v) -> open_one fuel v None = Ok o -> Forall bytes_ok (sp_cbs o).
Proof.
  intros B O. unfold open_one in O. apply bind_ok in O as (start & _ & O). apply bind_ok in O as (? & _ & O). apply bind_ok in O as (cbs & C & O).
  injection O as <-. cbn [sp_cbs]. unfold control_blocks in C. apply bind_ok in C as (a & _ & C). eapply chain_bytes; eauto.
Qed.

Lemma the_item2_unique l g i j : the_item2 l g i -> the_item2 l g j -> i = j.
Proof.
  intros (G & a & b & E & U) (G' & a' & b' & E' & U').
  assert (I : In (I2 j) l) by (rewrite E'; apply in_or_app; right; now left). rewrite E in I. apply in_app_or in I as [I|[I|I]].
  - exfalso. apply (U j); [apply in_or_app; auto|exact G'].
  - congruence.
  - exfalso. apply (U j); [apply in_or_app; auto|exact G'].
Qed.

(** What a selection in an opened volume shows. *)
Lemma selected_shown fuel depth v o g o1 : bytes_ok (v_data v) -> open_one fuel v None = Ok o ->
  select_shadow fuel depth o (ByGuid g) = (o1, Ok tt) ->
  shown_ok o1 /\ exists items i, all_items (sp_cbs o) = Ok items /\ the_item2 items g i /\ virtual_size o1 = i2_size i /\ 0 < virtual_size o1.
Proof.
  intros B O S. destruct (open_one_parser _ _ _ O) as (V & L & ST & P). destruct (open_one_plain _ _ _ O) as [N3 N2].
  assert (BS : bytes_ok (v_data (sp_store o))) by now rewrite ST.
  destruct (selection_ok _ _ _ _ _ S BS) as (SP & P1 & EL & ES & EV).
  assert (N : sp_two o1 = false).
  { unfold select_shadow in S. destruct (negb (sp_two o) && sp_second o); [discriminate|]. destruct (select _ _ _ _ _ _ _) as [st r].
    injection S as <- _. exact N3. }
  split; [unfold shown_ok; rewrite EL, ES, EV, L, ST; auto 9|].
  destruct (C46_selected _ _ _ _ _ S) as (l2 & l3 & g' & c2 & A2 & _ & NM & SC & T & _).
  cbn [names] in NM. subst g'. exists l2, c2. split; [exact A2|]. split; [exact T|].
  assert (VS : virtual_size o1 = i2_size c2).
  { unfold virtual_size. rewrite EV, V. 
    assert (X : forall l2 l3 g l p q, store_chain fuel (sp_store o) l2 l3 g l -> the_item2 l2 g q -> hd_error l = Some p -> ps_size p = i2_size q).
    { clear. intros l2 l3 g l p q H. destruct H as [g c2 c3 p' T2 _ SR _|g c2 c3 p' j l T2 _ SR _ _ _]; intros Q E; cbn in E; injection E as <-;
        destruct SR as (_ & _ & -> & _); f_equal; eapply the_item2_unique; eauto. }
    eapply X; [exact SC|exact T|reflexivity]. }
  split; [exact VS|]. rewrite VS.
  destruct (shadows_ok _ (open_one_bytes _ _ _ B O) _ A2) as (TO & _). rewrite Forall_forall in TO.
  destruct T as (_ & a & b & E & _). assert (I : In (I2 c2) l2) by (rewrite E; apply in_or_app; right; now left).
  specialize (TO _ I). cbn in TO. lia.
Qed.

Lemma set_state_same o : o = set_state o (sp_cur o, sp_next o) (sp_pos o).
Proof. destruct o. reflexivity. Qed.

Section Report.
  Variables fuel depth : nat.
  Variable vol : list Z.
  Variable voff : Z.
  Variable o : parser.
  Hypothesis B : bytes_ok vol.
  Hypothesis Hv : zlen vol < 2 ^ 63.
  Hypothesis Ho : 0 <= voff.
  Hypothesis SZ : sizes_ok fuel vol voff.
  Hypothesis O : open_one fuel (mk_vol vol voff) None = Ok o.

  Let section o1 pos := table_rows (let! d := shadow_bytes o1 in table_of d 0) false (shadow_tag pos).

  Lemma shown_small g o1 d : select_shadow fuel depth o (ByGuid g) = (o1, Ok tt) -> shown_volume o1 d -> bytes_ok d /\ zlen d < 2 ^ 63.
  Proof.
    intros S (L & V & _). destruct (selected_shown fuel depth (mk_vol vol voff) o g o1 B O S) as (SO & items & i & A & T & E & _).
    split; [eapply volume_bytes_ok; eauto|]. destruct T as (_ & a & b & EI & _).
    assert (I : In (I2 i) items) by (rewrite EI; apply in_or_app; right; now left). pose proof (SZ o items i O A I). lia.
  Qed.

  Lemma section_run i o1 rows st : select_shadow fuel depth o (ByGuid (i2_guid i)) = (o1, Ok tt) -> section o1 (i2_pos i) = (rows, st) ->
    match st with Done => shadow_section fuel depth o i rows | Raised e => section_fails fuel depth o i e rows end.
  Proof.
    intros S E. destruct (selected_shown fuel depth (mk_vol vol voff) o _ o1 B O S) as (SO & items & i' & A & T & EV & PV).
    unfold section, table_rows in E. destruct (shadow_bytes o1) as [d|x] eqn:SB; cbn [bind] in E.
    - pose proof (shadow_bytes_shown _ _ SO PV SB) as SV. destruct (shown_small _ _ _ S SV) as [Bd Ld].
      pose proof (fun t => C84_table d 0 t Bd Ld ltac:(lia)) as TC. destruct (table_of d 0) as [t|x] eqn:TO; cbn [grun] in E.
      + assert (TT : table_content d 0 t) by now apply TC. unfold shadow_tag in E. pose proof (number_text_ok (i2_pos i)) as N.
        destruct st as [|e]; [exists o1, d, t, (number_text (i2_pos i)); auto|eapply sf_rows; eauto].
      + injection E as <- <-. eapply sf_table; eauto. intros t TT. apply TC in TT. discriminate.
    - injection E as <- <-. destruct (shadow_bytes_read o1 SO) as [p R]. rewrite SB in R. unfold read_result in R.
      pose proof SO as (_ & _ & _ & _ & _ & N & _). rewrite N in R. cbn [andb] in R. unfold wanted in R.
      replace ((virtual_size o1 - 0 <=? 0) || (virtual_size o1 <=? 0)) with false in R by lia. destruct R as (Ep & R).
      eapply sf_read; eauto.
  Qed.

  Lemma section_back i rows : (forall g o1, select_shadow fuel depth o (ByGuid g) = (o1, Ok tt) -> readable o1 false) ->
    shadow_section fuel depth o i rows ->
    exists o1, select_shadow fuel depth o (ByGuid (i2_guid i)) = (o1, Ok tt) /\ section o1 (i2_pos i) = (rows, Done).
  Proof.
    intros R (o1 & d & t & n & S & SV & T & N & P). exists o1. split; [exact S|].
    destruct (selected_shown fuel depth (mk_vol vol voff) o _ o1 B O S) as (SO & _ & _ & _ & _ & _ & PV).
    destruct (shadow_bytes_readable o1 SO PV (R _ _ S)) as [d' SB]. pose proof (shadow_bytes_shown _ _ SO PV SB) as SV'.
    assert (d' = d) as -> by (eapply shown_unique; eauto). destruct (shown_small _ _ _ S SV) as [Bd Ld].
    apply C84_table in T; auto; [|lia]. unfold section. rewrite SB. cbn [bind]. rewrite T. unfold table_rows. cbn [grun].
    apply integer_text_text in N. subst n. exact P.
  Qed.

  Lemma select_state st pos i : exists r o1, select_shadow fuel depth (set_state o st pos) (ByGuid (i2_guid i)) = (o1, r) /\
    snd (select_shadow fuel depth o (ByGuid (i2_guid i))) = r /\
    (r = Ok tt -> select_shadow fuel depth o (ByGuid (i2_guid i)) = (o1, Ok tt) /\ exists st' pos', o1 = set_state o st' pos').
  Proof.
    destruct (C84_fresh fuel depth o st pos (ByGuid (i2_guid i))) as [F1 F2].
    destruct (select_shadow fuel depth (set_state o st pos) (ByGuid (i2_guid i))) as [o1 r] eqn:E1. cbn [snd] in F1.
    exists r, o1. split; [reflexivity|]. split; [now symmetry|]. intros ->. split; [symmetry; apply F2; now symmetry|].
    unfold select_shadow in E1. destruct (_ && _) in E1; [discriminate|]. destruct (select _ _ _ _ _ _ _) as [s r] in E1.
    injection E1 as <- _. unfold set_state. cbn. eauto.
  Qed.

  Lemma reports_run l infos : Forall2 info_of l infos -> forall st pos rows s,
    shadow_reports fuel depth (set_state o st pos) infos Done = (rows, s) ->
    match s with
    | Done => exists parts, Forall2 (shadow_section fuel depth o) l parts /\ rows = concat parts
    | Raised e => exists l1 i l2 parts part, l = l1 ++ i :: l2 /\ Forall2 (shadow_section fuel depth o) l1 parts /\
        section_fails fuel depth o i e part /\ rows = concat parts ++ part
    end.
  Proof.
    induction 1 as [|i x l infos (IP & IG & _) F IH]; intros st pos rows s E; cbn [shadow_reports] in E.
    - injection E as <- <-. exists []. split; [constructor|reflexivity].
    - rewrite IG, IP in E. destruct (select_state st pos i) as (r & o1 & S1 & S2 & S3). rewrite S1 in E. destruct r as [[]|e].
      + destruct (S3 eq_refl) as [S (st' & pos' & EO)]. fold (section o1 (i2_pos i)) in E.
        destruct (section o1 (i2_pos i)) as [r1 s1] eqn:ES. pose proof (section_run i o1 r1 s1 S ES) as R.
        destruct s1 as [|e]; cbn [gseq] in E.
        * rewrite EO in E. destruct (shadow_reports fuel depth (set_state o st' pos') infos Done) as [r2 s2] eqn:E2. cbn [gapp fst snd] in E. injection E as <- <-.
          specialize (IH st' pos' r2 s2 E2). destruct s2 as [|e].
          -- destruct IH as (parts & FP & ->). exists (r1 :: parts). split; [constructor; auto|reflexivity].
          -- destruct IH as (l1 & i' & l2 & parts & part & -> & FP & SF & ->). exists (i :: l1), i', l2, (r1 :: parts), part.
             split; [reflexivity|]. split; [constructor; auto|]. split; [exact SF|]. cbn [concat]. now rewrite app_assoc.
        * injection E as <- <-. exists [], i, l, [], r1. split; [reflexivity|]. split; [constructor|]. split; [exact R|reflexivity].
      + injection E as <- <-. exists [], i, l, [], []. split; [reflexivity|]. split; [constructor|]. split; [now apply sf_select|reflexivity].
  Qed.

  Lemma reports_back l infos : Forall2 info_of l infos -> (forall g o1, select_shadow fuel depth o (ByGuid g) = (o1, Ok tt) -> readable o1 false) ->
    forall st pos parts, Forall2 (shadow_section fuel depth o) l parts ->
    shadow_reports fuel depth (set_state o st pos) infos Done = (concat parts, Done).
  Proof.
    intros F R. induction F as [|i x l infos (IP & IG & _) F IH]; intros st pos parts FP; inversion FP as [|? part ? parts' SS FP']; subst; cbn [shadow_reports concat].
    - reflexivity.
    - rewrite IG, IP. destruct (select_state st pos i) as (r & o1 & S1 & S2 & S3). rewrite S1.
      destruct (section_back i part R SS) as (o2 & S & ES). rewrite S in S2. cbn [snd] in S2. subst r.
      destruct (S3 eq_refl) as [S' (st' & pos' & EO)]. rewrite S in S'. injection S' as ->. fold (section o1 (i2_pos i)). rewrite ES. cbn [gseq].
      rewrite EO, (IH st' pos' parts' FP'). reflexivity.
  Qed.
End Report.

Local Opaque cb_items.

Lemma shadows_bad cbs : Forall bytes_ok cbs -> forall e, all_items cbs = Err e -> exists l, shadows cbs = (l, Raised e).
Proof.
  assert (X : forall l e, Forall time_ok l -> exists r, shadows_of l (Raised e) = (r, Raised e)).
  { induction 1 as [|i l T F (r & E)]; [eexists; reflexivity|]. destruct i as [i|i]; cbn [shadows_of]; [|eauto].
    destruct T as [T _]. destruct (C16_filetime_range (i2_time i) true T) as [D1 D2].
    assert (D : exists t, decode_filetime (i2_time i) true = Ok t).
    { destruct (Z.lt_ge_cases (i2_time i) 2650467743999999840); [destruct D1 as (us & D & _); eauto|rewrite D2 by auto; eauto]. }
    destruct D as [t D]. rewrite D, E. eexists. reflexivity. }
  induction 1 as [|b cbs B F IH]; intros e E; [discriminate|]. cbn [all_items shadows] in *.
  pose proof (cb_items_time b B) as T. destruct (cb_items b) as [l s]. cbn [fst] in T. destruct s as [|x].
  - destruct (shadows_of_ok l Done T) as (r0 & E0 & _). rewrite E0. destruct (all_items cbs) as [|x] eqn:A; cbn [bind] in E; [discriminate|].
    injection E as ->. destruct (IH _ eq_refl) as [r ->]. eexists. reflexivity.
  - injection E as ->. destruct (X l e T) as [r ->]. eexists. reflexivity.
Qed.

(** Without a catalog that can be read nothing can be selected. *)
Lemma select_bad fuel depth o g e : all_items (sp_cbs o) = Err e -> sp_cbs3 o = sp_cbs o -> depth <> O ->
  exists e', snd (select_shadow fuel depth o (ByGuid g)) = Err e' /\ (e' = e \/ e' = NotImplementedError).
Proof.
  intros A C D. unfold select_shadow. destruct (_ && _); [cbn [snd]; eauto|]. destruct depth as [|d]; [congruence|]. cbn [select].
  unfold find_items. cbn [bind]. rewrite C, A. cbn [bind step snd]. eauto.
Qed.

(** The report that ends without an exception has the section of the volume
    and then one section for each item of the catalog, in its order. *)
Theorem C84_report : forall fuel depth vol voff rows, bytes_ok vol -> zlen vol < 2 ^ 63 -> 0 <= voff -> sizes_ok fuel vol voff -> depth <> O ->
  process_all_mft fuel depth vol voff = (rows, Done) -> whole_report fuel depth vol voff rows.
Proof.
  intros fuel depth vol voff rows B Hv Ho SZ D E. unfold process_all_mft in E.
  pose proof (fun t => C84_table vol voff t B Hv Ho) as TC. unfold table_rows in E at 1.
  destruct (table_of vol voff) as [t|]; cbn [grun gseq] in E; [|discriminate].
  destruct (process_mft t true (Some (txt "main volume"))) as [main s] eqn:P. destruct s as [|]; cbn [gseq] in E; [|discriminate].
  assert (M : main_section vol voff main) by (exists t; split; [now apply TC|exact P]).
  destruct (open_one fuel (mk_vol vol voff) None) as [o|e] eqn:O.
  - pose proof (open_one_bytes fuel (mk_vol vol voff) o B O) as BC. destruct (open_one_plain _ _ _ O) as [_ C3].
    destruct (all_items (sp_cbs o)) as [items|e] eqn:A.
    + destruct (shadows_ok _ BC items A) as (T & infos & SH & F). rewrite SH in E.
      destruct (shadow_reports fuel depth o infos Done) as [rest s] eqn:R. cbn [gapp fst snd] in E. injection E as <- ->.
      rewrite (set_state_same o) in R. pose proof (reports_run fuel depth vol voff o B SZ O _ _ F _ _ _ _ R) as X. destruct X as (parts & FP & ->).
      exists (Some (o, items2 items)), main, parts. split; [exact M|]. split; [cbn; eauto|]. auto.
    + exfalso. destruct (shadows_bad _ BC e A) as [infos SH]. rewrite SH in E. destruct infos as [|x infos]; [discriminate|]. cbn [shadow_reports] in E.
      destruct (select_bad fuel depth o (si_guid x) e A C3 D) as (e' & S & _). destruct (select_shadow _ _ _ _) as [o1 r]. cbn [snd] in S. subst r. discriminate.
  - exists None, main, []. split; [exact M|]. destruct e; cbn [gapp fst snd] in E; try discriminate. injection E as <-.
    split; [exact O|]. split; reflexivity.
Qed.
Print Assumptions C84_report.

(** If the shadow copies can be read, there is no other reason for an
    exception than the ones of the sections. *)
Theorem C84_complete : forall fuel depth vol voff rows, bytes_ok vol -> zlen vol < 2 ^ 63 -> 0 <= voff -> sizes_ok fuel vol voff ->
  copies_readable fuel depth vol voff -> whole_report fuel depth vol voff rows -> process_all_mft fuel depth vol voff = (rows, Done).
Proof.
  intros fuel depth vol voff rows B Hv Ho SZ RD (r & main & parts & (t & T & P) & S & -> & F). unfold process_all_mft.
  apply C84_table in T; auto. rewrite T. unfold table_rows at 1. cbn [grun]. rewrite P. cbn [gseq].
  destruct r as [[o l]|]; cbn [shadow_items] in S.
  - destruct S as (O & items & A & ->). rewrite O. pose proof (open_one_bytes fuel (mk_vol vol voff) o B O) as BC.
    destruct (shadows_ok _ BC items A) as (_ & infos & SH & FI). rewrite SH. rewrite (set_state_same o) at 1.
    rewrite (reports_back fuel depth vol voff o B SZ O _ _ FI (fun g o1 => RD o g o1 O) _ _ parts F). reflexivity.
  - rewrite S, F. cbn [concat gapp fst snd]. reflexivity.
Qed.
Print Assumptions C84_complete.

(** A report that ends with an exception has all sections before the one with
    the exception. *)
Theorem C84_failure : forall fuel depth vol voff rows e, bytes_ok vol -> zlen vol < 2 ^ 63 -> 0 <= voff -> sizes_ok fuel vol voff -> depth <> O ->
  process_all_mft fuel depth vol voff = (rows, Raised e) -> report_fails fuel depth vol voff e rows.
Proof.
  intros fuel depth vol voff rows e B Hv Ho SZ D E. unfold process_all_mft in E.
  pose proof (fun t => C84_table vol voff t B Hv Ho) as TC. unfold table_rows in E at 1.
  destruct (table_of vol voff) as [t|x]; cbn [grun gseq] in E.
  2:{ injection E as <- ->. apply rf_table. intros t T. apply TC in T. discriminate. }
  assert (T : table_content vol voff t) by now apply TC.
  destruct (process_mft t true (Some (txt "main volume"))) as [main s] eqn:P. destruct s as [|x]; cbn [gseq] in E.
  2:{ injection E as <- ->. eapply rf_main; eauto. }
  assert (M : main_section vol voff main) by (exists t; auto).
  destruct (open_one fuel (mk_vol vol voff) None) as [o|x] eqn:O.
  - pose proof (open_one_bytes fuel (mk_vol vol voff) o B O) as BC. destruct (open_one_plain _ _ _ O) as [_ C3].
    destruct (all_items (sp_cbs o)) as [items|x] eqn:A.
    + destruct (shadows_ok _ BC items A) as (_ & infos & SH & F). rewrite SH in E.
      destruct (shadow_reports fuel depth o infos Done) as [rest s] eqn:R. cbn [gapp fst snd] in E. injection E as <- ->.
      rewrite (set_state_same o) in R. pose proof (reports_run fuel depth vol voff o B SZ O _ _ F _ _ _ _ R) as X.
      destruct X as (l1 & i & l2 & parts & part & EI & FP & SF & ->). eapply rf_section; eauto.
    + destruct (shadows_bad _ BC x A) as [infos SH]. rewrite SH in E. destruct infos as [|y infos]; cbn [shadow_reports] in E.
      * change ((main ++ [], Raised x) = (rows, Raised e)) in E. rewrite app_nil_r in E. injection E as <- ->. eapply rf_items; eauto.
      * destruct (select_bad fuel depth o (si_guid y) x A C3 D) as (e' & S & EE).
        destruct (select_shadow fuel depth o (ByGuid (si_guid y))) as [o1 r]. cbn [snd] in S. subst r.
        change ((main ++ [], Raised e') = (rows, Raised e)) in E. rewrite app_nil_r in E. injection E as <- <-. eapply rf_items; eauto.
  - assert (X : x <> ShadowCopiesDisabledException -> gapp main ([], Raised x) = (rows, Raised e) -> report_fails fuel depth vol voff e rows).
    { intros N Q. change ((main ++ [], Raised x) = (rows, Raised e)) in Q. rewrite app_nil_r in Q. injection Q as <- <-. eapply rf_open; eauto. }
    destruct x; try (apply X; [discriminate|exact E]); discriminate E.
Qed.
Print Assumptions C84_failure.

(** ** A small volume with one shadow copy *)

Definition name_image (c : Z) : list Z := resident_image 0x30 (mk_name 5 5 1 [c] ++ zeros 4).
Definition small_table (c : Z) : list Z :=
  boot_image 1 ++ zeros 512 ++ segment_image (data_image 0 5 1 5120) ++ zeros 2048 ++ segment_image version_image ++ segment_image (name_image c).
(** The blocks: volume and start block, catalog, table, bitmap, saved data. *)
Definition two_tables : list Z :=
  lay 0
    [(0, small_table 97);
     (7680, vsp_guid ++ le_bytes 4 1 ++ le_bytes 4 1 ++ le_bytes 8 7680 ++ le_bytes 8 7680 ++ le_bytes 8 0 ++ le_bytes 8 (bk 1));
     (bk 1, sh_header 2 (bk 1) 0);
     (bk 1 + 128, item2_image (bk 1) guid_a 7 1024 ++ item3_image (bk 2) guid_a (bk 3));
     (bk 2, sh_header 3 (bk 2) 0);
     (bk 2 + 128, ShadowImages.entry_image (mk_entry 0 0 (bk 4) 0 0));
     (bk 3, sh_header 6 (bk 3) 0);
     (bk 4, small_table 98)] (bk 5).
Definition one_copy : parser := chosen (mk_vol two_tables 0) None guid_a.

(** The file "a" was "b" at the time of the shadow copy. *)
Example C84_example :
  (fun g => (map (fun r => (nth 0 r blank, nth 5 r blank)) (fst g), snd g)) (process_all_mft 5 5 two_tables 0) =
  ([(Txt (txt "Source"), Txt (txt "Path"));
    (Txt (txt "File record (main volume)"), Txt []); (Txt (txt "File record (main volume)"), Txt []); (Txt (txt "File record (main volume)"), Txt (txt "/a"));
    (Txt (txt "File record (shadow copy 7)"), Txt []); (Txt (txt "File record (shadow copy 7)"), Txt []); (Txt (txt "File record (shadow copy 7)"), Txt (txt "/b"))], Done).
Proof. vm_compute. reflexivity. Qed.

(** This shadow copy can be read. *)
Example C84_readable_example : select_shadow 5 5 (opened (mk_vol two_tables 0) None) (ByGuid guid_a) = (one_copy, Ok tt) /\
  virtual_size one_copy = 16384 /\ readable one_copy false.
Proof.
  assert (S : select_shadow 5 5 (opened (mk_vol two_tables 0) None) (ByGuid guid_a) = (one_copy, Ok tt)) by (apply select_pair; vm_compute; reflexivity).
  assert (V : virtual_size one_copy = 16384) by (vm_compute; reflexivity).
  assert (N : sp_next one_copy = []) by (vm_compute; reflexivity).
  assert (A : at_off (sp_cur one_copy) 0 = [mk_entry 0 0 (bk 4) 0 0]) by (vm_compute; reflexivity).
  assert (EL : sp_live one_copy = mk_vol two_tables 0 /\ sp_store one_copy = mk_vol two_tables 0 /\ sp_vsize one_copy = None /\ sp_two one_copy = false)
    by (repeat split; vm_compute; reflexivity).
  assert (L : zlen two_tables = bk 5) by (vm_compute; reflexivity).
  assert (SC : forall i, sector (sp_cur one_copy :: sp_next one_copy) 0 false false i = LStore (bk 4 + i * 512)).
  { intro i. rewrite N. cbn [sector]. rewrite A. reflexivity. }
  destruct EL as (E1 & E2 & E3 & E4). split; [exact S|]. split; [exact V|]. split; [now rewrite E4|]. rewrite V. split.
  - intros x X. unfold virtual_byte. replace (x / 16384 * 16384) with 0 by (clear - X; lia). rewrite SC. unfold loc_byte. cbn [is_filled andb].
    rewrite E2. cbn [v_data v_off]. destruct (znth_some two_tables (0 + (bk 4 + x mod 16384 / 512 * 512) + x mod 512)) as [c C]; [rewrite L; clear - X; unfold bk; lia|]. rewrite C. discriminate.
  - intros x e X [(_ & [[H|H]|H])|(_ & i & l & I & -> & _ & H)].
    + apply H. clear - X. replace (x / 16384) with 0 by lia. reflexivity.
    + rewrite E3 in H. exact H.
    + destruct H as (p & y & H & _). rewrite N in H. exact H.
    + replace (x / 16384 * 16384) with 0 in H by (clear - X; lia). rewrite SC in H. cbn [loc_high] in H. rewrite E2 in H. cbn [v_off] in H. clear - H I. unfold bk in H. lia.
Qed.
