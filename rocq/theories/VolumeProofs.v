(** Proofs about the volume parser. *)
From Verif Require Import Base BaseLemmas FieldLemmas FileObject MappingPairs MappingPairsSpec MappingPairsProofs Frs FrsSpec FrsProofs
  Sorting FileRecord FileRecordSpec FileRecordProofs FragmentedFile FragmentedFileSpec FragmentedFileProofs
  Attributes AttributesSpec AttributesProofs IndexProofs BootSector BootSectorProofs Mft MftSpec MftProofs MftPathProofs
  Volume VolumeSpec.
From Coq Require Import Permutation.

(** ** Reading the table *)

Lemma ff_pread_iff f off n out : ff_bytes_ok f -> 0 <= off -> 0 <= n ->
  ff_pread f off n = Ok out <-> reads (ff_layout f) (ff_size f) off n out.
Proof.
  destruct f as [vol voff cs runs fsize pos]. intros (B & Hc & Hr & Hv) Ho Hn. cbn [ff_volume ff_csize ff_runs] in *.
  pose proof (ff_read_spec vol voff cs runs Hc Hr Hv fsize off (Some n) Ho) as P. cbn zeta in P.
  unfold ff_pread, ff_layout, ff_set_pos, FragmentedFileProofs.mkf, reads in *.
  cbn [ff_volume ff_csize ff_runs ff_voffset ff_size ly_cluster] in *.
  destruct (ff_read (mk_ff vol voff cs runs fsize off) (Some n)) as [[o|e] f']; cbn [fst].
  - destruct P as (P1 & P2 & _). split; [intros [= <-]; auto|]. intros [Q1 Q2]. f_equal.
    apply (bytes_at_fun (mk_layout vol voff cs runs) off); auto. congruence.
  - split; [discriminate|]. intros [Q1 Q2]. exfalso. destruct P as (_ & p & _ & P2 & _ & P3).
    destruct (Q1 (p - off)) as (b & _ & C); [lia|]. apply (P3 b). now replace p with (off + (p - off)) by lia.
Qed.

Lemma ff_pread_bytes f off n out : ff_bytes_ok f -> 0 <= off -> 0 <= n -> ff_pread f off n = Ok out -> bytes_ok out.
Proof. intros B Ho Hn E. pose proof (ff_pread_spec f off n B Ho Hn) as P. rewrite E in P. tauto. Qed.

Lemma vol_frs_iff f size n r : ff_bytes_ok f -> 0 <= n -> 0 <= size ->
  vol_frs f size n = Ok r <-> table_segment (ff_layout f) (ff_size f) size n r.
Proof.
  intros B Hn Hs. unfold vol_frs, table_segment. assert (Ho : 0 <= n * size) by nia.
  destruct (Z.ltb_spec (ff_size f) (n * size)) as [L|L].
  - split; [discriminate|]. intros (raw & K & _). lia.
  - rewrite bind_ok. split.
    + intros (raw & E & O). exists raw. split; auto. split; auto. now apply ff_pread_iff.
    + intros (raw & _ & R & O). exists raw. split; auto. now apply ff_pread_iff.
Qed.

Lemma vol_frs_opened f size n r : ff_bytes_ok f -> 0 <= n -> 0 <= size -> vol_frs f size n = Ok r -> opened r.
Proof.
  intros B Hn Hs. unfold vol_frs. destruct (ff_size f <? n * size); [discriminate|].
  intro H. apply bind_ok in H as (raw & E & O). exists raw, true, (Some n). split; auto.
  eapply ff_pread_bytes; [exact B| | |exact E]; nia.
Qed.

Lemma version_check_iff f : version_check f = Ok tt <-> version_3 f.
Proof.
  unfold version_check, version_3, gfirst.
  pose proof (version_first (fst (frs_gen f)) (snd (frs_gen f))) as HV.
  match type of HV with match ?x with _ => _ end => destruct x as [[[a b]|]|e] end; cbn [bind].
  - destruct HV as (l1 & nm & v & l2 & E & HD & HN & HL & -> & ->). split.
    + intro H. exists l1, nm, v, l2. repeat (split; auto);
        destruct (Z.eqb_spec (fld 1 v 8) 3); cbn [negb] in H; try discriminate; auto.
      destruct (Z.ltb_spec (fld 1 v 9) 1); try discriminate; lia.
    + intros (m1 & nm' & v' & m2 & E' & HD' & HN' & HL' & H8 & H9).
      assert (X : v' = v).
      { rewrite E in E'. clear - E' HN HN'. revert m1 E' HN'. induction l1 as [|x l1 IH]; intros [|y m1] E' HN'; cbn [app] in E'.
        - now injection E' as _ ->.
        - injection E' as <- _. exfalso. apply (HN' nm v). now left.
        - injection E' as -> _. exfalso. apply (HN nm' v'). now left.
        - injection E' as <- E'. apply (IH (fun n w H => HN n w (or_intror H)) m1); auto. intros n w H. apply (HN' n w). now right. }
      subst v'. rewrite H8. replace (fld 1 v 9 <? 1) with false by lia. reflexivity.
  - split; [discriminate|]. intros (l1 & nm & v & l2 & E & HD & HN & HL & _). destruct (HV _ _ _ _ E HD HN HL).
  - split; [discriminate|]. intros (l1 & nm & v & l2 & E & HD & HN & HL & _). destruct (HV _ _ _ _ E HD HN HL).
Qed.

Lemma vol_parser_iff f size : ff_bytes_ok f ->
  vol_parser f = Ok size <-> parsable (ff_layout f) (ff_size f) size.
Proof.
  intro B. unfold vol_parser, parsable. rewrite bind_ok. split.
  - intros (sg & E1 & H). destruct (zlist_eqb sg sig_FILE) eqn:ES; cbn [negb] in H; [|discriminate].
    apply zlist_eqb_eq in ES. subst sg.
    apply bind_ok in H as (b & E2 & H). destruct (Z.eqb_spec (zlen b) 4) as [L|]; cbn [negb] in H; [|discriminate].
    destruct (zin (fld 4 b 0) frs_sizes) eqn:EZ; cbn [negb] in H; [|discriminate].
    apply frs_sizes_ok in EZ. apply bind_ok in H as (fv & E3 & H). apply bind_ok in H as (u & E4 & H). injection H as <-.
    apply ff_pread_iff in E1, E2; auto; try lia. split; [exact E1|].
    assert (EF : fld 4 b 0 = le_val b) by (unfold fld; rewrite slice_full by lia; reflexivity).
    split; [exists b; auto|]. split; auto. exists fv. split.
    + apply vol_frs_iff; auto; unfold FILE_NUMBER_VOLUME; [lia|]. destruct EZ; lia.
    + apply version_check_iff. now destruct u.
  - intros (R1 & (b & R2 & L & ->) & Z & fv & S & V).
    exists sig_FILE. split; [apply ff_pread_iff; auto; lia|]. rewrite (proj2 (zlist_eqb_eq sig_FILE sig_FILE) eq_refl). cbn [negb].
    apply bind_ok. exists b. split; [apply ff_pread_iff; auto; lia|]. rewrite L. cbn [negb Z.eqb Pos.eqb].
    assert (EF : fld 4 b 0 = le_val b) by (unfold fld; rewrite slice_full by lia; reflexivity). rewrite EF.
    rewrite (proj2 (frs_sizes_ok _) Z). cbn [negb]. apply bind_ok. exists fv. split.
    + apply vol_frs_iff; auto; unfold FILE_NUMBER_VOLUME; [lia|]. destruct Z; lia.
    + apply version_check_iff in V. rewrite V. reflexivity.
Qed.

(** ** Streams *)

Lemma attr_seq_positive d ff pos l e : bytes_ok d -> attr_seq d ff shows pos l e ->
  Forall (fun a => runs_positive (runs_of a)) l.
Proof.
  intros Hb; induction 1 as [|pos len ty name c a l e H1 H2 H3 H4 IH]; constructor; auto.
  destruct a as [t n v|t n mp r lo hi sz]; cbn; [constructor|].
  destruct c as [v|[[mp' [lo' hi']] sz']]; cbn in H3; [contradiction|].
  destruct H3 as [-> [-> [-> [M [-> [-> ->]]]]]].
  apply attr_at_bytes in H2; auto. destruct H2 as [B [L S]].
  apply (decode_lengths_positive mp'); auto. apply decode_mapping_pairs_iff; auto.
Qed.

Lemma fr_attributes_positive fr : opened_record fr -> Forall (fun a => runs_positive (runs_of a)) (fst (fr_attributes fr)).
Proof.
  assert (G : forall f, opened f -> Forall (fun a => runs_positive (runs_of a)) (fst (frs_gen f))).
  { intros f O. pose proof (opened_bytes f O) as B. destruct O as [raw [ap [sug [Hb H]]]].
    pose proof (frs_attributes_spec raw ap sug f Hb H) as P; cbn zeta in P.
    destruct P as [_ [_ [e [P _]]]]. eapply attr_seq_positive; [|exact P]; auto. }
  intros [H1 H2]; unfold fr_attributes; apply gconcat_Forall; constructor; [auto|].
  rewrite Forall_map. eapply Forall_impl; [|exact H2]. exact G.
Qed.

Lemma contiguous_fun v l a b : contiguous v l a -> contiguous v l b -> a = b.
Proof. intros H; revert b; induction H as [|v ty name mp r hi sz rest runs H IH]; intros b Hb; inversion Hb; subst; auto; f_equal; auto. Qed.

Lemma main_stream_iff base ch runs : opened_record (mk_fr base ch) ->
  get_data_runs (mk_fr base ch) None false = Ok (Some runs) <-> main_stream base ch runs.
Proof.
  intro O. unfold main_stream. destruct (fr_attributes (mk_fr base ch)) as [items st] eqn:E. destruct st as [|e].
  - set (l := sort_by first_vcn (stream_parts None false items)).
    pose proof (sort_by_stable first_vcn (stream_parts None false items)) as SS. fold l in SS.
    pose proof (get_data_runs_spec _ None false items O E l SS) as P. split.
    + intro H. rewrite H in P. exists items, l. tauto.
    + intros (items' & l' & E' & S' & N & C & F). injection E' as <-.
      assert (l' = l) by (now apply stable_sorted_sort). subst l'.
      destruct (get_data_runs (mk_fr base ch) None false) as [[r|]|e].
      * destruct P as (_ & P & _). now rewrite (contiguous_fun _ _ _ _ P C).
      * tauto.
      * destruct P as (_ & P). destruct (P _ C) as [P1 P2]. now apply F in P1.
  - split.
    + intro H. unfold get_data_runs in H. rewrite E in H. discriminate.
    + intros (items' & l' & E' & _). discriminate.
Qed.

Lemma main_stream_positive base ch runs : opened_record (mk_fr base ch) -> main_stream base ch runs -> runs_positive runs.
Proof.
  intros O (items & l & E & (P & _ & _) & _ & C & _).
  pose proof (fr_attributes_positive _ O) as F. rewrite E in F. cbn [fst] in F.
  assert (G : Forall (fun a => runs_positive (runs_of a)) l).
  { apply Forall_forall. intros a Ha. apply (Permutation_in _ (Permutation_sym P)) in Ha.
    unfold stream_parts in Ha. apply filter_In in Ha as [Ha _]. rewrite Forall_forall in F. auto. }
  clear - G C. induction C as [|v ty name mp r hi sz rest runs H IH]; [constructor|].
  inversion G as [|? ? G1 G2]; subst. unfold runs_positive. apply Forall_app. split; [exact G1|apply IH; auto].
Qed.

Lemma main_size_iff base fsize : (exists items, fr_attributes (mk_fr base []) = (items, Done)) ->
  get_data_size (mk_fr base []) None false = Ok (Some fsize) <-> main_size base fsize.
Proof.
  intros [items E]. unfold main_size. pose proof (get_data_size_spec _ None false items E) as P. split.
  - intro H. rewrite H in P. destruct P as (ty & n & mp & r & hi & back & P). exists items, ty, n, mp, r, hi, back. auto.
  - intros (items' & ty & n & mp & r & hi & back & E' & F). rewrite E in E'. injection E' as <-.
    destruct (get_data_size (mk_fr base []) None false) as [[s|]|e].
    + destruct P as (ty' & n' & mp' & r' & hi' & back' & P). rewrite F in P. injection P as _ _ _ _ _ -> _. reflexivity.
    + rewrite F in P. discriminate.
    + tauto.
Qed.

(** ** Values in runs *)

Lemma clusters_nonneg runs : runs_positive runs -> 0 <= clusters runs.
Proof. induction 1 as [|[o n] t H1 H2 IH]; cbn in *; lia. Qed.

Section Runs.
  Variables (vol : list Z) (voff cs : Z).
  Hypothesis Hc : 0 < cs.
  Hypothesis Hv : zlen vol < 2 ^ 63.
  Let lay (runs : list (option Z * Z)) := mk_layout vol voff cs runs.

  Lemma located_here_inv o n t k r : runs_positive ((o, n) :: t) -> 0 <= k < n -> located ((o, n) :: t) k r ->
    r = match o with None => None | Some x => Some (x + k) end.
  Proof.
    intros HP Hk H. inversion HP as [|? ? H1 H2]; subst; cbn in H1.
    inversion H as [? ? ? HH|? ? ? ? HH|? ? ? ? ? HH]; subst; auto. apply located_nonneg in HH; auto. lia.
  Qed.

  Lemma located_later_inv o n t k r : 0 <= n -> n <= k -> located ((o, n) :: t) k r -> located t (k - n) r.
  Proof.
    intros Hn Hk H. inversion H as [? ? ? HH|? ? ? ? HH|? ? ? ? ? HH]; subst; try lia.
    now replace (n + k0 - n) with k0 by lia.
  Qed.

  Lemma div_range p n : 0 <= p < n * cs -> 0 <= p / cs < n.
  Proof. intro H. split; [apply Z.div_pos; lia|]. apply Z.div_lt_upper_bound; lia. Qed.

  Lemma content_here o n t p b : runs_positive ((Some o, n) :: t) -> 0 <= p < n * cs ->
    content (lay ((Some o, n) :: t)) p b <->
    (0 <= voff + (o + p / cs) * cs /\ voff + (o + p / cs) * cs + cs <= zlen vol /\ znth vol (voff + o * cs + p) = Some b).
  Proof.
    intros HP Hp. pose proof (div_range p n Hp) as HD. pose proof (Z.div_mod p cs ltac:(lia)) as E. split.
    - intro C. inversion C as [? L|? c st ? L ES S1 S2 N]; subst; cbn [ly_runs ly_cluster ly_base ly_volume lay] in *;
        apply (located_here_inv (Some o) n t) in L; auto; [discriminate|]. injection L as ->.
      split; [exact S1|]. split; [exact S2|]. rewrite <- N. f_equal. lia.
    - intros (S1 & S2 & N). eapply content_disk; cbn [ly_runs ly_cluster ly_base ly_volume lay].
      + apply loc_here. exact HD.
      + reflexivity.
      + exact S1.
      + exact S2.
      + rewrite <- N. f_equal. lia.
  Qed.

  Lemma content_hole_here n t p b : runs_positive ((None, n) :: t) -> 0 <= p < n * cs ->
    content (lay ((None, n) :: t)) p b <-> b = 0.
  Proof.
    intros HP Hp. pose proof (div_range p n Hp) as HD. split.
    - intro C. inversion C as [? L|? c st ? L ES S1 S2 N]; subst; cbn [ly_runs ly_cluster ly_base ly_volume lay] in *; auto.
      apply (located_here_inv None n t) in L; auto. discriminate.
    - intros ->. apply content_hole. cbn. apply loc_hole. exact HD.
  Qed.

  Lemma content_later o n t p b : 0 <= n -> n * cs <= p ->
    content (lay ((o, n) :: t)) p b <-> content (lay t) (p - n * cs) b.
  Proof.
    intros Hn Hp.
    assert (D : (p - n * cs) / cs = p / cs - n).
    { replace (p - n * cs) with (p + (- n) * cs) by lia. rewrite Z.div_add by lia. lia. }
    assert (M : (p - n * cs) mod cs = p mod cs).
    { replace (p - n * cs) with (p + (- n) * cs) by lia. apply Z.mod_add. lia. }
    assert (K : n <= p / cs) by (apply Z.div_le_lower_bound; lia). split.
    - intro C. inversion C as [? L|? c st ? L ES S1 S2 N]; subst; cbn [ly_runs ly_cluster ly_base ly_volume lay] in *;
        apply located_later_inv in L; auto.
      + apply content_hole. cbn. now rewrite D.
      + eapply content_disk; cbn [ly_runs ly_cluster ly_base ly_volume lay]; rewrite ?D, ?M; eauto.
    - intro C. inversion C as [? L|? c st ? L ES S1 S2 N]; subst; cbn [ly_runs ly_cluster ly_base ly_volume lay] in *;
        rewrite D in L; apply (loc_later o n) in L; replace (n + (p / cs - n)) with (p / cs) in L by lia.
      + apply content_hole. exact L.
      + eapply content_disk; cbn [ly_runs ly_cluster ly_base ly_volume lay]; eauto. now rewrite <- M.
  Qed.

  (** More runs behind change nothing before them. *)
  Lemma content_prefix runs more p b : runs_positive (runs ++ more) -> 0 <= p < clusters runs * cs ->
    content (lay (runs ++ more)) p b <-> content (lay runs) p b.
  Proof.
    revert p. induction runs as [|[o n] t IH]; intros p HP Hp; cbn [clusters app] in *; [lia|].
    assert (HP' := HP). inversion HP as [|? ? H1 H2]; subst; cbn in H1.
    assert (PT : runs_positive t) by (apply Forall_app in H2; tauto).
    assert (PA : runs_positive ((o, n) :: t)) by (constructor; auto).
    destruct (Z.lt_ge_cases p (n * cs)) as [L|L].
    - destruct o as [o|].
      + rewrite !content_here by (auto; lia). reflexivity.
      + rewrite !content_hole_here by (auto; lia). reflexivity.
    - rewrite !content_later by lia. apply IH; auto. lia.
  Qed.

  Lemma whole_cons o n t w : runs_positive ((Some o, n) :: t) ->
    whole_value vol voff cs ((Some o, n) :: t) w <->
    exists w1 w2, w = w1 ++ w2 /\ 0 <= voff + o * cs /\ voff + o * cs + n * cs <= zlen vol /\
      w1 = slice vol (voff + o * cs) (voff + o * cs + n * cs) /\ whole_value vol voff cs t w2.
  Proof.
    intro HP. assert (HP' := HP). inversion HP as [|? ? H1 H2]; subst; cbn in H1.
    pose proof (clusters_nonneg t H2) as CT. unfold whole_value. cbn [clusters]. split.
    - intros (N & L & A). inversion N as [|? ? N1 N2]; subst.
      assert (LW : n * cs <= zlen w) by nia.
      assert (C : forall p, 0 <= p < n * cs -> exists b, znth w p = Some b /\
         0 <= voff + (o + p / cs) * cs /\ voff + (o + p / cs) * cs + cs <= zlen vol /\ znth vol (voff + o * cs + p) = Some b).
      { intros p Hp. destruct (A p) as (b & B1 & B2); [lia|]. exists b. split; auto.
        rewrite Z.add_0_l in B2. apply (content_here o n t) in B2; auto. }
      assert (S1 : 0 <= voff + o * cs).
      { destruct (C 0) as (b & _ & K & _); [nia|]. rewrite Z.div_0_l in K by lia. lia. }
      assert (S2 : voff + o * cs + n * cs <= zlen vol).
      { destruct (C ((n - 1) * cs)) as (b & _ & _ & K & _); [nia|]. rewrite Z.div_mul in K by lia. lia. }
      exists (ztake (n * cs) w), (zdrop (n * cs) w). split; [symmetry; apply ztake_zdrop|].
      split; auto. split; auto. split.
      + apply znth_ext; [rewrite zlen_ztake, zlen_slice by lia; lia|]. intros p Hp.
        rewrite zlen_ztake in Hp by lia.
        rewrite znth_ztake by lia. rewrite znth_slice by lia. destruct (C p) as (b & -> & _ & _ & ->); [lia|]. reflexivity.
      + split; auto. split; [rewrite zlen_zdrop by lia; lia|]. intros p Hp. rewrite zlen_zdrop in Hp by lia.
        destruct (A (n * cs + p)) as (b & B1 & B2); [lia|]. exists b.
        split; [rewrite znth_zdrop by lia; exact B1|]. rewrite Z.add_0_l in *.
        apply (content_later (Some o) n t) in B2; [|lia|lia]. now replace (n * cs + p - n * cs) with p in B2 by lia.
    - intros (w1 & w2 & -> & S1 & S2 & E & N & L & A).
      assert (L1 : zlen w1 = n * cs) by (rewrite E, zlen_slice by lia; lia).
      split; [constructor; [discriminate|auto]|]. split; [rewrite zlen_app; lia|].
      intros p Hp. rewrite zlen_app in Hp. rewrite Z.add_0_l. destruct (Z.lt_ge_cases p (n * cs)) as [K|K].
      + destruct (znth_some vol (voff + o * cs + p)) as [b Hb]; [lia|]. exists b. split.
        * rewrite znth_app1 by lia. rewrite E, znth_slice by lia. exact Hb.
        * apply (content_here o n t); auto; [lia|]. pose proof (div_range p n ltac:(lia)) as HD. split; [nia|]. split; [nia|auto].
      + destruct (A (p - n * cs)) as (b & B1 & B2); [lia|]. exists b. split.
        * rewrite znth_app2 by lia. now rewrite L1.
        * apply (content_later (Some o) n t); [lia|lia|]. now rewrite Z.add_0_l in B2.
  Qed.

  Lemma read_list_runs_iff runs : runs_positive runs -> forall acc out,
    read_list_runs vol voff cs runs acc = Ok out <-> exists w, out = acc ++ w /\ whole_value vol voff cs runs w.
  Proof.
    induction runs as [|[[o|] n] t IH]; intros HP acc out; cbn [read_list_runs].
    - split.
      + intros [= <-]. exists []. split; [now rewrite app_nil_r|]. split; [constructor|]. split; [reflexivity|].
        intros i Hi. change (zlen (@nil Z)) with 0 in Hi. lia.
      + intros (w & -> & _ & L & _). cbn in L. apply zlen_0 in L. subst w. now rewrite app_nil_r.
    - assert (HP' := HP). inversion HP as [|? ? H1 H2]; subst; cbn in H1.
      rewrite bind_ok. split.
      + intros (d & E & H). apply zlen_seek_read in E as (E1 & E2 & E3 & E4 & E5); [|nia].
        destruct (Z.eqb_spec (zlen d) (n * cs)) as [L|L]; cbn [negb] in H; [|discriminate].
        apply IH in H as (w & -> & W); auto. exists (d ++ w). split; [now rewrite app_assoc|].
        apply whole_cons; auto. exists d, w. split; auto. split; [lia|]. split; [|split; auto]. specialize (E3 L). nia.
      + intros (w & -> & W). apply whole_cons in W as (w1 & w2 & -> & S1 & S2 & E & W); auto.
        exists w1. split.
        * unfold seek_read. replace (voff + o * cs <? 0) with false by lia.
          replace (2 ^ 63 <=? voff + o * cs) with false by nia. replace (2 ^ 63 <=? n * cs) with false by nia. now rewrite E.
        * replace (zlen w1 =? n * cs) with true by (rewrite E, zlen_slice by lia; nia). cbn [negb].
          apply IH; auto. exists w2. split; auto. now rewrite app_assoc.
    - split; [discriminate|]. intros (w & _ & N & _). inversion N as [|? ? K _]; subst. now elim K.
  Qed.
End Runs.

(** ** The attribute list *)

Section Parser.
  Variables (vol : list Z) (voff : Z).
  Hypothesis B : bytes_ok vol.
  Hypothesis Hv : zlen vol < 2 ^ 63.

  Lemma whole_value_fun cs runs w w' : runs_positive runs -> whole_value vol voff cs runs w -> whole_value vol voff cs runs w' -> w = w'.
  Proof. intros P (_ & L & A) (_ & L' & A'). apply (bytes_at_fun (mk_layout vol voff cs runs) 0); auto. congruence. Qed.

  Lemma whole_value_bytes cs runs w : 0 < cs -> runs_positive runs -> whole_value vol voff cs runs w -> bytes_ok w.
  Proof.
    intro Hc. revert w. induction runs as [|[[o|] n] t IH]; intros w HP W.
    - destruct W as (_ & L & _). cbn in L. apply zlen_0 in L. subst w. constructor.
    - inversion HP as [|? ? H1 H2]; subst.
      apply whole_cons in W as (w1 & w2 & -> & _ & _ & -> & W); auto. apply bytes_ok_app. split; [now apply bytes_ok_slice|auto].
    - destruct W as (N & _). inversion N as [|? ? K _]; subst. now elim K.
  Qed.

  Lemma find_list_iff cs f r : 0 < cs -> Forall (fun a => runs_positive (runs_of a)) (fst (frs_gen f)) ->
    find_list vol voff cs f = Ok r <-> record_list vol voff cs f r.
  Proof.
    intros Hc. unfold find_list, record_list, gfirst. destruct (frs_gen f) as [l st]. cbn [fst snd].
    induction l as [|a l IH]; intro HP; cbn [first_in].
    - destruct st as [|e]; split.
      + intros [= <-]. left. split; auto. split; auto. constructor.
      + intros [(-> & _)|(l1 & a & l2 & v & E & _)]; auto. destruct l1; discriminate.
      + discriminate.
      + intros [(_ & K & _)|(l1 & a & l2 & v & E & _)]; [discriminate|]. destruct l1; discriminate.
    - inversion HP as [|? ? P1 P2]; subst. specialize (IH P2). unfold ATTR_TYPE_ATTRIBUTE_LIST in *.
      destruct (Z.eqb_spec (a_type a) 0x20) as [T|T].
      + assert (X : match a with
           | Resident _ _ v => Ok (Some v)
           | Nonresident ty _ _ runs _ _ size =>
             let! d := nonresident_decoded vol voff cs ty runs size in
             match d with DecodedList v => Ok (Some v) | DecodedIndex _ => Err AttributeError_py end
           end = Ok r <-> exists v, list_value vol voff cs a v /\ r = Some v).
        { destruct a as [ty nm v|ty nm mp runs lo hi size]; cbn [a_type] in T; subst ty.
          - split; [intros [= <-]; exists v; split; [constructor|auto]|]. intros (v' & LV & ->). inversion LV; subst. reflexivity.
          - unfold nonresident_decoded, ATTR_TYPE_ATTRIBUTE_LIST. cbn [Z.eqb Pos.eqb]. split.
            + intro H. apply bind_ok in H as (d & H & H2). apply bind_ok in H as (w & H & H3). injection H3 as <-.
              injection H2 as <-. apply (read_list_runs_iff vol voff cs Hc Hv) in H as (w' & -> & W); auto. cbn [app].
              exists (ztake size w'). split; [constructor; auto|]. unfold slice. rewrite zdrop_nonpos by lia. now rewrite Z.sub_0_r.
            + intros (v & LV & ->). inversion LV as [|? ? ? ? ? ? w W]; subst.
              rewrite (proj2 (read_list_runs_iff vol voff cs Hc Hv runs P1 [] w)) by (exists w; auto). cbn [bind].
              unfold slice. rewrite zdrop_nonpos by lia. now rewrite Z.sub_0_r. }
        rewrite bind_ok. split.
        * intros (x & E & H). right. exists [], a, l.
          assert (N : exists v, x = Some v).
          { destruct a as [ty nm v|ty nm mp runs lo hi size]; [injection E as <-; eauto|].
            apply bind_ok in E as (d & _ & E). destruct d; [injection E as <-; eauto|discriminate]. }
          destruct N as [v ->]. injection H as <-. apply X in E as (v' & LV & [= <-]). exists v. split; auto. split; [constructor|auto].
        * intros [(_ & _ & N)|(l1 & a' & l2 & v & E & N & LV & ->)].
          -- inversion N; subst. contradiction.
          -- destruct l1 as [|b l1]; cbn [app] in E; injection E as <- E.
             ++ exists (Some v). split; [|reflexivity]. apply X. eauto.
             ++ inversion N; subst. contradiction.
      + cbn [bind]. rewrite IH. split.
        * intros [(-> & D & N)|(l1 & a' & l2 & v & E & N & LV & ->)].
          -- left. split; auto. split; auto. constructor; auto.
          -- right. exists (a :: l1), a', l2, v. subst l. split; auto. split; [constructor; auto|auto].
        * intros [(-> & D & N)|(l1 & a' & l2 & v & E & N & LV & ->)].
          -- left. split; auto. split; auto. now inversion N.
          -- right. destruct l1 as [|b l1]; cbn [app] in E; injection E as <- E.
             ++ exfalso. inversion LV; subst; cbn in T; congruence.
             ++ inversion N; subst. exists l1, a', l2, v. auto.
  Qed.

  Lemma attr_seq_values d ff pos l e : bytes_ok d -> attr_seq d ff shows pos l e ->
    Forall (fun a => match a with Resident _ _ v => bytes_ok v | _ => True end) l.
  Proof.
    intros Hb; induction 1 as [|pos len ty name c a l e H1 H2 H3 H4 IH]; constructor; auto.
    destruct a as [t n v|t n mp r lo hi sz]; auto. destruct c as [v'|[[mp' [lo' hi']] sz']]; cbn in H3; [|contradiction].
    destruct H3 as (_ & _ & ->). remember (inl v') as c eqn:E. destruct H2; [|discriminate]. injection E as <-.
    now apply bytes_ok_slice.
  Qed.

  Lemma opened_values f : opened f ->
    Forall (fun a => match a with Resident _ _ v => bytes_ok v | _ => True end) (fst (frs_gen f)).
  Proof.
    intro O. pose proof (opened_bytes f O) as Bf. destruct O as [raw [ap [sug [Hb H]]]].
    pose proof (frs_attributes_spec raw ap sug f Hb H) as P; cbn zeta in P.
    destruct P as [_ [_ [e [P _]]]]. eapply attr_seq_values; [|exact P]; auto.
  Qed.

  Lemma opened_positive f : opened f -> Forall (fun a => runs_positive (runs_of a)) (fst (frs_gen f)).
  Proof.
    intro O. pose proof (opened_bytes f O) as Bf. destruct O as [raw [ap [sug [Hb H]]]].
    pose proof (frs_attributes_spec raw ap sug f Hb H) as P; cbn zeta in P.
    destruct P as [_ [_ [e [P _]]]]. eapply attr_seq_positive; [|exact P]; auto.
  Qed.

  Lemma record_list_bytes cs f v : 0 < cs -> opened f -> record_list vol voff cs f (Some v) -> bytes_ok v.
  Proof.
    intros Hc O [(K & _)|(l1 & a & l2 & v' & E & _ & LV & K)]; [discriminate|]. injection K as <-.
    pose proof (opened_values f O) as F1. pose proof (opened_positive f O) as F2. rewrite E in F1, F2.
    apply Forall_app in F1 as [_ F1]. apply Forall_app in F2 as [_ F2].
    inversion F1 as [|? ? G1 _]; inversion F2 as [|? ? G2 _]; subst.
    inversion LV as [nm v' E1 E2|nm mp runs lo hi size w W E1 E2]; subst; auto.
    apply bytes_ok_ztake. eapply whole_value_bytes; eauto.
  Qed.

  (** ** Growing *)

  Lemma open_bytes_ok cs runs fsize : 0 < cs -> runs_positive runs -> ff_bytes_ok (ff_open vol voff cs runs fsize).
  Proof. intros Hc HP. repeat split; cbn; auto. Qed.

  Lemma opened_snoc base ch f : opened_record (mk_fr base ch) -> opened f -> opened_record (mk_fr base (ch ++ [f])).
  Proof. intros [O1 O2] O. split; auto. cbn [fr_children] in *. apply Forall_app. split; auto. Qed.

  Lemma gconcat_app {A} (a b : list (gen A)) : snd (gconcat (a ++ b)) = Done ->
    gconcat a = (fst (gconcat a), Done) /\ fst (gconcat (a ++ b)) = fst (gconcat a) ++ fst (gconcat b).
  Proof.
    induction a as [|g a IH]; cbn [gconcat app]; [auto|]. intro H.
    destruct (snd g) eqn:E; [|congruence]. unfold gapp in *. cbn [fst snd] in *. destruct (IH H) as [I1 I2].
    rewrite I1. cbn [fst snd]. rewrite I2. now rewrite app_assoc.
  Qed.

  (** With one more child there still is a stream. *)
  Lemma main_stream_extends base ch runs f : opened_record (mk_fr base (ch ++ [f])) -> main_stream base ch runs ->
    get_data_runs (mk_fr base (ch ++ [f])) None false <> Ok None.
  Proof.
    intros O (items & l & E & (P & _) & N & _) H.
    destruct (fr_attributes (mk_fr base (ch ++ [f]))) as [items' st] eqn:E'. destruct st as [|e].
    - pose proof (get_data_runs_spec _ None false items' O E' _ (sort_by_stable first_vcn _)) as Q. rewrite H in Q.
      assert (X : exists more, items' = items ++ more).
      { unfold fr_attributes in E, E'. cbn [fr_base fr_children] in *. rewrite map_app in E'.
        change (frs_gen base :: map frs_gen ch ++ map frs_gen [f]) with ((frs_gen base :: map frs_gen ch) ++ map frs_gen [f]) in E'.
        destruct (gconcat_app (frs_gen base :: map frs_gen ch) (map frs_gen [f])) as [_ G]; [now rewrite E'|].
        rewrite E', E in G. cbn [fst] in G. eauto. }
      destruct X as [more ->]. destruct (sort_by_stable first_vcn (stream_parts None false (items ++ more))) as [P2 _].
      rewrite Q in P2. unfold stream_parts in P, P2. rewrite filter_app in P2.
      apply Permutation_sym, Permutation_nil in P2. apply app_eq_nil in P2 as [P2 _]. rewrite P2 in P.
      apply Permutation_nil in P. contradiction.
    - rewrite (get_data_runs_raises _ _ _ _ _ E') in H. discriminate.
  Qed.

  Lemma add_pieces_iff cs fsize base es : 0 < cs -> Forall (fun e => 0 <= al_segment e) es ->
    forall ch runs final, opened_record (mk_fr base ch) -> main_stream base ch runs ->
    add_pieces vol voff cs fsize base ch runs es = Ok final <-> grows vol voff cs fsize base ch runs es final.
  Proof.
    intros Hc. induction es as [|e es IH]; intros HS ch runs final O M; cbn [add_pieces].
    - split; [intros [= <-]; constructor|]. intro G. inversion G; subst. reflexivity.
    - inversion HS as [|? ? S1 S2]; subst. pose proof (main_stream_positive _ _ _ O M) as HP.
      pose proof (open_bytes_ok cs runs fsize Hc HP) as BF. rewrite (decode_ref_value (al_segment e) S1). cbn [fst].
      pose proof (Z.mod_pos_bound (al_segment e) (2 ^ 48) ltac:(lia)) as SB. rewrite bind_ok. split.
      + intros (size & E1 & H). apply bind_ok in H as (f & E2 & H). apply bind_ok in H as (r & E3 & H).
        pose proof E1 as E1'. apply vol_parser_iff in E1'; auto.
        assert (Z0 : 0 <= size) by (destruct E1' as (_ & _ & [->| ->] & _); lia).
        pose proof (vol_frs_opened _ _ _ _ BF (proj1 SB) Z0 E2) as OF.
        pose proof (opened_snoc base ch f O OF) as O'.
        destruct r as [runs'|]; [|discriminate].
        apply main_stream_iff in E3; auto. apply IH in H; auto.
        apply vol_frs_iff in E2; auto; [|lia]. econstructor; eauto.
      + intro G. inversion G as [|? ? ? ? size f runs' ? G1 G2 G3 G4]; subst.
        exists size. split; [now apply vol_parser_iff|].
        assert (Z0 : 0 <= size) by (destruct G1 as (_ & _ & [->| ->] & _); lia).
        apply (vol_frs_iff (ff_open vol voff cs runs fsize)) in G2; auto; [|apply SB].
        pose proof (vol_frs_opened _ _ _ _ BF (proj1 SB) Z0 G2) as OF.
        pose proof (opened_snoc base ch f O OF) as O'.
        unfold segment_number in G2. rewrite G2. cbn [bind].
        pose proof G3 as G3'. apply main_stream_iff in G3; auto. rewrite G3. cbn [bind]. apply IH; auto.
  Qed.

  Lemma al_walk_segments v pos l : bytes_ok v -> 0 <= pos -> al_walk v pos l -> Forall (fun e => 0 <= al_segment e) l.
  Proof.
    intro Bv. intros Hp W. induction W as [pos H|pos e n m l H Hm H8 HW IH]; constructor.
    - destruct H as (H1 & H2 & H3 & _ & _ & -> & _). apply fld_nonneg; auto.
    - apply IH. destruct H as (H1 & H2 & H3 & _). lia.
  Qed.

  Lemma sorted_Forall {A} (key : A -> Z) (P : A -> Prop) l l' : stable_sorted key l l' -> Forall P l -> Forall P l'.
  Proof.
    intros (Pm & _) F. apply Forall_forall. intros x Hx. rewrite Forall_forall in F. apply F.
    eapply Permutation_in; [apply Permutation_sym; exact Pm|auto].
  Qed.

  Lemma all_runs_iff cs fsize base runs attr_list final : 0 < cs -> opened base -> main_stream base [] runs ->
    match attr_list with Some v => bytes_ok v | None => True end ->
    all_runs vol voff cs fsize base runs attr_list = Ok final <->
    match attr_list with
    | None => final = runs
    | Some v => exists l e0 t, al_walk v 0 l /\ stable_sorted al_lowest (filter for_data l) (e0 :: t) /\
        segment_number e0 = 0 /\ grows vol voff cs fsize base [] runs t final
    end.
  Proof.
    intros Hc O M HB. destruct attr_list as [v|]; cbn [all_runs]; [|split; [intros [= ->]; auto|intros ->; auto]].
    assert (OR : opened_record (mk_fr base [])) by (split; [exact O|constructor]).
    destruct (al_entries v) as [l st] eqn:E. cbn [fst snd].
    assert (W : al_walk v 0 l /\ st = Done).
    { unfold al_entries in E. destruct (al_loop_walk v HB (S (length v)) 0 ltac:(lia) ltac:(unfold zlen; lia)) as (l' & E' & W).
      rewrite E' in E. injection E as <- <-. auto. }
    destruct W as [W ->]. change data_entry with for_data.
    pose proof (sort_by_stable al_lowest (filter for_data l)) as SS.
    assert (SG : Forall (fun e => 0 <= al_segment e) (filter for_data l)).
    { apply Forall_forall. intros x Hx. apply filter_In in Hx as [Hx _].
      pose proof (al_walk_segments v 0 l HB ltac:(lia) W) as F. rewrite Forall_forall in F. auto. }
    assert (UN : forall l' e0 t, al_walk v 0 l' -> stable_sorted al_lowest (filter for_data l') (e0 :: t) ->
              sort_by al_lowest (filter for_data l) = e0 :: t).
    { intros l' e0 t W' S'. rewrite <- (al_walk_fun _ _ _ W _ W') in S'. symmetry. now apply stable_sorted_sort. }
    destruct (sort_by al_lowest (filter for_data l)) as [|e0 es] eqn:ES.
    - split; [discriminate|]. intros (l' & e0 & t & W' & S' & _). specialize (UN _ _ _ W' S'). discriminate.
    - pose proof (sorted_Forall al_lowest _ _ _ SS SG) as SF. inversion SF as [|? ? S1 S2]; subst.
      rewrite (decode_ref_value _ S1). cbn [fst]. fold (segment_number e0).
      destruct (Z.eqb_spec (segment_number e0) 0) as [Z0|Z0]; cbn [negb].
      + rewrite (add_pieces_iff cs fsize base es Hc S2 [] runs final OR M). split.
        * intro G. exists l, e0, es. auto.
        * intros (l' & e0' & t & W' & S' & _ & G). specialize (UN _ _ _ W' S'). injection UN as -> ->. exact G.
      + split; [discriminate|]. intros (l' & e0' & t & W' & S' & K & _). specialize (UN _ _ _ W' S'). injection UN as -> ->. contradiction.
  Qed.

  (** ** The constructor *)

  Hypothesis Ho : 0 <= voff.

  Lemma geometry_positive boot cs fs c : bytes_ok boot -> geometry boot cs fs c -> 0 < cs /\ 0 < fs /\ 0 < c.
  Proof.
    intros Bb (_ & spc & bps & C1 & E1 & L & _ & -> & C2 & _ & -> & N).
    assert (0 < spc) by (destruct C1 as [[? ->]|[? ->]]; [lia|apply Z.pow_pos_nonneg; lia]).
    assert (0 < spc * bps) by nia. split; auto. split.
    - destruct C2 as [[? ->]|[? ->]]; [nia|apply Z.pow_pos_nonneg; lia].
    - pose proof (fld_bound 8 boot 48 ltac:(lia) ltac:(lia) Bb). lia.
  Qed.

  Lemma boot_ok_iff boot cs fs c : bytes_ok boot ->
    (exists spc bps, bs_open boot = Ok boot /\ bs_sectors_per_cluster boot = Ok spc /\ bs_bytes_per_sector boot = Ok bps /\
      cs = spc * bps /\ bs_frs_size boot = Ok fs /\ fs < 2 ^ 63 /\ bs_mft_cluster boot = Ok c) <->
    geometry boot cs fs c.
  Proof.
    intro Bb. unfold geometry. split.
    - intros (spc & bps & E1 & E2 & E3 & -> & E4 & L & E5).
      assert (N : ntfs_boot boot) by (apply bs_open_iff; eauto). split; auto.
      destruct N as [(k & K1 & K2) _]. assert (LB : 512 <= zlen boot) by lia.
      exists spc, bps. pose proof E2 as E2'. pose proof E3 as E3'. apply spc_iff in E2'; auto. apply bps_iff in E3'; auto.
      apply nonzero_iff in E5; auto; try lia.
      apply (record_size_iff boot Bb LB 64 fs) in E4; try lia. rewrite E2, E3 in E4.
      split; [exact E2'|]. destruct E3' as (-> & B1 & B2). split; auto. split; auto. split; auto. split; auto. split; [|split; auto].
      + unfold record_code. pose proof (fld_byte boot Bb 64 ltac:(lia)).
        destruct E4 as [[? ->]|(? & s & b & [= <-] & [= <-] & ->)]; [right; split; [lia|auto]|left]. split; [lia|]. lia.
    - intros (N & spc & bps & E2 & -> & B1 & B2 & -> & E4 & L & -> & E5). pose proof N as N'.
      destruct N' as [(k & K1 & K2) _]. assert (LB : 512 <= zlen boot) by lia.
      apply spc_iff in E2; auto. assert (E3 : bs_bytes_per_sector boot = Ok (fld 2 boot 11)) by (apply bps_iff; auto).
      exists spc, (fld 2 boot 11). split.
      + apply bs_open_iff in N as [x N]. rewrite N. unfold bs_open in N. destruct (_ || _); [discriminate|].
        destruct (zlist_eqb _ _); [|discriminate]. congruence.
      + split; auto. split; auto. split; auto. split; [|split; auto].
        * apply (record_size_iff boot Bb LB 64 fs); try lia. destruct E4 as [[? ->]|[? ->]].
          -- right. split; auto. exists spc, (fld 2 boot 11). split; auto. split; auto. lia.
          -- left. split; [lia|auto].
        * apply nonzero_iff; auto; lia.
  Qed.

  Lemma bs_open_same b x : bs_open b = Ok x -> x = b.
  Proof. unfold bs_open. destruct (_ || _); [discriminate|]. destruct (zlist_eqb _ _); congruence. Qed.

  Lemma volume_open_iff boot cs runs fsize :
    volume_open vol voff = Ok (mk_volume boot (ff_open vol voff cs runs fsize)) <->
    table_located vol voff boot cs runs fsize.
  Proof.
    unfold volume_open, table_located. split.
    - intro H. apply bind_ok in H as (bb & E0 & H). apply zlen_seek_read in E0 as (_ & L0 & _ & E0 & _); [|lia].
      assert (Bb : bytes_ok bb) by (rewrite E0; now apply bytes_ok_slice).
      apply bind_ok in H as (b' & E1 & H). pose proof (bs_open_same _ _ E1); subst b'.
      apply bind_ok in H as (spc' & E2 & H). apply bind_ok in H as (bps' & E3 & H).
      apply bind_ok in H as (fs & E4 & H). apply bind_ok in H as (c & E5 & H).
      apply bind_ok in H as (raw & E6 & H). apply bind_ok in H as (f0 & E7 & H). apply bind_ok in H as (al & E8 & H).
      apply bind_ok in H as (dr & E9 & H). destruct dr as [runs0|]; [|discriminate].
      apply bind_ok in H as (sz & E10 & H). destruct sz as [fsize'|]; [|discriminate].
      apply bind_ok in H as (runs' & E11 & H). injection H as <- H <- <-.
      assert (LF : fs < 2 ^ 63) by (unfold seek_read in E6; destruct (_ <? 0); [discriminate|]; destruct (_ <=? _); [discriminate|];
         destruct (Z.leb_spec (2 ^ 63) fs); [discriminate|lia]).
      assert (G : geometry bb (spc' * bps') fs c) by (apply boot_ok_iff; eauto 12).
      pose proof (geometry_positive _ _ _ _ Bb G) as (P1 & P2 & P3).
      exists fs, c, f0, runs0, al. split; [rewrite E0; reflexivity|]. rewrite H in *. split; auto.
      apply zlen_seek_read in E6 as (_ & _ & _ & E6 & _); [|lia].
      assert (BR : bytes_ok raw) by (rewrite E6; now apply bytes_ok_slice).
      assert (O : opened f0) by (exists raw, true, (Some 0); auto).
      assert (OR : opened_record (mk_fr f0 [])) by (split; [exact O|constructor]).
      split; [now rewrite <- E6|]. apply main_stream_iff in E9; auto.
      assert (RL : record_list vol voff cs f0 al) by (apply find_list_iff; auto; now apply opened_positive).
      split; auto. split; [|split; auto].
      + destruct E9 as (items & l & E9 & _). apply main_size_iff in E10; eauto.
      + apply (all_runs_iff cs fsize' f0 runs0 al runs' P1 O E9); auto. destruct al; auto. apply (record_list_bytes cs f0); auto.
    - intros (fs & c & f0 & runs0 & r & EB & G & OF & M & S & RL & T).
      assert (Bb : bytes_ok boot) by (rewrite EB; now apply bytes_ok_slice).
      pose proof (geometry_positive _ _ _ _ Bb G) as (P1 & P2 & P3).
      pose proof G as G'. apply boot_ok_iff in G' as (spc & bps & E1 & E2 & E3 & E4 & E5 & E6 & E7); auto.
      assert (SR : forall p n, 0 <= p -> 0 <= n < 2 ^ 63 -> 0 < zlen (slice vol p (p + n)) -> seek_read vol p n = Ok (slice vol p (p + n))).
      { intros p n Hp Hn HL. unfold seek_read. rewrite zlen_slice in HL by lia.
        replace (p <? 0) with false by lia. replace (2 ^ 63 <=? p) with false by lia. now replace (2 ^ 63 <=? n) with false by lia. }
      rewrite SR; [|lia|lia|]. 2:{ rewrite <- EB. destruct G as [[(k & K1 & K2) _] _]. lia. }
      rewrite <- EB. cbn [bind]. rewrite E1. cbn [bind]. rewrite E2. cbn [bind]. rewrite E3. cbn [bind]. rewrite E5. cbn [bind].
      rewrite E7. cbn [bind]. rewrite <- E4.
      assert (BR : bytes_ok (slice vol (voff + c * cs) (voff + c * cs + fs))) by now apply bytes_ok_slice.
      rewrite SR; [|nia|lia|].
      2:{ destruct (frs_open_len _ _ _ _ BR OF) as [([K1|K1] & _) _]; lia. }
      cbn [bind]. rewrite OF. cbn [bind].
      assert (O : opened f0) by (eexists _, true, (Some 0); eauto).
      assert (OR : opened_record (mk_fr f0 [])) by (split; [exact O|constructor]).
      rewrite (proj2 (find_list_iff cs f0 r P1 (opened_positive f0 O)) RL). cbn [bind].
      pose proof M as M'. apply main_stream_iff in M'; auto. rewrite M'. cbn [bind].
      assert (S' : get_data_size (mk_fr f0 []) None false = Ok (Some fsize)).
      { apply main_size_iff; auto. destruct M as (items & l & M & _). eauto. }
      rewrite S'. cbn [bind].
      rewrite (proj2 (all_runs_iff cs fsize f0 runs0 r runs P1 O M ltac:(destruct r; auto; apply (record_list_bytes cs f0); auto))); [reflexivity|].
      destruct r; auto.
  Qed.

  (** ** Exceptions *)

  Definition volume_exn (e : exn) : Prop :=
    In e [BootSectorException; MasterFileTableException; FileRecordSegmentException; FileRecordSegmentSignatureException;
          AttributeException; MappingPairsException; ValueError; OverflowError; AttributeError_py; StructError].

  Ltac listed := unfold volume_exn; cbn; tauto.

  Lemma exn_frs_volume e : exn_frs e -> volume_exn e.
  Proof. intros [->| ->]; listed. Qed.
  Lemma exn_attr_volume e : exn_attr e -> volume_exn e.
  Proof. intros [->| ->]; listed. Qed.

  Lemma frs_gen_exn f e : opened f -> snd (frs_gen f) = Raised e -> volume_exn e.
  Proof.
    intros O H. apply exn_attr_volume. apply (fr_attributes_exn (mk_fr f []) (fst (frs_gen f))); [split; [exact O|constructor]|].
    unfold fr_attributes. cbn [fr_base fr_children map gconcat]. rewrite H. destruct (frs_gen f) as [l st]; cbn [fst snd] in *. now subst.
  Qed.

  Lemma first_in_err {A C} (f : A -> result (option C)) l st e : first_in f l st = Err e ->
    (exists a, In a l /\ f a = Err e) \/ st = Raised e.
  Proof.
    induction l as [|a l IH]; cbn [first_in].
    - destruct st; [discriminate|]. intros [= <-]. auto.
    - destruct (f a) as [[b|]|e'] eqn:E; cbn [bind]; [discriminate| |].
      + intro H. apply IH in H as [(x & X1 & X2)|H]; auto. left. exists x. split; [now right|auto].
      + intros [= <-]. left. exists a. split; [now left|auto].
  Qed.

  Lemma seek_read_err v p n e : seek_read v p n = Err e -> volume_exn e.
  Proof.
    unfold seek_read. destruct (_ <? _); [intros [= <-]; listed|]. destruct (_ <=? _); [intros [= <-]; listed|].
    destruct (_ <=? _); [intros [= <-]; listed|discriminate].
  Qed.

  Lemma frs_open_err raw sug e : bytes_ok raw -> frs_open raw true sug = Err e -> volume_exn e.
  Proof. intros Br H. apply exn_frs_volume. exact (C05_only_file_record_exceptions_lemma _ _ _ _ Br H). Qed.

  Lemma read_list_runs_err cs runs acc e : read_list_runs vol voff cs runs acc = Err e -> volume_exn e.
  Proof.
    revert acc. induction runs as [|[[o|] n] t IH]; intro acc; cbn [read_list_runs]; [discriminate| |intros [= <-]; listed].
    destruct (seek_read _ _ _) as [d|x] eqn:E; cbn [bind]; [|intros [= <-]; eapply seek_read_err; eauto].
    destruct (negb _); [intros [= <-]; listed|apply IH].
  Qed.

  Lemma find_list_err cs f e : opened f -> find_list vol voff cs f = Err e -> volume_exn e.
  Proof.
    intros O H. apply first_in_err in H as [(a & _ & H)|H]; [|eapply frs_gen_exn; eauto].
    destruct (Z.eqb_spec (a_type a) ATTR_TYPE_ATTRIBUTE_LIST) as [T|T]; [|discriminate].
    destruct a as [ty nm v|ty nm mp runs lo hi size]; [discriminate|]. cbn in T. subst ty.
    unfold nonresident_decoded in H. cbn [Z.eqb Pos.eqb ATTR_TYPE_ATTRIBUTE_LIST] in H.
    destruct (read_list_runs _ _ _ _ _) as [w|x] eqn:E; cbn [bind] in H; [discriminate|].
    injection H as <-. eapply read_list_runs_err; eauto.
  Qed.

  Lemma get_data_runs_err fr e : opened_record fr -> get_data_runs fr None false = Err e -> volume_exn e.
  Proof.
    intros O H. destruct (fr_attributes fr) as [items [|x]] eqn:E.
    - pose proof (get_data_runs_spec fr None false items O E _ (sort_by_stable first_vcn _)) as P. rewrite H in P.
      destruct P as [-> _]. listed.
    - rewrite (get_data_runs_raises _ _ _ _ _ E) in H. injection H as <-. apply exn_attr_volume. eapply fr_attributes_exn; eauto.
  Qed.

  Lemma get_data_size_err fr e : opened_record fr -> get_data_size fr None false = Err e -> volume_exn e.
  Proof.
    intros O H. unfold get_data_size in H. destruct (find _ _); [discriminate|].
    destruct (snd (fr_attributes fr)) as [|x] eqn:E; [discriminate|]. injection H as <-.
    apply exn_attr_volume. apply (fr_attributes_exn fr (fst (fr_attributes fr))); auto.
    rewrite <- E. now destruct (fr_attributes fr).
  Qed.

  Lemma ff_pread_err f off n e : ff_bytes_ok f -> 0 <= off -> 0 <= n -> ff_pread f off n = Err e -> volume_exn e.
  Proof. intros BF H1 H2 E. pose proof (ff_pread_spec f off n BF H1 H2) as P. rewrite E in P. destruct P as [[->|[->| ->]] _]; listed. Qed.

  Lemma vol_frs_err f size n e : ff_bytes_ok f -> 0 <= n -> 0 <= size -> vol_frs f size n = Err e -> volume_exn e.
  Proof.
    intros BF Hn Hs. unfold vol_frs. destruct (_ <? _); [intros [= <-]; listed|]. assert (Hp : 0 <= n * size) by nia.
    destruct (ff_pread f (n * size) size) as [raw|x] eqn:E; cbn [bind]; [|intros [= <-]; exact (ff_pread_err _ _ _ _ BF Hp Hs E)].
    intro H. eapply frs_open_err; [|exact H]. eapply ff_pread_bytes; [exact BF| | |exact E]; auto.
  Qed.

  Lemma version_check_err f e : opened f -> version_check f = Err e -> volume_exn e.
  Proof.
    intros O H. unfold version_check in H. destruct (gfirst _ _) as [r|x] eqn:E; cbn [bind] in H.
    - destruct r as [[a b]|]; [|injection H as <-; listed].
      destruct (negb _); [injection H as <-; listed|]. destruct (_ <? _); [injection H as <-; listed|discriminate].
    - injection H as <-. apply first_in_err in E as [(a & _ & E)|E]; [|eapply frs_gen_exn; eauto].
      destruct a as [t n v|? ? ? ? ? ? ?]; cbn [value_of_type bind] in E; [|discriminate].
      destruct (t =? _); cbn [bind] in E; [injection E as <-; listed|]. destruct (t =? _); [|discriminate].
      unfold u8 in E. destruct (unp 1 v 8) eqn:E1; cbn [bind] in E; [|apply unp_err in E1; injection E as <-; subst; listed].
      destruct (unp 1 v 9) eqn:E2; cbn [bind] in E; [discriminate|]. apply unp_err in E2. injection E as <-. subst. listed.
  Qed.

  Lemma vol_parser_err f e : ff_bytes_ok f -> vol_parser f = Err e -> volume_exn e.
  Proof.
    intros BF. unfold vol_parser.
    destruct (ff_pread f 0 4) as [sg|x] eqn:E1; cbn [bind]; [|intros [= <-]; eapply ff_pread_err; [exact BF| | |exact E1]; lia].
    destruct (negb _); [intros [= <-]; listed|].
    destruct (ff_pread f 28 4) as [b|x] eqn:E2; cbn [bind]; [|intros [= <-]; eapply ff_pread_err; [exact BF| | |exact E2]; lia].
    destruct (negb _); [intros [= <-]; listed|].
    destruct (zin (fld 4 b 0) frs_sizes) eqn:EZ; cbn [negb]; [|intros [= <-]; listed].
    apply frs_sizes_ok in EZ. assert (Z0 : 0 <= fld 4 b 0) by (destruct EZ; lia).
    assert (N : 0 <= FILE_NUMBER_VOLUME) by (unfold FILE_NUMBER_VOLUME; lia).
    destruct (vol_frs f (fld 4 b 0) FILE_NUMBER_VOLUME) as [fv|x] eqn:E3; cbn [bind]; [|intros [= <-]; exact (vol_frs_err _ _ _ _ BF N Z0 E3)].
    pose proof (vol_frs_opened _ _ _ _ BF N Z0 E3) as O.
    destruct (version_check fv) as [u|x] eqn:E4; cbn [bind]; [discriminate|]. intros [= <-]. eapply version_check_err; eauto.
  Qed.

  Lemma add_pieces_err cs fsize base es e : 0 < cs -> Forall (fun x => 0 <= al_segment x) es ->
    forall ch runs, opened_record (mk_fr base ch) -> main_stream base ch runs ->
    add_pieces vol voff cs fsize base ch runs es = Err e -> volume_exn e.
  Proof.
    intros Hc. induction es as [|x es IH]; intros HS ch runs O M; cbn [add_pieces]; [discriminate|].
    inversion HS as [|? ? S1 S2]; subst. pose proof (main_stream_positive _ _ _ O M) as HP.
    pose proof (open_bytes_ok cs runs fsize Hc HP) as BF. rewrite (decode_ref_value (al_segment x) S1). cbn [fst].
    pose proof (Z.mod_pos_bound (al_segment x) (2 ^ 48) ltac:(lia)) as SB.
    destruct (vol_parser _) as [size|y] eqn:E1; cbn [bind]; [|intros [= <-]; eapply vol_parser_err; eauto].
    apply vol_parser_iff in E1; auto.
    assert (Z0 : 0 <= size) by (destruct E1 as (_ & _ & [->| ->] & _); lia).
    destruct (vol_frs _ _ _) as [f|y] eqn:E2; cbn [bind]; [|intros [= <-]; exact (vol_frs_err _ _ _ _ BF (proj1 SB) Z0 E2)].
    pose proof (vol_frs_opened _ _ _ _ BF (proj1 SB) Z0 E2) as OF. pose proof (opened_snoc base ch f O OF) as O'.
    destruct (get_data_runs _ None false) as [[runs'|]|y] eqn:E3; cbn [bind]; [| |intros [= <-]; eapply get_data_runs_err; eauto].
    - intro H. apply main_stream_iff in E3; auto. eapply IH; eauto.
    - exfalso. eapply main_stream_extends; eauto.
  Qed.

  Lemma all_runs_err cs fsize base runs attr_list e : 0 < cs -> opened base -> main_stream base [] runs ->
    match attr_list with Some v => bytes_ok v | None => True end ->
    all_runs vol voff cs fsize base runs attr_list = Err e -> volume_exn e.
  Proof.
    intros Hc O M HB. destruct attr_list as [v|]; cbn [all_runs]; [|discriminate].
    assert (OR : opened_record (mk_fr base [])) by (split; [exact O|constructor]).
    destruct (al_entries v) as [l st] eqn:E. cbn [fst snd].
    assert (W : al_walk v 0 l /\ st = Done).
    { unfold al_entries in E. destruct (al_loop_walk v HB (S (length v)) 0 ltac:(lia) ltac:(unfold zlen; lia)) as (l' & E' & W).
      rewrite E' in E. injection E as <- <-. auto. }
    destruct W as [W ->]. change data_entry with for_data.
    pose proof (sort_by_stable al_lowest (filter for_data l)) as SS.
    assert (SG : Forall (fun e => 0 <= al_segment e) (filter for_data l)).
    { apply Forall_forall. intros x Hx. apply filter_In in Hx as [Hx _].
      pose proof (al_walk_segments v 0 l HB ltac:(lia) W) as F. rewrite Forall_forall in F. auto. }
    destruct (sort_by al_lowest (filter for_data l)) as [|e0 es] eqn:ES; [intros [= <-]; listed|].
    pose proof (sorted_Forall al_lowest _ _ _ SS SG) as SF. inversion SF as [|? ? S1 S2]; subst.
    destruct (negb _); [intros [= <-]; listed|]. eapply add_pieces_err; eauto.
  Qed.

  Lemma volume_open_err e : volume_open vol voff = Err e -> volume_exn e.
  Proof.
    unfold volume_open. destruct (seek_read vol voff 512) as [bb|x] eqn:E0; cbn [bind]; [|intros [= <-]; eapply seek_read_err; eauto].
    apply zlen_seek_read in E0 as (_ & _ & _ & E0 & _); [|lia].
    assert (Bb : bytes_ok bb) by (rewrite E0; now apply bytes_ok_slice).
    destruct (bs_open bb) as [boot|x] eqn:E1; cbn [bind].
    2:{ intros [= <-]. unfold bs_open in E1. destruct (_ || _); [injection E1 as <-; listed|].
        destruct (zlist_eqb _ _); [discriminate|injection E1 as <-; listed]. }
    assert (N : ntfs_boot bb) by (apply bs_open_iff; eauto). pose proof (bs_open_same _ _ E1); subst boot.
    assert (LB : 512 <= zlen bb) by (destruct N as [(k & K1 & K2) _]; lia).
    destruct (bs_sectors_per_cluster bb) as [spc|x] eqn:E2; cbn [bind]; [|intros [= <-]; apply spc_err in E2; auto; subst; listed].
    destruct (bs_bytes_per_sector bb) as [bps|x] eqn:E3; cbn [bind]; [|intros [= <-]; apply bps_err in E3; auto; subst; listed].
    destruct (bs_frs_size bb) as [fs|x] eqn:E4; cbn [bind].
    2:{ intros [= <-]. unfold bs_frs_size in E4. apply record_size_err in E4; auto; try lia. subst. listed. }
    destruct (bs_mft_cluster bb) as [c|x] eqn:E5; cbn [bind].
    2:{ intros [= <-]. unfold bs_mft_cluster in E5. apply nonzero_err in E5 as [-> _]; auto; try lia. listed. }
    assert (P : 0 < spc * bps).
    { apply spc_iff in E2; auto. apply bps_iff in E3; auto.
      assert (0 < spc) by (destruct E2 as [[? ->]|[? ->]]; [lia|apply Z.pow_pos_nonneg; lia]). nia. }
    destruct (seek_read vol _ fs) as [raw|x] eqn:E6; cbn [bind]; [|intros [= <-]; eapply seek_read_err; eauto].
    assert (BR : bytes_ok raw).
    { unfold seek_read in E6. destruct (_ <? _); [discriminate|]. destruct (_ <=? _); [discriminate|]. destruct (_ <=? _); [discriminate|].
      injection E6 as <-. now apply bytes_ok_slice. }
    destruct (frs_open raw true (Some 0)) as [f0|x] eqn:E7; cbn [bind]; [|intros [= <-]; eapply frs_open_err; eauto].
    assert (O : opened f0) by (exists raw, true, (Some 0); auto).
    assert (OR : opened_record (mk_fr f0 [])) by (split; [exact O|constructor]).
    destruct (find_list vol voff (spc * bps) f0) as [al|x] eqn:E8; cbn [bind]; [|intros [= <-]; eapply find_list_err; eauto].
    apply find_list_iff in E8; auto; [|now apply opened_positive].
    destruct (get_data_runs (mk_fr f0 []) None false) as [[runs0|]|x] eqn:E9; cbn [bind];
      [|intros [= <-]; listed|intros [= <-]; eapply get_data_runs_err; eauto].
    destruct (get_data_size (mk_fr f0 []) None false) as [[fsize|]|x] eqn:E10; cbn [bind];
      [|intros [= <-]; listed|intros [= <-]; eapply get_data_size_err; eauto].
    apply main_stream_iff in E9; auto.
    destruct (all_runs _ _ _ _ _ _ _) as [r|x] eqn:E11; cbn [bind]; [discriminate|]. intros [= <-].
    apply (all_runs_err (spc * bps) fsize f0 runs0 al); auto. destruct al; auto. apply (record_list_bytes (spc * bps) f0); auto.
  Qed.
End Parser.
