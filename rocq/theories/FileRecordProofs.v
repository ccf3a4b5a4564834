(** Proofs about FileRecord. *)
From Verif Require Import Base BaseLemmas MappingPairs MappingPairsSpec MappingPairsProofs
  Frs FrsSpec FrsProofs Sorting FileRecord FileRecordSpec.

(** Every enumerated non-resident attribute carries its decoded runs. *)
Definition decodes (a : attr) : Prop :=
  match a with
  | Resident _ _ _ => True
  | Nonresident _ _ mp r lo _ sz => exists m, mp = Some m /\ decode_mapping_pairs m = Ok r /\ 0 <= lo /\ 0 <= sz
  end.

Lemma fld_nonneg w d p : bytes_ok d -> 0 <= fld w d p.
Proof. intro H; unfold fld. apply le_val_bound, bytes_ok_slice, H. Qed.

Lemma attr_at_bytes d ff pos len ty name mp rng sz : bytes_ok d ->
  attr_at d ff pos len ty name (inr (mp, rng, sz)) -> bytes_ok mp /\ 0 <= fst rng /\ 0 <= sz.
Proof.
  intros Hb H. remember (inr (mp, rng, sz)) as c eqn:E. destruct H; [discriminate|].
  injection E as <- <- <-. split; [apply bytes_ok_slice; auto|].
  cbn [fst]. split; [|lia]. match goal with K : fld 8 d (pos + 16) = _ |- _ => rewrite <- K end.
  apply fld_nonneg; auto.
Qed.

Lemma attr_seq_decodes d ff pos l e : bytes_ok d -> attr_seq d ff shows pos l e -> Forall decodes l.
Proof.
  intros Hb; induction 1 as [|pos len ty name c a l e H1 H2 H3 H4 IH]; constructor; auto.
  destruct a as [t n v|t n mp r lo hi sz]; cbn; [auto|].
  destruct c as [v|[[mp' [lo' hi']] sz']]; cbn in H3; [contradiction|].
  destruct H3 as [-> [-> [-> [M [-> [-> ->]]]]]].
  apply attr_at_bytes in H2; auto. destruct H2 as [B [L S]].
  exists mp'; repeat split; auto. apply decode_mapping_pairs_iff; auto.
Qed.

Lemma opened_bytes f : opened f -> bytes_ok (frs_data f).
Proof. intros [raw [ap [sug [Hb H]]]]; eapply frs_open_bytes_ok; eauto. Qed.

Lemma frs_gen_decodes f : opened f -> Forall decodes (fst (frs_gen f)).
Proof.
  intros O. pose proof (opened_bytes f O) as B. destruct O as [raw [ap [sug [Hb H]]]].
  pose proof (frs_attributes_spec raw ap sug f Hb H) as P; cbn zeta in P.
  destruct P as [_ [_ [e [P _]]]]. eapply attr_seq_decodes; [|exact P]; auto.
Qed.

Lemma gconcat_Forall {A} (P : A -> Prop) l : Forall (fun g => Forall P (fst g)) l ->
  Forall P (fst (gconcat l)).
Proof.
  induction 1 as [|g l Hg Hl IH]; cbn; [constructor|].
  destruct (snd g); cbn; auto. apply Forall_app; auto.
Qed.

Lemma fr_attributes_decodes fr : opened_record fr -> Forall decodes (fst (fr_attributes fr)).
Proof.
  intros [H1 H2]; unfold fr_attributes; apply gconcat_Forall; constructor; [apply frs_gen_decodes; auto|].
  rewrite Forall_map. eapply Forall_impl; [|exact H2]. apply frs_gen_decodes.
Qed.

Lemma fold_add_clusters r : forall n, fold_left Z.add (map snd r) n = n + clusters r.
Proof.
  induction r as [|[o k] r IH]; intros n; cbn; [lia|]. rewrite IH; lia.
Qed.

Lemma name_eqb_eq a b : name_eqb a b = true <-> a = b.
Proof.
  destruct a as [x|], b as [y|]; cbn; try (split; [discriminate|discriminate]); [|tauto].
  rewrite zlist_eqb_eq; split; [intros ->; auto|intros [=]; auto].
Qed.

Lemma data_match_part name idx a :
  data_match (norm_name name) idx a = part_of (stream_type idx) (stream_name name) a.
Proof.
  change (norm_name name) with (stream_name name).
  destruct a as [t n v|t n mp r lo hi sz]; cbn; [auto|].
  unfold data_match; cbn. change (if idx then _ else _) with (stream_type idx).
  destruct (t =? stream_type idx); cbn; auto.
  destruct (opt_name_dec n (stream_name name)) as [->|NE].
  - apply name_eqb_eq; auto.
  - destruct (name_eqb (stream_name name) n) eqn:E; auto. apply name_eqb_eq in E; congruence.
Qed.

Definition nonres (a : attr) : Prop := a_resident a = false.

Lemma data_runs_loop_spec attrs : Forall decodes attrs -> Forall nonres attrs ->
  forall size vcn runs,
  match data_runs_loop attrs size vcn runs with
  | Ok (s, rs) => exists more, rs = runs ++ more /\ contiguous vcn attrs more /\
      (match size with
       | Some _ => s = size
       | None => vcn = 0 -> attrs <> [] -> s = Some (first_size attrs)
       end)
  | Err e => e = MappingPairsException /\ forall more, ~ contiguous vcn attrs more
  end.
Proof.
  induction 1 as [|a t Ha Ht IH]; intros HN size vcn runs; cbn [data_runs_loop].
  - exists []; rewrite app_nil_r; repeat split; [constructor|]. destruct size; auto; congruence.
  - inversion HN as [|x y N1 N2]; subst.
    destruct a as [|ty name mp r lo hi sz]; [discriminate N1|].
    cbn [a_lowest a_size a_decode].
    destruct Ha as [m [-> [D [L0 _]]]]. rewrite D; cbn [bind].
    destruct (Z.eqb_spec lo vcn) as [E|E]; cbn [negb].
    2:{ split; auto. intros more H; inversion H; congruence. }
    subst lo. rewrite fold_add_clusters.
    set (size' := match size with None => _ | Some _ => _ end).
    specialize (IH N2 size' (vcn + (0 + clusters r)) (runs ++ r)).
    destruct (data_runs_loop t size' (vcn + (0 + clusters r)) (runs ++ r)) as [[s rs]|e].
    + destruct IH as [more [-> [IH2 IH3]]]. exists (r ++ more).
      rewrite Z.add_0_l in *. split; [now rewrite app_assoc|]. split; [constructor; auto|].
      destruct size as [z|]; [exact IH3|]. intros -> _. cbn. exact IH3.
    + destruct IH as [-> IH2]; split; auto. intros more H; inversion H; subst.
      rewrite Z.add_0_l in IH2. eapply IH2; eauto.
Qed.

Lemma get_data_runs_spec fr name idx items : opened_record fr ->
  fr_attributes fr = (items, Done) -> forall l,
  stable_sorted first_vcn (stream_parts name idx items) l ->
  match get_data_runs fr name idx with
  | Ok None => l = []
  | Ok (Some runs) => l <> [] /\ contiguous 0 l runs /\ (0 < first_size l -> runs <> [])
  | Err e => e = MappingPairsException /\
      forall runs, contiguous 0 l runs -> 0 < first_size l /\ runs = []
  end.
Proof.
  intros HO HA l HS. apply stable_sorted_sort in HS. change first_vcn with a_lowest in HS.
  pose proof (fr_attributes_decodes fr HO) as HD. unfold get_data_runs. rewrite HA in *; cbn [fst snd] in *.
  assert (EF : filter (data_match (norm_name name) idx) items = stream_parts name idx items).
  { unfold stream_parts. apply filter_ext; intros; apply data_match_part. }
  rewrite EF. 
  assert (D : Forall decodes l /\ Forall nonres l).
  { split; apply Forall_forall; intros a Ha; subst l; rewrite sort_by_In in Ha;
      unfold stream_parts in Ha; apply filter_In in Ha; destruct Ha as [H1 H2].
    - rewrite Forall_forall in HD; auto.
    - destruct a; [discriminate|reflexivity]. }
  destruct D as [D1 D2].
  destruct (stream_parts name idx items) as [|p ps]; [subst l; auto|]. rewrite <- HS.
  assert (NE : l <> []) by (subst l; intro E; apply sort_by_nil in E; discriminate).
  pose proof (data_runs_loop_spec l D1 D2 None 0 []) as P.
  destruct (data_runs_loop l None 0 []) as [[s rs]|e]; cbn [bind].
  2:{ destruct P as [-> P]; split; auto. intros runs H; elim (P _ H). }
  destruct P as [more [-> [P1 P2]]]. rewrite P2 by auto. cbn [app].
  destruct (Z.ltb_spec 0 (first_size l)) as [L|L]; cbn [andb].
  - destruct (Z.eqb_spec (zlen more) 0) as [Z0|Z0].
    + apply zlen_0 in Z0; subst more. split; auto. intros runs H; split; auto.
      assert (G : forall v l a b, contiguous v l a -> contiguous v l b -> a = b).
      { clear; intros v l a b H; revert b; induction H as [|v ty name mp r hi sz rest runs H IH];
          intros b Hb; inversion Hb; subst; auto; f_equal; auto. }
      eapply G; eauto.
    + split; auto. split; auto. intros _ ->; apply Z0; reflexivity.
  - split; auto. split; auto. lia.
Qed.

Lemma get_data_runs_raises fr name idx items e :
  fr_attributes fr = (items, Raised e) -> get_data_runs fr name idx = Err e.
Proof. intros H; unfold get_data_runs; rewrite H; auto. Qed.

Lemma contiguous_total v l runs : contiguous v l runs ->
  Forall (fun a => v <= first_vcn a) l \/ Exists (fun a => clusters (runs_of a) < 0) l.
Proof.
  induction 1 as [|v ty name mp r hi sz rest runs H [IH|IH]].
  - left; constructor.
  - destruct (Z.lt_ge_cases (clusters r) 0); [right; left; auto|].
    left; constructor; cbn; [lia|]. eapply Forall_impl; [|exact IH]; cbn; intros; lia.
  - right; right; auto.
Qed.

Lemma clusters_app a b : clusters (a ++ b) = clusters a + clusters b.
Proof. induction a as [|[o n] a IH]; cbn; [lia|]. rewrite IH; lia. Qed.

(** Each record covers exactly the clusters from its first VCN on. *)
Lemma contiguous_split v l runs : contiguous v l runs ->
  forall front a back, l = front ++ a :: back ->
  exists r1 r2, runs = r1 ++ runs_of a ++ r2 /\ first_vcn a = v + clusters r1.
Proof.
  induction 1 as [|v ty name mp r hi sz rest runs H IH]; intros front a back E.
  - destruct front; discriminate.
  - destruct front as [|x front]; injection E as <- E.
    + exists [], runs; cbn; split; auto; lia.
    + destruct (IH _ _ _ E) as [r1 [r2 [-> IH2]]].
      exists (r ++ r1), r2. rewrite <- app_assoc; split; auto. rewrite clusters_app; lia.
Qed.

(** ** Sizes *)
Lemma get_data_size_spec fr name idx items : fr_attributes fr = (items, Done) ->
  match get_data_size fr name idx with
  | Ok (Some sz) => exists ty n mp r hi back,
      filter starts_stream (stream_parts name idx items) = Nonresident ty n mp r 0 hi sz :: back
  | Ok None => filter starts_stream (stream_parts name idx items) = []
  | Err _ => False
  end.
Proof.
  intros H; unfold get_data_size; rewrite H; cbn [fst snd]; clear H.
  induction items as [|a items IH]; cbn [find]; [reflexivity|].
  unfold stream_parts in *; cbn [filter]. rewrite data_match_part.
  destruct (part_of _ _ a) eqn:E; cbn [andb]; [|exact IH].
  destruct a as [|ty n mp r lo hi sz]; [discriminate|]. cbn [a_lowest filter starts_stream].
  destruct (Z.eqb_spec lo 0); [|exact IH]. subst. cbn. repeat eexists.
Qed.

(** ** Merging *)
Lemma extend_runs_spec exts : Forall decodes exts -> Forall nonres exts -> forall runs,
  extend_runs runs exts = Ok (runs ++ concat (map runs_of exts)).
Proof.
  induction 1 as [|a t Ha Ht IH]; intros HN runs; cbn [extend_runs map concat]; [cbn; now rewrite app_nil_r|].
  inversion HN as [|x y N1 N2]; subst.
  destruct a as [|ty name mp r lo hi sz]; [discriminate N1|].
  destruct Ha as [m [-> [D _]]]; cbn [a_decode]; rewrite D; cbn [bind runs_of]. rewrite IH by auto. now rewrite app_assoc.
Qed.

Lemma filter_filter {A} (f g : A -> bool) l : filter f (filter g l) = filter (fun x => g x && f x) l.
Proof.
  induction l as [|x l IH]; cbn; auto. destruct (g x); cbn; [destruct (f x); now rewrite IH|auto].
Qed.

Lemma merge_loop_spec items : Forall decodes items -> forall bases,
  (forall b, In b bases -> In b items /\ nonres b /\ starts_stream b = true) ->
  exists ms, merge_loop bases (filter (fun a => negb (a_lowest a =? 0))
                                 (filter (fun a => negb (a_resident a)) items)) = (ms, Done) /\ Forall2 (merged_as items) bases ms.
Proof.
  intros HD bases; induction bases as [|b t IH]; intros HB; cbn [merge_loop].
  { exists []; split; auto. }
  destruct IH as [ms [IH1 IH2]]; [intros; apply HB; right; auto|].
  rewrite IH1.
  destruct (HB b (or_introl eq_refl)) as [B1 [B2 B3]].
  destruct b as [|ty name mp r lo hi sz]; [discriminate B2|].
  cbn in B3; apply Z.eqb_eq in B3; subst lo. cbn [a_type a_name a_size a_decode].
  rewrite !filter_filter.
  rewrite (filter_ext _ (continues (Nonresident ty name mp r 0 hi sz))).
  2:{ intros [|t' n' mp' r' lo' hi' sz']; cbn; auto.
      destruct (lo' =? 0); cbn; [now rewrite andb_false_r|]. rewrite andb_true_r.
      destruct (t' =? ty); cbn; auto.
      destruct (opt_name_dec n' name) as [->|NE]; [apply name_eqb_eq; auto|].
      destruct (name_eqb n' name) eqn:E; auto. apply name_eqb_eq in E; congruence. }
  set (b := Nonresident ty name mp r 0 hi sz) in *.
  set (mine := sort_by a_lowest (filter (continues b) items)).
  assert (HS : stable_sorted first_vcn (filter (continues b) items) mine)
    by (change first_vcn with a_lowest; apply sort_by_stable).
  assert (HM : forall a, In a mine -> In a items /\ nonres a).
  { intros a Ha; unfold mine in Ha; rewrite sort_by_In, filter_In in Ha.
    destruct Ha as [A1 A2]; split; auto. destruct a; [discriminate|reflexivity]. }
  rewrite Forall_forall in HD.
  destruct (rev mine) as [|last front] eqn:ER.
  - exists (b :: ms); split; auto. constructor; auto.
    exists mine; split; auto.
    assert (EM : mine = []) by (rewrite <- (rev_involutive mine), ER; auto). rewrite EM; cbn; auto.
  - assert (EM : mine = rev front ++ [last]) by (rewrite <- (rev_involutive mine), ER; auto).
    pose proof (HD _ B1) as [m [-> [D _]]]. rewrite D; cbn [bind].
    rewrite extend_runs_spec;
      [|apply Forall_forall; intros a Ha; apply HD, HM; auto
       |apply Forall_forall; intros a Ha; apply HM; auto].
    eexists; split; [reflexivity|]. constructor; auto.
    exists mine; split; auto. cbn.
    destruct last as [|ty' n' mp' r' lo' hi' sz'].
    { destruct (HM (Resident type_code name0 value)) as [_ X]; [|discriminate X].
      rewrite EM; apply in_or_app; right; left; auto. }
    destruct mine as [|m1 mine'] eqn:EMM; [destruct (rev front); discriminate|].
    rewrite EM. repeat eexists.
Qed.

Lemma fr_attributes_merged_spec fr items : opened_record fr -> fr_attributes fr = (items, Done) ->
  exists ms, fr_attributes_merged fr = (filter is_resident_attr items ++ ms, Done) /\ Forall2 (merged_as items) (filter starts_stream items) ms.
Proof.
  intros HO HA. pose proof (fr_attributes_decodes fr HO) as HD.
  unfold fr_attributes_merged; rewrite HA in *; cbn [fst snd] in *.
  destruct (merge_loop_spec items HD (filter starts_stream items)) as [ms [M1 M2]].
  { intros b Hb; apply filter_In in Hb; destruct Hb as [B1 B2]; repeat split; auto.
    destruct b; [discriminate|reflexivity]. }
  exists ms; split; auto.
  rewrite (filter_filter (fun a => a_lowest a =? 0)).
  rewrite (filter_ext (fun x => negb (a_resident x) && (a_lowest x =? 0)) starts_stream)
    by (intros [|]; cbn; auto).
  rewrite M1. reflexivity.
Qed.

Lemma fr_attributes_merged_raises fr items e : fr_attributes fr = (items, Raised e) ->
  fr_attributes_merged fr = (filter is_resident_attr items, Raised e).
Proof. intros H; unfold fr_attributes_merged; rewrite H; auto. Qed.

(** ** The two views agree *)
From Coq Require Import Permutation Sorted.

Lemma sort_single_first {A} (key : A -> Z) l b :
  Forall (fun x => 0 <= key x) l -> filter (fun x => key x =? 0) l = [b] ->
  sort_by key l = b :: sort_by key (filter (fun x => negb (key x =? 0)) l).
Proof.
  intros HN HF; symmetry; apply stable_sorted_sort.
  destruct (sort_by_stable key (filter (fun x => negb (key x =? 0)) l)) as [P [S F]].
  assert (KB : key b = 0).
  { assert (In b (filter (fun x => key x =? 0) l)) as I by (rewrite HF; left; auto).
    apply filter_In in I; lia. }
  repeat split.
  - rewrite <- P. clear -HF. revert HF; generalize (@eq_refl _ [b]).
    assert (G : forall l, Permutation l (filter (fun x => key x =? 0) l ++ filter (fun x => negb (key x =? 0)) l)).
    { clear; induction l as [|x l IH]; cbn; auto. destruct (key x =? 0); cbn; [auto|].
      apply Permutation_cons_app; auto. }
    intros _ HF; pose proof (G l) as GL; rewrite HF in GL; exact GL.
  - constructor; auto. apply Forall_forall; intros x Hx.
    rewrite sort_by_In, filter_In in Hx. rewrite Forall_forall in HN.
    specialize (HN x (proj1 Hx)); lia.
  - intros k; cbn. rewrite F, KB. destruct (Z.eqb_spec 0 k).
    + subst k. rewrite filter_filter, HF. f_equal.
      clear; induction l as [|x l IH]; cbn; auto. destruct (key x =? 0); cbn; auto.
    + rewrite filter_filter. apply filter_ext; intros x. destruct (Z.eqb_spec (key x) k), (Z.eqb_spec (key x) 0); cbn; auto; lia.
Qed.

Lemma contiguous_runs v l runs : contiguous v l runs -> runs = concat (map runs_of l).
Proof. induction 1; cbn; congruence. Qed.

Lemma merged_agrees fr name idx items b m runs : opened_record fr ->
  fr_attributes fr = (items, Done) ->
  filter starts_stream (stream_parts name idx items) = [b] ->
  merged_as items b m -> get_data_runs fr name idx = Ok (Some runs) ->
  runs_of m = runs.
Proof.
  intros HO HA HB [exts [HE HM]] HG.
  pose proof (fr_attributes_decodes fr HO) as HD. rewrite HA in HD; cbn [fst] in HD.
  pose proof (get_data_runs_spec fr name idx items HO HA _ (sort_by_stable _ _)) as P.
  rewrite HG in P. destruct P as [_ [P _]]. apply contiguous_runs in P.
  assert (IB : In b (filter starts_stream (stream_parts name idx items))) by (rewrite HB; left; auto).
  apply filter_In in IB; destruct IB as [IB1 IB2].
  unfold stream_parts in IB1; apply filter_In in IB1; destruct IB1 as [IB1 IB3].
  destruct b as [|ty n mp r lo hi sz]; [contradiction|].
  cbn in IB3. apply andb_true_iff in IB3; destruct IB3 as [T N].
  destruct (opt_name_dec n (stream_name name)) as [->|]; [|discriminate].
  apply Z.eqb_eq in T. subst ty.
  assert (ES : sort_by first_vcn (stream_parts name idx items) =
               Nonresident (stream_type idx) (stream_name name) mp r lo hi sz ::
               sort_by first_vcn (filter (continues (Nonresident (stream_type idx) (stream_name name) mp r lo hi sz)) items)).
  { rewrite (sort_single_first first_vcn _ (Nonresident (stream_type idx) (stream_name name) mp r lo hi sz)).
    - f_equal. f_equal. unfold stream_parts. rewrite filter_filter. apply filter_ext; intros a; auto.
    - apply Forall_forall; intros a Ha. unfold stream_parts in Ha; apply filter_In in Ha.
      rewrite Forall_forall in HD. specialize (HD a (proj1 Ha)).
      destruct a; cbn in *; [lia|]. destruct HD as [? [_ [_ [? _]]]]; auto.
    - rewrite <- HB. unfold stream_parts. rewrite !filter_filter.
      apply filter_ext; intros [|]; auto. }
  apply stable_sorted_sort in HE. rewrite <- HE in ES. rewrite ES in P.
  cbn [map concat runs_of] in P.
  destruct exts as [|x exts].
  - subst m. cbn. cbn in P. now rewrite app_nil_r in P.
  - destruct HM as [? [? [? [? [? [? [? [? [_ ->]]]]]]]]]. cbn [runs_of]. auto.
Qed.

(** ** Statements used by the property file *)

(** Three segments: the base of [sample_record] and two children whose
    unnamed stream records cover VCN 8-11 and VCN 5-7 (out of order). *)
Definition sample_child (lo n lcn : Z) : list Z :=
  put (put (put sample_record 144 (le_bytes 8 lo)) 152 (le_bytes 8 (lo + n - 1))) 192 [0x11; n; lcn; 0].

Definition sample_fr : result file_record :=
  let! b := frs_open sample_record false None in
  let! c1 := frs_open (sample_child 8 4 20) false None in
  let! c2 := frs_open (sample_child 5 3 30) false None in
  Ok (mk_fr b [c1; c2]).

Lemma C08_part_without_start_dropped_refuted_lemma : exists fr items a,
  opened_record fr /\ fr_attributes fr = (items, Done) /\ In a items /\ runs_of a <> [] /\
  snd (fr_attributes_merged fr) = Done /\
  forall m, In m (fst (fr_attributes_merged fr)) -> runs_of m = [].
Proof.
  destruct (frs_open (sample_child 8 4 20) false None) as [f|e] eqn:E; [|vm_compute in E; discriminate].
  assert (B1 : bytes_ok (sample_child 8 4 20)) by (apply bytes_okb_ok; vm_compute; reflexivity).
  exists (mk_fr f []), (fst (fr_attributes (mk_fr f []))).
  exists (nth 2 (fst (fr_attributes (mk_fr f []))) (Resident 0 None [])).
  split; [split; [exists (sample_child 8 4 20), false, None; auto|constructor]|].
  vm_compute in E; injection E as <-.
  split; [vm_compute; reflexivity|]. split; [vm_compute; auto|]. split; [vm_compute; discriminate|].
  split; [vm_compute; reflexivity|].
  intros m Hm; vm_compute in Hm. repeat (destruct Hm as [<-|Hm]; [reflexivity|]). contradiction.
Qed.
