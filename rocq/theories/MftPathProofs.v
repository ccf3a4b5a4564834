(** Proofs about paths. *)
From Coq Require Import Lia ZifyBool Sorted.
From Verif Require Import Base BaseLemmas MappingPairs MappingPairsSpec MappingPairsProofs
  Frs FrsSpec FrsProofs FileRecord FileRecordSpec FileRecordProofs Mft MftSpec MftProofs.
Local Set Warnings "-abstract-large-number".

Lemma decode_ref_all r : decode_ref r = (r mod 2 ^ 48, r / 2 ^ 48).
Proof.
  unfold decode_ref; change 0xFFFFFFFFFFFF with (Z.ones 48).
  now rewrite Z.land_ones, Z.shiftr_div_pow2 by lia.
Qed.

Lemma unp_cases w v off : 0 <= off -> 0 < w ->
  unp w v off = (if off + w <=? zlen v then Ok (fld w v off) else Err StructError).
Proof.
  intros Ho Hw. destruct (Z.leb_spec (off + w) (zlen v)).
  - apply unp_ok; lia.
  - unfold unp. rewrite zlen_slice by lia.
    match goal with |- (if ?a =? ?b then _ else _) = _ => destruct (Z.eqb_spec a b) end; [lia|reflexivity].
Qed.

Lemma fn_name_cases v : fn_name v = if 65 <=? zlen v then Ok (name_field v) else Err StructError.
Proof. unfold fn_name, u8. rewrite unp_cases by lia. change (64 + 1) with 65. destruct (65 <=? zlen v); reflexivity. Qed.

Lemma fn_flags_cases v : fn_flags v = if 66 <=? zlen v then Ok (fld 1 v 65) else Err StructError.
Proof. unfold fn_flags, u8. rewrite unp_cases by lia. reflexivity. Qed.

Lemma fn_parent_cases v : fn_parent v = if 8 <=? zlen v then Ok (fld 8 v 0) else Err StructError.
Proof. unfold fn_parent, u64. rewrite unp_cases by lia. reflexivity. Qed.

Lemma preferred_long v : preferred (fld 1 v 65) = long_name v.
Proof. unfold preferred, long_name, FILE_NAME_NTFS. now rewrite land1_odd. Qed.

Fixpoint mapM {A B} (g : A -> result B) (l : list A) : result (list B) :=
  match l with
  | [] => Ok []
  | a :: t => let! b := g a in let! r := mapM g t in Ok (b :: r)
  end.

(** Exceptions that can come out of the path functions. *)

Lemma name_values_cons a l : name_values (a :: l) =
  match value_of_type ATTR_TYPE_FILE_NAME a with Ok (Some v) => [v] | _ => [] end ++ name_values l.
Proof.
  destruct a as [ty n v|]; [|reflexivity]. cbn [value_of_type]. unfold ATTR_TYPE_INDEX_ALLOCATION, ATTR_TYPE_FILE_NAME.
  destruct (Z.eqb_spec ty 0xA0) as [->|H]; [reflexivity|].
  destruct (Z.eqb_spec ty 0x30) as [->|H2]; [reflexivity|].
  cbn [name_values app]. apply Z.eqb_neq in H2. now rewrite H2.
Qed.

Lemma value_of_type_cases a :
  match value_of_type ATTR_TYPE_FILE_NAME a with
  | Err e => ~ decodable a /\ e = AttributeError_py
  | Ok (Some v) => decodable a /\ exists n, a = Resident 0x30 n v
  | Ok None => decodable a /\ name_values [a] = []
  end.
Proof.
  pose proof (name_values_cons a []) as HN. unfold value_of_type in *.
  destruct a as [ty n v|]; cbn [decodable]; [|auto].
  unfold ATTR_TYPE_INDEX_ALLOCATION, ATTR_TYPE_FILE_NAME in *.
  destruct (Z.eqb_spec ty 0xA0) as [->|H]; [split; [intro K; now apply K|reflexivity]|].
  destruct (Z.eqb_spec ty 0x30) as [->|H2]; [split; eauto|auto].
Qed.

Lemma collect_names {B} (g : list Z -> result B) items st :
  match collect_in (fun a => let! v := value_of_type ATTR_TYPE_FILE_NAME a in
                             match v with None => Ok None | Some v => let! b := g v in Ok (Some b) end) items st with
  | Ok bs => st = Done /\ Forall decodable items /\ mapM g (name_values items) = Ok bs
  | Err e => st = Raised e \/ e = AttributeError_py /\ ~ Forall decodable items \/
             exists v, In v (name_values items) /\ g v = Err e
  end.
Proof.
  induction items as [|a items IH]; cbn [collect_in].
  - destruct st; cbn; auto.
  - rewrite name_values_cons. pose proof (value_of_type_cases a) as HV.
    destruct (value_of_type ATTR_TYPE_FILE_NAME a) as [[v|]|e]; cbn [bind app].
    + destruct (g v) as [b|e] eqn:Eg; cbn [bind].
      * match type of IH with match ?x with _ => _ end => destruct x as [bs|e] end; cbn [bind].
        -- destruct IH as (-> & HF & HM). repeat split; auto; [constructor; tauto|].
           cbn [mapM]. now rewrite Eg, HM.
        -- destruct IH as [H|[[H1 H2]|[w [H1 H2]]]]; auto.
           ++ right; left; split; auto. intro K; inversion K; auto.
           ++ right; right; exists w; split; [right|]; auto.
      * right; right; exists v; split; [left|]; auto.
    + match type of IH with match ?x with _ => _ end => destruct x as [bs|e] end; cbn [bind].
      * destruct IH as (-> & HF & HM). repeat split; auto; constructor; tauto.
      * destruct IH as [H|[[H1 H2]|[w [H1 H2]]]]; auto.
        -- right; left; split; auto. intro K; inversion K; auto.
        -- right; right; eauto.
    + right; left. destruct HV as [HV ->]. split; auto. intro K; inversion K; auto.
Qed.

Lemma has_names_fun fr vs ws : has_names fr vs -> has_names fr ws -> vs = ws.
Proof. intros (i & E & _ & -> & _) (j & E' & _ & -> & _). congruence. Qed.

Lemma mapM_names {B} (g : list Z -> result B) (h : list Z -> B) vs bs :
  (forall v, g v = if 66 <=? zlen v then Ok (h v) else Err StructError) ->
  mapM g vs = Ok bs <-> Forall (fun v => 66 <= zlen v) vs /\ bs = map h vs.
Proof.
  intro Hg. revert bs. induction vs as [|v vs IH]; intro bs; cbn [mapM map].
  - split; [intro H; injection H as <-; auto|intros [_ ->]; auto].
  - rewrite Hg. destruct (Z.leb_spec 66 (zlen v)); cbn [bind].
    + split.
      * intro H0; apply bind_ok in H0 as [r [H1 H2]]. injection H2 as <-.
        apply IH in H1 as [H1 ->]. auto.
      * intros [H0 ->]. inversion H0; subst. rewrite (proj2 (IH (map h vs))); auto.
    + split; [discriminate|]. intros [H0 _]; inversion H0; subst; lia.
Qed.

(** Collecting the names of a record. *)
Lemma collect_has_names {B} (g : list Z -> result B) (h : list Z -> B) fr :
  (forall v, g v = if 66 <=? zlen v then Ok (h v) else Err StructError) ->
  forall bs, gcollect (fun a => let! v := value_of_type ATTR_TYPE_FILE_NAME a in
                     match v with None => Ok None | Some v => let! b := g v in Ok (Some b) end)
                  (fr_attributes fr) = Ok bs <->
  exists vs, has_names fr vs /\ bs = map h vs.
Proof.
  intros Hg bs. unfold gcollect.
  pose proof (collect_names g (fst (fr_attributes fr)) (snd (fr_attributes fr))) as HC.
  match type of HC with match ?x with _ => _ end => destruct x as [bs'|e] eqn:E end.
  - destruct HC as (H1 & H2 & H3). apply (mapM_names g h) in H3 as [H3 ->]; auto.
    assert (HN : has_names fr (name_values (fst (fr_attributes fr)))).
    { exists (fst (fr_attributes fr)). rewrite <- H1. split; [now destruct (fr_attributes fr)|]. auto. }
    split; [intro H; injection H as <-; eauto|].
    intros [vs [Hv ->]]. now rewrite (has_names_fun _ _ _ Hv HN).
  - split; [discriminate|]. intros [vs [(items & Hi & Hd & -> & Hl) ->]]. rewrite Hi in HC. cbn [fst snd] in HC.
    destruct HC as [H|[[H1 H2]|[w [H1 H2]]]]; try easy.
    rewrite Forall_forall in Hl. specialize (Hl w H1). rewrite Hg in H2.
    destruct (Z.leb_spec 66 (zlen w)); [discriminate|lia].
Qed.

Lemma fr_attributes_exn fr items e : opened_record fr -> fr_attributes fr = (items, Raised e) -> exn_attr e.
Proof.
  intros [HB HC] H. unfold fr_attributes in H.
  assert (G : forall f e', opened f -> snd (frs_gen f) = Raised e' -> exn_attr e').
  { intros f e' (raw & ap & sug & B & Ho) Hs. unfold frs_gen in Hs; cbn [snd] in Hs.
    pose proof (frs_attributes_spec raw ap sug f B Ho) as HS. cbv zeta in HS.
    destruct HS as (_ & _ & x & _ & _ & HS). rewrite Hs in HS. tauto. }
  assert (K : forall l, Forall opened l -> forall items e', gconcat (map frs_gen l) = (items, Raised e') -> exn_attr e').
  { induction l as [|f l IH]; intros HF it e' He; cbn [map gconcat] in He; [discriminate|].
    inversion HF; subst. destruct (snd (frs_gen f)) eqn:Es.
    - unfold gapp in He. injection He as _ He. apply (IH H3 (fst (gconcat (map frs_gen l)))).
      rewrite <- He. now destruct (gconcat (map frs_gen l)).
    - eapply G; eauto. rewrite He. reflexivity. }
  exact (K (fr_base fr :: fr_children fr) (Forall_cons _ HB HC) items e H).
Qed.

Lemma collect_names_err {B} (g : list Z -> result B) (h : list Z -> B) fr e :
  (forall v, g v = if 66 <=? zlen v then Ok (h v) else Err StructError) -> opened_record fr ->
  gcollect (fun a => let! v := value_of_type ATTR_TYPE_FILE_NAME a in
                     match v with None => Ok None | Some v => let! b := g v in Ok (Some b) end)
                  (fr_attributes fr) = Err e -> path_exn e.
Proof.
  intros Hg HO E. unfold gcollect in E.
  pose proof (collect_names g (fst (fr_attributes fr)) (snd (fr_attributes fr))) as HC.
  rewrite E in HC. unfold path_exn. destruct HC as [H|[[H1 H2]|[w [H1 H2]]]].
  - right; right; right. apply (fr_attributes_exn fr (fst (fr_attributes fr))); auto.
    rewrite <- H. now destruct (fr_attributes fr).
  - auto.
  - rewrite Hg in H2. destruct (66 <=? zlen w); [discriminate|injection H2 as <-; auto].
Qed.

Lemma main_name_fun vs v w : main_name vs v -> main_name vs w -> v = w.
Proof.
  intros H. revert w. destruct H as [l1 v l2 Hv Hl|v l Hl]; intros w H'.
  - remember (l1 ++ v :: l2) as vs eqn:E. destruct H' as [m1 w m2 Hw Hm|w m Hm].
    + revert m1 Hm E. induction l1 as [|a l1 IH]; intros [|b m1] Hm E; cbn [app] in E.
      * congruence.
      * injection E as -> E. inversion Hm; congruence.
      * injection E as -> E. inversion Hl; congruence.
      * injection E as -> E. inversion Hl; inversion Hm; subst. eapply IH; eauto.
    + exfalso. rewrite E in Hm. apply Forall_app in Hm as [_ Hm]. inversion Hm; congruence.
  - remember (v :: l) as vs eqn:E. destruct H' as [m1 w m2 Hw Hm|w m Hm]; [|congruence].
    exfalso. apply Forall_app in Hl as [_ Hl]. inversion Hl; congruence.
Qed.

Lemma main_name_find vs : vs <> [] -> exists v, main_name vs v /\
  match find long_name vs with Some x => v = x | None => exists l, vs = v :: l end.
Proof.
  intro Hn. destruct (find long_name vs) as [x|] eqn:E.
  - exists x. split; auto. clear Hn. induction vs as [|a vs IH]; cbn [find] in E; [discriminate|].
    destruct (long_name a) eqn:Ea.
    + injection E as ->. apply (main_long [] x vs); auto.
    + specialize (IH E). inversion IH as [l1 v l2 Hv Hl|v l Hl]; subst.
      * apply (main_long (a :: l1) x l2); auto.
      * exfalso. inversion Hl; subst. apply find_some in E. destruct E; congruence.
  - destruct vs as [|v l]; [congruence|]. exists v. split; eauto. constructor.
    apply Forall_forall. intros y Hy. exact (find_none _ _ E y Hy).
Qed.

Definition name_triple (v : list Z) : Z * (list Z * Z) := (fld 1 v 65, (name_field v, fld 8 v 0)).

Lemma name_triple_ok v :
  (let! f := fn_flags v in let! n := fn_name v in let! r := fn_parent v in Ok (f, (n, r))) =
  if 66 <=? zlen v then Ok (name_triple v) else Err StructError.
Proof.
  rewrite fn_flags_cases, fn_name_cases, fn_parent_cases.
  destruct (Z.leb_spec 66 (zlen v)); cbn [bind]; auto.
  replace (65 <=? zlen v) with true by (symmetry; apply Z.leb_le; lia).
  replace (8 <=? zlen v) with true by (symmetry; apply Z.leb_le; lia). reflexivity.
Qed.

Lemma find_map {A B} (g : A -> B) (q : B -> bool) l :
  find q (map g l) = option_map g (find (fun x => q (g x)) l).
Proof. induction l as [|a l IH]; cbn; auto. destruct (q (g a)); auto. Qed.

Lemma first_in_ext {A B} (f g : A -> result (option B)) l st : (forall a, f a = g a) ->
  first_in f l st = first_in g l st.
Proof. intro H. induction l as [|a l IH]; cbn [first_in]; auto. now rewrite H, IH. Qed.

Lemma collect_in_ext {A B} (f g : A -> result (option B)) l st : (forall a, f a = g a) ->
  collect_in f l st = collect_in g l st.
Proof. intro H. induction l as [|a l IH]; cbn [collect_in]; auto. now rewrite H, IH. Qed.

Lemma preferred_name_spec fr :
  match preferred_name fr with
  | Ok (n, r) => exists vs v, has_names fr vs /\ main_name vs v /\ n = name_field v /\ r = fld 8 v 0
  | Err e => (opened_record fr -> path_exn e) /\ forall vs v, has_names fr vs -> ~ main_name vs v
  end.
Proof.
  unfold preferred_name.
  set (g := fun v => let! f := fn_flags v in let! n := fn_name v in let! r := fn_parent v in Ok (f, (n, r))).
  match goal with |- context [gcollect ?f ?x] =>
    assert (EG : gcollect f x = gcollect (fun a => let! v := value_of_type ATTR_TYPE_FILE_NAME a in
                     match v with None => Ok None | Some v => let! b := g v in Ok (Some b) end) x) end.
  { apply collect_in_ext. intro a. destruct (value_of_type ATTR_TYPE_FILE_NAME a) as [[v|]|]; cbn [bind]; auto.
    unfold g. destruct (fn_flags v); cbn [bind]; auto. destruct (fn_name v); cbn [bind]; auto.
    destruct (fn_parent v); cbn [bind]; auto. }
  rewrite EG. clear EG.
  assert (Hg : forall v, g v = if 66 <=? zlen v then Ok (name_triple v) else Err StructError) by apply name_triple_ok.
  pose proof (collect_has_names g name_triple fr Hg) as HC.
  pose proof (collect_names_err g name_triple fr) as HE.
  match goal with |- match bind ?x _ with _ => _ end => destruct x as [bs|e] eqn:E end; cbn [bind].
  - destruct (proj1 (HC bs) eq_refl) as [vs [Hv ->]].
    destruct vs as [|v0 vs]; cbn [map].
    + split; [intros _; right; right; left; auto|].
      intros ws v Hw Hm. rewrite (has_names_fun _ _ _ Hw Hv) in Hm. inversion Hm.
      destruct l1; discriminate.
    + unfold name_triple at 1.
      destruct (main_name_find (v0 :: vs) ltac:(discriminate)) as [v [Hm Hf]].
      change (name_triple v0 :: map name_triple vs) with (map name_triple (v0 :: vs)).
      rewrite find_map.
      replace (find (fun x => preferred (fst (name_triple x))) (v0 :: vs)) with (find long_name (v0 :: vs)).
      * destruct (find long_name (v0 :: vs)) as [x|]; cbn [option_map].
        -- subst x. unfold name_triple. exists (v0 :: vs), v. auto.
        -- destruct Hf as [l El]. injection El as -> ->. exists (v :: l), v. auto.
      * clear. generalize (v0 :: vs) as l. induction l as [|x l IH]; cbn [find]; auto.
        unfold name_triple at 1. cbn [fst]. rewrite preferred_long, IH. reflexivity.
  - split; [intro HO; exact (HE e Hg HO eq_refl)|].
    intros vs v Hv Hm. assert (X : @Err (list (Z * (list Z * Z))) e = Ok (map name_triple vs)) by (apply HC; eauto). discriminate.
Qed.

Lemma ancestry_fun t data size seen fr l : bytes_ok data -> ancestry t data size seen fr l -> forall m,
  ancestry t data size seen fr m -> l = m.
Proof.
  intros B H. induction H as [seen fr vs v HN HM|seen fr vs v HN HM|seen fr vs v fr' HN HM|seen fr vs v fr' HN HM|seen fr vs v fr' l HN HM];
    intros m Hm; destruct Hm as [s0 f0 ws w HN' HM'|s0 f0 ws w HN' HM'|s0 f0 ws w g HN' HM'|s0 f0 ws w g HN' HM'|s0 f0 ws w g m HN' HM'];
    pose proof (has_names_fun _ _ _ HN HN'); subst ws;
    pose proof (main_name_fun _ _ _ HM HM'); subst w; try reflexivity; try contradiction;
    try (exfalso; match goal with H : forall x, ~ parent_of _ _ _ _ x, H' : parent_of _ _ _ _ ?y |- _ => exact (H y H') end);
    try (match goal with H1 : parent_of _ _ _ _ ?a, H2 : parent_of _ _ _ _ ?b |- _ =>
           pose proof (record_at_fun _ _ _ _ _ _ _ B H1 H2); subst end; contradiction).
  match goal with H1 : parent_of _ _ _ _ ?a, H2 : parent_of _ _ _ _ ?b |- _ =>
    pose proof (record_at_fun _ _ _ _ _ _ _ B H1 H2); subst end.
  f_equal. auto.
Qed.

Lemma fr_directory_spec t data size n seq fr : bytes_ok data -> record_at t data size n seq fr ->
  fr_directory fr = true <-> is_directory fr.
Proof.
  intros B (f & s & H & _ & _ & _ & ->). destruct (segment_at_bytes _ _ _ _ B H) as [Bf _].
  unfold fr_directory, is_directory, h_flags. cbn [fr_base].
  rewrite land2_testbit; [reflexivity|apply fld_nonneg; auto].
Qed.

Lemma record_at_slot t data size n seq fr : size_ok size -> record_at t data size n seq fr ->
  0 <= n /\ n < zlen data / size + 1.
Proof.
  intros Hs (f & s & [Hn H] & _). split; auto.
  assert (0 < size) by (destruct Hs; lia).
  destruct (Z.ltb_spec n (zlen data / size + 1)); auto. exfalso.
  unfold slot in H. rewrite slice_beyond in H; [discriminate|].
  pose proof (Z.mul_succ_div_gt (zlen data) size H0). nia.
Qed.

Lemma record_at_opened t data size n seq fr p : parser_of data size t p -> record_at t data size n seq fr ->
  opened_record fr.
Proof.
  intros HP (f & s & [Hn H] & _ & _ & _ & ->). pose proof HP as (B & _).
  split; cbn [fr_base fr_children].
  - exists (slot data size n), true, (Some n). split; auto. now apply bytes_ok_slot.
  - apply Forall_forall. intros c Hc. unfold children_in in Hc.
    apply in_map_iff in Hc as [[k c'] [E Hc]]. cbn [snd] in E; subst c'.
    apply filter_In in Hc as [Hc _]. pose proof (table_segments _ _ _ _ HP) as HT.
    rewrite Forall_forall in HT. destruct (HT _ Hc) as [H1 H2]. cbn [fst snd] in H2.
    exists (slot data size k), true, (Some k). split; auto. now apply bytes_ok_slot.
Qed.

Lemma track_bound (N : Z) track : NoDup track -> Forall (fun k => 0 <= k < N) track ->
  (length track <= Z.to_nat N)%nat.
Proof.
  intros ND HF. rewrite <- (seq_length (Z.to_nat N) 0), <- (map_length Z.of_nat).
  apply NoDup_incl_length; auto. intros k Hk. rewrite Forall_forall in HF. specialize (HF k Hk).
  apply in_map_iff. exists (Z.to_nat k). split; [lia|]. apply in_seq; lia.
Qed.

Lemma climb_spec data size t p : fits data -> parser_of data size t p ->
  forall fuel track fr comps, opened_record fr -> NoDup track ->
  Forall (fun k => 0 <= k < zlen data / size + 1) track ->
  (Z.to_nat (zlen data / size + 1) < fuel + length track)%nat ->
  match climb fuel p track fr comps with
  | Ok out => exists l, ancestry t data size track fr l /\ out = comps ++ l
  | Err e => path_exn e /\ forall l, ~ ancestry t data size track fr l
  end.
Proof.
  intros F HP. pose proof HP as (B & Hz & _).
  induction fuel as [|fuel IH]; intros track fr comps HO ND HR HF.
  { pose proof (track_bound _ _ ND HR). lia. }
  cbn [climb]. pose proof (preferred_name_spec fr) as HN.
  destruct (preferred_name fr) as [[n r]|e]; cbn [bind].
  2:{ destruct HN as [HN1 HN2]. split; auto. intros l Hl.
      destruct Hl; match goal with H1 : has_names _ _, H2 : main_name _ _ |- _ => exact (HN2 _ _ H1 H2) end. }
  destruct HN as (vs & v & Hv & Hm & -> & ->). rewrite decode_ref_all. cbn [fst snd].
  fold (parent_number v). fold (parent_sequence v).
  destruct (zin (parent_number v) track) eqn:Et.
  { apply zin_In in Et. exists [name_field v; orphan]. split; [eapply anc_cycle; eauto|].
    rewrite <- app_assoc. reflexivity. }
  apply zin_false in Et. rewrite by_number_false.
  assert (Hpn : 0 <= parent_number v) by (unfold parent_number; lia).
  destruct (by_number_base p (parent_number v) (Some (parent_sequence v))) as [fr'|e] eqn:Eb.
  2:{ rewrite (by_number_base_err _ _ _ _ _ _ _ F HP Hpn Eb).
      exists [name_field v; orphan]. split; [|rewrite <- app_assoc; reflexivity].
      eapply anc_lost; eauto. intros fr' Hp.
      apply (by_number_base_iff _ _ _ _ _ _ _ F HP Hpn) in Hp. congruence. }
  apply (by_number_base_iff _ _ _ _ _ _ _ F HP Hpn) in Eb.
  unfold FILE_NUMBER_ROOT. destruct (Z.eqb_spec (parent_number v) 5) as [E5|E5].
  { exists [name_field v; []]. split; [|rewrite <- app_assoc; reflexivity].
    eapply anc_root; eauto. }
  pose proof (fr_directory_spec _ _ _ _ _ _ B Eb) as HD.
  destruct (fr_directory fr') eqn:Ed; cbn [negb].
  2:{ exists [name_field v; orphan]. split; [|rewrite <- app_assoc; reflexivity].
      eapply anc_file; eauto. intro K; apply HD in K; discriminate. }
  specialize (IH (parent_number v :: track) fr' (comps ++ [name_field v])
                (record_at_opened _ _ _ _ _ _ _ HP Eb)).
  pose proof (record_at_slot _ _ _ _ _ _ Hz Eb) as HSl.
  specialize (IH ltac:(constructor; auto) ltac:(constructor; auto) ltac:(cbn [length]; lia)).
  destruct (climb fuel p (parent_number v :: track) fr' (comps ++ [name_field v])) as [out|e].
  - destruct IH as [l [H1 H2]]. exists (name_field v :: l).
    split; [eapply anc_up; eauto; now apply HD|]. now rewrite <- app_assoc in H2.
  - destruct IH as [H1 H2]. split; auto. intros l Hl.
    destruct Hl as [s0 f0 ws w HN' HM'|s0 f0 ws w HN' HM'|s0 f0 ws w g HN' HM'|s0 f0 ws w g HN' HM'|s0 f0 ws w g m HN' HM'];
    pose proof (has_names_fun _ _ _ Hv HN'); subst ws;
    pose proof (main_name_fun _ _ _ Hm HM'); subst w; try contradiction.
    + eapply H0; eauto.
    + pose proof (record_at_fun _ _ _ _ _ _ _ B Eb H0); subst g. match goal with K : ~ is_directory _ |- _ => apply K end. now apply HD.
    + pose proof (record_at_fun _ _ _ _ _ _ _ B Eb H0); subst g. eapply H2; eauto.
Qed.

(** ** build_full_paths *)

Lemma path_of_fun t data size v l m : bytes_ok data -> path_of t data size v l -> path_of t data size v m -> l = m.
Proof.
  intros B H H'. destruct H, H'; try reflexivity; try contradiction;
    try (exfalso; match goal with H : forall x, ~ parent_of _ _ _ _ x, H' : parent_of _ _ _ _ ?y |- _ => exact (H y H') end);
    match goal with H1 : parent_of _ _ _ _ ?a, H2 : parent_of _ _ _ _ ?b |- _ =>
           pose proof (record_at_fun _ _ _ _ _ _ _ B H1 H2); subst end; try contradiction.
  f_equal. eapply ancestry_fun; eauto.
Qed.

Lemma path_for_spec data size t p v : fits data -> parser_of data size t p -> 65 <= zlen v ->
  match path_for p v with
  | Ok s => exists comps, path_of t data size v comps /\ s = join 47 (rev comps)
  | Err e => path_exn e /\ forall comps, ~ path_of t data size v comps
  end.
Proof.
  intros F HP Hv. pose proof HP as (B & Hz & Hd & _). unfold path_for.
  rewrite fn_name_cases, fn_parent_cases.
  replace (65 <=? zlen v) with true by (symmetry; apply Z.leb_le; lia).
  replace (8 <=? zlen v) with true by (symmetry; apply Z.leb_le; lia). cbn [bind].
  rewrite decode_ref_all. cbn [fst snd]. fold (parent_number v). fold (parent_sequence v).
  unfold FILE_NUMBER_ROOT, PATH_SEPARATOR. change UNKNOWN_PATH_PLACEHOLDER with orphan.
  destruct (Z.eqb_spec (parent_number v) 5) as [E5|E5]; cbn [bind].
  { eexists; split; [apply path_root; auto|reflexivity]. }
  assert (Hpn : 0 <= parent_number v) by (unfold parent_number; lia).
  rewrite by_number_false.
  destruct (by_number_base p (parent_number v) (Some (parent_sequence v))) as [fr'|e] eqn:Eb.
  2:{ rewrite (by_number_base_err _ _ _ _ _ _ _ F HP Hpn Eb). cbn [bind].
      eexists; split; [|reflexivity]. apply path_lost; auto. intros fr' Hp.
      apply (by_number_base_iff _ _ _ _ _ _ _ F HP Hpn) in Hp. congruence. }
  apply (by_number_base_iff _ _ _ _ _ _ _ F HP Hpn) in Eb.
  pose proof (fr_directory_spec _ _ _ _ _ _ B Eb) as HD.
  destruct (fr_directory fr') eqn:Ed; cbn [negb bind].
  2:{ eexists; split; [|reflexivity]. eapply path_file; eauto. intro K; apply HD in K; discriminate. }
  pose proof (record_at_slot _ _ _ _ _ _ Hz Eb) as HSl.
  pose proof (climb_spec data size t p F HP (S (S (length (m_data p)))) [parent_number v] fr' [name_field v]
     (record_at_opened _ _ _ _ _ _ _ HP Eb)) as HC.
  specialize (HC ltac:(constructor; [intros []|constructor]) ltac:(constructor; auto)).
  specialize (HC ltac:(rewrite Hd; assert (0 < size) as Hp by (destruct Hz; lia);
     pose proof (fuel_enough data size Hp); cbn [length];
     pose proof (Z.div_pos (zlen data) size (zlen_nonneg data) Hp); lia)).
  remember (climb (S (S (length (m_data p)))) p [parent_number v] fr' [name_field v]) as c eqn:Ec. clear Ec.
  destruct c as [out|e]; cbn [bind].
  - destruct HC as [l [H1 ->]]. exists (name_field v :: l). split; [|reflexivity].
    eapply path_up; eauto. now apply HD.
  - destruct HC as [H1 H2]. split; auto. intros comps Hc.
    destruct Hc as [Hx|Hx Hy|fr2 Hx Hy Hw|fr2 l Hx Hy Hw Hl]; try contradiction.
    + exact (Hy _ Eb).
    + pose proof (record_at_fun _ _ _ _ _ _ _ B Eb Hy); subst fr2. apply Hw. now apply HD.
    + pose proof (record_at_fun _ _ _ _ _ _ _ B Eb Hy); subst fr2. exact (H2 _ Hl).
Qed.

Definition path_entry (t : list (Z * frs)) (data : list Z) (size : Z) (v : list Z) (sv : list Z * list Z) : Prop :=
  snd sv = v /\ exists comps, path_of t data size v comps /\ fst sv = join 47 (rev comps).

Lemma paths_for_spec data size t p vs : fits data -> parser_of data size t p -> Forall (fun v => 66 <= zlen v) vs ->
  match paths_for p vs with
  | Ok l => Forall2 (path_entry t data size) vs l
  | Err e => path_exn e /\ forall l, ~ Forall2 (path_entry t data size) vs l
  end.
Proof.
  intros F HP HV. pose proof HP as (B & _). induction HV as [|v vs Hv HV IH]; cbn [paths_for]; [constructor|].
  pose proof (path_for_spec data size t p v F HP ltac:(lia)) as HF.
  destruct (path_for p v) as [s|e]; cbn [bind].
  - destruct HF as [comps [H1 ->]].
    destruct (paths_for p vs) as [l|e]; cbn [bind].
    + constructor; auto. split; auto. exists comps; auto.
    + destruct IH as [H2 H3]. split; auto. intros l Hl. inversion Hl; subst. eapply H3; eauto.
  - destruct HF as [H1 H2]. split; auto. intros l Hl. inversion Hl as [|? y ? ? [_ [c [Hc _]]]]; subst. exact (H2 c Hc).
Qed.

Lemma order_names_spec vs : order_names (map (fun v => (fld 1 v 65, v)) vs) =
  rev (filter long_name vs) ++ filter (fun v => negb (long_name v)) vs.
Proof.
  unfold order_names.
  assert (G : forall a b, fold_left (fun acc (x : Z * list Z) => if preferred (fst x) then snd x :: acc else acc ++ [snd x])
                (map (fun v => (fld 1 v 65, v)) vs) (a ++ b) =
              (rev (filter long_name vs) ++ a) ++ b ++ filter (fun v => negb (long_name v)) vs).
  { induction vs as [|v vs IH]; intros a b; cbn [map fold_left filter rev app].
    - now rewrite app_nil_r.
    - cbn [fst snd]. rewrite preferred_long. destruct (long_name v); cbn [negb rev].
      + change (v :: a ++ b) with ((v :: a) ++ b). rewrite IH. now rewrite <- !app_assoc.
      + rewrite <- app_assoc, IH. now rewrite <- !app_assoc. }
  specialize (G [] []). cbn [app] in G. now rewrite app_nil_r in G.
Qed.

Lemma build_full_paths_spec data size t p fr : fits data -> parser_of data size t p -> opened_record fr ->
  match build_full_paths p fr with
  | Ok l => exists vs, has_names fr vs /\
      Forall2 (path_entry t data size) (rev (filter long_name vs) ++ filter (fun v => negb (long_name v)) vs) l
  | Err e => path_exn e /\ forall vs l, has_names fr vs ->
      ~ Forall2 (path_entry t data size) (rev (filter long_name vs) ++ filter (fun v => negb (long_name v)) vs) l
  end.
Proof.
  intros F HP HO. unfold build_full_paths.
  set (g := fun v => let! f := fn_flags v in Ok (f, v)).
  match goal with |- context [gcollect ?f ?x] =>
    assert (EG : gcollect f x = gcollect (fun a => let! v := value_of_type ATTR_TYPE_FILE_NAME a in
                     match v with None => Ok None | Some v => let! b := g v in Ok (Some b) end) x) end.
  { apply collect_in_ext. intro a. destruct (value_of_type ATTR_TYPE_FILE_NAME a) as [[v|]|]; cbn [bind]; auto.
    unfold g. destruct (fn_flags v); cbn [bind]; auto. }
  rewrite EG. clear EG.
  set (h := fun v => (fld 1 v 65, v)).
  assert (Hg : forall v, g v = if 66 <=? zlen v then Ok (h v) else Err StructError).
  { intro v. unfold g, h. rewrite fn_flags_cases. destruct (66 <=? zlen v); reflexivity. }
  pose proof (collect_has_names g h fr Hg) as HC.
  pose proof (collect_names_err g h fr) as HE.
  match goal with |- match bind ?x _ with _ => _ end => destruct x as [bs|e] eqn:E end; cbn [bind].
  - destruct (proj1 (HC bs) eq_refl) as [vs [Hv ->]]. unfold h. rewrite order_names_spec.
    set (ws := rev (filter long_name vs) ++ filter (fun v => negb (long_name v)) vs).
    assert (HW : Forall (fun v => 66 <= zlen v) ws).
    { destruct Hv as (i & _ & _ & _ & Hl). apply Forall_forall. intros x Hx. rewrite Forall_forall in Hl.
      apply Hl. unfold ws in Hx. apply in_app_iff in Hx as [Hx|Hx].
      - apply in_rev in Hx. now apply filter_In in Hx.
      - now apply filter_In in Hx. }
    pose proof (paths_for_spec data size t p ws F HP HW) as HS.
    destruct (paths_for p ws) as [l|e].
    + exists vs. auto.
    + destruct HS as [H1 H2]. split; auto. intros vs' l Hv'.
      rewrite (has_names_fun _ _ _ Hv' Hv). apply H2.
  - split; [exact (HE e Hg HO eq_refl)|].
    intros vs l Hv _. assert (X : @Err (list (Z * list Z)) e = Ok (map h vs)) by (apply HC; eauto). discriminate.
Qed.

Lemma path_entries_fun t data size vs l : bytes_ok data -> Forall2 (path_entry t data size) vs l ->
  forall m, Forall2 (path_entry t data size) vs m -> l = m.
Proof.
  intros B H. induction H as [|v [s v'] vs l H1 _ IH]; intros m Hm; inversion Hm as [|? [s2 v2] ? ? G1 G2]; subst; auto.
  destruct H1 as [E1 [c1 [P1 Q1]]], G1 as [E2 [c2 [P2 Q2]]]. cbn [fst snd] in *. subst.
  rewrite (path_of_fun _ _ _ _ _ _ B P1 P2). f_equal. auto.
Qed.

Lemma build_full_paths_iff data size t p fr l : fits data -> parser_of data size t p -> opened_record fr ->
  build_full_paths p fr = Ok l <->
  exists vs, has_names fr vs /\
    Forall2 (path_entry t data size) (rev (filter long_name vs) ++ filter (fun v => negb (long_name v)) vs) l.
Proof.
  intros F HP HO. pose proof HP as (B & _).
  pose proof (build_full_paths_spec data size t p fr F HP HO) as HS. split.
  - intro E. rewrite E in HS. exact HS.
  - intros [vs [H1 H2]]. destruct (build_full_paths p fr) as [m|e].
    + destruct HS as [ws [G1 G2]]. rewrite (has_names_fun _ _ _ H1 G1) in H2.
      f_equal. eapply path_entries_fun; eauto.
    + destruct HS as [_ HS]. destruct (HS _ _ H1 H2).
Qed.

(** ** Shape of paths: at most one component per slot, closed by the root or
    the orphan marker. *)
Lemma ancestry_shape t data size seen fr l : size_ok size -> ancestry t data size seen fr l ->
  NoDup seen -> Forall (fun k => 0 <= k < zlen data / size + 1) seen ->
  exists names e, l = names ++ [e] /\ (e = [] \/ e = orphan) /\ names <> [] /\
    (Z.of_nat (length seen + length names) <= zlen data / size + 2).
Proof.
  intros Hz H. assert (H0 : forall s, NoDup s -> Forall (fun k => 0 <= k < zlen data / size + 1) s ->
      Z.of_nat (length s) <= zlen data / size + 1).
  { intros s H1 H2. pose proof (track_bound _ _ H1 H2). destruct s; cbn [length] in *; [|lia].
    assert (0 < size) as Hp by (destruct Hz; lia).
    pose proof (Z.div_pos (zlen data) size (zlen_nonneg data) Hp). lia. }
  induction H as [seen fr vs v HN HM|seen fr vs v HN HM|seen fr vs v fr' HN HM|seen fr vs v fr' HN HM|seen fr vs v fr' l HN HM HI HP H5 HD HA IH];
    intros ND HF; specialize (H0 seen ND HF) as HB; try (exists [name_field v]; eexists; split; [reflexivity|]; split; [auto|]; split; [discriminate|]; cbn [length]; lia).
  destruct (IH ltac:(constructor; auto)) as (names & e & -> & He & Hn & Hlen).
  { constructor; auto. exact (record_at_slot _ _ _ _ _ _ Hz HP). }
  exists (name_field v :: names), e. split; [reflexivity|]. split; auto. split; [discriminate|].
  cbn [length] in *. lia.
Qed.

Lemma path_of_shape t data size v l : size_ok size -> path_of t data size v l ->
  exists names e, l = names ++ [e] /\ (e = [] \/ e = orphan) /\ hd_error names = Some (name_field v) /\
    zlen names <= zlen data / size + 2.
Proof.
  intros Hz H. assert (0 < size) as Hp by (destruct Hz; lia).
  pose proof (Z.div_pos (zlen data) size (zlen_nonneg data) Hp).
  destruct H as [E5|E5 Hx|fr' E5 Hx Hw|fr' l E5 Hx Hw Ha];
    try (exists [name_field v]; eexists; split; [reflexivity|]; split; [auto|]; split; [reflexivity|]; change (zlen [name_field v]) with 1; lia).
  destruct (ancestry_shape _ _ _ _ _ _ Hz Ha ltac:(constructor; [intros []|constructor])
     ltac:(constructor; [exact (record_at_slot _ _ _ _ _ _ Hz Hx)|constructor])) as (names & e & -> & He & Hn & Hlen).
  exists (name_field v :: names), e. split; [reflexivity|]. split; auto.
Qed.

(** ** Lookup by path *)

Lemma same_name_dec (upper : list Z -> list Z) (cs : bool) a b :
  (if cs then zlist_eqb a b else zlist_eqb (upper a) (upper b)) = true <-> same_name upper cs a b.
Proof. unfold same_name. destruct cs; apply zlist_eqb_eq. Qed.

Lemma name_values_app a b : name_values (a ++ b) = name_values a ++ name_values b.
Proof.
  induction a as [|x a IH]; [reflexivity|]. cbn [app]. rewrite !name_values_cons, IH. now rewrite app_assoc.
Qed.

(** The same on a list of attributes. *)
Definition named_in (upper : list Z -> list Z) (cs : bool) (n v : list Z) (items : list attr) : Prop :=
  exists l1 nm l2, items = l1 ++ Resident 0x30 nm v :: l2 /\ Forall decodable l1 /\
    Forall (fun x => 65 <= zlen x /\ ~ same_name upper cs (name_field x) n) (name_values l1) /\
    65 <= zlen v /\ same_name upper cs (name_field v) n.

Lemma first_named_in upper cs fr n v : first_named upper cs fr n v <-> named_in upper cs n v (fst (fr_attributes fr)).
Proof.
  unfold first_named, named_in. split.
  - intros (l1 & nm & l2 & st & E & H). exists l1, nm, l2. rewrite E. auto.
  - intros (l1 & nm & l2 & E & H). exists l1, nm, l2, (snd (fr_attributes fr)).
    split; auto. rewrite <- E. now destruct (fr_attributes fr).
Qed.

Lemma name_values_name nm v l : name_values (Resident 0x30 nm v :: l) = v :: name_values l.
Proof. reflexivity. Qed.

Lemma named_in_fun upper cs n v w items : named_in upper cs n v items -> named_in upper cs n w items -> v = w.
Proof.
  induction items as [|a items IH]; intros (l1 & nm & l2 & E & HD & HF & HL & HS) (m1 & nm' & m2 & E' & HD' & HF' & HL' & HS').
  - destruct l1; discriminate.
  - destruct l1 as [|x l1], m1 as [|y m1]; cbn [app] in E, E'.
    + congruence.
    + exfalso. injection E as -> ->. injection E' as <- E'. rewrite name_values_name in HF'.
      inversion HF'; subst. tauto.
    + exfalso. injection E' as -> ->. injection E as <- E. rewrite name_values_name in HF.
      inversion HF; subst. tauto.
    + injection E as -> E. injection E' as <- E'.
      inversion HD; inversion HD'; subst. rewrite name_values_cons in HF, HF'.
      apply Forall_app in HF as [_ HF]. apply Forall_app in HF' as [_ HF'].
      apply IH; [exists l1, nm, l2|exists m1, nm', m2]; auto.
Qed.

Lemma compare_name_in upper cs name items st :
  match first_in (fun a =>
    let! v := value_of_type ATTR_TYPE_FILE_NAME a in
    match v with
    | None => Ok None
    | Some v =>
      let! n := fn_name v in
      if (if cs : bool then zlist_eqb n name else zlist_eqb (upper n) (upper name))
      then let! p := fn_parent v in Ok (Some p) else Ok None
    end) items st with
  | Ok (Some r) => exists v, named_in upper cs name v items /\ r = fld 8 v 0
  | Ok None => st = Done /\ forall v, ~ named_in upper cs name v items
  | Err e => (st = Raised e \/ e = StructError \/ e = AttributeError_py) /\ forall v, ~ named_in upper cs name v items
  end.
Proof.
  induction items as [|a items IH]; cbn [first_in].
  - assert (G : forall v, ~ named_in upper cs name v []).
    { intros v (l1 & ? & ? & E & _). destruct l1; discriminate. }
    destruct st; auto.
  - pose proof (value_of_type_cases a) as HV.
    destruct (value_of_type ATTR_TYPE_FILE_NAME a) as [[v|]|e] eqn:Ev; cbn [bind].
    + destruct HV as [HD [nm ->]]. rewrite fn_name_cases. destruct (Z.leb_spec 65 (zlen v)); cbn [bind].
      * pose proof (same_name_dec upper cs (name_field v) name) as HS.
        match goal with |- context [if ?c then bind _ _ else _] => destruct c end.
        -- rewrite fn_parent_cases. replace (8 <=? zlen v) with true by (symmetry; apply Z.leb_le; lia). cbn [bind].
           exists v; split; auto. exists [], nm, items. split; auto. split; [constructor|]. split; [constructor|].
           split; [lia|now apply HS].
        -- cbn [bind].
           assert (HN : ~ same_name upper cs (name_field v) name) by (intro K; apply HS in K; discriminate).
           assert (G : forall w, named_in upper cs name w (Resident 0x30 nm v :: items) <-> named_in upper cs name w items).
           { intro w. split.
             - intros (l1 & nm' & l2 & E & H1 & H2 & H3 & H4). destruct l1 as [|x l1]; cbn [app] in E.
               + exfalso. injection E as <- <- <-. auto.
               + injection E as <- E. rewrite name_values_name in H2. inversion H1; inversion H2; subst.
                 exists l1, nm', l2. auto.
             - intros (l1 & nm' & l2 & E & H1 & H2 & H3 & H4). exists (Resident 0x30 nm v :: l1), nm', l2.
               subst items. split; auto. split; [constructor; auto|]. split; auto.
               rewrite name_values_name. constructor; auto. }
           match type of IH with match ?x with _ => _ end => destruct x as [[r|]|e] end.
           ++ destruct IH as [w [H1 H2]]. exists w. split; auto. now apply G.
           ++ destruct IH as [H1 H2]. split; auto. intros w Hw. apply G in Hw. exact (H2 w Hw).
           ++ destruct IH as [H1 H2]. split; auto. intros w Hw. apply G in Hw. exact (H2 w Hw).
      * split; auto. intros w (l1 & nm' & l2 & E & H1 & H2 & H3 & H4). destruct l1 as [|x l1]; cbn [app] in E.
        -- injection E as <- <- <-. lia.
        -- injection E as <- E. rewrite name_values_name in H2. inversion H2; subst. lia.
    + assert (G : forall w, named_in upper cs name w (a :: items) <-> named_in upper cs name w items).
      { intro w. destruct HV as [HD HV]. split.
        - intros (l1 & nm' & l2 & E & H1 & H2 & H3 & H4). destruct l1 as [|x l1]; cbn [app] in E.
          + exfalso. injection E as -> E. discriminate.
          + injection E as <- E. rewrite name_values_cons, Ev in H2. cbn [app] in H2. inversion H1; subst.
            exists l1, nm', l2. auto.
        - intros (l1 & nm' & l2 & E & H1 & H2 & H3 & H4). exists (a :: l1), nm', l2.
          subst items. split; auto. split; [constructor; auto|]. split; auto.
          rewrite name_values_cons, Ev. auto. }
      match type of IH with match ?x with _ => _ end => destruct x as [[r|]|e] end.
      * destruct IH as [w [H1 H2]]. exists w. split; auto. now apply G.
      * destruct IH as [H1 H2]. split; auto. intros w Hw. apply G in Hw. exact (H2 w Hw).
      * destruct IH as [H1 H2]. split; auto. intros w Hw. apply G in Hw. exact (H2 w Hw).
    + destruct HV as [HD ->]. split; auto. intros w (l1 & nm' & l2 & E & H1 & _). destruct l1 as [|x l1]; cbn [app] in E.
      * injection E as -> E. discriminate.
      * injection E as <- E. inversion H1; subst. contradiction.
Qed.

Lemma compare_name_spec upper cs name fr :
  match compare_name upper cs name fr with
  | Ok (Some r) => exists v, first_named upper cs fr name v /\ r = fld 8 v 0
  | Ok None => snd (fr_attributes fr) = Done /\ forall v, ~ first_named upper cs fr name v
  | Err e => (opened_record fr -> path_exn e) /\ forall v, ~ first_named upper cs fr name v
  end.
Proof.
  unfold compare_name, gfirst.
  pose proof (compare_name_in upper cs name (fst (fr_attributes fr)) (snd (fr_attributes fr))) as H.
  match type of H with match ?x with _ => _ end => destruct x as [[r|]|e] end.
  - destruct H as [v [H1 H2]]. exists v. now rewrite first_named_in.
  - destruct H as [H1 H2]. split; auto. intro v. now rewrite first_named_in.
  - destruct H as [H1 H2]. split; [|intro v; now rewrite first_named_in].
    intro HO. unfold path_exn. destruct H1 as [H1|[H1|H1]]; auto.
    right; right; right. apply (fr_attributes_exn fr (fst (fr_attributes fr))); auto.
    rewrite <- H1. now destruct (fr_attributes fr).
Qed.

Lemma first_named_fun upper cs fr n v w : first_named upper cs fr n v -> first_named upper cs fr n w -> v = w.
Proof. rewrite !first_named_in. apply named_in_fun. Qed.

Lemma parents_match_spec data size t p upper cs : fits data -> parser_of data size t p ->
  forall comps v,
  match parents_match upper p cs (fld 8 v 0) comps with
  | Ok true => leads t data size upper cs v comps
  | Ok false => ~ leads t data size upper cs v comps
  | Err e => path_exn e /\ ~ leads t data size upper cs v comps
  end.
Proof.
  intros F HP. pose proof HP as (B & _).
  induction comps as [|c comps IH]; intro v; cbn [parents_match]; rewrite decode_ref_all; cbn [fst snd];
    fold (parent_number v); fold (parent_sequence v); unfold FILE_NUMBER_ROOT;
    (destruct (Z.eqb_spec (parent_number v) 5) as [E5|E5]; [try (constructor; auto); intro H; inversion H; contradiction|]);
    rewrite by_number_false;
    assert (Hpn : 0 <= parent_number v) by (unfold parent_number; lia);
    (destruct (by_number_base p (parent_number v) (Some (parent_sequence v))) as [fr|e] eqn:Eb;
     [apply (by_number_base_iff _ _ _ _ _ _ _ F HP Hpn) in Eb
     |rewrite (by_number_base_err _ _ _ _ _ _ _ F HP Hpn Eb)]).
  - intro H; inversion H; contradiction.
  - intro H; inversion H; contradiction.
  - pose proof (compare_name_spec upper cs c fr) as HC.
    destruct (compare_name upper cs c fr) as [[r|]|e]; cbn [bind].
    + destruct HC as [w [Hw ->]]. specialize (IH w).
      assert (G : leads t data size upper cs v (c :: comps) <-> leads t data size upper cs w comps).
      { split.
        - intro H. inversion H as [|v' fr' c' w' l' H1 H2 H3 H4]; subst.
          pose proof (record_at_fun _ _ _ _ _ _ _ B Eb H2); subst fr'.
          now rewrite (first_named_fun _ _ _ _ _ _ Hw H3).
        - intro H. eapply leads_up; eauto. }
      destruct (parents_match upper p cs (fld 8 w 0) comps) as [[|]|e]; rewrite G; auto.
    + destruct HC as [_ HC]. intro H. inversion H as [|v' fr' c' w' l' H1 H2 H3 H4]; subst.
      pose proof (record_at_fun _ _ _ _ _ _ _ B Eb H2); subst fr'. exact (HC _ H3).
    + destruct HC as [HE HC]. split; [apply HE; eapply record_at_opened; eauto|].
      intro H. inversion H as [|v' fr' c' w' l' H1 H2 H3 H4]; subst.
      pose proof (record_at_fun _ _ _ _ _ _ _ B Eb H2); subst fr'. exact (HC _ H3).
  - intro H. inversion H as [|v' fr' c' w' l' H1 H2 H3 H4]; subst.
    apply (by_number_base_iff _ _ _ _ _ _ _ F HP Hpn) in H2. congruence.
Qed.

Lemma fr_in_use_spec fr : fr_in_use fr = true <-> in_use (fr_base fr).
Proof. apply h_in_use_spec. Qed.


Lemma candidates_spec data size t p upper cs dir c comps : fits data -> parser_of data size t p ->
  forall fuel i, 0 <= i -> (Z.to_nat (zlen data - i) < fuel)%nat ->
  match (let! cands := candidates_loop fuel upper p cs c dir i in try_candidates upper p cs comps cands) with
  | Ok r => first_resolving data size t upper cs dir (c :: comps) i r
  | Err e => path_exn e
  end /\
  forall e, candidates_loop fuel upper p cs c dir i = Err e -> path_exn e.
Proof.
  intros F HP. pose proof HP as (B & Hz & Hd & Hm & _).
  assert (Hs : 0 < size) by (destruct Hz; lia).
  assert (HB : forall k fr, resolves t data size upper cs dir (c :: comps) k fr -> 0 <= k /\ k * size < zlen data).
  { intros k fr (c0 & l & v & _ & (f & s & [Hk Ho] & _) & _). split; auto.
    destruct (Z.ltb_spec (k * size) (zlen data)); auto. exfalso.
    unfold slot in Ho. rewrite slice_beyond in Ho by lia. discriminate. }
  induction fuel as [|fuel IH]; intros i Hi Hf; [lia|].
  cbn [candidates_loop]. unfold m_file_size. rewrite Hd, Hm.
  destruct (Z.ltb_spec (i * size) (zlen data)) as [L|L].
  2:{ split; [|discriminate]. cbn. intros k fr Hk Hr. apply HB in Hr. nia. }
  assert (HI : i < zlen data) by nia.
  specialize (IH (i + 1) ltac:(lia) ltac:(lia)). destruct IH as [IH IHe].
  rewrite by_number_false.
  (* when slot i does not resolve, the rest decides *)
  assert (Skip : (forall fr, ~ resolves t data size upper cs dir (c :: comps) i fr) ->
    forall r, first_resolving data size t upper cs dir (c :: comps) (i + 1) r ->
      first_resolving data size t upper cs dir (c :: comps) i r).
  { intros HN [fr|] H; cbn [first_resolving] in *.
    - destruct H as (k & H1 & H2 & H3). exists k. split; [lia|]. split; auto.
      intros j fr' Hj. destruct (Z.eq_dec j i) as [->|]; [apply HN|apply H3; lia].
    - intros k fr Hk. destruct (Z.eq_dec k i) as [->|]; [apply HN|apply H; lia]. }
  destruct (by_number_base p i None) as [fr|e] eqn:Eb.
  2:{ rewrite (by_number_base_err _ _ _ _ _ _ _ F HP Hi Eb). split; [|apply IHe].
      destruct (let! cands := candidates_loop fuel upper p cs c dir (i + 1) in try_candidates upper p cs comps cands); auto.
      apply Skip; auto. intros fr (c0 & l & v & _ & Hr & _).
      apply (by_number_base_iff _ _ _ _ _ _ _ F HP Hi) in Hr. congruence. }
  apply (by_number_base_iff _ _ _ _ _ _ _ F HP Hi) in Eb.
  pose proof (record_at_opened _ _ _ _ _ _ _ HP Eb) as HO.
  pose proof (compare_name_spec upper cs c fr) as HC.
  destruct (compare_name upper cs c fr) as [parent|e]; cbn [bind].
  2:{ destruct HC as [HE _]. split; [now apply HE|]. intros e' H; injection H as <-. now apply HE. }
  destruct (candidates_loop fuel upper p cs c dir (i + 1)) as [cands|e] eqn:Ec; cbn [bind] in *.
  2:{ split; [apply IHe; auto|]. intros e' H; injection H as <-. auto. }
  assert (Res : forall fr', resolves t data size upper cs dir (c :: comps) i fr' <->
     fr' = fr /\ in_use (fr_base fr) /\ (dir = true -> is_directory fr) /\
     exists v, first_named upper cs fr c v /\ leads t data size upper cs v comps).
  { intro fr'. split.
    - intros (c0 & l & v & E & H1 & H2 & H3 & H4 & H5). injection E as <- <-.
      pose proof (record_at_fun _ _ _ _ _ _ _ B Eb H1); subst fr'.
      split; [reflexivity|]. split; [assumption|]. split; [assumption|]. exists v. auto.
    - intros (-> & H2 & H3 & v & H4 & H5). exists c, comps, v. repeat (split; auto). }
  pose proof (fr_directory_spec _ _ _ _ _ _ B Eb) as HD.
  destruct parent as [r|].
  - destruct HC as [v [Hv ->]].
    destruct (fr_in_use fr && (negb dir || fr_directory fr)) eqn:Eu.
    + split; [|discriminate]. cbn [bind try_candidates].
      apply andb_true_iff in Eu as [Eu Ed]. apply fr_in_use_spec in Eu.
      assert (Ed' : dir = true -> is_directory fr).
      { intros ->. cbn [negb orb] in Ed. now apply HD. }
      pose proof (parents_match_spec data size t p upper cs F HP comps v) as HPM.
      destruct (parents_match upper p cs (fld 8 v 0) comps) as [[|]|e]; cbn [bind].
      * exists i. split; [clear; lia|]. split; [apply Res; repeat (split; auto); exists v; auto|]. intros j fr' Hj; exfalso; clear - Hj; lia.
      * assert (HN : forall fr', ~ resolves t data size upper cs dir (c :: comps) i fr').
        { intros fr' Hr. apply Res in Hr as (_ & _ & _ & w & Hw & Hl).
          rewrite (first_named_fun _ _ _ _ _ _ Hw Hv) in Hl. auto. }
        destruct (try_candidates upper p cs comps cands); auto.
      * tauto.
    + split; [|discriminate]. cbn [bind].
      assert (HN : forall fr', ~ resolves t data size upper cs dir (c :: comps) i fr').
      { intros fr' Hr. apply Res in Hr as (_ & Hu & Hd' & _). apply fr_in_use_spec in Hu.
        rewrite Hu in Eu. cbn [andb] in Eu. destruct dir; [|discriminate]. cbn [negb orb] in Eu.
        specialize (Hd' eq_refl). apply HD in Hd'. congruence. }
      destruct (try_candidates upper p cs comps cands); auto.
  - split; [|discriminate]. cbn [bind].
    assert (HN : forall fr', ~ resolves t data size upper cs dir (c :: comps) i fr').
    { intros fr' Hr. apply Res in Hr as (_ & _ & _ & w & Hw & _). destruct HC as [_ HC]. exact (HC _ Hw). }
    destruct (try_candidates upper p cs comps cands); auto.
Qed.

(** Parsing of the path text. *)
Lemma split_plain c : plain c -> split_on 47 c = [c].
Proof.
  unfold plain. induction c as [|x c IH]; intro H; [reflexivity|]. cbn [split_on].
  destruct (Z.eqb_spec x 47) as [->|Hx]; [exfalso; apply H; left; auto|].
  rewrite IH; [reflexivity|]. intro K; apply H; right; auto.
Qed.

Lemma split_plain_app c s : plain c -> split_on 47 (c ++ 47 :: s) = c :: split_on 47 s.
Proof.
  unfold plain. induction c as [|x c IH]; intro H; [reflexivity|]. cbn [app split_on].
  destruct (Z.eqb_spec x 47) as [->|Hx]; [exfalso; apply H; left; auto|].
  rewrite IH; [reflexivity|]. intro K; apply H; right; auto.
Qed.

Lemma split_path_text comps : comps <> [] -> Forall plain comps -> split_on 47 (path_text comps) = [] :: comps.
Proof.
  intros Hn HF. induction HF as [|c l Hc HF IH]; [congruence|].
  cbn [path_text split_on]. rewrite Z.eqb_refl. f_equal.
  destruct l as [|d l].
  - cbn [path_text]. rewrite app_nil_r. now apply split_plain.
  - cbn [path_text]. rewrite split_plain_app by auto.
    specialize (IH ltac:(discriminate)). cbn [path_text split_on] in IH. rewrite Z.eqb_refl in IH.
    injection IH as IH. now rewrite IH.
Qed.


Lemma last_app_ne {A} (l s : list A) d : s <> [] -> last (l ++ s) d = last s d.
Proof.
  intro Hs. destruct (exists_last Hs) as (s' & z & ->). now rewrite app_assoc, !last_last.
Qed.

Lemma path_text_app a b : path_text (a ++ b) = path_text a ++ path_text b.
Proof. induction a as [|c a IH]; auto. cbn [app path_text]. rewrite IH. cbn [app]. now rewrite <- app_assoc. Qed.

Lemma path_text_last comps c : component c -> last (path_text (comps ++ [c])) 0 <> 47.
Proof.
  intros [Hc Hne]. rewrite path_text_app. rewrite last_app_ne by discriminate. cbn [path_text].
  rewrite app_nil_r. change (47 :: c) with ([47] ++ c). rewrite last_app_ne by auto.
  destruct (exists_last Hne) as (c' & z & ->). rewrite last_last. intros ->.
  apply Hc. apply in_or_app; right; left; auto.
Qed.

Lemma lin_In x l : lin x l = true <-> In x l.
Proof.
  unfold lin. rewrite existsb_exists. split.
  - intros (y & Hy & E). apply zlist_eqb_eq in E. now subst.
  - intro H. exists x. split; auto. now apply zlist_eqb_eq.
Qed.

Lemma by_path_eq upper p comps c (dir cs : bool) : Forall component (comps ++ [c]) ->
  by_path upper p (path_text (comps ++ [c]) ++ (if dir then [47] else [])) cs =
  (let! cands := candidates_loop (S (length (m_data p))) upper p cs c dir 0 in
   if lin dot comps || lin dotdot comps then Err MasterFileTableException
   else try_candidates upper p cs (rev comps) cands).
Proof.
  intro HF. pose proof HF as HF'. apply Forall_app in HF' as [HF1 HF2]. inversion HF2 as [|? ? Hc _]; subst.
  set (txt := path_text (comps ++ [c])).
  assert (H1 : exists x s, txt = 47 :: x :: s).
  { unfold txt. destruct comps as [|d comps]; cbn [app path_text].
    - destruct Hc as [_ Hc]. destruct c as [|x c]; [congruence|]. cbn [app]. eauto.
    - inversion HF1 as [|? ? [_ Hd] _]; subst. destruct d as [|x d]; [congruence|]. cbn [app]. eauto. }
  destruct H1 as (x & s & Et).
  assert (Hl : last txt 0 <> 47) by (apply path_text_last; auto).
  assert (Hne : txt <> []) by (rewrite Et; discriminate).
  assert (Hx : x <> 47).
  { unfold txt in Et. destruct comps as [|d comps]; cbn [app path_text] in Et.
    - destruct Hc as [Hp Hc]. destruct c as [|y c]; [congruence|]. cbn [app] in Et. injection Et as -> _.
      intros ->. apply Hp; left; auto.
    - inversion HF1 as [|? ? [Hp Hd] _]; subst. destruct d as [|y d]; [congruence|]. cbn [app] in Et. injection Et as -> _.
      intros ->. apply Hp; left; auto. }
  assert (Hcut : (if (1 <? zlen (txt ++ (if dir then [47] else []))) && (last (txt ++ (if dir then [47] else [])) 0 =? 47)
     then removelast (txt ++ (if dir then [47] else [])) else txt ++ (if dir then [47] else [])) = txt /\
     (1 <? zlen (txt ++ (if dir then [47] else []))) && (last (txt ++ (if dir then [47] else [])) 0 =? 47) = dir).
  { destruct dir.
    - rewrite last_last, removelast_last, Z.eqb_refl.
      replace (1 <? zlen (txt ++ [47])) with true; [auto|]. symmetry. apply Z.ltb_lt.
      rewrite zlen_app, Et, !zlen_cons. pose proof (zlen_nonneg s). pose proof (zlen_nonneg (@nil Z)). lia.
    - rewrite app_nil_r. replace (last txt 0 =? 47) with false by (symmetry; apply Z.eqb_neq; auto).
      rewrite andb_false_r. auto. }
  unfold by_path, PATH_SEPARATOR.
  destruct (txt ++ (if dir then [47] else [])) as [|y full] eqn:Ef.
  { apply app_eq_nil in Ef as [K _]. congruence. }
  assert (Hy : y = 47) by (rewrite Et in Ef; cbn in Ef; congruence).
  rewrite Hy, Z.eqb_refl. cbn [negb orb].
  replace (zlist_eqb (47 :: full) [47; 47]) with false.
  2:{ symmetry. destruct (zlist_eqb (47 :: full) [47; 47]) eqn:E; auto. apply zlist_eqb_eq in E.
      exfalso. injection E as Efull. rewrite Et, Hy, Efull in Ef. cbn [app] in Ef. congruence. }
  rewrite Hy in Hcut. destruct Hcut as [Hc1 Hc2]. rewrite Hc1, Hc2.
  replace (zlist_eqb txt [47]) with false.
  2:{ symmetry. destruct (zlist_eqb txt [47]) eqn:E; auto. apply zlist_eqb_eq in E. congruence. }
  unfold txt. rewrite split_path_text.
  2:{ destruct comps; discriminate. }
  2:{ eapply Forall_impl; [|exact HF]. intros a [H _]; auto. }
  change ([] :: comps ++ [c]) with (([] :: comps) ++ [c]). rewrite last_last.
  cbn [app tl]. rewrite removelast_last.
  assert (E0 : forall z l, lin z (rev l) = lin z l).
  { intros z l. destruct (lin z l) eqn:E.
    - apply lin_In. apply -> in_rev. now apply lin_In.
    - destruct (lin z (rev l)) eqn:E'; auto. apply lin_In in E'. apply in_rev in E'. apply lin_In in E'. congruence. }
  rewrite !E0. replace (lin [] comps) with false; [reflexivity|].
  symmetry. destruct (lin [] comps) eqn:E; auto. apply lin_In in E.
  rewrite Forall_forall in HF1. apply HF1 in E. destruct E as [_ E]. congruence.
Qed.


Lemma by_path_spec data size t p upper (cs dir : bool) comps c : fits data -> parser_of data size t p ->
  Forall component (comps ++ [c]) ->
  match by_path upper p (path_text (comps ++ [c]) ++ (if dir then [47] else [])) cs with
  | Ok r => no_dots comps /\ first_resolving data size t upper cs dir (c :: rev comps) 0 r
  | Err e => path_exn e
  end.
Proof.
  intros F HP HF. rewrite by_path_eq by auto. pose proof HP as (B & Hz & Hd & Hm & _).
  assert (Hs : 0 < size) by (destruct Hz; lia).
  pose proof (candidates_spec data size t p upper cs dir c (rev comps) F HP (S (length (m_data p))) 0 (Z.le_refl 0)) as [H1 H2].
  { rewrite Hd. unfold zlen. lia. }
  destruct (candidates_loop (S (length (m_data p))) upper p cs c dir 0) as [cands|e]; cbn [bind] in *.
  2:{ auto. }
  destruct (lin dot comps) eqn:E1; [unfold path_exn; cbn; auto|]. destruct (lin dotdot comps) eqn:E2; [unfold path_exn; cbn; auto|]. cbn [orb].
  destruct (try_candidates upper p cs (rev comps) cands); auto.
  split; auto. split; intro K; [change [46] with dot in K|change [46; 46] with dotdot in K]; apply lin_In in K; congruence.
Qed.

Lemma compare_clean upper cs name items :
  Forall decodable items -> Forall (fun v => 66 <= zlen v) (name_values items) ->
  exists r, first_in (fun a =>
    let! v := value_of_type ATTR_TYPE_FILE_NAME a in
    match v with
    | None => Ok None
    | Some v =>
      let! n := fn_name v in
      if (if cs : bool then zlist_eqb n name else zlist_eqb (upper n) (upper name))
      then let! p := fn_parent v in Ok (Some p) else Ok None
    end) items Done = Ok r.
Proof.
  intros HD HF. induction HD as [|a items Ha HD IH]; cbn [first_in]; [eauto|].
  rewrite name_values_cons in HF.
  pose proof (value_of_type_cases a) as HV.
  destruct (value_of_type ATTR_TYPE_FILE_NAME a) as [[v|]|e] eqn:Ev; cbn [bind].
  - inversion HF as [|? ? Hv HF']; subst. rewrite fn_name_cases.
    replace (65 <=? zlen v) with true by (symmetry; apply Z.leb_le; lia). cbn [bind].
    match goal with |- context [if ?c then bind _ _ else _] => destruct c end; [|apply IH; auto].
    rewrite fn_parent_cases. replace (8 <=? zlen v) with true by (symmetry; apply Z.leb_le; lia). cbn [bind]. eauto.
  - apply IH; auto.
  - destruct HV as [HV _]. contradiction.
Qed.

Lemma compare_name_clean upper cs name fr vs : has_names fr vs -> exists r, compare_name upper cs name fr = Ok r.
Proof.
  intros (items & E & HD & -> & HF). unfold compare_name, gfirst. rewrite E. cbn [fst snd].
  now apply compare_clean.
Qed.


Lemma parents_match_total data size t p upper cs : fits data -> parser_of data size t p ->
  all_clean t data size -> forall comps v, exists b, parents_match upper p cs (fld 8 v 0) comps = Ok b.
Proof.
  intros F HP HC. pose proof HP as (B & _).
  induction comps as [|c comps IH]; intro v; cbn [parents_match]; rewrite decode_ref_all; cbn [fst snd];
    fold (parent_number v); fold (parent_sequence v); unfold FILE_NUMBER_ROOT;
    (destruct (Z.eqb_spec (parent_number v) 5) as [E5|E5]; [eauto|]);
    rewrite by_number_false;
    assert (Hpn : 0 <= parent_number v) by (unfold parent_number; lia);
    (destruct (by_number_base p (parent_number v) (Some (parent_sequence v))) as [fr|e] eqn:Eb;
     [apply (by_number_base_iff _ _ _ _ _ _ _ F HP Hpn) in Eb
     |rewrite (by_number_base_err _ _ _ _ _ _ _ F HP Hpn Eb); eauto]); [eauto|].
  destruct (HC _ _ _ Eb) as [vs Hv]. destruct (compare_name_clean upper cs c fr vs Hv) as [r Er].
  pose proof (compare_name_spec upper cs c fr) as HS. rewrite Er in HS |- *. cbn [bind].
  destruct r as [r|]; [|eauto]. destruct HS as [w [_ ->]]. apply IH.
Qed.

Lemma candidates_total data size t p upper cs dir c : fits data -> parser_of data size t p ->
  all_clean t data size -> forall fuel i, 0 <= i -> (Z.to_nat (zlen data - i) < fuel)%nat ->
  exists cands, candidates_loop fuel upper p cs c dir i = Ok cands /\
    forall comps, exists r, try_candidates upper p cs comps cands = Ok r.
Proof.
  intros F HP HC. pose proof HP as (B & Hz & Hd & Hm & _).
  assert (Hs : 0 < size) by (destruct Hz; lia).
  induction fuel as [|fuel IH]; intros i Hi Hf; [lia|].
  cbn [candidates_loop]. unfold m_file_size. rewrite Hd, Hm.
  destruct (Z.ltb_spec (i * size) (zlen data)) as [L|L]; [|exists []; split; auto; intro; eexists; reflexivity].
  assert (HI : i < zlen data) by nia.
  destruct (IH (i + 1) ltac:(lia) ltac:(lia)) as (cands & E & HT).
  rewrite by_number_false. destruct (by_number_base p i None) as [fr|e] eqn:Eb.
  2:{ rewrite (by_number_base_err _ _ _ _ _ _ _ F HP Hi Eb). eauto. }
  apply (by_number_base_iff _ _ _ _ _ _ _ F HP Hi) in Eb.
  destruct (HC _ _ _ Eb) as [vs Hv]. destruct (compare_name_clean upper cs c fr vs Hv) as [r Er].
  pose proof (compare_name_spec upper cs c fr) as HS. rewrite Er in HS |- *. cbn [bind]. rewrite E. cbn [bind].
  destruct r as [r|]; [|eauto]. destruct HS as [w [_ ->]].
  destruct (fr_in_use fr && (negb dir || fr_directory fr)); [|eauto].
  eexists; split; [reflexivity|]. intro comps. cbn [try_candidates].
  destruct (parents_match_total data size t p upper cs F HP HC comps w) as [b ->]. cbn [bind].
  destruct b; eauto.
Qed.

Lemma by_path_total data size t p upper (cs dir : bool) comps c : fits data -> parser_of data size t p ->
  Forall component (comps ++ [c]) -> no_dots comps -> all_clean t data size ->
  exists r, by_path upper p (path_text (comps ++ [c]) ++ (if dir then [47] else [])) cs = Ok r.
Proof.
  intros F HP HF [N1 N2] HC. rewrite by_path_eq by auto.
  destruct (candidates_total data size t p upper cs dir c F HP HC (S (length (m_data p))) 0 (Z.le_refl 0)) as (cands & E & HT).
  { destruct HP as (_ & _ & Hd & _). rewrite Hd. unfold zlen. lia. }
  rewrite E. cbn [bind].
  destruct (lin dot comps) eqn:E1; [apply lin_In in E1; contradiction|].
  destruct (lin dotdot comps) eqn:E2; [apply lin_In in E2; contradiction|]. cbn [orb]. auto.
Qed.

Lemma by_path_root upper p cs : by_path upper p [47] cs = (let! fr := by_number p 5 None true in Ok (Some fr)).
Proof. reflexivity. Qed.

Lemma by_path_relative upper p path cs : (forall s, path <> 47 :: s) \/ path = [47; 47] ->
  by_path upper p path cs = Err MasterFileTableException.
Proof.
  intros [H| ->]; [|reflexivity]. unfold by_path, PATH_SEPARATOR. destruct path as [|c s]; auto.
  destruct (Z.eqb_spec c 47) as [->|]; [exfalso; now apply (H s)|]. reflexivity.
Qed.

(** ** Texts of paths *)

Lemma join_path_text e l : join 47 (e :: l) = e ++ path_text l.
Proof.
  revert e. induction l as [|x l IH]; intro e; [cbn; now rewrite app_nil_r|].
  change (join 47 (e :: x :: l)) with (e ++ 47 :: join 47 (x :: l)). rewrite IH. reflexivity.
Qed.

Lemma path_line_entry t data size v sv : size_ok size ->
  path_entry t data size v sv <-> path_line t data size v sv.
Proof.
  intro Hz. unfold path_entry, path_line. split.
  - intros [H1 [comps [H2 H3]]]. destruct (path_of_shape _ _ _ _ _ Hz H2) as (names & e & -> & _).
    split; auto. exists names, e. split; auto. now rewrite rev_unit, join_path_text in H3.
  - intros [H1 (names & e & H2 & H3)]. split; auto. exists (names ++ [e]). split; auto.
    now rewrite rev_unit, join_path_text.
Qed.

Lemma path_lines t data size vs l : size_ok size ->
  Forall2 (path_entry t data size) vs l <-> Forall2 (path_line t data size) vs l.
Proof.
  intro Hz. split; intro H; induction H; constructor; auto; now apply path_line_entry.
Qed.

(** ** Opening *)

Lemma version_first items st :
  match first_in (fun a =>
      let! v := value_of_type ATTR_TYPE_VOLUME_INFORMATION a in
      match v with
      | None => Ok None
      | Some v => let! major := u8 v 8 in let! minor := u8 v 9 in Ok (Some (major, minor))
      end) items st with
  | Ok (Some (a, b)) => exists l1 nm v l2, items = l1 ++ Resident 0x70 nm v :: l2 /\ Forall decodable l1 /\
      (forall nm' v', ~ In (Resident 0x70 nm' v') l1) /\ 10 <= zlen v /\ a = fld 1 v 8 /\ b = fld 1 v 9
  | _ => forall l1 nm v l2, items = l1 ++ Resident 0x70 nm v :: l2 -> Forall decodable l1 ->
      (forall nm' v', ~ In (Resident 0x70 nm' v') l1) -> 10 <= zlen v -> False
  end.
Proof.
  induction items as [|a items IH]; cbn [first_in].
  - destruct st; intros l1 nm v l2 E; destruct l1; discriminate.
  - destruct a as [ty nm v|ty nm mp r lo hi sz]; cbn [value_of_type].
    + unfold ATTR_TYPE_INDEX_ALLOCATION, ATTR_TYPE_VOLUME_INFORMATION in *.
      destruct (Z.eqb_spec ty 0xA0) as [->|Ha]; cbn [bind].
      * intros l1 nm' v' l2 E HD _ _. destruct l1 as [|x l1]; cbn [app] in E; [discriminate|].
        injection E as <- _. inversion HD as [|? ? K _]; subst. now apply K.
      * destruct (Z.eqb_spec ty 0x70) as [->|Hb]; cbn [bind].
        -- unfold u8. rewrite !unp_cases by lia. change (8 + 1) with 9. change (9 + 1) with 10.
           destruct (Z.leb_spec 10 (zlen v)).
           ++ replace (9 <=? zlen v) with true by (symmetry; apply Z.leb_le; lia). cbn [bind].
              exists [], nm, v, items. cbn. repeat (split; auto).
           ++ assert (G : forall l1 nm' v' l2, Resident 0x70 nm v :: items = l1 ++ Resident 0x70 nm' v' :: l2 ->
                Forall decodable l1 -> (forall nm' v', ~ In (Resident 0x70 nm' v') l1) -> 10 <= zlen v' -> False).
              { intros l1 nm' v' l2 E HD HN HL. destruct l1 as [|x l1]; cbn [app] in E.
                - injection E as <- <- <-. lia.
                - injection E as <- _. apply (HN nm v). now left. }
              destruct (9 <=? zlen v); cbn [bind]; exact G.
        -- match type of IH with match ?z with _ => _ end => destruct z as [[[x y]|]|e] end.
           ++ destruct IH as (l1 & nm' & v' & l2 & -> & HD & HN & HL & E1 & E2).
              exists (Resident ty nm v :: l1), nm', v', l2. split; auto. split; [constructor; auto|].
              split; [|auto]. intros n2 v2 [K|K]; [congruence|]. exact (HN _ _ K).
           ++ intros l1 nm' v' l2 E HD HN HL. destruct l1 as [|x l1]; cbn [app] in E; [congruence|].
              injection E as <- E. inversion HD; subst. apply (IH l1 nm' v' l2); auto. intros n2 v2 K. apply (HN n2 v2). now right.
           ++ intros l1 nm' v' l2 E HD HN HL. destruct l1 as [|x l1]; cbn [app] in E; [congruence|].
              injection E as <- E. inversion HD; subst. apply (IH l1 nm' v' l2); auto. intros n2 v2 K. apply (HN n2 v2). now right.
    + cbn [bind]. match type of IH with match ?z with _ => _ end => destruct z as [[[x y]|]|e] end.
      * destruct IH as (l1 & nm' & v' & l2 & -> & HD & HN & HL & E1 & E2).
        exists (Nonresident ty nm mp r lo hi sz :: l1), nm', v', l2. split; auto. split; [constructor; cbn; auto|].
        split; [|auto]. intros n2 v2 [K|K]; [congruence|]. exact (HN _ _ K).
      * intros l1 nm' v' l2 E HD HN HL. destruct l1 as [|x' l1]; cbn [app] in E; [congruence|].
        injection E as <- E. inversion HD; subst. apply (IH l1 nm' v' l2); auto. intros n2 v2 K. apply (HN n2 v2). now right.
      * intros l1 nm' v' l2 E HD HN HL. destruct l1 as [|x' l1]; cbn [app] in E; [congruence|].
        injection E as <- E. inversion HD; subst. apply (IH l1 nm' v' l2); auto. intros n2 v2 K. apply (HN n2 v2). now right.
Qed.

Lemma first70_fun (items : list attr) : forall l1 nm v l2 m1 nm' v' m2,
  items = l1 ++ Resident 0x70 nm v :: l2 -> (forall n w, ~ In (Resident 0x70 n w) l1) ->
  items = m1 ++ Resident 0x70 nm' v' :: m2 -> (forall n w, ~ In (Resident 0x70 n w) m1) -> v = v'.
Proof.
  induction items as [|a items IH]; intros l1 nm v l2 m1 nm' v' m2 E1 N1 E2 N2.
  - destruct l1; discriminate.
  - destruct l1 as [|x l1], m1 as [|y m1]; cbn [app] in E1, E2.
    + congruence.
    + exfalso. apply (N2 nm v). left. congruence.
    + exfalso. apply (N1 nm' v'). left. congruence.
    + injection E1 as _ E1. injection E2 as _ E2. eapply (IH l1 nm v l2 m1 nm' v' m2); eauto.
      * intros n w K. apply (N1 n w). now right.
      * intros n w K. apply (N2 n w). now right.
Qed.

Lemma check_version_iff data size t p : parser_of data size t p ->
  check_version p = Ok tt <-> supported_volume data size.
Proof.
  intros HP. unfold check_version, supported_volume, FILE_NUMBER_VOLUME.
  destruct (frs_by_number p 3) as [f|e] eqn:Ef; cbn [bind].
  - pose proof (proj1 (frs_by_number_iff _ _ _ _ 3 f HP ltac:(lia)) Ef) as Hf.
    unfold gfirst. pose proof (version_first (fst (frs_gen f)) (snd (frs_gen f))) as HV.
    match type of HV with match ?x with _ => _ end => destruct x as [[[a b]|]|e] end; cbn [bind].
    + destruct HV as (l1 & nm & v & l2 & E & HD & HN & HL & -> & ->). split.
      * intro H. exists f, l1, nm, v, l2. split; auto. repeat (split; auto);
        destruct (Z.eqb_spec (fld 1 v 8) 3); cbn [negb] in H; try discriminate; auto.
        destruct (Z.ltb_spec (fld 1 v 9) 1); try discriminate; lia.
      * intros (g & m1 & nm' & v' & m2 & Hg & E' & HD' & HN' & HL' & H8 & H9).
        destruct Hf as [_ Hf], Hg as [_ Hg]. rewrite Hf in Hg. injection Hg as <-.
        rewrite (first70_fun _ _ _ _ _ _ _ _ _ E HN E' HN') in *. rewrite H8.
        replace (fld 1 v' 9 <? 1) with false by (symmetry; apply Z.ltb_ge; lia). reflexivity.
    + split; [discriminate|].
      intros (g & m1 & nm' & v' & m2 & Hg & E' & HD' & HN' & HL' & H8 & H9).
      destruct Hf as [_ Hf], Hg as [_ Hg]. rewrite Hf in Hg. injection Hg as <-. destruct (HV _ _ _ _ E' HD' HN' HL').
    + split; [discriminate|].
      intros (g & m1 & nm' & v' & m2 & Hg & E' & HD' & HN' & HL' & H8 & H9).
      destruct Hf as [_ Hf], Hg as [_ Hg]. rewrite Hf in Hg. injection Hg as <-. destruct (HV _ _ _ _ E' HD' HN' HL').
  - split; [discriminate|]. intros (g & m1 & nm' & v' & m2 & Hg & _).
    apply (proj2 (frs_by_number_iff _ _ _ _ 3 g HP ltac:(lia))) in Hg. congruence.
Qed.

Lemma mft_open_iff data b : bytes_ok data ->
  (exists p, mft_open data b = Ok p) <->
  slice data 0 4 = [70; 73; 76; 69] /\ 32 <= zlen data /\ size_ok (fld 4 data 28) /\
  supported_volume data (fld 4 data 28).
Proof.
  intro B. unfold mft_open.
  assert (HS : zlist_eqb (slice data 0 4) sig_FILE = true <-> slice data 0 4 = [70; 73; 76; 69]) by apply zlist_eqb_eq.
  destruct (zlist_eqb (slice data 0 4) sig_FILE) eqn:E1; cbn [negb].
  2:{ split; [intros [p Hp]; discriminate|]. intros [H _]. apply HS in H. discriminate. }
  assert (HL : (zlen (slice data 28 32) =? 4) = true <-> 32 <= zlen data).
  { rewrite Z.eqb_eq, zlen_slice by lia. pose proof (zlen_nonneg data). lia. }
  destruct (zlen (slice data 28 32) =? 4) eqn:E2; cbn [negb].
  2:{ split; [intros [p Hp]; discriminate|]. intros (_ & H & _). apply HL in H. discriminate. }
  pose proof (frs_sizes_ok (fld 4 data 28)) as HZ.
  destruct (zin (fld 4 data 28) frs_sizes) eqn:E3; cbn [negb].
  2:{ split; [intros [p Hp]; discriminate|]. intros (_ & _ & H & _). apply HZ in H. discriminate. }
  assert (Hz : size_ok (fld 4 data 28)) by (now apply HZ).
  assert (HP : parser_of data (fld 4 data 28) [] (mk_mft data (fld 4 data 28) [] None)) by (repeat split; auto).
  pose proof (check_version_iff _ _ _ _ HP) as HV.
  assert (Hs : 0 < fld 4 data 28) by (destruct Hz; lia).
  destruct (check_version (mk_mft data (fld 4 data 28) [] None)) as [[]|e] eqn:E4; cbn [bind].
  - split; [intros _; repeat split; [now apply HS|now apply HL|auto|now apply HV]|]. intros _.
    destruct b; [|eauto]. unfold first_pass. cbn [m_data m_frs_size m_cache].
    replace 0 with (0 * fld 4 data 28) at 1 by lia.
    rewrite (first_pass_loop_spec data (fld 4 data 28) (Z.to_nat (zlen data / fld 4 data 28 - 0)) B Hs
               (S (length data)) 0); [|lia|reflexivity|apply fuel_enough; auto].
    cbn [bind]. eauto.
  - split; [intros [p Hp]; discriminate|]. intros (_ & _ & _ & H). apply HV in H. discriminate.
Qed.
