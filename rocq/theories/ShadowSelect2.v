(** Selecting a store: what is selected, and termination. *)
From Verif Require Import Base BaseLemmas FieldLemmas Sorting PartitionTable Shadow ShadowSpec ShadowChain ShadowTranslate ShadowSelect.
From Coq Require Import Lia Permutation.

Local Opaque cb_items.

(** ** Errors of the chains *)

Lemma seek_read_err v o n e : seek_read v o n = Err e -> e = ValueError \/ e = OverflowError.
Proof. unfold seek_read. destruct (_ <? _); [intro H; injection H; auto|]. destruct (_ <=? _); [intro H; injection H; auto|].
  destruct (_ <=? _); [intro H; injection H; auto|discriminate]. Qed.

Lemma chain_err {A} n v ok (payload : list Z -> result A) : forall a e, chain n v ok payload a = Err e ->
  In e [OutOfFuel; ValueError; OverflowError; StructError] \/ exists b, ok b = Err e \/ payload b = Err e.
Proof.
  induction n as [|n IH]; intros a e H; cbn [chain] in H; [injection H as <-; cbn; auto|].
  destruct (a =? 0); [discriminate|].
  destruct (seek_read _ _ _) as [b|x] eqn:E; cbn [bind] in H.
  2:{ injection H as <-. left. apply seek_read_err in E as [-> | ->]; cbn; auto. }
  destruct (ok b) eqn:E1; cbn [bind] in H; [|injection H as <-; right; exists b; auto].
  destruct (u64 b 32) eqn:E2; cbn [bind] in H; [|injection H as <-; apply unp_err in E2; subst; left; cbn; auto 12].
  destruct (negb _); [discriminate|].
  destruct (payload b) eqn:E3; cbn [bind] in H; [|injection H as <-; right; exists b; auto].
  destruct (u64 b 40) as [nx|] eqn:E4; cbn [bind] in H; [|injection H as <-; apply unp_err in E4; subst; left; cbn; auto 12].
  destruct (chain n v ok payload nx) eqn:E5; cbn [bind] in H; [discriminate|]. injection H as <-. exact (IH _ _ E5).
Qed.

Lemma block_ok_err ty x b e : block_ok ty x b = Err e -> e = x \/ e = ShadowCopyException \/ e = StructError.
Proof.
  unfold block_ok, shadow_block. destruct (negb _); [intro H; injection H; auto|].
  destruct (negb _); cbn [bind]; [intro H; injection H; auto|].
  destruct (u32 b 20) eqn:E; cbn [bind]; [destruct (negb _); intro H; [injection H; auto|discriminate]|].
  intro H. injection H as <-. apply unp_err in E. auto.
Qed.

Lemma diff_entries_err n : forall b off e, diff_entries n b off = Err e -> In e [OutOfFuel; StructError; ShadowBlockException].
Proof.
  induction n as [|n IH]; intros b off e H; cbn [diff_entries] in H; [injection H as <-; cbn; auto|].
  destruct (negb _); [discriminate|]. unfold u64, u32 in H.
  repeat match type of H with
  | bind (unp ?w ?x ?y) _ = _ => destruct (unp w x y) eqn:?; cbn [bind] in H;
      [|injection H as <-; match goal with U : unp _ _ _ = Err _ |- _ => apply unp_err in U; subst; cbn; auto 12 end]
  end.
  destruct (_ || _); [injection H as <-; cbn; auto|]. destruct (_ && _); [injection H as <-; cbn; auto|].
  destruct (_ && _); [discriminate|]. destruct (diff_entries n b (off + 32)) eqn:E; cbn [bind] in H; [discriminate|].
  injection H as <-. eauto.
Qed.

Lemma location_items_err n : forall b off e, location_items n b off = Err e -> In e [OutOfFuel; StructError; ShadowBlockException].
Proof.
  induction n as [|n IH]; intros b off e H; cbn [location_items] in H; [injection H as <-; cbn; auto|].
  destruct (negb _); [discriminate|]. unfold u64, u32 in H.
  repeat match type of H with
  | bind (unp ?w ?x ?y) _ = _ => destruct (unp w x y) eqn:?; cbn [bind] in H;
      [|injection H as <-; match goal with U : unp _ _ _ = Err _ |- _ => apply unp_err in U; subst; cbn; auto 12 end]
  end.
  destruct (_ =? 0); [discriminate|]. destruct (_ =? 0); [injection H as <-; cbn; auto|].
  destruct (location_items n b (off + 24)) eqn:E; cbn [bind] in H; [discriminate|].
  injection H as <-. eauto.
Qed.

(** The errors reading metadata ends with. *)
Definition read_errors : list exn := [OutOfFuel; ValueError; OverflowError; StructError; ShadowBlockException; ShadowCopyException].

Lemma chain_read_err {A} n v ty (payload : list Z -> result A) a e :
  (forall b x, payload b = Err x -> In x [OutOfFuel; StructError; ShadowBlockException]) ->
  chain n v (block_ok ty ShadowBlockException) payload a = Err e -> In e read_errors.
Proof.
  intros P H. apply chain_err in H as [H|(b & [H|H])].
  - unfold read_errors. cbn in *. tauto.
  - apply block_ok_err in H. unfold read_errors. cbn. firstorder.
  - apply P in H. unfold read_errors. cbn in *. tauto.
Qed.

Lemma read_bitmap_err n v s a e : read_bitmap n v s a = Err e -> In e read_errors.
Proof.
  unfold read_bitmap. destruct (chain _ _ _ _ _) eqn:E; cbn [bind]; [discriminate|]. intro H. injection H as <-.
  eapply chain_read_err; [|exact E]. discriminate.
Qed.
Lemma read_locations_err n v a e : read_locations n v a = Err e -> In e read_errors.
Proof.
  unfold read_locations. destruct (chain _ _ _ _ _) eqn:E; cbn [bind]; [discriminate|]. intro H. injection H as <-.
  eapply chain_read_err; [|exact E]. intros b x Q. exact (location_items_err _ _ _ _ Q).
Qed.
Lemma read_diff_area_err n v a e : read_diff_area n v a = Err e -> In e read_errors.
Proof.
  unfold read_diff_area. destruct (chain _ _ _ _ _) eqn:E; cbn [bind]; [discriminate|]. intro H. injection H as <-.
  eapply chain_read_err; [|exact E]. intros b x Q. exact (diff_entries_err _ _ _ _ Q).
Qed.
Lemma read_app_info_err v a e : read_app_info v a = Err e -> In e read_errors /\ e <> OutOfFuel.
Proof.
  unfold read_app_info. destruct (0 <? a); [|discriminate]. destruct (seek_read _ _ _) eqn:E; cbn [bind].
  2:{ intro H. injection H as <-. apply seek_read_err in E as [-> | ->]; (split; [cbn; auto 7|discriminate]). }
  destruct (block_ok _ _ _) eqn:E1; cbn [bind].
  2:{ intro H. injection H as <-. apply block_ok_err in E1 as [->|[->| ->]]; (split; [cbn; auto 8|discriminate]). }
  destruct (u64 _ _) eqn:E2; cbn [bind].
  2:{ intro H. injection H as <-. apply unp_err in E2 as ->. split; [cbn; auto 7|discriminate]. }
  destruct (negb _); discriminate.
Qed.

(** ** What is selected *)

Lemma flag400 f : (0 <? Z.land f 1024) = Z.testbit f 10.
Proof. change 1024 with (2 ^ 10). now rewrite land_pow2_pos. Qed.

Lemma select_notfound fuel depth v cbs cbs3 st sel st' :
  select fuel depth v cbs cbs3 st sel = (st', Err ShadowCopyNotFoundException) ->
  find_items cbs cbs3 sel = Err ShadowCopyNotFoundException.
Proof.
  destruct depth as [|d]; cbn [select]; [discriminate|]. destruct st as [p0 nx0].
  destruct (find_items cbs cbs3 sel) as [[c2 c3]|e]; cbn [step]; [|congruence].
  destruct (read_bitmap fuel v (i2_size c2) (i3_bitmap c3)) eqn:E1; cbn [step].
  2:{ apply read_bitmap_err in E1. intro H. injection H as _ ->. cbn in E1. intuition discriminate. }
  destruct (read_bitmap fuel v (i2_size c2) (i3_prev c3)) eqn:E2; cbn [step].
  2:{ apply read_bitmap_err in E2. intro H. injection H as _ ->. cbn in E2. intuition discriminate. }
  destruct (read_locations fuel v (i3_loc c3)) eqn:E3; cbn [step].
  2:{ apply read_locations_err in E3. intro H. injection H as _ ->. cbn in E3. intuition discriminate. }
  destruct (read_app_info v (i3_app c3)) eqn:E4; cbn [step].
  2:{ apply read_app_info_err in E4 as [E4 _]. intro H. injection H as _ ->. cbn in E4. intuition discriminate. }
  destruct (read_diff_area fuel v (i3_diff c3)) eqn:E5; cbn [step].
  2:{ apply read_diff_area_err in E5. intro H. injection H as _ ->. cbn in E5. intuition discriminate. }
  destruct (select fuel d v cbs cbs3 (new_pstate, []) (ByPos (i2_pos c2 + 1))) as [[q nx] [u|e]]; [discriminate|].
  destruct e; discriminate.
Qed.

Theorem select_ok fuel v cbs cbs3 : forall depth st sel l,
  select fuel depth v cbs cbs3 st sel = (l, Ok tt) ->
  exists l2 l3 g, all_items cbs = Ok l2 /\ all_items cbs3 = Ok l3 /\ names l2 sel g /\
    store_chain fuel v l2 l3 g (fst l :: snd l).
Proof.
  induction depth as [|d IH]; intros st sel l H; cbn [select] in H; [discriminate|]. destruct st as [p0 nx0].
  destruct (find_items cbs cbs3 sel) as [[c2 c3]|e] eqn:E0; cbn [step] in H; [|discriminate].
  destruct (find_items_all cbs cbs3 sel (c2, c3) (or_introl E0)) as (l2 & l3 & A2 & A3).
  destruct (find_items_ok cbs cbs3 l2 l3 A2 A3 _ _ _ E0) as (g & N & T2 & T3).
  exists l2, l3, g. split; [auto|]. split; [auto|]. split; [auto|].
  destruct (read_bitmap fuel v (i2_size c2) (i3_bitmap c3)) as [bm|] eqn:E1; cbn [step] in H; [|discriminate].
  destruct (read_bitmap fuel v (i2_size c2) (i3_prev c3)) as [pb|] eqn:E2; cbn [step] in H; [|discriminate].
  destruct (read_locations fuel v (i3_loc c3)) as [lo|] eqn:E3; cbn [step] in H; [|discriminate].
  destruct (read_app_info v (i3_app c3)) as [ap|] eqn:E4; cbn [step] in H; [|discriminate].
  destruct (read_diff_area fuel v (i3_diff c3)) as [df|] eqn:E5; cbn [step] in H; [|discriminate].
  match type of H with (let (_, _) := ?s in _) = _ => destruct s as [nst r] eqn:ES end.
  match type of H with context [set_done ?p ?a ?b] =>
    assert (SR : store_read fuel v c2 c3 (set_done p a b)) end.
  { unfold store_read. cbn [set_done ps_sel ps_items ps_size ps_bitmap ps_prev ps_locs ps_app ps_diff ps_index ps_nulls
      ps_retnull set_items set_bitmap set_prev set_locs set_app set_diff set_index fst].
    rewrite flag400. repeat (split; [auto; fail|]). auto. }
  destruct r as [u|e].
  - injection H as <-. cbn [fst snd]. destruct u.
    apply IH in ES as (l2' & l3' & g' & A2' & A3' & N' & SC).
    rewrite A2 in A2'. injection A2' as <-. rewrite A3 in A3'. injection A3' as <-.
    destruct N' as (j & J1 & J2 & <-). eapply sc_next; eauto.
  - destruct e; try discriminate. injection H as <-. cbn [fst snd]. apply select_notfound in ES.
    eapply sc_last; eauto. apply (not_found cbs cbs3 l2 l3 A2 A3). auto.
Qed.

Lemma the_item2_unique l2 g c2 j : the_item2 l2 g c2 -> In (I2 j) l2 -> i2_guid j = g -> j = c2.
Proof.
  intros (G & a & b & -> & H) I Q. apply in_app_iff in I as [I|[I|I]]; [|injection I; auto|];
    exfalso; apply (H j); rewrite ?in_app_iff; auto.
Qed.

(** Stack positions increase by one from store to store. *)
Theorem store_chain_positions fuel v l2 l3 g l : store_chain fuel v l2 l3 g l ->
  exists c2, the_item2 l2 g c2 /\
    map pos_of l = map (fun k => Some (i2_pos c2 + Z.of_nat k)) (seq 0 (length l)) /\
    (forall j, In (I2 j) l2 -> i2_pos j <> i2_pos c2 + zlen l) /\
    (forall k, 0 <= k < zlen l -> exists j, In (I2 j) l2 /\ i2_pos j = i2_pos c2 + k).
Proof.
  assert (IN : forall g c, the_item2 l2 g c -> In (I2 c) l2).
  { intros g0 c (_ & a & b & -> & _). rewrite in_app_iff. cbn. auto. }
  induction 1 as [g c2 c3 p T2 T3 SR N|g c2 c3 p j l T2 T3 SR J1 J2 SC (c & IH1 & IH2 & IH3 & IH4)].
  - exists c2. split; [auto|]. destruct SR as (_ & SR & _). unfold pos_of. cbn [map length seq]. rewrite SR. cbn.
    split; [do 2 f_equal; lia|]. split; [auto|]. intros k K. exists c2. split; [eauto|]. change (zlen [p]) with 1 in K. lia.
  - exists c2. split; [auto|]. assert (j = c) as -> by (eapply the_item2_unique; eauto).
    destruct SR as (_ & SR & _). split; [|split].
    + cbn [map length seq]. rewrite IH2. unfold pos_of at 1. rewrite SR. cbn [option_map fst].
      f_equal; [f_equal; lia|]. rewrite <- seq_shift, map_map. apply map_ext. intro k. f_equal. lia.
    + intros j J. rewrite zlen_cons. specialize (IH3 j J). lia.
    + intros k K. rewrite zlen_cons in K. destruct (Z.eq_dec k 0) as [->|NK].
      * exists c2. split; [eauto|lia].
      * destruct (IH4 (k - 1)) as (x & X1 & X2); [lia|]. exists x. split; [auto|lia].
Qed.

(** ** The state is well formed *)

Lemma chain_forall {A} (P : A -> Prop) n v ok payload : bytes_ok (v_data v) ->
  (forall b x, bytes_ok b -> payload b = Ok x -> P x) ->
  forall a l, chain n v ok payload a = Ok l -> Forall P l.
Proof.
  intros B PP. induction n as [|n IH]; intros a l H; cbn [chain] in H; [discriminate|].
  destruct (a =? 0); [injection H as <-; constructor|].
  destruct (seek_read _ _ _) as [b|x] eqn:E; cbn [bind] in H; [|discriminate].
  assert (BB : bytes_ok b).
  { unfold seek_read in E. repeat (destruct (_ : bool) in E; [discriminate|]). injection E as <-. now apply bytes_ok_slice. }
  destruct (ok b); cbn [bind] in H; [|discriminate]. destruct (u64 b 32); cbn [bind] in H; [|discriminate].
  destruct (negb _); [injection H as <-; constructor|].
  destruct (payload b) eqn:E3; cbn [bind] in H; [|discriminate].
  destruct (u64 b 40) as [nx|] eqn:E4; cbn [bind] in H; [|discriminate].
  destruct (chain n v ok payload nx) eqn:E5; cbn [bind] in H; [|discriminate]. injection H as <-.
  constructor; eauto.
Qed.

Lemma read_bitmap_ok n v s a r : bytes_ok (v_data v) -> read_bitmap n v s a = Ok r -> bytes_ok r.
Proof.
  intros B. unfold read_bitmap. destruct (chain _ _ _ _ _) as [l|] eqn:E; cbn [bind]; [|discriminate].
  intro H. injection H as <-. apply bytes_ok_ztake. unfold bytes_ok. apply Forall_concat.
  eapply chain_forall; [exact B| |exact E]. intros b x BB Q. injection Q as <-. now apply bytes_ok_zdrop.
Qed.

Definition entry_ok (e : entry) : Prop := 0 <= e_orig e /\ 0 <= e_store e /\ 0 <= e_vol e /\ 0 <= e_flags e /\ 0 <= e_alloc e.

Lemma diff_entries_pos n : forall b off l, 0 <= off -> bytes_ok b -> diff_entries n b off = Ok l -> Forall entry_ok l.
Proof.
  induction n as [|n IH]; intros b off l O B H; cbn [diff_entries] in H; [discriminate|].
  destruct (Z.leb_spec (off + 32) (zlen b)) as [LE|LE]; cbn [negb] in H; [|injection H as <-; constructor].
  assert (LS : zlen (slice b off (off + 32)) = 32) by (rewrite zlen_slice; lia).
  assert (BS : bytes_ok (slice b off (off + 32))) by now apply bytes_ok_slice.
  unfold u64, u32 in H. rewrite !unp_ok in H by lia. cbn [bind] in H.
  destruct (_ || _); [discriminate|]. destruct (_ && _); [discriminate|].
  destruct (_ && _); [injection H as <-; constructor|].
  destruct (diff_entries n b (off + 32)) as [a|] eqn:E; cbn [bind] in H; [|discriminate]. injection H as <-.
  assert (R : Forall entry_ok a) by (eapply IH; [|exact B|exact E]; lia).
  destruct (_ =? 0); [|auto]. constructor; [|auto]. unfold entry_ok. cbn [e_orig e_store e_vol e_flags e_alloc].
  repeat split; apply fld_bound; auto; lia.
Qed.

Lemma remove_first_forall (P : entry -> Prop) x l : Forall P l -> Forall P (remove_first x l).
Proof. induction 1 as [|y t Y T IH]; cbn [remove_first]; [constructor|]. destruct (entry_eqb x y); [auto|constructor; auto]. Qed.

Lemma diff_process_ok l : Forall entry_ok l -> Forall entry_ok (diff_process l).
Proof.
  intro F. unfold diff_process.
  assert (G : forall l ctx items, Forall entry_ok l -> Forall (fun x => 0 <= snd x) ctx -> Forall entry_ok items ->
     Forall (fun x => 0 <= snd x) (fst (fold_left diff_step l (ctx, items))) /\
     Forall entry_ok (snd (fold_left diff_step l (ctx, items)))).
  { clear. induction l as [|e t IH]; intros ctx items F C I; cbn [fold_left]; [auto|].
    inversion F as [|? ? F1 F2]; subst.
    assert (X : Forall (fun x => 0 <= snd x) (fst (diff_step (ctx, items) e)) /\
                Forall entry_ok (snd (diff_step (ctx, items) e))).
    { unfold diff_step.
      assert (D : forall k, Forall (fun x => 0 <= snd x) (ddel ctx k)).
      { intro k. unfold ddel. apply Forall_forall. intros x Hx. apply filter_In in Hx as [Hx _].
        rewrite Forall_forall in C. auto. }
      match goal with |- context [let (_, _) := ?m in _] => set (q := m) end.
      assert (Q : Forall (fun x => 0 <= snd x) (fst q) /\ entry_ok (snd q)).
      { subst q. destruct (dget ctx (e_orig e)) as [new|] eqn:DG; [|auto].
        destruct (_ =? 0); [|auto]. cbn [fst snd]. split; [auto|].
        assert (0 <= new).
        { revert DG C. clear. induction ctx as [|(k, v) t IH]; cbn [dget]; [discriminate|]. intros DG C.
          inversion C; subst. destruct (_ =? _); [injection DG as <-; auto|auto]. }
        destruct F1 as (H1 & H2 & H3 & H4 & H5). unfold entry_ok. cbn. auto. }
      destruct q as [ctx' e']. cbn [fst snd] in Q. destruct Q as [Q1 Q2].
      assert (D' : forall k, Forall (fun x => 0 <= snd x) (ddel ctx' k)).
      { intro k. unfold ddel. apply Forall_forall. intros x Hx. apply filter_In in Hx as [Hx _].
        rewrite Forall_forall in Q1. auto. }
      assert (AP : forall m, Forall entry_ok m -> Forall entry_ok (m ++ [e'])).
      { intros m M. apply Forall_app. auto. }
      destruct (0 <? Z.land (e_flags e') 1); [|cbn [fst snd]; auto].
      destruct (negb _); cbn [fst snd].
      - split; [|auto]. unfold dset. constructor; [cbn; apply Q2|auto].
      - split; [auto|]. apply AP. generalize items at 1 as ds. intro ds. clear - I. revert items I.
        induction ds as [|d ds IHd]; intros items I; cbn [fold_left]; [auto|]. apply IHd.
        destruct (negb _); [auto|]. destruct (_ =? _); [now apply remove_first_forall|auto]. }
    destruct (diff_step (ctx, items) e) as [ctx' items']. destruct X. apply IH; auto. }
  apply G; auto.
Qed.

Lemma store_read_selected fuel v c2 c3 p : bytes_ok (v_data v) -> store_read fuel v c2 c3 p -> selected p.
Proof.
  intros B (R1 & R2 & R3 & R4 & R5 & R6 & R7 & R8 & R9 & R10 & R11). unfold selected.
  split; [auto|]. split; [auto|]. unfold read_diff_area in R8.
  destruct (chain _ _ _ _ _) as [l|] eqn:E; cbn [bind] in R8; [|discriminate]. injection R8 as R8.
  split; [rewrite <- R8; apply sort_by_stable|]. split; [eapply read_bitmap_ok; eauto|]. split; [eapply read_bitmap_ok; eauto|].
  rewrite <- R8. apply Forall_forall. intros e I. apply sort_by_In in I.
  assert (F : Forall entry_ok (diff_process (concat l))).
  { apply diff_process_ok. apply Forall_concat. eapply chain_forall; [exact B| |exact E].
    intros b x BB Q. eapply diff_entries_pos; [|exact BB|exact Q]. lia. }
  rewrite Forall_forall in F. apply F. auto.
Qed.

Theorem store_chain_selected fuel v l2 l3 g l : bytes_ok (v_data v) -> store_chain fuel v l2 l3 g l -> Forall selected l.
Proof.
  intros B. induction 1; constructor; try constructor; auto; eapply store_read_selected; eauto.
Qed.

(** ** Termination *)

Definition reads_end (fuel : nat) (v : vol) (c2 : item2) (c3 : item3) : Prop :=
  read_bitmap fuel v (i2_size c2) (i3_bitmap c3) <> Err OutOfFuel /\
  read_bitmap fuel v (i2_size c2) (i3_prev c3) <> Err OutOfFuel /\
  read_locations fuel v (i3_loc c3) <> Err OutOfFuel /\
  read_diff_area fuel v (i3_diff c3) <> Err OutOfFuel.

Lemma find_items_fuel cbs cbs3 sel : find_items cbs cbs3 sel <> Err OutOfFuel.
Proof.
  unfold find_items.
  assert (FG : forall cbs p f, find_guid cbs p f <> Err OutOfFuel).
  { clear. intros cbs p. induction cbs as [|b t IH]; intro f; cbn [find_guid]; [discriminate|].
    pose proof (all_items_fuel [b]) as N. cbn [all_items] in N.
    destruct (cb_items b) as [l s]. destruct (find _ l) as [[i|i]|]; auto; destruct s; auto; cbn in N; congruence. }
  assert (E : forall g, bind (all_items cbs3) (fun l3 => bind (all_items cbs) (fun l2 =>
     if negb (zlen (items3_of l3 g) =? zlen (items2_of l2 g)) then Err ShadowCopyException else
     match items2_of l2 g, items3_of l3 g with
     | [i2], [i3] => Ok (i2, i3) | [], _ => Err ShadowCopyNotFoundException | _, _ => Err ShadowCopyException end)) <> Err OutOfFuel).
  { intros g. pose proof (all_items_fuel cbs3). pose proof (all_items_fuel cbs).
    destruct (all_items cbs3) as [l3|]; cbn [bind]; [|congruence].
    destruct (all_items cbs) as [l2|]; cbn [bind]; [|congruence].
    destruct (negb _); [discriminate|]. destruct (items2_of l2 g) as [|x [|]]; [discriminate| |];
      destruct (items3_of l3 g) as [|y [|]]; discriminate. }
  destruct sel as [g|p]; [exact (E (Some g))|]. specialize (FG cbs p None).
  destruct (find_guid cbs p None) as [g|]; cbn [bind]; [exact (E g)|]. congruence.
Qed.

Definition from_pos (p : Z) (i : item) : bool := match i with I2 j => p <=? i2_pos j | I3 _ => false end.
Definition count_from (l2 : list item) (p : Z) : nat := length (filter (from_pos p) l2).

Lemma count_lt l2 p j : In (I2 j) l2 -> i2_pos j = p -> (count_from l2 (p + 1) < count_from l2 p)%nat.
Proof.
  intros I Q. unfold count_from.
  assert (LE : forall l, (length (filter (from_pos (p + 1)%Z) l) <= length (filter (from_pos p) l))%nat).
  { clear. induction l as [|[i|i] t IH]; cbn [filter from_pos]; [auto| |auto].
    destruct (Z.leb_spec (p + 1) (i2_pos i)), (Z.leb_spec p (i2_pos i)); cbn [length]; try lia. }
  apply in_split in I as (a & b & ->). rewrite !filter_app, !app_length. cbn [filter from_pos].
  replace (p + 1 <=? i2_pos j) with false by lia. replace (p <=? i2_pos j) with true by lia. cbn [length].
  pose proof (LE a). pose proof (LE b). lia.
Qed.

Lemma count_le l2 p : (count_from l2 p <= length l2)%nat.
Proof. unfold count_from. induction l2 as [|x t IH]; cbn [filter]; [auto|]. destruct (from_pos p x); cbn [length]; lia. Qed.

Section Terminates.
Variables (fuel : nat) (v : vol) (cbs cbs3 : list (list Z)).
Hypothesis RE : forall l2 l3, all_items cbs = Ok l2 -> all_items cbs3 = Ok l3 ->
  forall c2 c3, In (I2 c2) l2 -> In (I3 c3) l3 -> reads_end fuel v c2 c3.

Lemma select_step_fuel d st sel :
  (forall l2 c2 c3, all_items cbs = Ok l2 -> find_items cbs cbs3 sel = Ok (c2, c3) ->
     snd (select fuel d v cbs cbs3 (new_pstate, []) (ByPos (i2_pos c2 + 1))) <> Err OutOfFuel) ->
  snd (select fuel (S d) v cbs cbs3 st sel) <> Err OutOfFuel.
Proof.
  intro H. cbn [select]. pose proof (find_items_fuel cbs cbs3 sel) as FF. destruct st as [p0 nx0].
  destruct (find_items cbs cbs3 sel) as [[c2 c3]|e] eqn:E0; cbn [step snd]; [|congruence].
  destruct (find_items_all cbs cbs3 sel (c2, c3) (or_introl E0)) as (l2 & l3 & A2 & A3).
  destruct (found_in cbs cbs3 l2 l3 A2 A3 sel c2 c3 E0) as [I2' I3'].
  destruct (RE l2 l3 A2 A3 c2 c3 I2' I3') as (R1 & R2 & R3 & R4).
  specialize (H l2 c2 c3 A2 eq_refl).
  destruct (read_bitmap fuel v (i2_size c2) (i3_bitmap c3)); cbn [step snd]; [|congruence].
  destruct (read_bitmap fuel v (i2_size c2) (i3_prev c3)); cbn [step snd]; [|congruence].
  destruct (read_locations fuel v (i3_loc c3)); cbn [step snd]; [|congruence].
  destruct (read_app_info v (i3_app c3)) eqn:EA; cbn [step snd].
  2:{ apply read_app_info_err in EA. intro Q. injection Q as Q. apply EA. auto. }
  destruct (read_diff_area fuel v (i3_diff c3)); cbn [step snd]; [|congruence].
  destruct (select fuel d v cbs cbs3 (new_pstate, []) (ByPos (i2_pos c2 + 1))) as [nst [u|e]]; cbn [snd] in *; [discriminate|].
  destruct e; cbn [snd]; try discriminate; congruence.
Qed.

Lemma select_pos_ends l2 : all_items cbs = Ok l2 -> forall d p st, (count_from l2 p < d)%nat ->
  snd (select fuel d v cbs cbs3 st (ByPos p)) <> Err OutOfFuel.
Proof.
  intro A2. induction d as [|d IH]; intros p st L; [lia|]. apply select_step_fuel.
  intros l2' c2 c3 A E. rewrite A2 in A. injection A as <-.
  destruct (find_items_all cbs cbs3 _ (c2, c3) (or_introl E)) as (l2' & l3 & A2' & A3).
  rewrite A2 in A2'. injection A2' as <-.
  destruct (found_pos cbs cbs3 l2 l3 A2 A3 p c2 c3 E) as (Q & I & _). subst p. apply IH.
  pose proof (count_lt l2 _ c2 I eq_refl). lia.
Qed.

Theorem select_ends l2 d st sel : all_items cbs = Ok l2 -> (length l2 < d)%nat ->
  snd (select fuel (S d) v cbs cbs3 st sel) <> Err OutOfFuel.
Proof.
  intros A2 L. apply select_step_fuel. intros l2' c2 c3 A E. apply (select_pos_ends l2 A2).
  pose proof (count_le l2 (i2_pos c2 + 1)). lia.
Qed.

Theorem select_ends_err e d st sel : all_items cbs = Err e ->
  snd (select fuel (S d) v cbs cbs3 st sel) <> Err OutOfFuel.
Proof.
  intro A. apply select_step_fuel. intros l2' c2 c3 A' E. congruence.
Qed.
End Terminates.

(** More fuel does not change the result. *)
Lemma chain_more {A} v ok (payload : list Z -> result A) n : forall m a, (n <= m)%nat ->
  chain n v ok payload a <> Err OutOfFuel -> chain m v ok payload a = chain n v ok payload a.
Proof.
  induction n as [|n IH]; intros m a L N; [elim N; auto|].
  destruct m as [|m]; [lia|]. cbn [chain] in *.
  destruct (a =? 0); [auto|]. destruct (seek_read _ _ _) as [b|]; cbn [bind] in *; [|auto].
  destruct (ok b); cbn [bind] in *; [|auto]. destruct (u64 b 32); cbn [bind] in *; [|auto].
  destruct (negb _); [auto|]. destruct (payload b); cbn [bind] in *; [|auto].
  destruct (u64 b 40) as [nx|]; cbn [bind] in *; [|auto].
  rewrite (IH m nx); [auto|lia|]. intro E. rewrite E in N. apply N. auto.
Qed.

Lemma bind_more {A B} (x y : result A) (f : A -> result B) :
  (x <> Err OutOfFuel -> y = x) -> bind x f <> Err OutOfFuel -> bind y f = bind x f.
Proof. intros H N. rewrite H; [auto|]. intros ->. apply N. auto. Qed.

Lemma read_bitmap_mono n m v s a : (n <= m)%nat -> read_bitmap n v s a <> Err OutOfFuel -> read_bitmap m v s a = read_bitmap n v s a.
Proof. intros L. apply bind_more. now apply chain_more. Qed.
Lemma read_locations_mono n m v a : (n <= m)%nat -> read_locations n v a <> Err OutOfFuel -> read_locations m v a = read_locations n v a.
Proof. intros L. apply bind_more. now apply chain_more. Qed.
Lemma read_diff_area_mono n m v a : (n <= m)%nat -> read_diff_area n v a <> Err OutOfFuel -> read_diff_area m v a = read_diff_area n v a.
Proof. intros L. apply bind_more. now apply chain_more. Qed.

Theorem select_mono n m v cbs cbs3 : (n <= m)%nat -> forall d e st sel, (d <= e)%nat ->
  snd (select n d v cbs cbs3 st sel) <> Err OutOfFuel ->
  select m e v cbs cbs3 st sel = select n d v cbs cbs3 st sel.
Proof.
  intro NM. induction d as [|d IH]; intros e st sel L N; [elim N; reflexivity|].
  destruct e as [|e]; [lia|]. cbn [select] in *. destruct st as [p0 nx0].
  destruct (find_items cbs cbs3 sel) as [[c2 c3]|x]; cbn [step snd] in *; [|auto].
  assert (B : forall r : result (list Z), (forall q, r = Err q -> q <> OutOfFuel) -> r <> Err OutOfFuel).
  { intros r Q E. exact (Q OutOfFuel E eq_refl). }
  rewrite (read_bitmap_mono n m v (i2_size c2) (i3_bitmap c3)); [|auto|].
  2:{ intro E. apply N. rewrite E. auto. }
  destruct (read_bitmap n v (i2_size c2) (i3_bitmap c3)); cbn [step snd] in *; [|auto].
  rewrite (read_bitmap_mono n m v (i2_size c2) (i3_prev c3)); [|auto|].
  2:{ intro E. apply N. rewrite E. auto. }
  destruct (read_bitmap n v (i2_size c2) (i3_prev c3)); cbn [step snd] in *; [|auto].
  rewrite (read_locations_mono n m); [|auto|].
  2:{ intro E. apply N. rewrite E. auto. }
  destruct (read_locations n v (i3_loc c3)); cbn [step snd] in *; [|auto].
  destruct (read_app_info v (i3_app c3)); cbn [step snd] in *; [|auto].
  rewrite (read_diff_area_mono n m); [|auto|].
  2:{ intro E. apply N. rewrite E. auto. }
  destruct (read_diff_area n v (i3_diff c3)); cbn [step snd] in *; [|auto].
  rewrite (IH e); [auto|lia|]. intro E. apply N.
  destruct (select n d v cbs cbs3 (new_pstate, []) (ByPos (i2_pos c2 + 1))) as [nst r]. cbn [snd] in E. subst r. auto.
Qed.

(** Without loops the number of bytes of the volume is enough fuel. *)
Lemma no_loops_reads fuel v c2 c3 : (length (v_data v) < fuel)%nat -> no_loops v c3 -> reads_end fuel v c2 c3.
Proof.
  intros L (N1 & N2 & N3 & N4).
  assert (BO : forall ty b, block_ok ty ShadowBlockException b = Ok tt -> zlen b = 16384) by (intros; eapply block_ok_len; eauto).
  assert (BF : forall ty b, block_ok ty ShadowBlockException b <> Err OutOfFuel) by (intros; apply block_ok_fuel; discriminate).
  assert (C : forall A ty (pl : list Z -> result A) a, (forall b, zlen b = 16384 -> pl b <> Err OutOfFuel) ->
     ~ loops (link v (block_ok ty ShadowBlockException) pl) a -> chain fuel v (block_ok ty ShadowBlockException) pl a <> Err OutOfFuel).
  { intros A ty pl a P N. apply chain_ends; [exact (BO ty)|exact (BF ty)|exact P|exact N|exact L]. }
  assert (D : forall A B (x : result A) (f : A -> B), x <> Err OutOfFuel -> bind x (fun y => Ok (f y)) <> Err OutOfFuel).
  { intros A B [x|e] f H; cbn [bind]; [discriminate|]. intro Q. injection Q as ->. auto. }
  unfold reads_end, read_bitmap, read_locations, read_diff_area. repeat split.
  - apply D. apply C; [discriminate|auto].
  - apply D. apply C; [discriminate|auto].
  - apply D. apply C; [intros b LB; apply location_items_fuel; lia|auto].
  - apply (D _ _ _ (fun chunks => sort_by e_orig (diff_process (concat chunks)))).
    apply C; [intros b LB; apply diff_entries_fuel; lia|auto].
Qed.
