(** C44 to C47: shadow copies. *)
From Verif Require Import Base BaseLemmas Sorting PartitionTable Shadow ShadowSpec ShadowChain ShadowTranslate ShadowSelect ShadowSelect2 ShadowRead ShadowImages.
From Coq Require Import Lia.

Local Opaque cb_items.

Lemma opened_ok v vs : (match open_one 5 v vs with Ok _ => true | Err _ => false end) = true -> open_one 5 v vs = Ok (opened v vs).
Proof. unfold opened. destruct (open_one 5 v vs); [reflexivity|discriminate]. Qed.
Lemma opened_store v vs : sp_store (opened v vs) = v.
Proof.
  unfold opened, open_one. destruct (seek_read _ _ _) as [s|]; cbn [bind]; [|reflexivity].
  destruct (start_or_disabled _); cbn [bind]; [|reflexivity]. destruct (control_blocks _ _ _); reflexivity.
Qed.
Lemma select_pair fuel depth o sel r : snd (select_shadow fuel depth o sel) = r ->
  select_shadow fuel depth o sel = (fst (select_shadow fuel depth o sel), r).
Proof. intros <-. destruct (select_shadow fuel depth o sel). reflexivity. Qed.

(** After a selection the stores are as the specification wants them. *)
Lemma selection_ok fuel depth o sel o1 : select_shadow fuel depth o sel = (o1, Ok tt) -> bytes_ok (v_data (sp_store o)) ->
  selected_parser o1 /\ sp_pos o1 = 0 /\ sp_live o1 = sp_live o /\ sp_store o1 = sp_store o /\ sp_vsize o1 = sp_vsize o.
Proof.
  unfold select_shadow. destruct (_ && _); [discriminate|].
  destruct (select _ _ _ _ _ _ _) as [st r] eqn:E. intros H B.
  destruct r as [[]|e]; [|discriminate H].
  apply (f_equal fst) in H. cbn [fst] in H. subst o1. cbn [set_state sp_pos sp_live sp_store sp_vsize].
  split; [|auto]. split; [|cbn; lia]. cbn [set_state sp_cur sp_next].
  apply select_ok in E as (l2 & l3 & g & _ & _ & _ & SC). eapply store_chain_selected; eauto.
Qed.

(** C44. In a selected shadow copy a translated block has 32 sectors, each
    located as [sector] says. *)
Theorem C44_translate fuel depth o0 sel o off :
  select_shadow fuel depth o0 sel = (o, Ok tt) -> bytes_ok (v_data (sp_store o0)) -> 0 <= off ->
  match translate (sp_vsize o) (sp_cur o :: sp_next o) off false false with
  | Ok r => zlen r = 32 /\
      forall i, 0 <= i < 32 -> znth r i = Some (sector (sp_cur o :: sp_next o) off false false i)
  | Err e => e = ValueError /\ (bad_offset (sp_vsize o) off \/ bad_forward (sp_vsize o) (sp_cur o :: sp_next o))
  end.
Proof.
  intros S B O. destruct (selection_ok _ _ _ _ _ S B) as ((F & _) & _).
  pose proof (translate_spec (sp_vsize o) (sp_cur o :: sp_next o) off false false ltac:(discriminate) F O) as T.
  destruct (translate _ _ _ _ _) as [r|e]; [|exact T]. subst r. split; [reflexivity|].
  intros i I. now rewrite znth_map_sectors.
Qed.
Print Assumptions C44_translate.

(** An offset that is a block of the volume and no wrong forwarder: the
    translation succeeds. *)
Theorem C44_total fuel depth o0 sel o off :
  select_shadow fuel depth o0 sel = (o, Ok tt) -> bytes_ok (v_data (sp_store o0)) -> 0 <= off ->
  ~ bad_offset (sp_vsize o) off -> ~ bad_forward (sp_vsize o) (sp_cur o :: sp_next o) ->
  exists r, translate (sp_vsize o) (sp_cur o :: sp_next o) off false false = Ok r.
Proof.
  intros S B O N1 N2. pose proof (C44_translate fuel depth o0 sel o off S B O) as T.
  destruct (translate _ _ _ _ _) as [r|e]; [eauto|]. tauto.
Qed.
Print Assumptions C44_total.

(** The bits in question are those of the bitmaps read as numbers. *)
Theorem C44_check_bitmap p off : bytes_ok (ps_bitmap p) -> bytes_ok (ps_prev p) -> 0 <= off ->
  check_bitmap p off = marked p off.
Proof. intros B1 B2 O. now rewrite check_bitmap_spec. Qed.
Print Assumptions C44_check_bitmap.

Definition show (v : vol) (g : list Z) (off : Z) : list loc :=
  let o := chosen v None g in
  match translate (sp_vsize o) (sp_cur o :: sp_next o) off false false with Ok r => ztake 3 r | Err _ => [] end.

(** Sector 0 of block 9 is in an overlay, the rest in a regular entry; block
    10 is forwarded; the newer store has neither. *)
Example C44_example :
  show sh_good guid_a (bk 9) = [LStore (bk 7); LStore (bk 6 + 512); LStore (bk 6 + 1024)] /\
  show sh_good guid_a (bk 10) = [LLive (bk 11); LLive (bk 11 + 512); LLive (bk 11 + 1024)] /\
  show sh_good guid_b (bk 9) = [LLive (bk 9); LLive (bk 9 + 512); LLive (bk 9 + 1024)] /\
  show sh_good guid_a (bk 8) = [LLive (bk 8); LLive (bk 8 + 512); LLive (bk 8 + 1024)].
Proof. vm_compute. repeat split; reflexivity. Qed.

(** "Overlay entries come first" is false: block 11, the target of a
    forwarder, has an overlay entry for sector 0 and is read as zeros. *)
Theorem C44_overlay_dropped_refuted : exists o e,
  select_shadow 5 5 (opened sh_good None) (ByGuid guid_a) = (o, Ok tt) /\
  In e (at_off (sp_cur o) (bk 11)) /\ is_overlay e = true /\ Z.testbit (e_alloc e) 0 = true /\
  translate (sp_vsize o) (sp_cur o :: sp_next o) (bk 11) false false = Ok null_block.
Proof.
  exists (chosen sh_good None guid_a), (mk_entry (bk 11) 0 (bk 8) 2 1).
  split; [apply select_pair; vm_compute; reflexivity|]. split; [|split; [reflexivity|split; [reflexivity|vm_compute; reflexivity]]].
  assert (E : at_off (sp_cur (chosen sh_good None guid_a)) (bk 11) = [mk_entry (bk 11) 0 (bk 8) 2 1]) by (vm_compute; reflexivity).
  rewrite E. left. reflexivity.
Qed.
Print Assumptions C44_overlay_dropped_refuted.

(** C45. Any history of seek, tell and read calls on a selected shadow copy
    reads bytes of one virtual volume. *)
Theorem C45_history fuel depth o0 sel o ops :
  select_shadow fuel depth o0 sel = (o, Ok tt) -> bytes_ok (v_data (sp_store o0)) ->
  0 <= v_off (sp_live o0) -> 0 <= v_off (sp_store o0) ->
  let (o', outs) := run o ops in
  o' = set_pos o (sp_pos o') /\ history o 0 ops outs (sp_pos o').
Proof.
  intros S B LP SP. destruct (selection_ok _ _ _ _ _ S B) as (F & P & EL & ES & _).
  rewrite <- P. apply run_history; [rewrite EL; auto|rewrite ES; auto|auto].
Qed.
Print Assumptions C45_history.

(** Before a store is selected every call fails and changes nothing. *)
Theorem C45_not_selected fuel v vsize o ops : open_one fuel v vsize = Ok o ->
  fst (run o ops) = o /\ Forall (fun x => x = OutPos (Err ValueError) \/ x = OutData (Err ValueError)) (snd (run o ops)).
Proof.
  intro E. assert (N : ps_sel (sp_cur o) = false /\ sp_two o = false).
  { unfold open_one in E. repeat (match type of E with bind ?x _ = _ => destruct x end; cbn [bind] in E; [|discriminate E]).
    injection E as <-. split; reflexivity. }
  destruct N as [N N2]. clear E. induction ops as [|x t [IH1 IH2]]; [split; [reflexivity|constructor]|]. cbn [run].
  assert (X : exists out, (match x with
      | OSeek off wh => let (o', r) := sp_seek o off wh in (o', OutPos r)
      | OTell => (o, OutPos (sp_tell o))
      | ORead size fill => let (o', r) := sp_read o size fill in (o', OutData r)
      end) = (o, out) /\ (out = OutPos (Err ValueError) \/ out = OutData (Err ValueError))).
  { destruct x as [off wh| |size fill].
    - unfold sp_seek. rewrite N. cbn [negb]. eexists. split; [reflexivity|auto].
    - unfold sp_tell. rewrite N. cbn [negb]. eexists. split; [reflexivity|auto].
    - unfold sp_read. rewrite N, N2. cbn [negb]. eexists. split; [reflexivity|auto]. }
  destruct X as (out & -> & D). destruct (run o t) as [o'' outs]. cbn [fst snd] in *. split; [auto|]. constructor; auto.
Qed.
Print Assumptions C45_not_selected.

Definition data_of (r : result (list Z)) : list Z := match r with Ok d => d | Err _ => [] end.

Definition hist_example : list outcome :=
  snd (run (chosen sh_good None guid_a)
    [OSeek (bk 9 + 510) 0; ORead (Some 4) false; OTell; OSeek (-4) 2; ORead None false; OSeek (-1) 0; OSeek 0 7; ORead (Some 1) false]).
Example C45_example :
  hist_example = [OutPos (Ok 147966); OutData (Ok [77; 77; 66; 66]); OutPos (Ok 147970);
    OutPos (Ok 196604); OutData (Ok [0; 0; 0; 0]); OutPos (Err ValueError); OutPos (Err ValueError); OutData (Ok [])].
Proof. vm_compute. reflexivity. Qed.
(** The same bytes with filling, and those of a sector still in its place. *)
Example C45_fill_example :
  snd (run (chosen sh_good None guid_a) [OSeek (bk 9 + 510) 0; ORead (Some 4) true; OSeek (-16) 2; ORead None true; OSeek (bk 7 + 17) 0; ORead (Some 8) true]) =
    [OutPos (Ok (bk 9 + 510)); OutData (Ok [77; 77; 66; 66]);
     OutPos (Ok 196592); OutData (Ok [69; 77; 80; 84; 89; 32; 32; 32; 32; 32; 32; 32; 32; 32; 32; 32]);
     OutPos (Ok 114705); OutData (Ok [82; 73; 71; 73; 78; 65; 76; 32])].
Proof. vm_compute. reflexivity. Qed.

(** Facts about one object that are computed together. *)
Lemma shared {A B} (c : A) (f : A -> B) r : f c = r -> exists o, o = c /\ f o = r.
Proof. intros H. exists c. auto. Qed.

(** "A read stops at the end of the volume" is false for reads with a size:
    ten bytes before the end twenty bytes can be read. *)
Theorem C45_clipped_refuted : exists o,
  select_shadow 5 5 (opened sh_good (Some (bk 9 + 1000))) (ByGuid guid_a) = (o, Ok tt) /\
  virtual_size o = bk 9 + 1000 /\
  snd (run o [OSeek (-10) 2; ORead (Some 20) false; OTell]) =
    [OutPos (Ok (bk 9 + 990)); OutData (Ok (repeat 66 20)); OutPos (Ok (bk 9 + 1010))] /\
  snd (run o [OSeek (-10) 2; ORead None false; OTell]) =
    [OutPos (Ok (bk 9 + 990)); OutData (Ok (repeat 66 10)); OutPos (Ok (bk 9 + 1000))].
Proof.
  destruct (shared (select_shadow 5 5 (opened sh_good (Some (bk 9 + 1000))) (ByGuid guid_a))
    (fun x => let o := fst x in (snd x, virtual_size o, snd (run o [OSeek (-10) 2; ORead (Some 20) false; OTell]),
              snd (run o [OSeek (-10) 2; ORead None false; OTell])))
    (Ok tt, bk 9 + 1000, [OutPos (Ok (bk 9 + 990)); OutData (Ok (repeat 66 20)); OutPos (Ok (bk 9 + 1010))],
     [OutPos (Ok (bk 9 + 990)); OutData (Ok (repeat 66 10)); OutPos (Ok (bk 9 + 1000))]) ltac:(vm_compute; reflexivity)) as ([o r] & E & X).
  rewrite <- E. clear E. cbn [fst snd] in X. apply pair_equal_spec in X as [X X3]. apply pair_equal_spec in X as [X X2]. apply pair_equal_spec in X as [X0 X1].
  exists o. subst r. auto.
Qed.
Print Assumptions C45_clipped_refuted.

(** "A failed read leaves the position" is false: the blocks before the wrong
    one are read, lost and passed. *)
Theorem C45_lost_data_refuted : exists o,
  select_shadow 5 5 (opened sh_bad_forward None) (ByGuid guid_a) = (o, Ok tt) /\
  snd (run o [OSeek (bk 9) 0; ORead (Some (bk 2)) false; OTell]) =
    [OutPos (Ok (bk 9)); OutData (Err ValueError); OutPos (Ok (bk 10))] /\
  snd (run o [OSeek (bk 9) 0; ORead (Some 2) false; OTell]) =
    [OutPos (Ok (bk 9)); OutData (Ok [77; 77]); OutPos (Ok (bk 9 + 2))].
Proof.
  destruct (shared (select_shadow 5 5 (opened sh_bad_forward None) (ByGuid guid_a))
    (fun x => let o := fst x in (snd x, snd (run o [OSeek (bk 9) 0; ORead (Some (bk 2)) false; OTell]), snd (run o [OSeek (bk 9) 0; ORead (Some 2) false; OTell])))
    (Ok tt, [OutPos (Ok (bk 9)); OutData (Err ValueError); OutPos (Ok (bk 10))], [OutPos (Ok (bk 9)); OutData (Ok [77; 77]); OutPos (Ok (bk 9 + 2))])
    ltac:(vm_compute; reflexivity)) as ([o r] & E & X).
  rewrite <- E. clear E. cbn [fst snd] in X. apply pair_equal_spec in X as [X X2]. apply pair_equal_spec in X as [X0 X1]. exists o. subst r. auto.
Qed.
Print Assumptions C45_lost_data_refuted.

(** "After a failed selection nothing can be read" is false: the object mixes
    two stores and still answers. *)
Theorem C45_failed_select_refuted : exists o1 o2,
  select_shadow 5 5 (opened sh_bad_table None) (ByGuid guid_b) = (o1, Ok tt) /\
  select_shadow 5 5 o1 (ByGuid guid_a) = (o2, Err ShadowBlockException) /\
  ps_sel (sp_cur o2) = true /\ option_map (fun x => i2_guid (fst x)) (ps_items (sp_cur o2)) = Some guid_a /\
  ps_bitmap (sp_cur o2) <> ps_bitmap (sp_cur o1) /\ ps_diff (sp_cur o2) = ps_diff (sp_cur o1) /\
  snd (run o2 [OSeek (bk 9) 0; ORead (Some 2) false]) = [OutPos (Ok (bk 9)); OutData (Ok [9; 9])].
Proof.
  destruct (shared (select_shadow 5 5 (opened sh_bad_table None) (ByGuid guid_b))
    (fun x => let o1 := fst x in let y := select_shadow 5 5 o1 (ByGuid guid_a) in let o2 := fst y in
      (snd x, snd y, ps_sel (sp_cur o2), option_map (fun x => i2_guid (fst x)) (ps_items (sp_cur o2)),
       nth 1 (ps_bitmap (sp_cur o2)) 0 =? nth 1 (ps_bitmap (sp_cur o1)) 0, (ps_diff (sp_cur o2), ps_diff (sp_cur o1)),
       snd (run o2 [OSeek (bk 9) 0; ORead (Some 2) false])))
    (Ok tt, Err ShadowBlockException, true, Some guid_a, false, ([], []), [OutPos (Ok (bk 9)); OutData (Ok [9; 9])])
    ltac:(vm_compute; reflexivity)) as ([o1 r1] & E & X).
  rewrite <- E. clear E. cbn [fst snd] in X. cbv zeta in X. destruct (select_shadow 5 5 o1 (ByGuid guid_a)) as [o2 r2] eqn:E2. cbn [fst snd] in X.
  repeat match type of X with _ = _ => apply pair_equal_spec in X as [X ?] end. subst. exists o1, o2.
  split; [reflexivity|]. split; [exact E2|]. split; [assumption|]. split; [assumption|]. split; [|split; [congruence|assumption]].
  intro K. match goal with Y : (_ =? _) = false |- _ => rewrite K, Z.eqb_refl in Y; discriminate Y end.
Qed.
Print Assumptions C45_failed_select_refuted.

(** C46. A selected store is the one asked for, followed by the newer ones
    with consecutive stack positions up to the last. *)
Theorem C46_selected fuel depth o sel o1 : select_shadow fuel depth o sel = (o1, Ok tt) ->
  let l := sp_cur o1 :: sp_next o1 in
  exists l2 l3 g c2, all_items (sp_cbs o) = Ok l2 /\ all_items (sp_cbs3 o) = Ok l3 /\ names l2 sel g /\
    store_chain fuel (sp_store o) l2 l3 g l /\ the_item2 l2 g c2 /\
    map pos_of l = map (fun k => Some (i2_pos c2 + Z.of_nat k)) (seq 0 (length l)) /\
    (forall j, In (I2 j) l2 -> i2_pos j <> i2_pos c2 + zlen l).
Proof.
  unfold select_shadow. destruct (_ && _); [discriminate|].
  destruct (select _ _ _ _ _ _ _) as [st r] eqn:E. intro H. destruct r as [[]|e]; [|discriminate H].
  apply (f_equal fst) in H. cbn [fst] in H. subst o1. cbn [set_state sp_cur sp_next]. cbv zeta.
  apply select_ok in E as (l2 & l3 & g & A2 & A3 & N & SC).
  destruct (store_chain_positions _ _ _ _ _ _ SC) as (c2 & T & P1 & P2 & _).
  exists l2, l3, g, c2. repeat (split; [assumption|]). assumption.
Qed.
Print Assumptions C46_selected.

(** It terminates if no chain of blocks of a store has a loop; the result does
    not depend on the fuel. *)
Theorem C46_terminates o sel fuel depth :
  (forall l3 c3, all_items (sp_cbs3 o) = Ok l3 -> In (I3 c3) l3 -> no_loops (sp_store o) c3) ->
  (length (v_data (sp_store o)) < fuel)%nat -> (0 < depth)%nat ->
  (forall l2, all_items (sp_cbs o) = Ok l2 -> (length l2 + 1 < depth)%nat) ->
  snd (select_shadow fuel depth o sel) <> Err OutOfFuel /\
  (forall fuel' depth', (fuel <= fuel')%nat -> (depth <= depth')%nat ->
     select_shadow fuel' depth' o sel = select_shadow fuel depth o sel).
Proof.
  intros NL LF D0 D. unfold select_shadow. destruct (_ && _); [split; [discriminate|auto]|].
  assert (T : snd (select fuel depth (sp_store o) (sp_cbs o) (sp_cbs3 o) (sp_cur o, sp_next o) sel) <> Err OutOfFuel).
  { destruct depth as [|d]; [lia|].
    assert (RE : forall l2 l3, all_items (sp_cbs o) = Ok l2 -> all_items (sp_cbs3 o) = Ok l3 ->
       forall c2 c3, In (I2 c2) l2 -> In (I3 c3) l3 -> reads_end fuel (sp_store o) c2 c3).
    { intros l2 l3 A2 A3 c2 c3 _ I. apply no_loops_reads; [auto|eauto]. }
    destruct (all_items (sp_cbs o)) as [l2|e] eqn:A.
    - apply (select_ends fuel (sp_store o) (sp_cbs o) (sp_cbs3 o)) with (l2 := l2); [rewrite A; exact RE|exact A|].
      specialize (D l2 eq_refl). lia.
    - apply (select_ends_err fuel (sp_store o) (sp_cbs o) (sp_cbs3 o)) with (e := e); [rewrite A; exact RE|exact A]. }
  split.
  - destruct (select _ _ _ _ _ _ _) as [st r]. exact T.
  - intros fuel' depth' L1 L2. rewrite (select_mono fuel fuel' _ _ _ L1 depth depth' _ _ L2 T). auto.
Qed.
Print Assumptions C46_terminates.

(** With a loop in one of its chains a store cannot be selected, whatever the
    fuel. *)
Theorem C46_loop o sel c2 c3 fuel depth :
  find_items (sp_cbs o) (sp_cbs3 o) sel = Ok (c2, c3) -> ~ no_loops (sp_store o) c3 ->
  snd (select_shadow fuel depth o sel) <> Ok tt.
Proof.
  intros F NL. unfold select_shadow. destruct (_ && _); [discriminate|].
  destruct depth as [|d]; [discriminate|]. cbn [select]. rewrite F. cbn [step].
  assert (DIV : forall A ty (pl : list Z -> result A) a, (forall b, zlen b = 16384 -> pl b <> Err OutOfFuel) ->
     forall l, chain fuel (sp_store o) (block_ok ty ShadowBlockException) pl a = Ok l ->
     ~ loops (link (sp_store o) (block_ok ty ShadowBlockException) pl) a).
  { intros A ty pl a P l E L. apply chain_diverges with (fuel := fuel) in L; [congruence| | |auto].
    - intros b. apply block_ok_len.
    - intros b. apply block_ok_fuel. discriminate. }
  intro Q. apply NL. clear NL. unfold no_loops.
  destruct (read_bitmap fuel (sp_store o) (i2_size c2) (i3_bitmap c3)) as [bm|] eqn:E1; cbn [step] in Q; [|discriminate Q].
  destruct (read_bitmap fuel (sp_store o) (i2_size c2) (i3_prev c3)) as [pb|] eqn:E2; cbn [step] in Q; [|discriminate Q].
  destruct (read_locations fuel (sp_store o) (i3_loc c3)) as [lo|] eqn:E3; cbn [step] in Q; [|discriminate Q].
  destruct (read_app_info (sp_store o) (i3_app c3)) as [ap|] eqn:E4; cbn [step] in Q; [|discriminate Q].
  destruct (read_diff_area fuel (sp_store o) (i3_diff c3)) as [df|] eqn:E5; cbn [step] in Q; [|discriminate Q].
  clear Q. unfold read_bitmap in E1, E2. unfold read_locations in E3. unfold read_diff_area in E5.
  apply bind_ok in E1 as (x1 & E1 & _). apply bind_ok in E2 as (x2 & E2 & _).
  apply bind_ok in E3 as (x3 & E3 & _). apply bind_ok in E5 as (x5 & E5 & _).
  repeat split.
  - eapply DIV; [discriminate|exact E1].
  - eapply DIV; [discriminate|exact E2].
  - eapply DIV; [|exact E3]. intros b LB. apply location_items_fuel; lia.
  - eapply DIV; [|exact E5]. intros b LB. apply diff_entries_fuel; lia.
Qed.
Print Assumptions C46_loop.

(** Selecting the older store links it with the newer one. *)
Example C46_example :
  snd (select_shadow 5 5 (opened sh_good None) (ByPos 1)) = Ok tt /\
  (let r := fst (select_shadow 5 5 (opened sh_good None) (ByPos 1)) in map pos_of (sp_cur r :: sp_next r)) = [Some 1; Some 2] /\
  snd (select_shadow 5 5 (opened sh_good None) (ByPos 3)) = Err ShadowCopyNotFoundException.
Proof. vm_compute. repeat split; reflexivity. Qed.

(** "Selecting terminates" is false: a bitmap block followed by itself. *)
Theorem C46_loop_refuted : exists v o, open_one 5 v None = Ok o /\ zlen (v_data v) = bk 12 /\
  forall fuel depth, snd (select_shadow fuel depth o (ByGuid guid_a)) = Err OutOfFuel.
Proof.
  exists sh_bm_loop, (opened sh_bm_loop None). split; [apply opened_ok; vm_compute; reflexivity|]. split; [vm_compute; reflexivity|].
  intros fuel depth.
  assert (F : exists c2 c3, find_items (sp_cbs (opened sh_bm_loop None)) (sp_cbs3 (opened sh_bm_loop None)) (ByGuid guid_a) = Ok (c2, c3)
     /\ i3_bitmap c3 = bk 3).
  { eexists. eexists. split; vm_compute; reflexivity. }
  destruct F as (c2 & c3 & F & B).
  assert (S : sp_store (opened sh_bm_loop None) = sh_bm_loop) by apply opened_store.
  assert (S2 : negb (sp_two (opened sh_bm_loop None)) && sp_second (opened sh_bm_loop None) = false) by (vm_compute; reflexivity).
  unfold select_shadow. rewrite S2. destruct depth as [|d]; [reflexivity|]. cbn [select]. rewrite F. cbn [step].
  rewrite S. unfold read_bitmap at 1. rewrite B.
  assert (D : chain fuel sh_bm_loop (block_ok 6 ShadowBlockException) (fun b => Ok (zdrop 128 b)) (bk 3) = Err OutOfFuel).
  { apply chain_diverges.
    - intros b. apply block_ok_len.
    - intros b. apply block_ok_fuel. discriminate.
    - discriminate.
    - exists (bk 3), (bk 3). split; [constructor|]. split; [|constructor].
      unfold link. split; [discriminate|]. split; [split; [discriminate|reflexivity]|]. cbv zeta.
      split; [vm_compute; reflexivity|]. split; [vm_compute; reflexivity|]. split; [eexists; reflexivity|].
      split; vm_compute; reflexivity. }
  rewrite D. reflexivity.
Qed.
Print Assumptions C46_loop_refuted.

(** C47. Opening diverges exactly if the control blocks have a loop. *)
Definition cb_loop (v : vol) : Prop := exists start a,
  seek_read (v_data v) (v_off v) 8192 = Ok start /\ first_control_block start = Ok a /\
  loops (link v control_block_ok (fun b => Ok b)) a.

Lemma control_blocks_fuel fuel v start a : first_control_block start = Ok a ->
  control_blocks fuel v start = chain fuel v control_block_ok (fun b => Ok b) a.
Proof. intro E. unfold control_blocks. now rewrite E. Qed.

Lemma fcb_fuel b : first_control_block b <> Err OutOfFuel.
Proof.
  unfold first_control_block. destruct (u64 b 7728) eqn:E; cbn [bind]; [destruct (_ && _); discriminate|].
  apply unp_err in E as ->. discriminate.
Qed.

Lemma start_block_fuel b : start_block b <> Err OutOfFuel.
Proof.
  unfold start_block, shadow_block. destruct (negb _); [discriminate|]. cbv zeta. destruct (negb _); [discriminate|].
  destruct (negb _); cbn [bind]; [discriminate|].
  unfold u64, u32.
  repeat match goal with
  | |- bind (unp ?w ?x ?y) _ <> _ => destruct (unp w x y) eqn:?; cbn [bind];
      [|match goal with U : unp _ _ _ = Err _ |- _ => apply unp_err in U; subst; discriminate end]
  | |- (if ?c then _ else _) <> _ => destruct c; [discriminate|]
  end. discriminate.
Qed.

Lemma seek_fuel v o n : seek_read v o n <> Err OutOfFuel.
Proof. intro H. apply seek_read_err in H as [H|H]; discriminate H. Qed.

Lemma cb_diverges v a : (forall fuel, chain fuel v control_block_ok (fun b => Ok b) a = Err OutOfFuel) <->
  loops (link v control_block_ok (fun b => Ok b)) a.
Proof. apply chain_diverges; [apply control_block_ok_len|apply control_block_ok_fuel|discriminate]. Qed.

Theorem C47_open_one v vsize :
  (forall fuel, open_one fuel v vsize = Err OutOfFuel) <->
  (exists start, seek_read (v_data v) (v_off v) 8192 = Ok start /\ start_block start = Ok tt) /\ cb_loop v.
Proof.
  split.
  - intro H. unfold open_one in H.
    destruct (seek_read (v_data v) (v_off v) 8192) as [start|e] eqn:E1; cbn [bind] in H.
    2:{ exfalso. specialize (H O). injection H as ->. exact (seek_fuel _ _ _ E1). }
    destruct (start_block start) as [[]|e] eqn:E2; cbn [start_or_disabled bind] in H.
    2:{ exfalso. specialize (H O). pose proof (start_block_fuel start) as N. rewrite E2 in N.
        destruct (is_shadow_exn e); cbn [bind] in H; [discriminate H|]. injection H as ->. apply N. reflexivity. }
    split; [eauto|]. destruct (first_control_block start) as [a|e] eqn:E3.
    2:{ exfalso. specialize (H O). unfold control_blocks in H. rewrite E3 in H. cbn [bind] in H. injection H as ->.
        apply (fcb_fuel start). exact E3. }
    exists start, a. split; [auto|]. split; [auto|]. apply cb_diverges. intro fuel. specialize (H fuel).
    rewrite (control_blocks_fuel _ _ _ _ E3) in H.
    destruct (chain fuel v control_block_ok (fun b => Ok b) a); cbn [bind] in H; congruence.
  - intros ((start & E1 & E2) & start' & a & E1' & E3 & L) fuel. rewrite E1 in E1'. injection E1' as <-.
    unfold open_one. rewrite E1. cbn [bind]. rewrite E2. cbn [start_or_disabled bind].
    rewrite (control_blocks_fuel _ _ _ _ E3). rewrite (proj2 (cb_diverges v a) L fuel). reflexivity.
Qed.
Print Assumptions C47_open_one.

(** Otherwise it ends, within as many steps as the volume has bytes. *)
Theorem C47_open_one_ends v vsize fuel : ~ cb_loop v -> (length (v_data v) < fuel)%nat ->
  open_one fuel v vsize <> Err OutOfFuel /\
  forall fuel', (fuel <= fuel')%nat -> open_one fuel' v vsize = open_one fuel v vsize.
Proof.
  intros N L. unfold open_one.
  destruct (seek_read (v_data v) (v_off v) 8192) as [start|e] eqn:E1; cbn [bind].
  2:{ split; [intro H; injection H as ->; apply (seek_fuel _ _ _ E1)|auto]. }
  destruct (start_block start) as [[]|e] eqn:E2; cbn [start_or_disabled bind].
  2:{ destruct (is_shadow_exn e); cbn [bind]; (split; [|auto]); [discriminate|]. intro H. injection H as ->.
      apply (start_block_fuel start). exact E2. }
  destruct (first_control_block start) as [a|e] eqn:E3.
  2:{ unfold control_blocks. rewrite E3. cbn [bind]. split; [|auto]. intro H. injection H as ->. apply (fcb_fuel start). exact E3. }
  rewrite (control_blocks_fuel _ _ _ _ E3).
  assert (C : chain fuel v control_block_ok (fun b => Ok b) a <> Err OutOfFuel).
  { apply chain_ends; [apply control_block_ok_len|apply control_block_ok_fuel|discriminate| |exact L].
    intro Q. apply N. exists start, a. auto. }
  split.
  - destruct (chain fuel v control_block_ok (fun b => Ok b) a); cbn [bind]; [discriminate|]. intro H. injection H as ->. apply C. reflexivity.
  - intros fuel' L'. rewrite (control_blocks_fuel _ _ _ _ E3). now rewrite (chain_more v _ _ fuel fuel' a L' C).
Qed.
Print Assumptions C47_open_one_ends.

Theorem C47_open_two_ends v w vsize fuel : ~ cb_loop v -> ~ cb_loop w ->
  (length (v_data v) < fuel)%nat -> (length (v_data w) < fuel)%nat ->
  open_two fuel v w vsize <> Err OutOfFuel /\
  forall fuel', (fuel <= fuel')%nat -> open_two fuel' v w vsize = open_two fuel v w vsize.
Proof.
  intros N N' L L'. unfold open_two.
  destruct (seek_read (v_data v) (v_off v) 8192) as [start|e] eqn:E1; cbn [bind].
  2:{ split; [intro H; injection H as ->; apply (seek_fuel _ _ _ E1)|auto]. }
  destruct (seek_read (v_data w) (v_off w) 8192) as [start3|e] eqn:E1'; cbn [bind].
  2:{ split; [intro H; injection H as ->; apply (seek_fuel _ _ _ E1')|auto]. }
  destruct (bind (start_block start) (fun _ => start_block start3)) as [[]|e] eqn:E2; cbn [start_or_disabled bind].
  2:{ destruct (is_shadow_exn e); cbn [bind]; (split; [|auto]); [discriminate|]. intro H. injection H as ->.
      pose proof (start_block_fuel start). pose proof (start_block_fuel start3).
      destruct (start_block start); cbn [bind] in E2; congruence. }
  destruct (storage_local start); [split; [discriminate|auto]|].
  assert (K : forall x sx, ~ cb_loop x -> (length (v_data x) < fuel)%nat -> seek_read (v_data x) (v_off x) 8192 = Ok sx ->
     control_blocks fuel x sx <> Err OutOfFuel /\
     forall fuel', (fuel <= fuel')%nat -> control_blocks fuel' x sx = control_blocks fuel x sx).
  { intros x sx NX LX EX. unfold control_blocks. destruct (first_control_block sx) as [a|e] eqn:E3; cbn [bind].
    2:{ split; [|auto]. intro H. injection H as ->. apply (fcb_fuel sx). exact E3. }
    assert (C : chain fuel x control_block_ok (fun b => Ok b) a <> Err OutOfFuel).
    { apply chain_ends; [apply control_block_ok_len|apply control_block_ok_fuel|discriminate| |exact LX].
      intro Q. apply NX. exists sx, a. auto. }
    split; [exact C|]. intros f F. now apply chain_more. }
  destruct (K v start N L E1) as [K1 K2]. destruct (K w start3 N' L' E1') as [K3 K4]. split.
  - destruct (control_blocks fuel v start); cbn [bind]; [|congruence].
    destruct (control_blocks fuel w start3); cbn [bind]; [discriminate|congruence].
  - intros f F. rewrite (K2 f F), (K4 f F). reflexivity.
Qed.
Print Assumptions C47_open_two_ends.

Example C47_example : exists o, open_one 5 sh_good None = Ok o /\ zlen (sp_cbs o) = 1 /\
  map si_pos (fst (shadows (sp_cbs o))) = [1; 2].
Proof. exists (opened sh_good None). split; [apply opened_ok; vm_compute; reflexivity|]. split; vm_compute; reflexivity. Qed.

(** "Opening terminates" is false: a control block followed by itself. *)
Theorem C47_loop_refuted : exists v, zlen (v_data v) = bk 12 /\ bytes_ok (v_data v) /\
  forall fuel, open_one fuel v None = Err OutOfFuel.
Proof.
  exists sh_cb_loop. split; [vm_compute; reflexivity|]. split.
  - apply bytes_okb_ok. vm_compute. reflexivity.
  - apply C47_open_one. split.
    + eexists. split; [vm_compute; reflexivity|vm_compute; reflexivity].
    + eexists. exists (bk 1). split; [vm_compute; reflexivity|]. split; [vm_compute; reflexivity|].
      exists (bk 1), (bk 1). split; [constructor|]. split; [|constructor].
      unfold link. split; [discriminate|]. split; [split; [discriminate|reflexivity]|]. cbv zeta.
      split; [vm_compute; reflexivity|]. split; [vm_compute; reflexivity|]. split; [eexists; reflexivity|].
      split; vm_compute; reflexivity.
Qed.
Print Assumptions C47_loop_refuted.
