(** Selecting a store. *)
From Verif Require Import Base BaseLemmas FieldLemmas Sorting PartitionTable Shadow ShadowSpec ShadowChain ShadowTranslate.
From Coq Require Import Lia Permutation.

(** ** Items of control blocks *)

Lemma parse_item2_err raw e : zlen raw = 128 -> parse_item2 raw = Err e -> e = ControlBlockItemException.
Proof.
  intros L. unfold parse_item2, u64. rewrite !unp_ok by lia. cbn [bind]. destruct (_ =? 0); congruence.
Qed.

Lemma parse_item3_ok raw : zlen raw = 128 -> exists i, parse_item3 raw = Ok i.
Proof. intros L. unfold parse_item3, u64. rewrite !unp_ok by lia. cbn [bind]. eauto. Qed.

Lemma cb_items_status n : forall buf off, 0 <= off -> Z.max 0 (16384 - off) <= 128 * (Z.of_nat n - 1) ->
  snd (cb_items_from n buf off) <> Raised OutOfFuel.
Proof.
  induction n as [|n IH]; intros buf off O L; [lia|]. cbn [cb_items_from].
  destruct (Z.ltb_spec off 16384); cbn [negb]; [|discriminate]. destruct (negb _); [discriminate|].
  destruct (_ =? 0); [discriminate|]. destruct (negb (zin _ _)); [discriminate|].
  assert (REC : snd (cb_items_from n buf (off + 128)) <> Raised OutOfFuel) by (apply IH; lia).
  destruct (_ =? 1); [auto|]. destruct (Z.eqb_spec (zlen (slice buf off (off + 128))) 128) as [L2|]; cbn [negb]; [|discriminate].
  destruct (_ =? 2).
  - destruct (parse_item2 _) eqn:E; cbn [gcons snd]; [auto|]. apply parse_item2_err in E; [|auto]. congruence.
  - destruct (parse_item3_ok _ L2) as [i ->]. auto.
Qed.

Lemma all_items_fuel cbs : all_items cbs <> Err OutOfFuel.
Proof.
  induction cbs as [|b t IH]; cbn [all_items]; [discriminate|].
  pose proof (cb_items_status 129 b 128 ltac:(lia) ltac:(lia)) as H. unfold cb_items.
  destruct (cb_items_from 129 b 128) as [l s]. cbn [snd] in H. destruct s; [|congruence].
  destruct (all_items t); cbn [bind]; [discriminate|congruence].
Qed.

Lemma all_items_notfound cbs : all_items cbs <> Err ShadowCopyNotFoundException.
Proof.
  assert (G : forall n buf off, snd (cb_items_from n buf off) <> Raised ShadowCopyNotFoundException).
  { induction n as [|n IH]; intros buf off; cbn [cb_items_from]; [discriminate|].
    destruct (negb _); [discriminate|]. destruct (negb _); [discriminate|].
    destruct (_ =? 0); [discriminate|]. destruct (negb (zin _ _)); [discriminate|].
    destruct (_ =? 1); [auto|].
    destruct (Z.eqb_spec (zlen (slice buf off (off + 128))) 128) as [L2|]; cbn [negb]; [|discriminate].
    destruct (_ =? 2).
    - destruct (parse_item2 _) eqn:E; cbn [gcons snd]; [auto|]. apply parse_item2_err in E; [|auto]. congruence.
    - destruct (parse_item3_ok _ L2) as [i ->]. apply IH. }
  induction cbs as [|b t IH]; cbn [all_items]; [discriminate|].
  specialize (G 129%nat b 128). unfold cb_items.
  destruct (cb_items_from 129 b 128) as [l s]. cbn [snd] in G. destruct s; [|congruence].
  destruct (all_items t); cbn [bind]; [discriminate|congruence].
Qed.

Local Opaque cb_items.

Lemma find_guid_spec cbs p : forall found l, all_items cbs = Ok l ->
  exists g, find_guid cbs p found = Ok g /\
    ((g = found /\ forall j, In (I2 j) l -> i2_pos j <> p) \/
     exists j, In (I2 j) l /\ i2_pos j = p /\ g = Some (i2_guid j)).
Proof.
  induction cbs as [|b t IH]; intros found l A; cbn [all_items find_guid] in *.
  - injection A as <-. exists found. split; [auto|]. left. split; [auto|]. intros j [].
  - destruct (cb_items b) as [bl s]. destruct s; [|discriminate].
    destruct (all_items t) as [r|] eqn:E; cbn [bind] in A; [|discriminate]. injection A as <-.
    destruct (find _ bl) as [i|] eqn:F.
    + apply find_some in F as [I Q]. destruct i as [i|i]; [|discriminate]. apply Z.eqb_eq in Q.
      destruct (IH (Some (i2_guid i)) r eq_refl) as (g & E1 & [(-> & H)|(j & J1 & J2 & J3)]).
      * exists (Some (i2_guid i)). split; [auto|]. right. exists i. rewrite in_app_iff. auto.
      * exists g. split; [auto|]. right. exists j. rewrite in_app_iff. auto.
    + destruct (IH found r eq_refl) as (g & E1 & [(-> & H)|(j & J1 & J2 & J3)]).
      * exists found. split; [auto|]. left. split; [auto|]. intros j J. apply in_app_iff in J as [J|J]; [|auto].
        intro Q. pose proof (find_none _ _ F _ J) as X. cbn in X. apply Z.eqb_neq in X. auto.
      * exists g. split; [auto|]. right. exists j. rewrite in_app_iff. auto.
Qed.

Lemma items2_In l g j : In j (items2_of l (Some g)) <-> In (I2 j) l /\ i2_guid j = g.
Proof.
  unfold items2_of. rewrite in_flat_map. split.
  - intros (x & I & J). destruct x as [x|x]; [|destruct J]. cbn [guid_is] in J.
    destruct (zlist_eqb (i2_guid x) g) eqn:E; [|destruct J]. destruct J as [<-|[]]. apply zlist_eqb_eq in E. auto.
  - intros [I <-]. exists (I2 j). split; [auto|]. cbn [guid_is]. rewrite zlist_eqb_refl. now left.
Qed.

Lemma items2_app a b g : items2_of (a ++ b) g = items2_of a g ++ items2_of b g.
Proof. apply flat_map_app. Qed.
Lemma items3_app a b g : items3_of (a ++ b) g = items3_of a g ++ items3_of b g.
Proof. apply flat_map_app. Qed.

Lemma items2_one l g i : items2_of l (Some g) = [i] <-> the_item2 l g i.
Proof.
  unfold the_item2. split.
  - intro H. assert (J : In (I2 i) l /\ i2_guid i = g) by (apply items2_In; rewrite H; now left).
    destruct J as [J G]. split; [auto|]. apply in_split in J as (a & b & ->). exists a, b. split; [auto|].
    rewrite items2_app in H. cbn [items2_of flat_map] in H. fold (items2_of b (Some g)) in H.
    cbn [guid_is] in H. rewrite G, zlist_eqb_refl in H. cbn [app] in H.
    assert (N : items2_of a (Some g) = [] /\ items2_of b (Some g) = []).
    { destruct (items2_of a (Some g)) as [|x t]; cbn in H.
      - injection H as H. auto.
      - injection H as _ H. destruct t; discriminate. }
    destruct N as [N1 N2]. intros j J Q. rewrite in_app_iff in J. destruct J as [J|J].
    + apply (in_nil (a := j)). rewrite <- N1. apply items2_In. auto.
    + apply (in_nil (a := j)). rewrite <- N2. apply items2_In. auto.
  - intros (G & a & b & -> & H). rewrite items2_app. cbn [items2_of flat_map]. fold (items2_of b (Some g)).
    cbn [guid_is]. rewrite G, zlist_eqb_refl. cbn [app].
    assert (N : forall m, (forall j, In (I2 j) m -> i2_guid j <> g) -> items2_of m (Some g) = []).
    { intros m M. destruct (items2_of m (Some g)) as [|x t] eqn:E; [auto|].
      assert (I : In x (items2_of m (Some g))) by (rewrite E; now left). apply items2_In in I as [I1 I2']. elim (M x); auto. }
    rewrite !N; [auto| |]; intros j J; apply H; rewrite in_app_iff; auto.
Qed.

Lemma items3_In l g j : In j (items3_of l (Some g)) <-> In (I3 j) l /\ i3_guid j = g.
Proof.
  unfold items3_of. rewrite in_flat_map. split.
  - intros (x & I & J). destruct x as [x|x]; [destruct J|]. cbn [guid_is] in J.
    destruct (zlist_eqb (i3_guid x) g) eqn:E; [|destruct J]. destruct J as [<-|[]]. apply zlist_eqb_eq in E. auto.
  - intros [I <-]. exists (I3 j). split; [auto|]. cbn [guid_is]. rewrite zlist_eqb_refl. now left.
Qed.

Lemma items3_one l g i : items3_of l (Some g) = [i] <-> the_item3 l g i.
Proof.
  unfold the_item3. split.
  - intro H. assert (J : In (I3 i) l /\ i3_guid i = g) by (apply items3_In; rewrite H; now left).
    destruct J as [J G]. split; [auto|]. apply in_split in J as (a & b & ->). exists a, b. split; [auto|].
    rewrite items3_app in H. cbn [items3_of flat_map] in H. fold (items3_of b (Some g)) in H.
    cbn [guid_is] in H. rewrite G, zlist_eqb_refl in H. cbn [app] in H.
    assert (N : items3_of a (Some g) = [] /\ items3_of b (Some g) = []).
    { destruct (items3_of a (Some g)) as [|x t]; cbn in H.
      - injection H as H. auto.
      - injection H as _ H. destruct t; discriminate. }
    destruct N as [N1 N2]. intros j J Q. rewrite in_app_iff in J. destruct J as [J|J].
    + apply (in_nil (a := j)). rewrite <- N1. apply items3_In. auto.
    + apply (in_nil (a := j)). rewrite <- N2. apply items3_In. auto.
  - intros (G & a & b & -> & H). rewrite items3_app. cbn [items3_of flat_map]. fold (items3_of b (Some g)).
    cbn [guid_is]. rewrite G, zlist_eqb_refl. cbn [app].
    assert (N : forall m, (forall j, In (I3 j) m -> i3_guid j <> g) -> items3_of m (Some g) = []).
    { intros m M. destruct (items3_of m (Some g)) as [|x t] eqn:E; [auto|].
      assert (I : In x (items3_of m (Some g))) by (rewrite E; now left). apply items3_In in I as [I1 I2']. elim (M x); auto. }
    rewrite !N; [auto| |]; intros j J; apply H; rewrite in_app_iff; auto.
Qed.

(** The GUID that a selector stands for. *)
Definition names (l2 : list item) (sel : selector) (g : list Z) : Prop :=
  match sel with
  | ByGuid g' => g = g'
  | ByPos p => exists j, In (I2 j) l2 /\ i2_pos j = p /\ i2_guid j = g
  end.

Lemma none_items2 l : items2_of l None = [].
Proof. unfold items2_of. induction l as [|[]]; auto. Qed.
Lemma none_items3 l : items3_of l None = [].
Proof. unfold items3_of. induction l as [|[]]; auto. Qed.

Section Items.
Variables cbs cbs3 : list (list Z).
Variables l2 l3 : list item.
Hypothesis A2 : all_items cbs = Ok l2.
Hypothesis A3 : all_items cbs3 = Ok l3.

Lemma find_items_ok sel c2 c3 : find_items cbs cbs3 sel = Ok (c2, c3) ->
  exists g, names l2 sel g /\ the_item2 l2 g c2 /\ the_item3 l3 g c3.
Proof.
  unfold find_items. rewrite A2, A3.
  assert (H : forall g, (let! l3 := Ok l3 in let! l2 := Ok l2 in
     if negb (zlen (items3_of l3 g) =? zlen (items2_of l2 g)) then Err ShadowCopyException else
     match items2_of l2 g, items3_of l3 g with
     | [i2], [i3] => Ok (i2, i3) | [], _ => Err ShadowCopyNotFoundException | _, _ => Err ShadowCopyException end) = Ok (c2, c3) ->
     exists g', g = Some g' /\ the_item2 l2 g' c2 /\ the_item3 l3 g' c3).
  { intros g. cbn [bind]. destruct (negb _); [discriminate|]. intro E. destruct g as [g'|].
    2:{ rewrite none_items2 in E. discriminate. }
    exists g'. split; [auto|]. rewrite <- items2_one, <- items3_one.
    destruct (items2_of l2 (Some g')) as [|x [|]]; try discriminate; destruct (items3_of l3 (Some g')) as [|y [|]]; try discriminate.
    injection E as <- <-. auto. }
  destruct sel as [g|p].
  - cbn [bind]. intro E. apply (H (Some g)) in E as (g' & X & E1 & E2). injection X as <-. exists g. split; [reflexivity|auto].
  - destruct (find_guid_spec cbs p None l2 A2) as (g & E1 & D). rewrite E1. cbn [bind].
    intro E. apply (H g) in E as (g' & -> & E2 & E3). destruct D as [(X & _)|(j & J1 & J2 & J3)]; [discriminate|].
    injection J3 as J3. exists g'. split; [exists j; auto|auto].
Qed.

(** Found by stack position, the item has that position. *)
Lemma found_pos p c2 c3 : find_items cbs cbs3 (ByPos p) = Ok (c2, c3) -> i2_pos c2 = p /\ In (I2 c2) l2 /\ In (I3 c3) l3.
Proof.
  intro E. apply find_items_ok in E as (g & (j & J1 & J2 & J3) & (G & a & b & -> & H) & (G3 & a3 & b3 & -> & _)).
  split; [|rewrite !in_app_iff; cbn; auto].
  apply in_app_iff in J1 as [J|[J|J]]; [exfalso; apply (H j); rewrite ?in_app_iff; auto| |exfalso; apply (H j); rewrite ?in_app_iff; auto].
  injection J as <-. auto.
Qed.

Lemma found_in sel c2 c3 : find_items cbs cbs3 sel = Ok (c2, c3) -> In (I2 c2) l2 /\ In (I3 c3) l3.
Proof.
  intro E. apply find_items_ok in E as (g & _ & (G & a & b & -> & H) & (G3 & a3 & b3 & -> & _)).
  rewrite !in_app_iff. cbn. auto.
Qed.

Lemma found_by_guid g c2 c3 : the_item2 l2 g c2 -> the_item3 l3 g c3 -> find_items cbs cbs3 (ByGuid g) = Ok (c2, c3).
Proof.
  intros T2 T3. unfold find_items. rewrite A2, A3. cbn [bind]. apply items2_one in T2. apply items3_one in T3.
  now rewrite T2, T3.
Qed.

Lemma unique_guid g c2 j : the_item2 l2 g c2 -> In (I2 j) l2 -> i2_guid j = g -> j = c2.
Proof.
  intros (G & a & b & -> & H) I Q. apply in_app_iff in I as [I|[I|I]]; [|injection I; auto|];
    exfalso; apply (H j); rewrite ?in_app_iff; auto.
Qed.

(** Not found by stack position: there is no such item. *)
Lemma not_found p : find_items cbs cbs3 (ByPos p) = Err ShadowCopyNotFoundException <->
  forall j, In (I2 j) l2 -> i2_pos j <> p.
Proof.
  unfold find_items. rewrite A2, A3. destruct (find_guid_spec cbs p None l2 A2) as (g & E1 & D). rewrite E1. cbn [bind].
  split.
  - destruct D as [(-> & D)|(j & J1 & J2 & ->)]; [auto|].
    destruct (negb _) eqn:EN; [discriminate|].
    assert (I : In j (items2_of l2 (Some (i2_guid j)))) by (apply items2_In; auto).
    destruct (items2_of l2 (Some (i2_guid j))) as [|x [|y t]]; [destruct I| |];
      destruct (items3_of l3 (Some (i2_guid j))) as [|u [|w s]]; discriminate.
  - intro N. destruct D as [(-> & D)|(j & J1 & J2 & ->)]; [|elim (N j); auto].
    now rewrite none_items2, none_items3.
Qed.
End Items.

Lemma find_items_all cbs cbs3 sel x : find_items cbs cbs3 sel = Ok x \/ find_items cbs cbs3 sel = Err ShadowCopyNotFoundException ->
  exists l2 l3, all_items cbs = Ok l2 /\ all_items cbs3 = Ok l3.
Proof.
  unfold find_items. intro H.
  assert (E : forall g, bind (all_items cbs3) (fun l3 => bind (all_items cbs) (fun l2 =>
     if negb (zlen (items3_of l3 g) =? zlen (items2_of l2 g)) then Err ShadowCopyException else
     match items2_of l2 g, items3_of l3 g with
     | [i2], [i3] => Ok (i2, i3) | [], _ => Err ShadowCopyNotFoundException | _, _ => Err ShadowCopyException end)) = Ok x \/
    bind (all_items cbs3) (fun l3 => bind (all_items cbs) (fun l2 =>
     if negb (zlen (items3_of l3 g) =? zlen (items2_of l2 g)) then Err ShadowCopyException else
     match items2_of l2 g, items3_of l3 g with
     | [i2], [i3] => Ok (i2, i3) | [], _ => Err ShadowCopyNotFoundException | _, _ => Err ShadowCopyException end)) = Err ShadowCopyNotFoundException ->
    exists l2 l3, all_items cbs = Ok l2 /\ all_items cbs3 = Ok l3).
  { intros g. pose proof (all_items_notfound cbs3). pose proof (all_items_notfound cbs).
    destruct (all_items cbs3) as [l3|]; cbn [bind]; [|intros [|]; congruence].
    destruct (all_items cbs) as [l2|]; cbn [bind]; [|intros [|]; congruence]. eauto. }
  assert (FG : forall cbs p f, find_guid cbs p f <> Err ShadowCopyNotFoundException).
  { clear. intros cbs p. induction cbs as [|b t IH]; intro f; cbn [find_guid]; [discriminate|].
    pose proof (all_items_notfound [b]) as N. cbn [all_items] in N.
    destruct (cb_items b) as [l s]. destruct (find _ l) as [[i|i]|]; auto; destruct s; auto; cbn in N; congruence. }
  destruct sel as [g|p]; [exact (E (Some g) H)|]. specialize (FG cbs p None).
  destruct (find_guid cbs p None) as [g|]; cbn [bind] in H; [exact (E g H)|]. destruct H; congruence.
Qed.
