(** Property C47, the blocks: which start blocks, control blocks and other blocks
    the parsers of shadow copies take for valid. *)
From Coq Require Import String.
From Verif Require Import Base BaseLemmas FieldLemmas Report Shadow ShadowBlocksSpec.
Local Open Scope list_scope.
Local Open Scope Z_scope.

Lemma shadow_block_iff buf : shadow_block buf = Ok tt <-> slice buf 0 16 = diff_area.
Proof.
  unfold shadow_block. change vsp_guid with diff_area. destruct (zlist_eqb _ _) eqn:E; cbn [negb].
  - apply zlist_eqb_eq in E. tauto.
  - apply zlist_eqb_neq in E. split; [discriminate|contradiction].
Qed.

Lemma supported_iff buf :
  zlist_eqb (slice buf 3 7) [78; 84; 70; 83] || zlist_eqb (slice buf 3 7) [82; 101; 70; 83] = true <-> supported buf.
Proof. rewrite Bool.orb_true_iff, !zlist_eqb_eq. unfold supported. change (txt "NTFS") with [78; 84; 70; 83]. change (txt "ReFS") with [82; 101; 70; 83]. tauto. Qed.

Lemma start_cases buf :
  (start_block buf = Ok tt /\ started buf) \/
  (exists e, start_block buf = Err e /\ ~ started buf /\ (e = InvalidVolume <-> zlen buf = 8192 /\ ~ supported buf)).
Proof.
  unfold start_block. destruct (Z.eqb_spec (zlen buf) 8192) as [L|L]; cbn [negb].
  2:{ right. eexists. split; [reflexivity|]. unfold started. split; [tauto|]. split; [discriminate|tauto]. }
  cbv zeta. destruct (_ || _) eqn:S; cbn [negb].
  2:{ right. eexists. split; [reflexivity|]. assert (N : ~ supported buf) by (rewrite <- supported_iff; congruence).
      unfold started. split; [tauto|]. tauto. }
  apply supported_iff in S.
  assert (R : forall e, e <> InvalidVolume -> ~ started buf ->
    exists x, Err e = @Err unit x /\ ~ started buf /\ (x = InvalidVolume <-> zlen buf = 8192 /\ ~ supported buf)).
  { intros e He N. exists e. split; [auto|]. split; [auto|]. tauto. }
  pose proof (shadow_block_iff (zdrop 7680 buf)) as G. rewrite slice_zdrop in G by lia. change (7680 + 0) with 7680 in G. change (7680 + 16) with 7696 in G.
  assert (LD : zlen (zdrop 7680 buf) = 512) by (rewrite zlen_zdrop; lia).
  unfold shadow_block in *. destruct (negb _) eqn:E in |- *; cbn [bind].
  { right. apply R; [discriminate|]. intros (_ & _ & X & _). apply G in X. rewrite E in X. discriminate. }
  rewrite E in G. assert (GU : slice buf 7680 7696 = diff_area) by now apply G. clear G E.
  unfold u64, u32. rewrite !unp_ok by lia. rewrite !fld_zdrop by lia. cbn [bind].
  change (7680 + 24) with 7704. change (7680 + 32) with 7712. change (7680 + 40) with 7720. change (7680 + 20) with 7700.
  destruct (Z.eqb_spec (fld 8 buf 7704) 7680); cbn [negb]; [|right; apply R; [discriminate|unfold started; tauto]].
  destruct (Z.eqb_spec (fld 8 buf 7712) 7680); cbn [negb]; [|right; apply R; [discriminate|unfold started; tauto]].
  destruct (Z.eqb_spec (fld 8 buf 7720) 0); cbn [negb]; [|right; apply R; [discriminate|unfold started; tauto]].
  destruct (Z.eqb_spec (fld 4 buf 7700) 1); cbn [negb]; [|right; apply R; [discriminate|unfold started; tauto]].
  left. unfold started. tauto.
Qed.

(** The start block, and when the volume is said to be no valid volume. *)
Theorem C47_start_block : forall buf, start_block buf = Ok tt <-> started buf.
Proof. intro buf. destruct (start_cases buf) as [[E S]|(e & E & S & _)]; rewrite E; [tauto|]. split; [discriminate|tauto]. Qed.
Print Assumptions C47_start_block.

Theorem C47_invalid_volume : forall buf, start_block buf = Err InvalidVolume <-> zlen buf = 8192 /\ ~ supported buf.
Proof.
  intro buf. destruct (start_cases buf) as [[E S]|(e & E & S & I)]; rewrite E.
  - split; [discriminate|]. unfold started in S. tauto.
  - rewrite <- I. split; congruence.
Qed.
Print Assumptions C47_invalid_volume.

(** The first control block is at a multiple of 16384 (0: there is none). *)
Theorem C47_first_control_block : forall buf a, bytes_ok buf -> zlen buf = 8192 ->
  (first_control_block buf = Ok a <-> a = fld 8 buf 7728 /\ a mod 16384 = 0).
Proof.
  intros buf a B L. unfold first_control_block, u64. rewrite unp_ok by lia. cbn [bind].
  pose proof (fld_bound 8 buf 7728 ltac:(lia) ltac:(lia) B) as P.
  destruct (Z.ltb_spec 0 (fld 8 buf 7728)); cbn [andb].
  - destruct (Z.eqb_spec (fld 8 buf 7728 mod 16384) 0) as [M|M]; cbn [negb]; split.
    + intro H1. injection H1 as <-. auto.
    + now intros [-> _].
    + discriminate.
    + now intros [-> M'].
  - replace (fld 8 buf 7728) with 0 by lia. split; [intro H1; injection H1 as <-; split; reflexivity|now intros [-> _]].
Qed.
Print Assumptions C47_first_control_block.

(** The blocks by their types. *)
Theorem C47_block : forall ty bad buf, block_ok ty bad buf = Ok tt <-> block_of ty buf.
Proof.
  intros ty bad buf. unfold block_ok, block_of. destruct (Z.eqb_spec (zlen buf) 16384) as [L|L]; cbn [negb]; [|split; [discriminate|tauto]].
  pose proof (shadow_block_iff buf) as G. destruct (shadow_block buf) as [[]|e]; cbn [bind].
  - unfold u32. rewrite unp_ok by lia. cbn [bind]. destruct (Z.eqb_spec (fld 4 buf 20) ty); cbn [negb]; [tauto|]. split; [discriminate|tauto].
  - split; [discriminate|]. intros (_ & X & _). apply G in X. discriminate.
Qed.
Print Assumptions C47_block.

Theorem C47_control_block : forall buf, bytes_ok buf ->
  (control_block_ok buf = Ok tt <-> block_of 2 buf /\ fld 8 buf 24 mod 16384 = 0).
Proof.
  intros buf B. unfold control_block_ok. pose proof (C47_block 2 ControlBlockException buf) as K.
  destruct (block_ok _ _ _) as [[]|e]; cbn [bind].
  - assert (S : block_of 2 buf) by now apply K. assert (L : zlen buf = 16384) by apply S. unfold u64. rewrite unp_ok by lia. cbn [bind].
    pose proof (fld_bound 8 buf 24 ltac:(lia) ltac:(lia) B) as P.
    destruct (Z.ltb_spec 0 (fld 8 buf 24)); cbn [andb].
    + destruct (Z.eqb_spec (fld 8 buf 24 mod 16384) 0); cbn [negb]; [tauto|]. split; [discriminate|tauto].
    + replace (fld 8 buf 24) with 0 by lia. split; [intros _; split; [auto|reflexivity]|auto].
  - split; [discriminate|]. intros [X _]. apply K in X. discriminate.
Qed.
Print Assumptions C47_control_block.

Definition start_image (third : Z) : list Z :=
  zeros 3 ++ txt "NTFS" ++ zeros 7673 ++ diff_area ++ le_bytes 4 1 ++ le_bytes 4 1 ++ le_bytes 8 7680 ++ le_bytes 8 7680 ++ le_bytes 8 third ++
  le_bytes 8 16384 ++ zeros 456.
Example C47_block_case : start_block (start_image 0) = Ok tt /\ start_block (start_image 1) = Err StartBlockException /\
  first_control_block (start_image 0) = Ok 16384 /\ start_block (zeros 8192) = Err InvalidVolume /\
  control_block_ok (diff_area ++ le_bytes 4 1 ++ le_bytes 4 2 ++ zeros 16360) = Ok tt /\
  control_block_ok (diff_area ++ le_bytes 4 1 ++ le_bytes 4 2 ++ le_bytes 8 512 ++ zeros 16352) = Err ControlBlockException.
Proof. vm_compute. repeat split. Qed.
