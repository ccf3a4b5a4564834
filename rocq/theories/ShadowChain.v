(** Chains of blocks: they end exactly when they have no loop. *)
From Verif Require Import Base BaseLemmas FieldLemmas PartitionTable Shadow ShadowSpec.
From Coq Require Import Lia.

Lemma dup_split (l : list Z) : NoDup l \/ exists x l1 l2 l3, l = l1 ++ x :: l2 ++ x :: l3.
Proof.
  induction l as [|a t IH]; [left; constructor|].
  destruct (in_dec Z.eq_dec a t) as [I|I].
  - right. apply in_split in I as (l2 & l3 & ->). exists a, [], l2, l3. auto.
  - destruct IH as [N|(x & l1 & l2 & l3 & ->)]; [left; constructor; auto|].
    right. exists x, (a :: l1), l2, l3. auto.
Qed.

Section Chain.
Context {A : Type}.
Variable v : vol.
Variable ok : list Z -> result unit.
Variable payload : list Z -> result A.
Hypothesis OK1 : forall b, ok b = Ok tt -> zlen b = 16384.
Hypothesis OK2 : forall b, ok b <> Err OutOfFuel.
Hypothesis PL2 : forall b, zlen b = 16384 -> payload b <> Err OutOfFuel.

Lemma chain_step n a : chain (S n) v ok payload a = Err OutOfFuel <->
  exists b, link v ok payload a b /\ chain n v ok payload b = Err OutOfFuel.
Proof.
  cbn [chain]. unfold link. split.
  - destruct (Z.eqb_spec a 0) as [|NZ]; [discriminate|]. unfold seek_read.
    destruct (Z.ltb_spec (v_off v + a) 0); [discriminate|].
    destruct (Z.leb_spec (2 ^ 63) (v_off v + a)); [discriminate|].
    change (2 ^ 63 <=? 16384) with false. cbv iota. cbn [bind].
    set (buf := slice _ _ _). destruct (ok buf) as [[]|e] eqn:EO; cbn [bind].
    2: { intro Q. exfalso. apply (OK2 buf). congruence. }
    pose proof (OK1 _ EO) as LB. unfold u64. rewrite unp_ok by lia. cbn [bind].
    destruct (Z.eqb_spec (fld 8 buf 32) a) as [F|F]; cbn [negb]; [|discriminate].
    destruct (payload buf) as [x|e] eqn:EP; cbn [bind].
    2: { intro Q. exfalso. apply (PL2 buf LB). congruence. }
    rewrite unp_ok by lia. cbn [bind].
    destruct (chain n v ok payload (fld 8 buf 40)) as [r|e] eqn:EC; cbn [bind]; [discriminate|].
    intro Q. exists (fld 8 buf 40). rewrite EC. repeat split; eauto; lia.
  - intros (b & (NZ & R & LB & EO & (x & EP) & F1 & F2) & EC).
    destruct (Z.eqb_spec a 0); [contradiction|]. unfold seek_read.
    destruct (Z.ltb_spec (v_off v + a) 0); [lia|].
    destruct (Z.leb_spec (2 ^ 63) (v_off v + a)); [lia|].
    change (2 ^ 63 <=? 16384) with false. cbv iota. cbn [bind].
    rewrite EO. cbn [bind]. unfold u64. rewrite unp_ok by lia. cbn [bind]. rewrite F1, Z.eqb_refl. cbn [negb].
    rewrite EP. cbn [bind]. rewrite unp_ok by lia. cbn [bind]. rewrite F2, EC. auto.
Qed.

Lemma link_det a b c : link v ok payload a b -> link v ok payload a c -> b = c.
Proof. intros (_ & _ & _ & _ & _ & _ & X) (_ & _ & _ & _ & _ & _ & Y). congruence. Qed.

(** The offsets visited, one per unit of fuel. *)
Inductive path : Z -> list Z -> Prop :=
| path_nil a : path a []
| path_cons a b l : link v ok payload a b -> path b l -> path a (a :: l).

Lemma chain_path n : forall a, chain n v ok payload a = Err OutOfFuel <->
  exists l, path a l /\ length l = n.
Proof.
  induction n as [|n IH]; intros a.
  - split; [intros _; exists []; split; [constructor|auto]|auto].
  - rewrite chain_step. split.
    + intros (b & L & E). apply IH in E as (l & P & Q). exists (a :: l). split; [econstructor; eauto|cbn; congruence].
    + intros (l & P & Q). inversion P as [|x b t L P']; subst; [discriminate|]. exists b. split; [auto|].
      apply IH. exists t. cbn in Q. split; [auto|congruence].
Qed.

Lemma path_app a l1 x l2 : path a (l1 ++ x :: l2) -> links (link v ok payload) a x /\ path x (x :: l2).
Proof.
  revert a. induction l1 as [|y t IH]; intros a P; cbn in P; inversion P as [|a' b l L P']; subst.
  - split; [constructor|auto].
  - destruct (IH _ P'). split; [econstructor; eauto|auto].
Qed.

Lemma path_range a l : path a l -> Forall (fun x => 0 <= v_off v + x < zlen (v_data v)) l.
Proof.
  induction 1 as [|a b l L P IH]; constructor; [|auto]. destruct L as (NZ & R & LB & _).
  split; [lia|]. pose proof (zlen_nonneg (v_data v)). rewrite zlen_slice in LB by lia. lia.
Qed.

Lemma range_length (l : list Z) n : NoDup l -> Forall (fun x => 0 <= x < n) l -> (length l <= Z.to_nat n)%nat.
Proof.
  intros ND F. rewrite <- (seq_length (Z.to_nat n) 0), <- (map_length Z.of_nat).
  apply NoDup_incl_length; [auto|]. intros x I. rewrite Forall_forall in F. apply F in I.
  apply in_map_iff. exists (Z.to_nat x). split; [lia|]. apply in_seq. lia.
Qed.

Lemma path_nodup_length a l : path a l -> NoDup l -> (length l <= length (v_data v))%nat.
Proof.
  intros P ND. apply path_range in P.
  pose proof (range_length (map (fun x => v_off v + x) l) (zlen (v_data v))) as H.
  rewrite map_length in H. unfold zlen in H at 2. rewrite Nat2Z.id in H. apply H.
  - apply FinFun.Injective_map_NoDup; [intros ? ?; lia|auto].
  - apply Forall_map. auto.
Qed.

Lemma path_prefix b l m : path b l -> (m <= length l)%nat -> exists l', path b l' /\ length l' = m.
Proof.
  intro P. revert m. induction P as [a|a b l L P IH]; intros m Q.
  - exists []. cbn in Q. split; [constructor|cbn; lia].
  - destruct m as [|m]; [exists []; split; [constructor|auto]|].
    destruct (IH m) as (l' & P' & Q'); [cbn in Q; lia|]. exists (a :: l'). split; [econstructor; eauto|cbn; lia].
Qed.

Lemma links_path b x l : links (link v ok payload) b x -> path x l ->
  exists l', path b l' /\ (length l <= length l')%nat.
Proof.
  intros Lb P. induction Lb as [c|c d e Lc Lb IH].
  - exists l. auto.
  - destruct (IH P) as (l' & P' & Q). exists (c :: l'). split; [econstructor; eauto|cbn; lia].
Qed.

Lemma loops_paths a : loops (link v ok payload) a -> forall n, exists l, path a l /\ length l = n.
Proof.
  intros (x & y & L1 & E & L2) n.
  assert (C : exists l, path x l /\ length l = n).
  { induction n as [|n (l & P & Q)]; [exists []; split; [constructor|auto]|].
    destruct (links_path _ _ _ L2 P) as (l' & P' & Q').
    apply (path_prefix x (x :: l')); [econstructor; eauto|cbn; lia]. }
  destruct C as (l & P & Q). destruct (links_path _ _ _ L1 P) as (l' & P' & Q').
  apply (path_prefix a l'); [auto|lia].
Qed.

Lemma long_path_loops a l : path a l -> (length (v_data v) < length l)%nat -> loops (link v ok payload) a.
Proof.
  intros P L. destruct (dup_split l) as [N|(x & l1 & l2 & l3 & ->)].
  - apply (path_nodup_length _ _ P) in N. lia.
  - apply path_app in P as [P1 P2].
    inversion P2 as [|x' b t L1 P3]; subst. apply path_app in P3 as [P4 _]. exists x, b. auto.
Qed.

Theorem chain_diverges a :
  (forall fuel, chain fuel v ok payload a = Err OutOfFuel) <-> loops (link v ok payload) a.
Proof.
  split.
  - intro H. specialize (H (S (length (v_data v)))). apply chain_path in H as (l & P & Q).
    apply (long_path_loops _ _ P). lia.
  - intros L fuel. apply chain_path. apply loops_paths. auto.
Qed.

Theorem chain_ends a fuel : ~ loops (link v ok payload) a -> (length (v_data v) < fuel)%nat ->
  chain fuel v ok payload a <> Err OutOfFuel.
Proof.
  intros N F E. apply chain_path in E as (l & P & Q). apply N, (long_path_loops _ _ P). lia.
Qed.

Lemma chain_mono n m a : (n <= m)%nat -> chain n v ok payload a <> Err OutOfFuel ->
  chain m v ok payload a = chain n v ok payload a.
Proof.
  revert m a. induction n as [|n IH]; intros m a L N; [elim N; auto|].
  destruct m as [|m]; [lia|]. cbn [chain] in *.
  destruct (a =? 0); [auto|]. destruct (seek_read _ _ _) as [b|]; cbn [bind] in *; [|auto].
  destruct (ok b); cbn [bind] in *; [|auto]. destruct (u64 b 32); cbn [bind] in *; [|auto].
  destruct (negb _); [auto|]. destruct (payload b); cbn [bind] in *; [|auto].
  destruct (u64 b 40) as [nx|]; cbn [bind] in *; [|auto].
  rewrite (IH m nx); [auto|lia|]. intro E. apply N. rewrite E. auto.
Qed.
End Chain.

Lemma block_ok_len ty e b : block_ok ty e b = Ok tt -> zlen b = 16384.
Proof. unfold block_ok. destruct (Z.eqb_spec (zlen b) 16384); [auto|discriminate]. Qed.

Lemma block_ok_fuel ty e b : e <> OutOfFuel -> block_ok ty e b <> Err OutOfFuel.
Proof.
  intros NE. unfold block_ok, shadow_block. destruct (negb _); [congruence|]. destruct (negb _); [discriminate|].
  cbn [bind]. destruct (u32 b 20) as [t|x] eqn:E; cbn [bind].
  - destruct (negb _); congruence.
  - apply unp_err in E. congruence.
Qed.

Lemma control_block_ok_len b : control_block_ok b = Ok tt -> zlen b = 16384.
Proof.
  unfold control_block_ok. destruct (block_ok _ _ b) as [[]|] eqn:E; [|discriminate]. intros _.
  eapply block_ok_len; eauto.
Qed.

Lemma control_block_ok_fuel b : control_block_ok b <> Err OutOfFuel.
Proof.
  unfold control_block_ok. destruct (block_ok _ _ b) as [[]|e] eqn:E; cbn [bind].
  - destruct (u64 b 24) as [t|x] eqn:E2; cbn [bind]; [destruct (_ && _); congruence|]. apply unp_err in E2. congruence.
  - intro Q. apply (block_ok_fuel 2 ControlBlockException b); congruence.
Qed.

Lemma location_items_fuel n : forall b off, 0 <= off -> Z.max 0 (zlen b - off) < 24 * Z.of_nat n ->
  location_items n b off <> Err OutOfFuel.
Proof.
  induction n as [|n IH]; intros b off H L; [lia|]. cbn [location_items].
  destruct (Z.leb_spec (off + 24) (zlen b)) as [LE|LE]; cbn [negb]; [|discriminate].
  assert (LS : zlen (slice b off (off + 24)) = 24) by (rewrite zlen_slice; lia).
  unfold u64. rewrite !unp_ok by lia. cbn [bind]. destruct (_ =? 0); [discriminate|]. destruct (_ =? 0); [discriminate|].
  specialize (IH b (off + 24)). destruct (location_items n b (off + 24)); cbn [bind]; [discriminate|].
  intro Q. injection Q as ->. apply IH; [lia|lia|auto].
Qed.

Lemma diff_entries_fuel n : forall b off, 0 <= off -> Z.max 0 (zlen b - off) < 32 * Z.of_nat n ->
  diff_entries n b off <> Err OutOfFuel.
Proof.
  induction n as [|n IH]; intros b off H L; [lia|]. cbn [diff_entries].
  destruct (Z.leb_spec (off + 32) (zlen b)) as [LE|LE]; cbn [negb]; [|discriminate].
  assert (LS : zlen (slice b off (off + 32)) = 32) by (rewrite zlen_slice; lia).
  unfold u64, u32. rewrite !unp_ok by lia. cbn [bind]. destruct (_ || _); [discriminate|].
  destruct (_ && _); [discriminate|]. destruct (_ && _); [discriminate|].
  specialize (IH b (off + 32)). destruct (diff_entries n b (off + 32)); cbn [bind]; [discriminate|].
  intro Q. injection Q as ->. apply IH; [lia|lia|auto].
Qed.
