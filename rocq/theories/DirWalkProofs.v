(** Walks terminate and do what their description says. *)
From Verif Require Import Base BaseLemmas DirWalk DirWalkSpec.

Definition same_set (a b : list Z) : Prop := forall x, In x a <-> In x b.

(** The number of clusters below [n] that are not among [anc]. *)
Definition room (n : Z) (anc : list Z) : nat := length (filter (fun c => negb (zin c anc)) (map Z.of_nat (seq 0 (Z.to_nat n)))).

Lemma zin_In x l : zin x l = true <-> In x l.
Proof.
  unfold zin. rewrite existsb_exists. split; [intros (y & H & E); replace x with y by lia; auto|].
  intro H. exists x. split; auto. lia.
Qed.

Lemma filter_le {A} (f g : A -> bool) l : (forall x, In x l -> f x = true -> g x = true) -> (length (filter f l) <= length (filter g l))%nat.
Proof.
  induction l as [|a l IH]; intro H; [auto|]. cbn [filter].
  assert (IHl : (length (filter f l) <= length (filter g l))%nat) by (apply IH; intros; apply H; auto; now right).
  destruct (f a) eqn:Ef.
  - rewrite (H a) by (auto; now left). cbn [length]. lia.
  - destruct (g a); cbn [length]; lia.
Qed.

Lemma filter_lt {A} (f g : A -> bool) l x : (forall x, In x l -> f x = true -> g x = true) -> In x l -> f x = false -> g x = true ->
  (length (filter f l) < length (filter g l))%nat.
Proof.
  induction l as [|a l IH]; intros H I Fx Gx; [destruct I|]. cbn [filter].
  assert (Hl : forall x, In x l -> f x = true -> g x = true) by (intros; apply H; auto; now right).
  destruct I as [->|I].
  - rewrite Fx, Gx. cbn [length]. pose proof (filter_le f g l Hl). lia.
  - specialize (IH Hl I Fx Gx). destruct (f a) eqn:Ef; [rewrite (H a) by (auto; now left); cbn [length]; lia|].
    destruct (g a); cbn [length]; lia.
Qed.

Lemma room_push n anc c : 0 <= c < n -> ~ In c anc -> (room n (c :: anc) < room n anc)%nat.
Proof.
  intros Hc NI. unfold room. apply filter_lt with (x := c).
  - intros x _ H. apply negb_true_iff in H. apply negb_true_iff. destruct (zin x anc) eqn:E; auto.
    apply zin_In in E. assert (zin x (c :: anc) = true) by (apply zin_In; now right). congruence.
  - apply in_map_iff. exists (Z.to_nat c). split; [lia|]. apply in_seq. lia.
  - apply negb_false_iff. apply zin_In. now left.
  - apply negb_true_iff. destruct (zin c anc) eqn:E; auto. apply zin_In in E. contradiction.
Qed.

Lemma room_le n anc : (room n anc <= Z.to_nat n)%nat.
Proof.
  unfold room. eapply Nat.le_trans; [apply (filter_le _ (fun _ => true)); auto|].
  rewrite <- (seq_length (Z.to_nat n) 0) at 2. rewrite <- (map_length Z.of_nat). 
  assert (E : forall l : list Z, filter (fun _ => true) l = l) by (induction l as [|a l IH]; [auto|cbn [filter]; congruence]).
  rewrite E. lia.
Qed.

Lemma set_remove_In x y l : In y (set_remove x l) <-> In y l /\ y <> x.
Proof. unfold set_remove. rewrite filter_In. rewrite negb_true_iff. split; intros [H1 H2]; split; auto; lia. Qed.

Definition popped (prev : option Z) (stack : list Z) : list Z := match prev with Some p => set_remove p stack | None => stack end.

Lemma popped_again prev stack x : In x (popped prev (popped prev stack)) <-> In x (popped prev stack).
Proof. destruct prev as [p|]; cbn [popped]; [|tauto]. rewrite !set_remove_In. tauto. Qed.

Section Proofs.
Context {entry item state : Type}.
Variable W : walker entry item state.
Variable n : Z.

(** Data and entries that may occur; only directories that start in one of [n] clusters are entered. *)
Variable okb : list Z -> Prop.
Variable oke : entry -> Prop.
Hypothesis entries_ok : forall path buf es fin, okb buf -> w_entries W path buf = (es, fin) -> Forall oke es.
Hypothesis enter_range : forall st path e st' buf path', oke e -> w_enter W st path e = Ok (st', Some (buf, path')) ->
  okb buf /\ exists c, w_kind W e = KDir c /\ 0 <= c < n.
(** States that may occur, and clusters for which a state has all that is needed. *)
Variable oks : state -> Prop.
Variable okc : state -> Z -> Prop.
Hypothesis enter_state : forall st path e st' sub, oks st -> oke e -> w_enter W st path e = Ok (st', sub) ->
  oks st' /\ forall c, okc st c -> okc st' c.
Hypothesis orphans_ok : forall st, oks st -> Forall (okc st) (w_orphans W st).
Hypothesis orphan_ok : forall st c buf path, oks st -> okc st c -> w_orphan W st c = Ok (Some (buf, path)) -> okb buf.

Definition good (rec : state -> list Z -> list Z -> list Z -> state * gen item) (bound : nat) : Prop :=
  forall anc stack st buf path, same_set stack anc -> (room n anc < bound)%nat -> okb buf ->
    walks W anc st path buf (fst (rec st buf path stack)) (snd (rec st buf path stack)).

Lemma loop_sound rec bound anc : good rec bound -> (room n anc < S bound)%nat ->
  forall es path fin st prev stack, Forall oke es -> same_set (popped prev stack) anc ->
  lists W anc st path es fin (fst (items_loop W rec path es fin st prev stack)) (snd (items_loop W rec path es fin st prev stack)).
Proof.
  intros G B. induction es as [|e r IH]; intros path fin st prev stack OK SS; [constructor|].
  inversion OK as [|? ? OE OR]; subst. specialize (fun path fin st prev stack => IH path fin st prev stack OR).
  cbn [items_loop]. fold (popped prev stack).
  destruct (w_kind W e) as [| | |c] eqn:K.
  - apply ls_skip; [auto|]. apply IH. auto.
  - destruct (w_emit W path e) as [it|x] eqn:EM; [|apply ls_bad; auto].
    specialize (IH path fin st prev stack SS). destruct (items_loop W rec path r fin st prev stack) as [st' [l s]].
    cbn [fst snd gcons] in *. eapply ls_other; eauto.
  - destruct (w_emit W path e) as [it|x] eqn:EM; [|apply ls_bad; auto].
    destruct (w_enter W st path e) as [[st1 [[buf path']|]]|x] eqn:EE.
    + destruct (enter_range _ _ _ _ _ _ OE EE) as (_ & c & KC & _). congruence.
    + assert (SS' : same_set (popped prev (popped prev stack)) anc) by (intro x; rewrite popped_again; apply SS).
      specialize (IH path fin st1 prev (popped prev stack) SS'). destruct (items_loop W rec path r fin st1 prev (popped prev stack)) as [st' [l s]].
      cbn [fst snd gcons] in *. eapply ls_file; eauto.
    + apply ls_error; auto.
  - destruct (zin c (popped prev stack)) eqn:Z.
    + apply ls_skip; [right; exists c; split; auto; apply SS; now apply zin_In|]. apply IH. intro x. rewrite popped_again. apply SS.
    + assert (NI : ~ In c anc). { intro I. apply SS in I. apply zin_In in I. congruence. }
      assert (PS : same_set (popped (Some c) (c :: popped prev stack)) anc).
      { intro x. cbn [popped]. rewrite set_remove_In. cbn [In]. rewrite (SS x). split; [intros [[<-|H] H2]; [congruence|auto]|].
        intro H. split; auto. intros ->. contradiction. }
      destruct (w_emit W path e) as [it|x] eqn:EM; [|apply ls_bad; eauto].
      destruct (w_enter W st path e) as [[st1 [[buf path']|]]|x] eqn:EE.
      * destruct (enter_range _ _ _ _ _ _ OE EE) as (OB & c' & KC & CR). assert (c' = c) by congruence. subst c'.
        assert (SC : same_set (c :: popped prev stack) (c :: anc)) by (intro x; cbn [In]; rewrite (SS x); tauto).
        pose proof (G (c :: anc) (c :: popped prev stack) st1 buf path' SC ltac:(pose proof (room_push n anc c CR NI); lia) OB) as WK.
        destruct (rec st1 buf path' (c :: popped prev stack)) as [st2 [l [|x]]]; cbn [fst snd] in *.
        -- specialize (IH path fin st2 (Some c) (c :: popped prev stack) PS).
           destruct (items_loop W rec path r fin st2 (Some c) (c :: popped prev stack)) as [st' [l' s]]. cbn [fst snd gapp app] in *.
           eapply ls_dir; eauto.
        -- eapply ls_dir_error; eauto.
      * specialize (IH path fin st1 (Some c) (c :: popped prev stack) PS).
        destruct (items_loop W rec path r fin st1 (Some c) (c :: popped prev stack)) as [st' [l' s]]. cbn [fst snd gcons] in *.
        eapply ls_file; eauto.
      * apply ls_error; eauto.
Qed.

Lemma process_sound fuel : good (process W fuel) fuel.
Proof.
  induction fuel as [|fuel IH]; intros anc stack st buf path SS B OB; [lia|]. cbn [process].
  destruct (w_entries W path buf) as [es fin] eqn:E. econstructor; [exact E|].
  eapply loop_sound; eauto.
Qed.

(** The other direction: what is described is computed. *)
Lemma complete : 
  (forall anc st path buf st' g, walks W anc st path buf st' g -> okb buf -> forall fuel stack, same_set stack anc -> (room n anc < fuel)%nat ->
     process W fuel st buf path stack = (st', g)) /\
  (forall anc st path es fin st' g, lists W anc st path es fin st' g -> Forall oke es -> forall fuel prev stack, same_set (popped prev stack) anc -> (room n anc < S fuel)%nat ->
     items_loop W (process W fuel) path es fin st prev stack = (st', g)).
Proof.
  apply (walks_lists_ind entry item state W
    (fun anc st path buf st' g _ => okb buf -> forall fuel stack, same_set stack anc -> (room n anc < fuel)%nat -> process W fuel st buf path stack = (st', g))
    (fun anc st path es fin st' g _ => Forall oke es -> forall fuel prev stack, same_set (popped prev stack) anc -> (room n anc < S fuel)%nat ->
       items_loop W (process W fuel) path es fin st prev stack = (st', g))).
  - intros anc st path buf es fin st' g E _ IH OB fuel stack SS B. destruct fuel as [|fuel]; [lia|]. cbn [process]. rewrite E. apply IH; eauto.
  - reflexivity.
  - intros anc st path e r fin st' g K _ IH OK fuel prev stack SS B. inversion OK as [|? ? OE OR]; subst. cbn [items_loop]. fold (popped prev stack).
    destruct K as [K|(c & K & I)]; rewrite K; [now apply IH|].
    apply SS in I. apply zin_In in I. rewrite I. apply IH; auto. intro x. rewrite popped_again. apply SS.
  - intros anc st path e r fin x K EM OK fuel prev stack SS B. inversion OK as [|? ? OE OR]; subst. cbn [items_loop]. fold (popped prev stack).
    destruct K as [K|[K|(c & K & I)]]; rewrite K, ?EM; auto.
    destruct (zin c (popped prev stack)) eqn:Z; auto. exfalso. apply zin_In in Z. apply SS in Z. contradiction.
  - intros anc st path e r fin it st' l s K EM _ IH OK fuel prev stack SS B. inversion OK as [|? ? OE OR]; subst. cbn [items_loop]. rewrite K, EM.
    rewrite (IH OR fuel prev stack SS B). reflexivity.
  - intros anc st path e r fin it x K EM EE OK fuel prev stack SS B. inversion OK as [|? ? OE OR]; subst. cbn [items_loop]. fold (popped prev stack).
    destruct K as [K|(c & K & I)]; rewrite K, ?EM, ?EE; auto.
    destruct (zin c (popped prev stack)) eqn:Z; auto. exfalso. apply zin_In in Z. apply SS in Z. contradiction.
  - intros anc st path e r fin it st1 st' l s K EM EE _ IH OK fuel prev stack SS B. inversion OK as [|? ? OE OR]; subst. cbn [items_loop]. fold (popped prev stack).
    destruct K as [K|(c & K & I)]; rewrite K, ?EM, ?EE.
    + rewrite IH; auto. intro x. rewrite popped_again. apply SS.
    + destruct (zin c (popped prev stack)) eqn:Z; [exfalso; apply zin_In in Z; apply SS in Z; contradiction|].
      rewrite IH; auto. intro x. cbn [popped]. rewrite set_remove_In. cbn [In]. rewrite (SS x).
      split; [intros [[<-|H] H2]; [congruence|auto]|]. intro H. split; auto. intros ->. contradiction.
  - intros anc st path e r fin it c st1 buf path' st2 l st' l' s K NI EM EE _ IHW _ IH OK fuel prev stack SS B. inversion OK as [|? ? OE OR]; subst.
    cbn [items_loop]. fold (popped prev stack). rewrite K, EM, EE.
    destruct (zin c (popped prev stack)) eqn:Z; [exfalso; apply zin_In in Z; apply SS in Z; contradiction|].
    destruct (enter_range _ _ _ _ _ _ OE EE) as (OB & c' & KC & CR). assert (c' = c) by congruence. subst c'.
    rewrite (IHW OB fuel (c :: popped prev stack)).
    + rewrite IH; auto. intro x. cbn [popped]. rewrite set_remove_In. cbn [In]. rewrite (SS x).
      split; [intros [[<-|H] H2]; [congruence|auto]|]. intro H. split; auto. intros ->. contradiction.
    + intro x. cbn [In]. rewrite (SS x). tauto.
    + pose proof (room_push n anc c CR NI). lia.
  - intros anc st path e r fin it c st1 buf path' st2 l x K NI EM EE _ IHW OK fuel prev stack SS B. inversion OK as [|? ? OE OR]; subst.
    cbn [items_loop]. fold (popped prev stack). rewrite K, EM, EE.
    destruct (zin c (popped prev stack)) eqn:Z; [exfalso; apply zin_In in Z; apply SS in Z; contradiction|].
    destruct (enter_range _ _ _ _ _ _ OE EE) as (OB & c' & KC & CR). assert (c' = c) by congruence. subst c'.
    rewrite (IHW OB fuel (c :: popped prev stack)); auto.
    + intro y. cbn [In]. rewrite (SS y). tauto.
    + pose proof (room_push n anc c CR NI). lia.
Qed.

Theorem process_iff fuel anc st buf path st' g : (Z.to_nat n < fuel)%nat -> okb buf ->
  (process W fuel st buf path anc = (st', g) <-> walks W anc st path buf st' g).
Proof.
  intros B OB. pose proof (room_le n anc) as R. split.
  - intro E. pose proof (process_sound fuel anc anc st buf path (fun x => iff_refl _) ltac:(lia) OB) as H. rewrite E in H. exact H.
  - intro H. apply (proj1 complete) with (1 := H); [auto|intro; tauto|lia].
Qed.

Lemma walks_state :
  (forall anc st path buf st' g, walks W anc st path buf st' g -> okb buf -> oks st -> oks st' /\ forall c, okc st c -> okc st' c) /\
  (forall anc st path es fin st' g, lists W anc st path es fin st' g -> Forall oke es -> oks st -> oks st' /\ forall c, okc st c -> okc st' c).
Proof.
  apply (walks_lists_ind entry item state W
    (fun anc st path buf st' g _ => okb buf -> oks st -> oks st' /\ forall c, okc st c -> okc st' c)
    (fun anc st path es fin st' g _ => Forall oke es -> oks st -> oks st' /\ forall c, okc st c -> okc st' c)); intros;
  try match goal with H : Forall oke (_ :: _) |- _ => inversion H; subst end; eauto.
  all: match goal with E : w_enter W _ _ _ = Ok (_, ?sub) |- _ => pose proof E as E'; eapply enter_state in E'; eauto; destruct E' as [E1 E2];
    try (eapply enter_range in E; [|eassumption]; destruct E as [OB _]) end.
  - match goal with IH : Forall oke r -> _ |- _ => destruct IH as [I1 I2]; auto end.
  - match goal with IH : okb buf -> _ |- _ => destruct IH as [I1 I2]; auto end.
    match goal with IH : Forall oke r -> _ |- _ => destruct IH as [J1 J2]; auto end.
  - match goal with IH : okb buf -> _ |- _ => destruct IH as [I1 I2]; auto end.
Qed.

Lemma orphans_iff fuel cs : (Z.to_nat n < fuel)%nat -> forall st g, oks st -> Forall (okc st) cs -> (orphans_loop W fuel st cs = g <-> orphans W st cs g).
Proof.
  intro B. induction cs as [|c r IH]; intros st g OS OC; cbn [orphans_loop].
  - split; [intros <-; constructor|]. intro H. inversion H; auto.
  - inversion OC as [|? ? OC1 OC2]; subst.
    destruct (w_orphan W st c) as [[[buf path]|]|x] eqn:EO.
    + pose proof (orphan_ok _ _ _ _ OS OC1 EO) as OB. destruct (process W fuel st buf path []) as [st' [l [|x]]] eqn:EP; apply process_iff in EP; auto.
      * destruct (proj1 walks_state _ _ _ _ _ _ EP OB OS) as [OS' OM].
        assert (OC' : Forall (okc st') r) by (eapply Forall_impl; [|exact OC2]; auto).
        split.
        -- intros <-. destruct (orphans_loop W fuel st' r) as [l' s] eqn:EL. apply IH in EL; auto. cbn [gapp fst snd]. eapply or_dir; eauto.
        -- intro H. inversion H as [|? ? ? ? E1|? ? ? ? E1|? ? ? buf' path'' st'' l1 l2 s E1 E2 E3|? ? ? buf' path'' st'' l1 x E1 E2]; subst; try congruence.
           ++ rewrite EO in E1. injection E1 as <- <-. apply process_iff with (fuel := fuel) in E2; auto. apply process_iff with (fuel := fuel) in EP; auto.
              rewrite E2 in EP. injection EP as <- <-. apply IH in E3; auto. rewrite E3. reflexivity.
           ++ rewrite EO in E1. injection E1 as <- <-. apply process_iff with (fuel := fuel) in E2; auto. apply process_iff with (fuel := fuel) in EP; auto. congruence.
      * split.
        -- intros <-. eapply or_dir_error; eauto.
        -- intro H. inversion H as [|? ? ? ? E1|? ? ? ? E1|? ? ? buf' path'' st'' l1 l2 s E1 E2 E3|? ? ? buf' path'' st'' l1 y E1 E2]; subst; try congruence.
           ++ rewrite EO in E1. injection E1 as <- <-. apply process_iff with (fuel := fuel) in E2; auto. apply process_iff with (fuel := fuel) in EP; auto. congruence.
           ++ rewrite EO in E1. injection E1 as <- <-. apply process_iff with (fuel := fuel) in E2; auto. apply process_iff with (fuel := fuel) in EP; auto. congruence.
    + rewrite IH by auto. split; [intro; now apply or_skip|]. intro H. inversion H; subst; auto; congruence.
    + split; [intros <-; now apply or_error|]. intro H. inversion H; subst; auto; congruence.
Qed.

Theorem walk_iff fuel st buf stack g : (Z.to_nat n < fuel)%nat -> okb buf -> oks st -> (walk_from W fuel st buf stack = g <-> full_walk W st buf stack g).
Proof.
  intros B OB OS. unfold walk_from. destruct (process W fuel st buf [] stack) as [st' [l [|x]]] eqn:EP; apply process_iff in EP; auto.
  - destruct (proj1 walks_state _ _ _ _ _ _ EP OB OS) as [OS' _]. pose proof (orphans_ok _ OS') as OC.
    split.
    + intros <-. destruct (orphans_loop W fuel st' (w_orphans W st')) as [l' s] eqn:EL. apply orphans_iff in EL; auto. eapply fw_ok; eauto.
    + intro H. inversion H as [st2 l2 x E1|st2 l2 l3 s E1 E2]; subst; apply process_iff with (fuel := fuel) in E1; auto; apply process_iff with (fuel := fuel) in EP; auto; rewrite E1 in EP; try congruence.
      injection EP as <- <-. apply orphans_iff with (fuel := fuel) in E2; auto. rewrite E2. reflexivity.
  - split.
    + intros <-. eapply fw_error; eauto.
    + intro H. inversion H as [st2 l2 y E1|st2 l2 l3 s E1 E2]; subst; apply process_iff with (fuel := fuel) in E1; auto; apply process_iff with (fuel := fuel) in EP; auto; rewrite E1 in EP; congruence.
Qed.

Theorem walk_fuel fuel fuel' st buf stack : (Z.to_nat n < fuel)%nat -> (Z.to_nat n < fuel')%nat -> okb buf -> oks st ->
  walk_from W fuel st buf stack = walk_from W fuel' st buf stack.
Proof. intros B B' OB OS. apply walk_iff; auto. apply walk_iff with (fuel := fuel'); auto. Qed.

(** Where an exception may come from. *)
Inductive origin (x : exn) : Prop :=
| o_entries path buf es : okb buf -> w_entries W path buf = (es, Raised x) -> origin x
| o_emit path e : oke e -> w_emit W path e = Err x -> origin x
| o_enter st path e : oks st -> oke e -> w_enter W st path e = Err x -> origin x
| o_orphan st c : oks st -> okc st c -> w_orphan W st c = Err x -> origin x.

Lemma walks_origin : 
  (forall anc st path buf st' g, walks W anc st path buf st' g -> okb buf -> oks st -> forall x, snd g = Raised x -> origin x) /\
  (forall anc st path es fin st' g, lists W anc st path es fin st' g -> Forall oke es -> oks st -> (forall x, fin = Raised x -> origin x) -> forall x, snd g = Raised x -> origin x).
Proof.
  apply (walks_lists_ind entry item state W
    (fun anc st path buf st' g _ => okb buf -> oks st -> forall x, snd g = Raised x -> origin x)
    (fun anc st path es fin st' g _ => Forall oke es -> oks st -> (forall x, fin = Raised x -> origin x) -> forall x, snd g = Raised x -> origin x)); cbn [snd]; intros;
  try match goal with H : Forall oke (_ :: _) |- _ => inversion H; subst end; auto.
  - apply H; eauto. intros y ->. econstructor; eauto.
  - match goal with H : Raised _ = Raised _ |- _ => injection H as <- end. econstructor 2; eauto.
  - match goal with H : Raised _ = Raised _ |- _ => injection H as <- end. econstructor 3; eauto.
  - match goal with E : w_enter W _ _ _ = _ |- _ => eapply enter_state in E; eauto; destruct E as [E1 E2] end. eauto.
  - match goal with E : w_enter W _ _ _ = _ |- _ => pose proof E as E'; eapply enter_state in E'; eauto; destruct E' as [E1 E2]; eapply enter_range in E; eauto; destruct E as [OB _] end.
    match goal with WK : walks W _ _ _ _ _ _ |- _ => destruct (proj1 walks_state _ _ _ _ _ _ WK OB E1) as [OS2 _] end. eauto.
  - match goal with E : w_enter W _ _ _ = _ |- _ => pose proof E as E'; eapply enter_state in E'; eauto; destruct E' as [E1 E2]; eapply enter_range in E; eauto; destruct E as [OB _] end.
    eauto.
Qed.

Theorem walk_origin st buf stack l x : okb buf -> oks st -> full_walk W st buf stack (l, Raised x) -> origin x.
Proof.
  intros OB OS H. inversion H as [st2 l2 y E1|st2 l2 l3 s E1 E2]; subst.
  - eapply (proj1 walks_origin); eauto.
  - clear H. destruct (proj1 walks_state _ _ _ _ _ _ E1 OB OS) as [OS' _]. pose proof (orphans_ok _ OS') as OC. clear E1 OS.
    remember (l3, Raised x) as g eqn:EG. revert l3 EG. induction E2; intros l0 EG; try discriminate; inversion OC as [|? ? OC1 OC2]; subst.
    + injection EG as _ <-. econstructor 4; eauto.
    + eauto.
    + injection EG as _ ->. pose proof (orphan_ok _ _ _ _ OS' OC1 H) as OB'. destruct (proj1 walks_state _ _ _ _ _ _ H0 OB' OS') as [OS2 OM].
      eapply IHE2; eauto. eapply Forall_impl; [|exact OC2]. auto.
    + injection EG as _ <-. pose proof (orphan_ok _ _ _ _ OS' OC1 H) as OB'. eapply (proj1 walks_origin); eauto.
Qed.

End Proofs.
