(** Proofs: listed paths are found. *)
From Verif Require Import Base BaseLemmas Frs FrsSpec FrsProofs FileRecord Mft MftSpec MftProofs MftPathProofs PathSpec.

Lemma name_values_split items l1 v l2 : name_values items = l1 ++ v :: l2 ->
  exists i1 nm i2, items = i1 ++ Resident 0x30 nm v :: i2 /\ name_values i1 = l1.
Proof.
  revert l1. induction items as [|a items IH]; intros l1 E; cbn [name_values] in E.
  - destruct l1; discriminate.
  - destruct a as [ty nm w|ty nm mp r lo hi sz].
    + destruct (Z.eqb_spec ty 0x30) as [->|N].
      * destruct l1 as [|x l1]; cbn [app] in E.
        -- injection E as -> E. exists [], nm, items. split; reflexivity.
        -- injection E as -> E. destruct (IH _ E) as (i1 & nm' & i2 & -> & E').
           exists (Resident 0x30 nm x :: i1), nm', i2. split; [reflexivity|]. cbn. now rewrite E'.
      * destruct (IH _ E) as (i1 & nm' & i2 & -> & E').
        exists (Resident ty nm w :: i1), nm', i2. split; [reflexivity|]. cbn [name_values].
        destruct (Z.eqb_spec ty 0x30); [contradiction|auto].
    + destruct (IH _ E) as (i1 & nm' & i2 & -> & E').
      exists (Nonresident ty nm mp r lo hi sz :: i1), nm', i2. split; [reflexivity|]. exact E'.
Qed.

Lemma same_compared upper cs x y : same_name upper cs (name_field x) (name_field y) <-> compared upper cs x = compared upper cs y.
Proof. unfold same_name, compared. destruct cs; tauto. Qed.

(** A name that occurs once in a record is the first one with it. *)
Lemma first_named_once upper cs fr vs v : has_names fr vs -> NoDup (map (compared upper cs) vs) -> In v vs ->
  first_named upper cs fr (name_field v) v.
Proof.
  intros (items & EI & D & -> & L) ND HI. apply in_split in HI as (l1 & l2 & ES).
  destruct (name_values_split _ _ _ _ ES) as (i1 & nm & i2 & -> & E1).
  exists i1, nm, i2, Done. split; [exact EI|]. split; [now apply Forall_app in D|].
  rewrite ES in ND, L. apply Forall_app in L as [L1 L2]. inversion L2 as [|? ? Lv L2']; subst.
  split; [|split; [lia|unfold same_name; destruct cs; reflexivity]].
  apply Forall_forall. intros x Hx. split; [rewrite Forall_forall in L1; specialize (L1 x Hx); lia|].
  rewrite same_compared. intro EQ. rewrite map_app in ND. cbn [map] in ND. apply NoDup_remove_2 in ND. apply ND.
  apply in_or_app. left. rewrite <- EQ. now apply in_map.
Qed.

Lemma main_name_in vs v : main_name vs v -> In v vs.
Proof. intros [l1 v' l2 _ _|v' l _]; [apply in_or_app; right|]; now left. Qed.

Section Found.
  Variable t : list (Z * frs).
  Variable data : list Z.
  Variable size : Z.
  Variable upper : list Z -> list Z.
  Variable cs : bool.
  Hypothesis ND : names_differ t data size upper cs.

  Lemma orphan_last (a : list Z) names : [a; orphan] = names ++ [[]] -> False.
  Proof. intro E. change [a; orphan] with ([a] ++ [orphan]) in E. apply app_inj_tail in E as [_ E]. discriminate. Qed.

  Lemma ancestry_leads seen fr l : ancestry t data size seen fr l ->
    forall k seq names, record_at t data size k seq fr -> l = names ++ [[]] ->
    exists w rest, names = name_field w :: rest /\ first_named upper cs fr (name_field w) w /\ leads t data size upper cs w rest.
  Proof.
    induction 1 as [seen fr vs v H1 H2 H3|seen fr vs v H1 H2 H3 H4|seen fr vs v fr' H1 H2 H3 H4 H5
      |seen fr vs v fr' H1 H2 H3 H4 H5 H6|seen fr vs v fr' l H1 H2 H3 H4 H5 H6 H7 IH]; intros k seq names R E;
      try (exfalso; exact (orphan_last _ _ E)).
    - change [name_field v; []] with ([name_field v] ++ [[]]) in E. apply app_inj_tail in E as [<- _].
      exists v, []. split; [reflexivity|]. split; [|now apply leads_root].
      apply first_named_once with (vs := vs); auto; [eapply ND; eauto|now apply main_name_in].
    - destruct names as [|n names].
      + cbn in E. injection E as E ->. inversion H7.
      + cbn [app] in E. injection E as <- ->.
        destruct (IH _ _ names H4 eq_refl) as (w & rest & -> & FN & L).
        exists v, (name_field w :: rest). split; [reflexivity|]. split.
        * apply first_named_once with (vs := vs); auto; [eapply ND; eauto|now apply main_name_in].
        * apply leads_up with (fr := fr') (w := w); auto.
  Qed.

  Lemma path_leads v names : path_of t data size v (names ++ [[]]) ->
    exists rest, names = name_field v :: rest /\ leads t data size upper cs v rest.
  Proof.
    intro H. remember (names ++ [[]]) as l eqn:E. destruct H as [H1|H1 H2|fr' H1 H2 H3|fr' l H1 H2 H3 H4];
      try (exfalso; exact (orphan_last _ _ E)).
    - change [name_field v; []] with ([name_field v] ++ [[]]) in E. apply app_inj_tail in E as [<- _].
      exists []. split; [reflexivity|now apply leads_root].
    - destruct names as [|n names]; [cbn in E; injection E as E ->; inversion H4|].
      cbn [app] in E. injection E as <- ->.
      destruct (ancestry_leads _ _ _ H4 _ _ names H2 eq_refl) as (w & rest & -> & FN & L).
      exists (name_field w :: rest). split; [reflexivity|]. apply leads_up with (fr := fr') (w := w); auto.
  Qed.

  (** The names of a path are names of records. *)
  Hypothesis NP : names_plain t data size.

  Lemma ancestry_plain seen fr l : ancestry t data size seen fr l ->
    forall k seq names e, record_at t data size k seq fr -> l = names ++ [e] -> Forall component names.
  Proof.
    induction 1 as [seen fr vs v H1 H2 H3|seen fr vs v H1 H2 H3 H4|seen fr vs v fr' H1 H2 H3 H4 H5
      |seen fr vs v fr' H1 H2 H3 H4 H5 H6|seen fr vs v fr' l H1 H2 H3 H4 H5 H6 H7 IH]; intros k seq names e R E;
    assert (C : component (name_field v)) by (eapply NP; [exact R|exact H1|now apply main_name_in]);
    try (match type of E with [?a; ?b] = _ => change [a; b] with ([a] ++ [b]) in E; apply app_inj_tail in E as [<- _]; auto end).
    destruct names as [|n names]; [constructor|]. cbn [app] in E. injection E as <- ->. constructor; [exact C|].
    now apply (IH _ _ names e H4).
  Qed.

  Lemma path_plain v names e : component (name_field v) -> path_of t data size v (names ++ [e]) -> Forall component names.
  Proof.
    intros C H. remember (names ++ [e]) as l eqn:E. destruct H as [H1|H1 H2|fr' H1 H2 H3|fr' l H1 H2 H3 H4];
    try (match type of E with [?a; ?b] = _ => change [a; b] with ([a] ++ [b]) in E; apply app_inj_tail in E as [<- _]; auto end).
    destruct names as [|n names]; [constructor|]. cbn [app] in E. injection E as <- ->. constructor; [exact C|].
    now apply (ancestry_plain _ _ _ H4 _ _ names e H2).
  Qed.

  (** The marker in front of the names. *)
  Lemma ancestry_end seen fr l : ancestry t data size seen fr l -> exists names e, l = names ++ [e] /\ (e = [] \/ e = orphan).
  Proof.
    induction 1 as [| | | |seen fr vs v fr' l H1 H2 H3 H4 H5 H6 H7 (names & e & -> & IH)];
      try (eexists [_], _; split; [reflexivity|]; auto; fail).
    exists (name_field v :: names), e. auto.
  Qed.
  Lemma path_end v names e : path_of t data size v (names ++ [e]) -> e = [] \/ e = orphan.
  Proof.
    intro H. remember (names ++ [e]) as l eqn:E. destruct H as [H1|H1 H2|fr' H1 H2 H3|fr' l H1 H2 H3 H4];
    try (match type of E with [?a; ?b] = _ => change [a; b] with ([a] ++ [b]) in E; apply app_inj_tail in E as [_ <-]; auto end).
    destruct (ancestry_end _ _ _ H4) as (n' & e' & -> & K). change (name_field v :: n' ++ [e']) with ((name_field v :: n') ++ [e']) in E.
    apply app_inj_tail in E as [_ <-]. exact K.
  Qed.
End Found.

Lemma path_text_inj a b : Forall component a -> Forall component b -> path_text a = path_text b -> a = b.
Proof.
  intros Ha Hb E.
  assert (P : forall l, Forall component l -> Forall plain l) by (intros l; apply Forall_impl; intros c [C _]; exact C).
  destruct a as [|x a]; destruct b as [|y b]; try reflexivity; try discriminate.
  assert (X : [] :: x :: a = [] :: y :: b)
    by (rewrite <- (split_path_text (x :: a)), <- (split_path_text (y :: b)), E; auto; discriminate).
  now injection X as -> ->.
Qed.
