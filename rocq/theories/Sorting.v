(** Python's [list.sort(key = ...)] with an integer key: a stable sort. *)
From Verif Require Import Base BaseLemmas.
From Coq Require Import Permutation Sorted.

(** Stable insertion sort; stands for list.sort / sorted, which Python
    guarantees to be stable (language builtin, no /repo lines). *)
Fixpoint insert_by {A} (key : A -> Z) (x : A) (l : list A) : list A :=
  match l with
  | [] => [x]
  | y :: t => if key x <=? key y then x :: l else y :: insert_by key x t
  end.

Fixpoint sort_by {A} (key : A -> Z) (l : list A) : list A :=
  match l with [] => [] | x :: t => insert_by key x (sort_by key t) end.

(** Specification: [l'] has the elements of [l], in increasing key order, the
    order of equal keys kept. *)
Definition sorted_by {A} (key : A -> Z) (l : list A) : Prop :=
  StronglySorted (fun a b => key a <= key b) l.

Definition stable_sorted {A} (key : A -> Z) (l l' : list A) : Prop :=
  Permutation l l' /\ sorted_by key l' /\
  forall k, filter (fun x => key x =? k) l' = filter (fun x => key x =? k) l.

Lemma insert_perm {A} (key : A -> Z) x l : Permutation (x :: l) (insert_by key x l).
Proof.
  induction l as [|y t IH]; cbn; [auto|].
  destruct (_ <=? _); auto. rewrite perm_swap; auto.
Qed.

Lemma insert_sorted {A} (key : A -> Z) x l : sorted_by key l -> sorted_by key (insert_by key x l).
Proof.
  unfold sorted_by; induction l as [|y t IH]; cbn; intros H; [repeat constructor|].
  inversion H as [|a b H1 H2]; subst.
  destruct (Z.leb_spec (key x) (key y)) as [L|L].
  - constructor; auto. constructor; auto.
    eapply Forall_impl; [|exact H2]; cbn; intros; lia.
  - constructor; auto. eapply Permutation_Forall; [apply insert_perm|]. constructor; [lia|auto].
Qed.

Lemma insert_filter {A} (key : A -> Z) x l k :
  filter (fun z => key z =? k) (insert_by key x l) =
  (if key x =? k then [x] else []) ++ filter (fun z => key z =? k) l.
Proof.
  induction l as [|y t IH]; cbn; [destruct (_ =? _); auto|].
  destruct (Z.leb_spec (key x) (key y)) as [L|L]; cbn.
  - destruct (key x =? k); auto.
  - rewrite IH. destruct (Z.eqb_spec (key y) k), (Z.eqb_spec (key x) k); auto; lia.
Qed.

Lemma sort_by_stable {A} (key : A -> Z) l : stable_sorted key l (sort_by key l).
Proof.
  induction l as [|x t [IH1 [IH2 IH3]]]; cbn; repeat split; try constructor.
  - rewrite <- insert_perm; auto.
  - apply insert_sorted; auto.
  - intros k; rewrite insert_filter, IH3; cbn. destruct (_ =? _); auto.
Qed.

(** The specification determines the result. *)
Lemma stable_sorted_unique {A} (key : A -> Z) l : forall a b,
  sorted_by key a -> sorted_by key b -> Permutation a l -> 
  (forall k, filter (fun x => key x =? k) a = filter (fun x => key x =? k) b) -> a = b.
Proof.
  intros a b Ha Hb _ H. revert b Hb H; induction Ha as [|x a Ha IH Hx]; intros b Hb H.
  - destruct b as [|y b]; auto. specialize (H (key y)); cbn in H.
    rewrite Z.eqb_refl in H; discriminate.
  - destruct b as [|y b].
    { specialize (H (key x)); cbn in H; rewrite Z.eqb_refl in H; discriminate. }
    inversion Hb as [|y' b' Hb1 Hy]; subst.
    assert (K : forall (c : list A) z, Forall (fun w => key z <= key w) c ->
       forall k, k < key z -> filter (fun w => key w =? k) c = []).
    { intros c z F k Hk; induction F as [|w c Hw F IHF]; cbn; auto.
      destruct (Z.eqb_spec (key w) k); [lia|auto]. }
    assert (E : key x = key y).
    { destruct (Z.lt_trichotomy (key x) (key y)) as [L|[L|L]]; auto; exfalso.
      - pose proof (H (key x)) as G. cbn in G. rewrite Z.eqb_refl in G.
        destruct (Z.eqb_spec (key y) (key x)); [lia|]. rewrite (K b y Hy) in G by lia. discriminate.
      - pose proof (H (key y)) as G. cbn in G. rewrite Z.eqb_refl in G.
        destruct (Z.eqb_spec (key x) (key y)); [lia|]. rewrite (K a x Hx) in G by lia. discriminate. }
    assert (x = y).
    { pose proof (H (key x)) as G. cbn in G. rewrite <- E, Z.eqb_refl in G. now injection G. }
    subst y. f_equal. apply IH; auto.
    intros k; specialize (H k); cbn in H. destruct (_ =? _); auto. now injection H.
Qed.

Lemma stable_sorted_sort {A} (key : A -> Z) l l' : stable_sorted key l l' -> l' = sort_by key l.
Proof.
  intros [P [S F]]. destruct (sort_by_stable key l) as [P2 [S2 F2]].
  apply (stable_sorted_unique key l); auto using Permutation_sym.
  intros k; rewrite F, F2; auto.
Qed.

Lemma sort_by_nil {A} (key : A -> Z) l : sort_by key l = [] <-> l = [].
Proof.
  split; [|intros ->; auto]. destruct (sort_by_stable key l) as [P _]. intros E; rewrite E in P.
  apply Permutation_nil; now apply Permutation_sym.
Qed.

Lemma sort_by_In {A} (key : A -> Z) l x : In x (sort_by key l) <-> In x l.
Proof.
  destruct (sort_by_stable key l) as [P _]; split; apply Permutation_in; auto using Permutation_sym.
Qed.

Lemma sort_by_sorted_id {A} (key : A -> Z) l : sorted_by key l -> sort_by key l = l.
Proof.
  intros; symmetry; apply stable_sorted_sort; repeat split; auto.
Qed.
