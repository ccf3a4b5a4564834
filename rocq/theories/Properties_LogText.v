(** C78: the text of the report on a log, read back. *)
From Coq Require Import String.
From Verif Require Import Base BaseLemmas Report LogReport ReportText LogTextSpec.
Local Open Scope Z_scope.

Lemma split_first {A} (x : A) l l' r r' : ~ In x l -> ~ In x l' -> l ++ x :: r = l' ++ x :: r' -> l = l' /\ r = r'.
Proof.
  revert l'. induction l as [|a l IH]; intros l' N N' E; destruct l' as [|a' l']; cbn [app] in E.
  - injection E as E. auto.
  - injection E as <- E. elim N'. left. reflexivity.
  - injection E as -> E. elim N. left. reflexivity.
  - injection E as <- E. destruct (IH l') as [-> ->]; [intro; apply N; right; assumption|intro; apply N'; right; assumption|exact E|auto].
Qed.
Lemma lines_unique t ls : lines_read t ls -> forall ls', lines_read t ls' -> ls = ls'.
Proof.
  induction 1 as [|l t ls N _ IH]; intros ls' H.
  - inversion H as [|? ? ? ? ? E]; [reflexivity|]. destruct l; discriminate.
  - inversion H as [E|l' t' ls2 N' H' E]; [destruct l; discriminate|]. apply split_first in E as [-> ->]; [|assumption..]. f_equal. auto.
Qed.
Lemma blocks_unique ls bs : blocks_read ls bs -> forall bs', blocks_read ls bs' -> bs = bs'.
Proof.
  induction 1 as [|b ls bs NE N _ IH]; intros bs' H.
  - inversion H as [|b ? ? ? ? ? E]; [reflexivity|]. destruct b; discriminate.
  - inversion H as [E|b' ls' bs2 NE' N' H' E]; [destruct b; discriminate|].
    assert (K : forall c, ~ In dashes c -> ~ In dashes (c ++ [[]])).
    { intros c M I. apply in_app_iff in I as [I|[I|[]]]; [exact (M I)|discriminate]. }
    change (b' ++ [[]; dashes; []] ++ ls' = b ++ [[]; dashes; []] ++ ls) in E. 
    change ([[]; dashes; []] ++ ls') with ([[]] ++ dashes :: [] :: ls') in E. change ([[]; dashes; []] ++ ls) with ([[]] ++ dashes :: [] :: ls) in E.
    rewrite !app_assoc in E. apply split_first in E as [E1 E2]; [|apply K; assumption..]. apply app_inj_tail in E1 as [-> _]. injection E2 as ->. f_equal. auto.
Qed.

(** What the text of the lines of a block has to be like. *)
Definition plain_block (b : block) : Prop := b <> [] /\ Forall (fun l => ~ In 10 (line_text l) /\ line_text l <> dashes) b.

Lemma lines_app b t ls : Forall (fun l => ~ In 10 (line_text l)) b -> lines_read t ls ->
  lines_read (flat_map (fun l => line_text l ++ [10]) b ++ t) (map line_text b ++ ls).
Proof.
  intros F L. induction F as [|l b N F IH]; [exact L|]. cbn [flat_map map app]. rewrite <- !app_assoc. cbn [app]. now constructor.
Qed.
Lemma block_lines b : b <> [] -> block_text b = flat_map (fun l => line_text l ++ [10]) b ++ 10 :: txt "---" ++ [10; 10].
Proof.
  intros N. unfold block_text, separator. induction b as [|l b IH]; [now elim N|]. destruct b as [|l' b].
  - cbn [map joined flat_map app]. rewrite app_nil_r, <- !app_assoc. reflexivity.
  - specialize (IH ltac:(discriminate)). remember (l' :: b) as c eqn:C.
    assert (E : joined [10] (map line_text (l :: c)) = line_text l ++ [10] ++ joined [10] (map line_text c)) by (subst c; reflexivity).
    rewrite E. change (flat_map (fun l => line_text l ++ [10]) (l :: c)) with ((line_text l ++ [10]) ++ flat_map (fun l => line_text l ++ [10]) c).
    rewrite <- !app_assoc in *. now rewrite IH.
Qed.
Lemma log_lines bs : Forall plain_block bs -> exists ls, lines_read (log_text bs) ls /\ blocks_read ls (map (map line_text) bs).
Proof.
  induction 1 as [|b bs [NE F] _ (ls & L & B)]; [exists []; split; constructor|].
  exists (map line_text b ++ [] :: dashes :: [] :: ls). split.
  - unfold log_text. cbn [flat_map]. rewrite block_lines by exact NE. rewrite <- app_assoc. apply lines_app; [eapply Forall_impl; [|exact F]; intros l [N _]; exact N|].
    change ((10 :: txt "---" ++ [10; 10]) ++ flat_map block_text bs) with ([] ++ 10 :: (dashes ++ 10 :: ([] ++ 10 :: log_text bs))).
    constructor; [intros []|]. constructor; [cbn; intuition lia|]. constructor; [intros []|exact L].
  - cbn [map]. constructor; [destruct b; [now elim NE|discriminate]| |exact B]. intros I. apply in_map_iff in I as (l & E & I).
    rewrite Forall_forall in F. exact (proj2 (F l I) E).
Qed.

(** The file is read back as exactly the lines of the blocks, if no line holds a
    line feed and none is the line of dashes (see C78_log_refuted). *)
Theorem C78_log : forall bs, Forall plain_block bs -> forall r, log_reads (log_text bs) r <-> r = map (map line_text) bs.
Proof.
  intros bs F r. destruct (log_lines bs F) as (ls & L & B). split; [|intros ->; exists ls; auto].
  intros (ls' & L' & B'). rewrite <- (lines_unique _ _ L _ L') in B'. exact (blocks_unique _ _ B' _ B).
Qed.
Print Assumptions C78_log.

Example C78_log_example : log_text [[[Txt (txt "LSN: "); Num 5]; [Txt []]]; [[Txt (txt "x")]]] =
  txt "LSN: 5" ++ [10; 10; 10] ++ txt "---" ++ [10; 10] ++ txt "x" ++ [10; 10] ++ txt "---" ++ [10; 10].
Proof. reflexivity. Qed.
