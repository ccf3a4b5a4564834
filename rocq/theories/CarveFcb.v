(** Proofs about the carver for file control blocks. *)
From Verif Require Import Base BaseLemmas FieldLemmas Filetime Carve CarveSpec CarveProofs.
From Coq Require Import Lia.
Local Set Warnings "-abstract-large-number".

Definition in_range (t : Z) : Prop := 123000000000000000 <= t <= 135000000000000000.

Lemma fcb_time_spec t : fcb_time t = true <-> in_range t.
Proof. unfold fcb_time, in_range, fcb_min, fcb_max. lia. Qed.

Lemma four_spec page p : 0 <= p ->
  forallb fcb_time (four_times (slice page p (p + 32))) = true <-> four_in_range page p.
Proof.
  intros P. unfold four_times, four_in_range. cbn [forallb]. rewrite !fld_sub by lia.
  rewrite !andb_true_iff, !fcb_time_spec. unfold in_range. split.
  - intros (H0 & H1 & H2 & H3 & _) k K. assert (k = 0 \/ k = 1 \/ k = 2 \/ k = 3) as [->|[->|[->| ->]]] by lia; auto.
  - intro H. pose proof (H 0 ltac:(lia)). pose proof (H 1 ltac:(lia)). pose proof (H 2 ltac:(lia)). pose proof (H 3 ltac:(lia)).
    cbn [Z.mul Pos.mul] in *. tauto.
Qed.

Lemma len_eqb (page : list Z) p n : 0 <= p -> 0 < n ->
  (zlen (slice page p (p + n)) =? n) = (p + n <=? zlen page).
Proof. intros P N. rewrite zlen_slice by lia. lia. Qed.

Definition dup_at (page : list Z) (p d : Z) : Prop := four_in_range page (p + d) /\ p + d + 32 <= zlen page.
Definition real_at (page : list Z) (p a : Z) : Prop := in_range (fld 8 page (p + a)) /\ p + a + 8 <= zlen page.

Lemma find_dup_spec page p : 0 <= p -> forall n pos, 0 <= pos -> 146 <= pos + 2 * Z.of_nat n -> (0 < n)%nat ->
  exists r, find_dup n page p pos = Ok r /\
  match r with
  | Some d => pos <= d < 144 /\ d mod 2 = pos mod 2 /\ dup_at page p d /\
      (forall d', pos <= d' < d -> d' mod 2 = pos mod 2 -> ~ four_in_range page (p + d'))
  | None => forall d, pos <= d < 144 -> d mod 2 = pos mod 2 -> ~ dup_at page p d
  end.
Proof.
  intros P. induction n as [|n IH]; intros pos Q F F0; [lia|]. cbn [find_dup].
  destruct ((pos <? zlen page) && (pos <? 144)) eqn:E; cbn [negb].
  2:{ exists None. split; [auto|]. intros d D _ [_ L]. lia. }
  rewrite len_eqb by lia. destruct (Z.leb_spec (p + pos + 32) (zlen page)) as [L|L]; cbn [negb].
  2:{ exists None. split; [auto|]. intros d D _ [_ L']. lia. }
  destruct (forallb fcb_time _) eqn:E1.
  - apply four_spec in E1; [|lia]. exists (Some pos). split; [auto|]. split; [lia|]. split; [auto|]. split; [split; auto|].
    intros; lia.
  - assert (N : ~ four_in_range page (p + pos)) by (rewrite <- four_spec by lia; rewrite E1; discriminate).
    destruct (IH (pos + 2) ltac:(lia) ltac:(lia) ltac:(lia)) as (r & -> & R). exists r. split; [auto|].
    destruct r as [d|].
    + destruct R as (R1 & R2 & R3 & R4). split; [lia|]. split; [lia|]. split; [auto|].
      intros d' D1 D2. destruct (Z.eq_dec d' pos) as [->|]; [auto|]. apply R4; lia.
    + intros d D1 D2. destruct (Z.eq_dec d pos) as [->|]; [intros [? _]; auto|]. apply R; lia.
Qed.

Lemma find_real_spec page p : 0 <= p -> forall n pos, 0 <= pos -> 210 <= pos + 2 * Z.of_nat n -> (0 < n)%nat ->
  exists r, find_real n page p pos = Ok r /\
  match r with
  | Some a => pos <= a < 208 /\ a mod 2 = pos mod 2 /\ real_at page p a /\
      (forall a', pos <= a' < a -> a' mod 2 = pos mod 2 -> ~ in_range (fld 8 page (p + a')))
  | None => forall a, pos <= a < 208 -> a mod 2 = pos mod 2 -> ~ real_at page p a
  end.
Proof.
  intros P. induction n as [|n IH]; intros pos Q F F0; [lia|]. cbn [find_real].
  destruct ((pos <? zlen page) && (pos <? 208)) eqn:E; cbn [negb].
  2:{ exists None. split; [auto|]. intros d D _ [_ L]. lia. }
  rewrite len_eqb by lia. destruct (Z.leb_spec (p + pos + 8) (zlen page)) as [L|L]; cbn [negb].
  2:{ exists None. split; [auto|]. intros d D _ [_ L']. lia. }
  change (le_val (slice page (p + pos) (p + pos + 8))) with (fld 8 page (p + pos)).
  destruct (fcb_time _) eqn:E1.
  - apply fcb_time_spec in E1. exists (Some pos). split; [auto|]. split; [lia|]. split; [auto|]. split; [split; auto|].
    intros; lia.
  - assert (N : ~ in_range (fld 8 page (p + pos))) by (rewrite <- fcb_time_spec, E1; discriminate).
    destruct (IH (pos + 2) ltac:(lia) ltac:(lia) ltac:(lia)) as (r & -> & R). exists r. split; [auto|].
    destruct r as [d|].
    + destruct R as (R1 & R2 & R3 & R4). split; [lia|]. split; [lia|]. split; [auto|].
      intros d' D1 D2. destruct (Z.eq_dec d' pos) as [->|]; [auto|]. apply R4; lia.
    + intros d D1 D2. destruct (Z.eq_dec d pos) as [->|]; [intros [? _]; auto|]. apply R; lia.
Qed.

Definition guess_ok (g : guess) : Prop := match g with None => True | Some (gd, ga) => 0 <= gd /\ 8 <= ga end.

Lemma probe_spec page g p : guess_ok g -> 0 <= p -> slice page p (p + 2) = [2; 7] ->
  exists r, fcb_probe page g p = Ok r /\
  match r with
  | FHit d a => block_at page g p d a
  | FMiss => forall d a, ~ block_at page g p d a
  | FStop => forall q d a, p <= q -> ~ block_at page g q d a
  end.
Proof.
  intros G P SG. unfold fcb_probe. destruct g as [[gd ga]|].
  - cbn in G. rewrite len_eqb by lia.
    destruct (Z.leb_spec (p + gd + 32) (zlen page)) as [L|L]; cbn [negb].
    2:{ exists FStop. split; [auto|]. intros q d a Q (_ & _ & _ & _ & X & _). lia. }
    destruct (forallb fcb_time _) eqn:E.
    2:{ exists FMiss. split; [auto|]. intros d a (_ & _ & _ & X & _). apply four_spec in X; [|lia]. rewrite E in X. discriminate. }
    apply four_spec in E; [|lia]. rewrite len_eqb by lia.
    change (le_val (slice page (p + ga) (p + ga + 8))) with (fld 8 page (p + ga)).
    destruct ((p + ga + 8 <=? zlen page) && fcb_time (fld 8 page (p + ga))) eqn:E2.
    + apply andb_true_iff in E2 as [E2 E3]. apply fcb_time_spec in E3. exists (FHit gd ga). split; [auto|].
      split; [auto|]. do 5 (split; [auto|]). lia.
    + exists FMiss. split; [auto|]. intros d a (_ & _ & _ & _ & _ & X & Y). apply fcb_time_spec in X. rewrite X in E2. lia.
  - destruct (find_dup_spec page p P 73 0 ltac:(lia) ltac:(lia) ltac:(lia)) as (r & -> & R). cbn [bind].
    destruct r as [d|].
    + destruct R as (D1 & D2 & (D3 & D4) & D5).
      assert (UD : forall d' a, block_at page None p d' a -> d' = d).
      { intros d' a (_ & B1 & B2 & B3 & B4 & B5 & _). destruct (Z.lt_trichotomy d' d) as [X|[X|X]]; [|auto|].
        - destruct (D5 d' ltac:(lia) ltac:(lia) B3).
        - destruct (B5 d ltac:(lia) ltac:(lia) D3). }
      destruct (find_real_spec page p P 105 (d + 56) ltac:(lia) ltac:(lia) ltac:(lia)) as (r & -> & R). cbn [bind].
      destruct r as [a|].
      * destruct R as (A1 & A2 & (A3 & A4) & A5). exists (FHit d a). split; [auto|].
        split; [auto|]. split; [lia|]. split; [lia|]. do 2 (split; [auto|]). split; [intros; apply D5; lia|].
        split; [lia|]. split; [lia|]. split; [exact A3|]. split; [auto|]. intros a' Q1 Q2. apply A5; lia.
      * exists FMiss. split; [auto|]. intros d' a B. pose proof (UD _ _ B) as ->.
        destruct B as (_ & _ & _ & _ & _ & _ & B1 & B2 & B3 & B4 & _). apply (R a); [lia|lia|split; auto].
    + exists FMiss. split; [auto|]. intros d a (_ & B1 & B2 & B3 & B4 & _). apply (R d); [lia|lia|split; auto].
Qed.

Lemma decode_true t : exists x, decode_filetime t true = Ok x.
Proof. unfold decode_filetime, decode_time. destruct (_ <? _); eexists; reflexivity. Qed.

Lemma block_bounds page g p d a : guess_ok g -> block_at page g p d a ->
  0 <= d /\ 8 <= a /\ p + d + 32 <= zlen page /\ p + a + 8 <= zlen page.
Proof.
  intros G (_ & B). destruct g as [[gd ga]|]; cbn in G.
  - destruct B as (-> & -> & _ & ? & _ & ?). lia.
  - destruct B as (? & _ & _ & ? & _ & ? & _ & _ & ? & _). lia.
Qed.

Lemma item_spec page g fp p d a : guess_ok g -> 0 <= p -> block_at page g p d a ->
  exists x, fcb_item page fp p d a = Ok x /\ item_for page fp p d a x.
Proof.
  intros G P B. destruct (block_bounds _ _ _ _ _ G B) as (B1 & B2 & B3 & B4). unfold fcb_item.
  rewrite !fld_sub by lia. rewrite Z.add_0_r.
  change (le_val (slice page (p + a) (p + a + 8))) with (fld 8 page (p + a)).
  destruct (decode_true (fld 8 page (p + d))) as (x1 & E1). destruct (decode_true (fld 8 page (p + d + 8))) as (x2 & E2).
  destruct (decode_true (fld 8 page (p + d + 16))) as (x3 & E3). destruct (decode_true (fld 8 page (p + d + 24))) as (x4 & E4).
  destruct (decode_true (fld 8 page (p + a))) as (x5 & E5). rewrite E1, E2, E3, E4, E5. cbn [bind].
  unfold u64. rewrite unp_ok by lia. cbn [bind]. eexists. split; [reflexivity|].
  unfold item_for. cbn. tauto.
Qed.

Lemma page_spec page g fp : guess_ok g -> forall n p, 0 <= p -> zlen page + 2 <= p + 2 * Z.of_nat n -> (0 < n)%nat ->
  exists l, fcb_page n page g fp p = (l, Done) /\ page_items page g fp p l.
Proof.
  intros G. induction n as [|n IH]; intros p P F F0; [lia|]. cbn [fcb_page].
  destruct (Z.ltb_spec p (zlen page)) as [L|L]; cbn [negb].
  2:{ exists []. split; [auto|]. constructor. intros q d a Q1 Q2 B. destruct (block_bounds _ _ _ _ _ G B). lia. }
  assert (NEXT : (forall d a, ~ block_at page g p d a) ->
     exists l, fcb_page n page g fp (p + 2) = (l, Done) /\ page_items page g fp p l).
  { intros N. destruct (IH (p + 2) ltac:(lia) ltac:(lia) ltac:(lia)) as (l & E & I). exists l. split; [auto|].
    assert (X : forall q, p <= q -> q mod 2 = p mod 2 -> q = p \/ p + 2 <= q) by (intros; lia).
    inversion I as [s H|s q d a x l' H1 H2 H3 H4 H5 H6]; subst.
    - constructor. intros q d a Q1 Q2. destruct (X q Q1 Q2) as [->|Q3]; [auto|]. apply H; lia.
    - apply (pi_hit _ _ _ _ q d a); [lia|lia|exact H3| |exact H5|exact H6]. intros q' d' a' Q1 Q2. destruct (X q' ltac:(lia) Q2) as [->|Q3]; [auto|].
      apply H4; lia. }
  destruct (zlist_eqb (slice page p (p + 2)) [2; 7]) eqn:SG; cbn [negb].
  2:{ apply NEXT. intros d a (X & _). apply zlist_eqb_neq in SG. auto. }
  apply zlist_eqb_eq in SG. destruct (probe_spec page g p G P SG) as (r & -> & R). destruct r as [| |d a].
  - exists []. split; [auto|]. constructor. intros q d a Q1 _. apply R; auto.
  - apply NEXT. exact R.
  - destruct (item_spec page g fp p d a G P R) as (x & -> & X). destruct (block_bounds _ _ _ _ _ G R) as (B1 & B2 & B3 & B4).
    destruct (IH (p + (a + 8)) ltac:(lia) ltac:(lia) ltac:(lia)) as (l & -> & I). exists (x :: l).
    split; [reflexivity|]. apply (pi_hit _ _ _ _ p d a); [lia|auto|exact R|intros; lia|exact X|].
    replace (p + a + 8) with (p + (a + 8)) by lia. exact I.
Qed.

Lemma pages_spec data g : guess_ok g -> forall n fp, 0 <= fp -> zlen data + 4096 <= fp + 4096 * Z.of_nat n -> (0 < n)%nat ->
  exists l, fcb_pages n data g fp = (l, Done) /\ image_items data g fp l.
Proof.
  intros G. induction n as [|n IH]; intros fp P F F0; [lia|]. cbn [fcb_pages].
  destruct (Z.ltb_spec fp (zlen data)) as [L|L]; cbn [negb].
  2:{ exists []. split; [auto|]. constructor. lia. }
  set (page := slice data fp (fp + 4096)). assert (LP : zlen page = Z.min 4096 (zlen data - fp)).
  { unfold page. rewrite zlen_slice by lia. lia. }
  rewrite LP. destruct (Z.ltb_spec (Z.min 4096 (zlen data - fp)) 512) as [M|M].
  { exists []. split; [auto|]. constructor. lia. }
  destruct (page_spec page g fp G 2049 0 ltac:(lia) ltac:(lia) ltac:(lia)) as (l & E & I).
  rewrite E. destruct (IH (fp + 4096) ltac:(lia) ltac:(lia) ltac:(lia)) as (r & -> & J). exists (l ++ r).
  split; [reflexivity|]. constructor; [lia|exact I|exact J].
Qed.

Theorem all_spec data g : guess_ok g -> exists l, fcb_all data g = (l, Done) /\ image_items data g 0 l.
Proof.
  intro G. apply pages_spec; [auto|lia| |lia]. unfold zlen. lia.
Qed.

(** The specification determines the items. *)
Lemma block_fun page g p d a d' a' : block_at page g p d a -> block_at page g p d' a' -> d = d' /\ a = a'.
Proof.
  intros (_ & B) (_ & C). destruct g as [[gd ga]|].
  - destruct B as (-> & -> & _), C as (-> & -> & _). auto.
  - destruct B as (B1 & B2 & B3 & B4 & B5 & B6 & B7 & B8 & B9 & B10), C as (C1 & C2 & C3 & C4 & C5 & C6 & C7 & C8 & C9 & C10).
    assert (d = d').
    { destruct (Z.lt_trichotomy d d') as [X|[X|X]]; [|auto|]; [destruct (C5 d ltac:(lia) ltac:(lia) B3)|destruct (B5 d' ltac:(lia) ltac:(lia) C3)]. }
    subst d'. split; [auto|].
    destruct (Z.lt_trichotomy a a') as [X|[X|X]]; [|auto|]; [destruct (C10 a ltac:(lia) ltac:(lia) B8)|destruct (B10 a' ltac:(lia) ltac:(lia) C8)].
Qed.

Lemma item_fun page fp p d a x y : item_for page fp p d a x -> item_for page fp p d a y -> x = y.
Proof.
  intros (A1 & A2 & A3 & A4 & A5 & A6 & A7 & A8 & A9) (B1 & B2 & B3 & B4 & B5 & B6 & B7 & B8 & B9).
  destruct x, y. cbn in *. f_equal; congruence.
Qed.

Lemma page_fun page g fp s l : page_items page g fp s l -> forall l', page_items page g fp s l' -> l = l'.
Proof.
  induction 1 as [s H|s p d a x l H1 H2 H3 H4 H5 H6 IH]; intros l' H'.
  - inversion H' as [|? p d a x l K1 K2 K3 K4 K5 K6]; subst; [auto|]. destruct (H p d a K1 K2 K3).
  - inversion H' as [? K|? q d' a' x' r K1 K2 K3 K4 K5 K6]; subst; [destruct (K p d a H1 H2 H3)|].
    assert (p = q).
    { destruct (Z.lt_trichotomy p q) as [X|[X|X]]; [|auto|]; [destruct (K4 p d a ltac:(lia) ltac:(lia) H3)|destruct (H4 q d' a' ltac:(lia) ltac:(lia) K3)]. }
    subst q. destruct (block_fun _ _ _ _ _ _ _ H3 K3) as [<- <-]. f_equal; [eapply item_fun; eauto|]. apply IH. auto.
Qed.

Lemma image_fun data g fp l : image_items data g fp l -> forall l', image_items data g fp l' -> l = l'.
Proof.
  induction 1 as [fp H|fp l r H1 H2 H3 IH]; intros l' H'.
  - inversion H'; subst; [auto|lia].
  - inversion H' as [|? l2 r2 K1 K2 K3]; subst; [lia|]. f_equal; [eapply page_fun; eauto|auto].
Qed.

(** ** The guess *)

Lemma occurs_app k a b : occurs k (a ++ b) = occurs k a + occurs k b.
Proof. induction a as [|x a IH]; cbn [app occurs]; [auto|]. rewrite IH. lia. Qed.

Lemma occurs_not k l : ~ In k l -> occurs k l = 0.
Proof.
  induction l as [|x l IH]; cbn [occurs In]; intro H; [auto|]. rewrite IH by tauto. destruct (Z.eqb_spec x k); [tauto|auto].
Qed.

Lemma count_key_cases k : forall d,
  (~ In k (map fst d) /\ count_key d k = d ++ [(k, 1)]) \/
  (exists d1 n d2, d = d1 ++ (k, n) :: d2 /\ count_key d k = d1 ++ (k, n + 1) :: d2).
Proof.
  induction d as [|[k' n] d IH]; cbn [count_key map fst In app]; [left; auto|].
  destruct (Z.eqb_spec k' k) as [->|N].
  - right. exists [], n, d. auto.
  - destruct IH as [[H E]|(d1 & m & d2 & -> & E)].
    + left. rewrite E. split; [tauto|auto].
    + right. exists ((k', n) :: d1), m, d2. rewrite E. auto.
Qed.

Definition tally (l : list Z) (d : list (Z * Z)) : Prop :=
  NoDup (map fst d) /\ (forall k n, In (k, n) d -> n = occurs k l /\ In k l) /\
  (forall k, In k l -> In k (map fst d)) /\
  (forall d1 k n d2, d = d1 ++ (k, n) :: d2 -> exists a b, l = a ++ k :: b /\ forall j, In j a -> In j (map fst d1)).

Lemma keys_split : forall (d1 d2 : list (Z * Z)) k n, map fst (d1 ++ (k, n) :: d2) = map fst d1 ++ k :: map fst d2.
Proof. intros. rewrite map_app. reflexivity. Qed.

Lemma split_keys : forall (d : list (Z * Z)) ka k kb, map fst d = ka ++ k :: kb ->
  exists d1 n d2, d = d1 ++ (k, n) :: d2 /\ map fst d1 = ka.
Proof.
  intros d ka. revert d. induction ka as [|x ka IH]; intros [|[k' n] d] k kb E; cbn [map app fst] in E; try discriminate.
  - injection E as -> E. exists [], n, d. auto.
  - injection E as -> E. destruct (IH _ _ _ E) as (d1 & m & d2 & -> & <-). exists ((x, n) :: d1), m, d2. auto.
Qed.

Lemma tally_step l d k : tally l d -> tally (l ++ [k]) (count_key d k).
Proof.
  intros (T1 & T2 & T3 & T4). destruct (count_key_cases k d) as [[H ->]|(d1 & n & d2 & E & ->)].
  - assert (NK : ~ In k l) by (intro X; apply H, T3; auto).
    split; [|split; [|split]].
    + rewrite map_app. cbn [map fst]. clear - T1 H. induction (map fst d) as [|x t IH]; cbn [app]; [repeat constructor; auto|].
      inversion T1; subst. constructor; [|apply IH; [auto|intro; apply H; cbn; auto]].
      rewrite in_app_iff. cbn. intros [?|[->|[]]]; [auto|apply H; cbn; auto].
    + intros k' n I. rewrite occurs_app. cbn [occurs]. apply in_app_or in I as [I|[I|[]]].
      * destruct (T2 _ _ I) as [-> I2]. destruct (Z.eqb_spec k k') as [->|]; [tauto|]. split; [lia|apply in_or_app; auto].
      * injection I as <- <-. rewrite Z.eqb_refl, (occurs_not k l NK). split; [lia|apply in_or_app; cbn; auto].
    + intros k' I. rewrite map_app. apply in_or_app. apply in_app_or in I as [I|[<-|[]]]; [left; auto|right; cbn; auto].
    + intros e1 k' n e2 E. assert (C : (exists e3, d = e1 ++ (k', n) :: e3) \/ (d = e1 /\ k' = k)).
      { clear - E. revert d E. induction e1 as [|y e1 IH]; intros [|x d] E; cbn [app] in E.
        - injection E as <- _ _. right. auto.
        - injection E as E1 _. left. exists d. cbn [app]. congruence.
        - injection E as _ E. destruct e1; discriminate E.
        - injection E as <- E. destruct (IH _ E) as [(e3 & ->)|[-> ->]]; [left; exists e3; auto|right; auto]. }
      destruct C as [(e3 & C)|[C ->]].
      * destruct (T4 _ _ _ _ C) as (a & b & -> & A). exists a, (b ++ [k]). rewrite <- app_assoc. auto.
      * subst e1. exists l, []. auto.
  - assert (KS : map fst (d1 ++ (k, n + 1) :: d2) = map fst d) by (rewrite E, !keys_split; auto).
    assert (IK : In (k, n) d) by (rewrite E; apply in_or_app; cbn; auto).
    destruct (T2 _ _ IK) as [NE IL].
    assert (ND : ~ In k (map fst d1) /\ ~ In k (map fst d2)).
    { rewrite E, keys_split in T1. apply NoDup_remove_2 in T1. rewrite in_app_iff in T1. tauto. }
    split; [rewrite KS; auto|]. split; [|split].
    + intros k' m I. rewrite occurs_app. cbn [occurs]. apply in_app_or in I as [I|[I|I]].
      * assert (k <> k') by (intro Q; apply (proj1 ND); rewrite Q; exact (in_map fst _ _ I)).
        destruct (T2 k' m) as [-> I2]; [rewrite E; apply in_or_app; auto|].
        destruct (Z.eqb_spec k k'); [congruence|]. split; [lia|apply in_or_app; auto].
      * injection I as <- <-. rewrite Z.eqb_refl. split; [lia|apply in_or_app; auto].
      * assert (k <> k') by (intro Q; apply (proj2 ND); rewrite Q; exact (in_map fst _ _ I)).
        destruct (T2 k' m) as [-> I2]; [rewrite E; apply in_or_app; cbn; auto|].
        destruct (Z.eqb_spec k k'); [congruence|]. split; [lia|apply in_or_app; auto].
    + intros k' I. rewrite KS. apply in_app_or in I as [I|[<-|[]]]; auto.
    + intros e1 k' m e2 E'. assert (K2 : map fst d = map fst e1 ++ k' :: map fst e2) by (rewrite <- KS, E', keys_split; auto).
      destruct (split_keys _ _ _ _ K2) as (f1 & m' & f2 & F & FE). destruct (T4 _ _ _ _ F) as (a & b & -> & A).
      exists a, (b ++ [k]). rewrite <- app_assoc. split; [auto|]. rewrite <- FE. auto.
Qed.

Lemma tally_fold : forall l2 l1 d, tally l1 d -> tally (l1 ++ l2) (fold_left count_key l2 d).
Proof.
  induction l2 as [|k l2 IH]; intros l1 d T; cbn [fold_left]; [now rewrite app_nil_r|].
  replace (l1 ++ k :: l2) with ((l1 ++ [k]) ++ l2) by (rewrite <- app_assoc; auto). apply IH, tally_step, T.
Qed.

Lemma tally_nil : tally [] [].
Proof.
  split; [constructor|]. split; [intros k n []|]. split; [intros k []|]. intros [|x d1] k n d2 E; discriminate.
Qed.

Lemma max_key_spec : forall d best, exists d1 d2, best :: d = d1 ++ max_key best d :: d2 /\
  (forall x, In x d1 -> snd x < snd (max_key best d)) /\ (forall x, In x d2 -> snd x <= snd (max_key best d)).
Proof.
  induction d as [|[k n] d IH]; intros best; cbn [max_key].
  - exists [], []. split; [auto|]. split; intros x [].
  - destruct (Z.ltb_spec (snd best) n) as [L|L].
    + destruct (IH (k, n)) as (d1 & d2 & E & A & B). exists (best :: d1), d2. split; [rewrite E; auto|].
      split; [|auto]. intros x [<-|I]; [|auto].
      destruct d1 as [|y d1]; cbn [app] in E; injection E as E1 E2; [rewrite <- E1; cbn; lia|].
      specialize (A y (or_introl eq_refl)). rewrite <- E1 in A. cbn in A. lia.
    + destruct (IH best) as (d1 & d2 & E & A & B). destruct d1 as [|y d1]; cbn [app] in E; injection E as E1 E2.
      * exists [], ((k, n) :: d2). cbn [app]. split; [rewrite <- E1 at 1; rewrite E2; auto|]. split; [intros x []|].
        intros x [<-|I]; [rewrite <- E1; cbn; lia|auto].
      * subst y. exists (best :: (k, n) :: d1), d2. cbn [app]. split; [exact (f_equal (fun z => best :: (k, n) :: z) E2)|]. split; [|auto].
        specialize (A best (or_introl eq_refl)) as A1.
        intros x [<-|[<-|I]]; [auto|cbn; lia|apply A; cbn; auto].
Qed.

Lemma favourite_spec l d t : fold_left count_key l [] = d :: t ->
  favourite l (fst (max_key d t)) /\ snd (max_key d t) = occurs (fst (max_key d t)) l.
Proof.
  intro E. pose proof (tally_fold l [] [] tally_nil) as T. cbn [app] in T. rewrite E in T. destruct T as (T1 & T2 & T3 & T4).
  destruct (max_key_spec t d) as (d1 & d2 & S & A & B). destruct (max_key d t) as [k n]. cbn [fst snd] in *.
  assert (I : In (k, n) (d :: t)) by (rewrite S; apply in_or_app; cbn; auto).
  destruct (T2 _ _ I) as [-> IL]. split; [|auto]. split; [auto|].
  assert (LE : forall j, occurs j l <= occurs k l).
  { intro j. destruct (in_dec Z.eq_dec j l) as [J|J].
    - apply T3 in J. apply in_map_iff in J as ([j' m] & <- & J). cbn [fst]. destruct (T2 _ _ J) as [-> _].
      rewrite S in J. apply in_app_or in J as [J|[J|J]]; [apply A in J; cbn in J; lia|injection J as -> _; lia|apply B in J; cbn in J; lia].
    - rewrite (occurs_not j l J). clear. generalize l. induction l0 as [|x l0 IH]; cbn [occurs]; [lia|]. destruct (x =? k); lia. }
  split; [auto|]. destruct (T4 _ _ _ _ S) as (a & b & Q & H). exists a, b. split; [auto|].
  intros j J. apply H in J. apply in_map_iff in J as ([j' m] & <- & J). cbn [fst].
  destruct (T2 j' m) as [-> _]; [rewrite S; apply in_or_app; auto|]. apply A in J. cbn in J. lia.
Qed.

Lemma favourite_fun l k k' : favourite l k -> favourite l k' -> k = k'.
Proof.
  intros (I & M & a & b & E & A) (I' & M' & a' & b' & E' & A').
  assert (Q : occurs k l = occurs k' l) by (specialize (M k'); specialize (M' k); lia).
  assert (N1 : ~ In k a') by (intro X; apply A' in X; lia).
  assert (N2 : ~ In k' a) by (intro X; apply A in X; lia).
  clear - E E' N1 N2. subst l. revert a' E' N1. induction a as [|x a IH]; intros [|y a'] E N1; cbn [app] in E; injection E as E1 E2.
  - auto.
  - cbn in N1. subst. tauto.
  - cbn in N2. subst. tauto.
  - apply (IH ltac:(cbn in N2; tauto) a' E2). cbn in N1. tauto.
Qed.

Lemma guess_bounds data g fp l : guess_ok g -> image_items data g fp l -> forall x, In x l -> 0 <= fc_dup x /\ 8 <= fc_atime_pos x.
Proof.
  intros G H. assert (PG : forall page fp s l, page_items page g fp s l -> forall x, In x l -> 0 <= fc_dup x /\ 8 <= fc_atime_pos x).
  { clear - G. induction 1 as [|s p d a x l H1 H2 H3 H4 H5 H6 IH]; intros y; [intros []|]. intros [<-|I]; [|auto].
    destruct H5 as (_ & -> & -> & _). destruct (block_bounds _ _ _ _ _ G H3). lia. }
  induction H as [|fp l r H1 H2 H3 IH]; intros x; [intros []|]. intro I. apply in_app_or in I as [I|I]; [exact (PG _ _ _ _ H2 x I)|exact (IH x I)].
Qed.

(** What the carver gives. *)
Theorem carve_fcb_spec data g : guess_ok g -> exists l, image_items data g 0 l /\
  let first := ztake 100 l in
  if zlen first <? 25 then carve_fcb data g = (([], Raised ValueError), g) else
  exists kd ka, favourite (map fc_dup first) kd /\ favourite (map fc_atime_pos first) ka /\ guess_ok (Some (kd, ka)) /\
    if (occurs kd (map fc_dup first) <? 20) || (occurs ka (map fc_atime_pos first) <? 20)
    then carve_fcb data g = (([], Raised ValueError), Some (kd, ka))
    else exists r, image_items data (Some (kd, ka)) 0 r /\ carve_fcb data g = ((r, Done), Some (kd, ka)).
Proof.
  intro G. destruct (all_spec data g G) as (l & E & I). exists l. split; [auto|]. cbv zeta. unfold carve_fcb. rewrite E.
  set (first := ztake 100 l). destruct (if zlen first <? 100 then Done else Done) eqn:D.
  2:{ destruct (_ <? _) in D; discriminate. }
  destruct (Z.ltb_spec (zlen first) 25) as [L|L]; [auto|].
  assert (NE : forall f : fcb -> Z, exists d t, fold_left count_key (map f first) [] = d :: t).
  { intro f. pose proof (tally_fold (map f first) [] [] tally_nil) as (_ & _ & T & _). cbn [app] in T.
    destruct (fold_left count_key (map f first) []) as [|d t]; [|eauto]. exfalso.
    destruct first as [|x t]; [change (zlen (@nil fcb)) with 0 in L; lia|]. destruct (T (f x) (or_introl eq_refl)). }
  destruct (NE fc_dup) as (d & dt & E1). destruct (NE fc_atime_pos) as (a & at_ & E2). rewrite E1, E2.
  destruct (favourite_spec _ _ _ E1) as [F1 N1]. destruct (favourite_spec _ _ _ E2) as [F2 N2].
  destruct (max_key d dt) as [kd nd]. destruct (max_key a at_) as [ka na]. cbn [fst snd] in *. subst nd na.
  exists kd, ka. split; [auto|]. split; [auto|].
  assert (G' : guess_ok (Some (kd, ka))).
  { destruct F1 as (F1 & _), F2 as (F2 & _). apply in_map_iff in F1 as (x & <- & X). apply in_map_iff in F2 as (y & <- & Y).
    assert (IN : forall z, In z first -> In z l).
    { intros z. unfold first. rewrite <- (ztake_zdrop l 100) at 2. intro. apply in_or_app. auto. }
    destruct (guess_bounds _ _ _ _ G I x (IN _ X)). destruct (guess_bounds _ _ _ _ G I y (IN _ Y)). cbn. lia. }
  split; [auto|]. destruct ((_ <? _) || (_ <? _)); [auto|].
  destruct (all_spec data (Some (kd, ka)) G') as (r & Er & Ir). exists r. rewrite Er. auto.
Qed.
