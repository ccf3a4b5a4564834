(** Proofs about exFAT tables and bitmaps. *)
From Verif Require Import Base BaseLemmas FieldLemmas FatSpec FatProofs ExTable ExTableSpec.

Definition xfat_ok (f : xfat) : Prop := 0 <= xf_off f /\ 0 <= xf_size f /\ bytes_ok (xf_data f).
Definition xtable (f : xfat) : list Z := slice (xf_data f) (xf_off f) (xf_off f + xf_size f).

Definition xentryb (f : xfat) (n : Z) : bool := (n <=? xf_last f) && (32 * (n + 1) <=? 8 * zlen (xtable f)).

Lemma x_get_element_spec f n : xfat_ok f -> 0 <= n ->
  x_get_element f n = if xentryb f n then Ok (packed_entry 32 (xtable f) n) else Err FileAllocationTableException.
Proof.
  intros (Ho & Hs & B) Hn. unfold x_get_element, xentryb, packed_entry.
  assert (BT : bytes_ok (xtable f)) by (now apply bytes_ok_slice).
  assert (LT : zlen (xtable f) <= xf_size f).
  { unfold xtable. rewrite zlen_slice by lia. lia. }
  pose proof (zlen_nonneg (xtable f)) as LT0.
  destruct ((xf_size f <? n * 4 + 4) || (xf_last f <? n)) eqn:E1; bools.
  { replace (_ && _) with false by lia. reflexivity. }
  assert (RD : read_at (xf_data f) (xf_off f + n * 4) 4 = Ok (slice (xtable f) (n * 4) (n * 4 + 4))).
  { unfold read_at, xtable. replace (xf_off f + n * 4 <? 0) with false by lia. f_equal.
    rewrite slice_slice by lia. f_equal; lia. }
  rewrite RD. cbn [bind].
  assert (LS : zlen (slice (xtable f) (n * 4) (n * 4 + 4)) = Z.max 0 (Z.min 4 (zlen (xtable f) - n * 4))).
  { rewrite zlen_slice by lia. lia. }
  rewrite LS. destruct (Z.le_gt_cases (n * 4 + 4) (zlen (xtable f))) as [L|L].
  2:{ replace (_ =? 4) with false by lia. cbn [negb]. replace (_ && _) with false by lia. reflexivity. }
  replace (_ =? 4) with true by lia. cbn [negb]. replace (_ && _) with true by lia. f_equal.
  change (le_val (slice (xtable f) (n * 4) (n * 4 + 4))) with (fld 4 (xtable f) (n * 4)).
  rewrite fld_number by (auto; lia). rewrite pow256 by lia.
  replace (8 * (n * 4)) with (32 * n) by lia. reflexivity.
Qed.

Lemma x_get_element_iff f n v : xfat_ok f -> 0 <= n ->
  (x_get_element f n = Ok v <-> has_entry 32 (xtable f) (xf_last f) n /\ v = packed_entry 32 (xtable f) n).
Proof.
  intros H Hn. rewrite x_get_element_spec by auto. unfold has_entry, xentryb.
  destruct ((n <=? xf_last f) && (32 * (n + 1) <=? 8 * zlen (xtable f))) eqn:E; bools.
  - split; [intro X; injection X as <-; repeat split; lia|intros [_ ->]; reflexivity].
  - split; [discriminate|lia].
Qed.

Lemma packed32_range t n : 0 <= packed_entry 32 t n < 2 ^ 32.
Proof. unfold packed_entry. apply Z.mod_pos_bound. lia. Qed.

Lemma x_chain_loop_spec f : xfat_ok f -> forall fuel seen c, 0 <= c -> NoDup (c :: seen) ->
  Forall (fun k => 0 <= k < xf_size f) seen ->
  (Z.to_nat (xf_size f) < fuel + length seen)%nat ->
  match x_chain_loop fuel f (c :: seen) c with
  | Ok l => exists l', xchain_from (xtable f) (xf_last f) seen c l' /\ l = map Some (rev seen) ++ l'
  | Err e => e = FileAllocationTableException /\ forall l', ~ xchain_from (xtable f) (xf_last f) seen c l'
  end.
Proof.
  intros F. assert (LT : zlen (xtable f) <= xf_size f).
  { destruct F as (? & ? & _). unfold xtable. rewrite zlen_slice by lia. lia. }
  induction fuel as [|fuel IH]; intros seen c Hc ND FA HF.
  { exfalso. inversion ND as [|? ? _ ND']; subst. assert (length seen <= Z.to_nat (xf_size f))%nat; [|lia].
    rewrite <- (seq_length (Z.to_nat (xf_size f)) 0), <- (map_length Z.of_nat).
    apply NoDup_incl_length; auto. intros k Hk. rewrite Forall_forall in FA. specialize (FA k Hk).
    apply in_map_iff. exists (Z.to_nat k). split; [lia|]. apply in_seq; lia. }
  cbn [x_chain_loop]. pose proof (x_get_element_iff f c) as G.
  destruct (x_get_element f c) as [n|e] eqn:E; cbn [bind].
  2:{ split.
      - rewrite x_get_element_spec in E by auto. destruct (xentryb f c); congruence.
      - intros l' X. assert (HE : has_entry 32 (xtable f) (xf_last f) c).
        { inversion X; subst; match goal with H : xfollows _ _ _ _ _ |- _ => inversion H; auto end. }
        destruct (G (packed_entry 32 (xtable f) c) F Hc) as [_ G2]. discriminate G2. auto. }
  destruct (proj1 (G n F Hc) eq_refl) as [G1 G2]. clear G.
  change EXFAT_EOC with x_end. change EXFAT_BAD with x_bad.
  assert (RB : x_end = 4294967295 /\ x_bad = 4294967287) by (split; reflexivity).
  pose proof (packed32_range (xtable f) c) as Hn. rewrite <- G2 in Hn.
  assert (RS : map Some (rev (c :: seen)) = map Some (rev seen) ++ [Some c]).
  { cbn [rev]. now rewrite map_app. }
  destruct (zin n (c :: seen)) eqn:E1.
  { apply zin_In in E1. exists [Some c]. split; [|auto]. apply xch_stop. apply xfo_stop with (n := n); auto. }
  apply zin_false in E1.
  destruct (Z.eqb_spec n x_end) as [E2|E2].
  { exists [Some c]. split; [|auto]. apply xch_stop. apply xfo_stop with (n := n); auto. }
  destruct (Z.eqb_spec n x_bad) as [E3|E3].
  { exists [Some c; None]. split.
    - apply xch_bad. apply xfo_bad; auto; congruence.
    - rewrite RS. now rewrite <- app_assoc. }
  destruct (n =? 0) eqn:E4; bools.
  { exists [Some c]. split; [|auto]. apply xch_stop. apply xfo_stop with (n := n); auto. lia. }
  destruct (n =? 1) eqn:E5; bools.
  { exists [Some c]. split; [|auto]. apply xch_stop. apply xfo_stop with (n := n); auto. lia. }
  assert (FO : xfollows (xtable f) (xf_last f) seen c (Next n)) by (apply xfo_next; auto; lia).
  specialize (IH (c :: seen) n (proj1 Hn)). destruct (x_chain_loop fuel f (n :: c :: seen) n) as [l|e] eqn:EL.
  - destruct IH as (l' & L1 & L2).
    + constructor; auto.
    + constructor; auto. destruct G1. lia.
    + cbn [length]. lia.
    + exists (Some c :: l'). split; [eapply xch_next; eauto|]. rewrite L2, RS, <- app_assoc. reflexivity.
  - destruct IH as [I1 I2].
    + constructor; auto.
    + constructor; auto. destruct G1. lia.
    + cbn [length]. lia.
    + split; auto. intros l' X. inversion X as [? ? Y|? ? Y|? ? m l'' Y X']; subst.
      * inversion Y; subst. destruct H1 as [?|[?|?]]; congruence || lia.
      * inversion Y; subst. congruence.
      * inversion Y; subst. exact (I2 _ X').
Qed.

Lemma xfollows_fun t last seen c a b : xfollows t last seen c a -> xfollows t last seen c b -> a = b.
Proof.
  assert (RB : x_end = 4294967295 /\ x_bad = 4294967287) by (split; reflexivity).
  intros A B. inversion A; inversion B; subst; auto; exfalso;
    repeat match goal with H : packed_entry _ _ _ = _ |- _ => rewrite H in * end;
    try (match goal with H : _ \/ _ |- _ => destruct H as [?|[?|?]] end); try tauto; try congruence; try lia.
Qed.

Lemma xchain_from_fun t last seen c l : xchain_from t last seen c l -> forall m, xchain_from t last seen c m -> l = m.
Proof.
  induction 1 as [seen c H|seen c H|seen c n l H H' IH]; intros m M; inversion M as [? ? Y|? ? Y|? ? n' l' Y M']; subst; auto;
    pose proof (xfollows_fun _ _ _ _ _ _ H Y) as E; try discriminate.
  injection E as <-. f_equal. auto.
Qed.

Lemma x_chain_iff f first l : xfat_ok f -> 2 <= first -> first <> EXFAT_BAD ->
  (x_chain f first = Ok l <-> xchain_from (xtable f) (xf_last f) [] first l).
Proof.
  intros F H1 H2. unfold x_chain. replace (first =? 0) with false by lia. replace (first =? 1) with false by lia.
  replace (first =? EXFAT_BAD) with false by lia.
  pose proof (x_chain_loop_spec f F (S (S (Z.to_nat (xf_size f)))) [] first ltac:(lia)) as S.
  specialize (S ltac:(constructor; [intros []|constructor]) ltac:(constructor) ltac:(cbn [length]; lia)).
  destruct (x_chain_loop _ f [first] first) as [m|e].
  - destruct S as (l' & L1 & L2). cbn [rev map app] in L2. subst m. split.
    + intro E. injection E as <-. auto.
    + intro X. now rewrite (xchain_from_fun _ _ _ _ _ L1 _ X).
  - destruct S as [_ S]. split; [discriminate|]. intro X. exfalso. exact (S _ X).
Qed.

Lemma x_chain_total f first : xfat_ok f -> 0 <= first ->
  match x_chain f first with Ok _ => True | Err e => e = FileAllocationTableException end.
Proof.
  intros F H. unfold x_chain. destruct (first =? 0); auto. destruct (first =? 1); auto. destruct (first =? EXFAT_BAD); auto.
  pose proof (x_chain_loop_spec f F (S (S (Z.to_nat (xf_size f)))) [] first ltac:(lia)) as S.
  specialize (S ltac:(constructor; [intros []|constructor]) ltac:(constructor) ltac:(cbn [length]; lia)).
  destruct (x_chain_loop _ f [first] first) as [m|e]; auto. apply S.
Qed.

Lemma x_chain_not_bad f first l : 2 <= first -> x_chain f first = Ok l -> first <> EXFAT_BAD.
Proof.
  intros H E X. unfold x_chain in E. replace (first =? 0) with false in E by lia. replace (first =? 1) with false in E by lia.
  replace (first =? EXFAT_BAD) with true in E by lia. discriminate.
Qed.

Lemma xchain_nodup t last seen c l : xchain_from t last seen c l ->
  ~ In c seen -> NoDup (somes l) /\ forall x, In x (somes l) -> ~ In x seen.
Proof.
  induction 1 as [seen c H|seen c H|seen c n l H H' IH]; intro N; cbn [somes flat_map app].
  - split; [constructor; [intros []|constructor]|]. intros x [<-|[]]; auto.
  - split; [constructor; [intros []|constructor]|]. intros x [<-|[]]; auto.
  - fold (somes l). inversion H as [? ? ? NI ? ? ?| |]; subst.
    destruct (IH NI) as [I1 I2]. split.
    + constructor; auto. intro X. apply (I2 _ X). now left.
    + intros x [<-|X]; auto. intro Y. apply (I2 _ X). now right.
Qed.

Lemma xchain_in_range t last seen c l : xchain_from t last seen c l -> forall x, In x (somes l) -> has_entry 32 t last x.
Proof.
  induction 1 as [seen c H|seen c H|seen c n l H H' IH]; cbn [somes flat_map app]; intros x X.
  - destruct X as [<-|[]]. inversion H; auto.
  - destruct X as [<-|[]]. inversion H; auto.
  - fold (somes l) in X. destruct X as [<-|X]; auto. inversion H; auto.
Qed.

Lemma xchain_links t last seen c l : xchain_from t last seen c l -> forall p a b q, l = p ++ a :: b :: q ->
  exists x, a = Some x /\ match b with Some y => packed_entry 32 t x = y | None => packed_entry 32 t x = x_bad /\ q = [] end.
Proof.
  induction 1 as [seen c H|seen c H|seen c n l H H' IH]; intros p a b q E.
  - destruct p as [|? [|]]; discriminate.
  - destruct p as [|z p]; cbn [app] in E.
    + injection E as <- <- <-. exists c. split; auto. inversion H; subst; auto.
    + injection E as _ E. destruct p as [|? [|]]; discriminate.
  - destruct p as [|z p]; cbn [app] in E.
    + injection E as <- E. exists c. split; auto.
      assert (b = Some n). { inversion H'; subst; congruence. } subst b. inversion H; subst; auto.
    + injection E as _ E. eapply IH; eauto.
Qed.

Lemma xchain_end t last seen c l : xchain_from t last seen c l -> forall p x, l = p ++ [Some x] ->
  packed_entry 32 t x < 2 \/ packed_entry 32 t x = x_end \/ In (packed_entry 32 t x) (seen ++ somes l).
Proof.
  induction 1 as [seen c H|seen c H|seen c n l H H' IH]; intros p x E.
  - destruct p as [|? [|]]; try discriminate. injection E as <-. cbn [somes flat_map app].
    inversion H as [| |m HE T D]; subst. destruct D as [D|[D|D]]; auto. right. right. apply in_or_app.
    destruct D as [D|D]; [right; left; auto|auto].
  - destruct p as [|? [|? [|]]]; discriminate.
  - destruct p as [|y p]; [injection E as _ ->; inversion H'|]. injection E as <- E.
    destruct (IH p x E) as [?|[?|I]]; auto. right. right. cbn [somes flat_map app]. fold (somes l).
    apply in_app_or in I. apply in_or_app. destruct I as [[<-|I]|I]; [right; now left|auto|right; now right].
Qed.

Fixpoint xlinked (t : list Z) (last : Z) (l : list Z) : Prop :=
  match l with
  | [] => True
  | c :: r => has_entry 32 t last c /\
      match r with [] => packed_entry 32 t c = x_end | n :: _ => 2 <= n < x_bad /\ packed_entry 32 t c = n end /\
      xlinked t last r
  end.

Lemma xlinked_chain t last l : forall c seen, xlinked t last (c :: l) -> NoDup (c :: l) ->
  (forall x, In x (c :: l) -> ~ In x seen) -> xchain_from t last seen c (map Some (c :: l)).
Proof.
  assert (RB : x_end = 4294967295 /\ x_bad = 4294967287) by (split; reflexivity).
  induction l as [|n l IH]; intros c seen (H1 & H2 & H3) ND NI.
  - apply xch_stop. apply xfo_stop with (n := packed_entry 32 t c); auto.
  - destruct H2 as [H2 H2']. inversion ND as [|? ? N1 N2]; subst. cbn [map]. apply xch_next with (n := packed_entry 32 t c).
    + apply xfo_next; auto; try lia. intros [X|X]; [apply N1; now left|]. apply (NI (packed_entry 32 t c)); [right; now left|auto].
    + apply IH; auto. intros x X [<-|Y]; [auto|]. apply (NI x); [now right|auto].
Qed.

(** ** The bitmap *)

Lemma slice_1 {A} (l : list A) i x : znth l i = Some x -> slice l i (i + 1) = [x].
Proof.
  intro E. pose proof (znth_Some_range _ _ _ E) as R. apply znth_ext.
  - rewrite zlen_slice by lia. change (zlen [x]) with 1. lia.
  - intros k Hk. rewrite zlen_slice in Hk by lia. assert (k = 0) as -> by lia.
    rewrite znth_slice by lia. rewrite Z.add_0_r, E. reflexivity.
Qed.

Lemma x_is_allocated_spec buf last c : bytes_ok buf ->
  x_is_allocated buf last c =
    if (2 <=? c) && (c <=? last) then
      if c - 2 <? 8 * zlen buf then Ok (Some (bit_of_cluster buf c)) else Err IndexError
    else Ok None.
Proof.
  intro B. unfold x_is_allocated. destruct (c <? 2) eqn:E1; bools.
  { replace (_ && _) with false by lia. reflexivity. }
  destruct (last <? c) eqn:E2; bools.
  { replace (_ && _) with false by lia. reflexivity. }
  replace (_ && _) with true by lia. set (k := c - 2). pose proof (zlen_nonneg buf).
  unfold index. destruct (Z.ltb_spec k (8 * zlen buf)) as [L|L].
  2:{ rewrite znth_none by lia. reflexivity. }
  destruct (znth_some buf (k / 8) ltac:(lia)) as [b Eb]. rewrite Eb. replace (k / 8 <? 0) with false by lia.
  cbn [bind]. do 2 f_equal. unfold bit_of_cluster. fold k.
  assert (Vb : b = (le_val buf / 2 ^ (8 * (k / 8))) mod 2 ^ 8).
  { pose proof (fld_number 1 buf (k / 8) B ltac:(lia) ltac:(lia) ltac:(lia)) as F.
    rewrite !pow256 in F by lia. change (8 * 1) with 8 in F. rewrite <- F.
    unfold fld. rewrite (slice_1 buf (k / 8) b Eb). cbn [le_val]. lia. }
  rewrite Vb. change 1 with (Z.ones 1). rewrite Z.land_ones by lia. change (2 ^ 1) with 2. rewrite <- Z.bit0_mod, Z.shiftr_spec by lia.
  rewrite Z.mod_pow2_bits_low by lia. rewrite Z.div_pow2_bits by lia. replace (0 + k mod 8 + 8 * (k / 8)) with k by lia.
  destruct (Z.testbit (le_val buf) k); reflexivity.
Qed.

Lemma bitmap_number_bit bits : forall i b, znth bits i = Some b -> Z.testbit (bitmap_number bits) i = b.
Proof.
  induction bits as [|x bits IH]; intros i b E; [discriminate|].
  pose proof (znth_Some_range _ _ _ E) as R. cbn [bitmap_number fold_right]. fold (bitmap_number bits).
  destruct (Z.eq_dec i 0) as [->|N].
  - injection E as <-. rewrite Z.bit0_odd, Z.odd_add_mul_2. now destruct x.
  - cbn [znth] in E. replace (i =? 0) with false in E by lia.
    replace i with (Z.succ (i - 1)) by lia.
    replace ((if x then 1 else 0) + 2 * bitmap_number bits) with (2 * bitmap_number bits + Z.b2z x) by (destruct x; cbn [Z.b2z]; lia).
    rewrite Z.testbit_succ_r by lia. apply IH. rewrite <- E. f_equal; lia.
Qed.

Lemma bitmap_number_bound bits : 0 <= bitmap_number bits < 2 ^ zlen bits.
Proof.
  induction bits as [|x bits IH]; [cbn; lia|]. cbn [bitmap_number fold_right]. fold (bitmap_number bits).
  rewrite zlen_cons. pose proof (zlen_nonneg bits). rewrite Z.pow_add_r by lia. destruct x; lia.
Qed.
