From Verif Require Import Base BaseLemmas MappingPairs MappingPairsSpec MappingPairsProofs Frs FrsSpec FrsProofs Usa UsaSpec.

Section Fixup.
  Variable raw : list Z.
  Variable uo us : Z.
  Hypothesis Huo : 0 <= uo.
  Hypothesis Hus : (us - 1) * 512 = zlen raw.
  Hypothesis Hend : uo + 2 * us <= zlen raw.

  Definition UInv (data : list Z) (i : Z) : Prop :=
    zlen data = zlen raw /\
    forall p, 0 <= p < zlen raw ->
      (p mod 512 < 510 -> znth data p = znth raw p) /\
      (uo + 2 * us <= 510 -> 510 <= p mod 512 -> p / 512 < i - 1 ->
         znth data p = znth raw (uo + 2 * (p / 512 + 1) + (p mod 512 - 510))) /\
      (510 <= p mod 512 -> i - 1 <= p / 512 -> znth data p = znth raw p).

  Lemma UInv_step data i a b : UInv data i -> 1 <= i < us ->
    znth data (uo + i * 2) = Some a -> znth data (uo + i * 2 + 1) = Some b ->
    UInv (zset (zset data (i * 512 - 2) a) (i * 512 - 2 + 1) b) (i + 1).
  Proof.
    intros [Hl H] Hi Ha Hb. split; [now rewrite !zlen_zset|].
    intros p Hp. destruct (H p Hp) as (H1 & H2 & H3).
    destruct (Z.eq_dec p (i * 512 - 2)) as [->|N1]; [|destruct (Z.eq_dec p (i * 512 - 2 + 1)) as [->|N2]].
    - rewrite znth_zset_other by lia. rewrite znth_zset_same by lia.
      split; [lia|]. split; [|lia]. intros Ho _ _. rewrite <- Ha.
      destruct (H (uo + i * 2) ltac:(lia)) as [G _]. rewrite G by lia. f_equal. lia.
    - rewrite znth_zset_same by (rewrite zlen_zset; lia).
      split; [lia|]. split; [|lia]. intros Ho _ _. rewrite <- Hb.
      destruct (H (uo + i * 2 + 1) ltac:(lia)) as [G _]. rewrite G by lia. f_equal. lia.
    - rewrite !znth_zset_other by lia. split; [auto|]. split; intros.
      + apply H2; auto. lia.
      + apply H3; auto. lia.
  Qed.

  Lemma usa_loop_spec n : forall fuel data i, UInv data i -> 1 <= i -> n = Z.to_nat (us - i) -> (n < fuel)%nat ->
    (forall k, 0 <= k < i - 1 -> intact raw uo k) ->
    match usa_loop fuel (usn_of raw uo) uo us data i with
    | Ok (Some out) => all_intact raw uo /\ UInv out us
    | Ok None => ~ all_intact raw uo
    | Err _ => False
    end.
  Proof.
    induction n as [|n IH]; intros fuel data i HI Hi En Hf HP; (destruct fuel as [|fuel]; [lia|]); cbn [usa_loop].
    - replace (i <? us) with false by (symmetry; apply Z.ltb_ge; lia). split.
      + intros k Hk Hk2. apply HP. lia.
      + destruct HI as [Hl H]. split; auto. intros p Hp. destruct (H p Hp) as (H1 & H2 & H3).
        split; auto. split; [|intros; lia]. intros. apply H2; auto. lia.
    - replace (i <? us) with true by (symmetry; apply Z.ltb_lt; lia). unfold USA_STRIDE.
      pose proof HI as [Hl H].
      assert (ET : slice data (i * 512 - 2) (i * 512 - 2 + 2) = tail raw (i - 1)).
      { unfold tail. replace (512 * (i - 1) + 510) with (i * 512 - 2) by lia.
        replace (512 * (i - 1) + 512) with (i * 512 - 2 + 2) by lia.
        apply slice_ext; auto; [lia|]. intros j Hj. destruct (H j ltac:(lia)) as (_ & _ & H3). apply H3; lia. }
      rewrite ET. destruct (zlist_eqb (usn_of raw uo) (tail raw (i - 1))) eqn:E; cbn [negb].
      2:{ apply zlist_eqb_neq in E. intro K. apply E. symmetry. apply K; lia. }
      apply zlist_eqb_eq in E.
      destruct (slice2 data (uo + i * 2) ltac:(lia) ltac:(lia)) as (a & b & Es & Ha & Hb).
      rewrite Es. cbn [index znth bind]. change (0 <? 0) with false. cbn [bind]. change (1 =? 0) with false.
      change (1 - 1) with 0. cbn [znth]. change (0 =? 0) with true. change (1 <? 0) with false. cbn [bind].
      apply IH; try lia.
      + apply UInv_step; auto; lia.
      + intros k Hk. destruct (Z.eq_dec k (i - 1)) as [->|]; [red; congruence|apply HP; lia].
  Qed.

  Lemma usa_apply_spec :
    match usa_apply raw uo us with
    | Ok (Some out) => all_intact raw uo /\ same_body raw out /\
        (uo + 2 * us <= 510 -> tails_restored raw out uo)
    | Ok None => ~ all_intact raw uo
    | Err _ => False
    end.
  Proof.
    unfold usa_apply. fold (usn_of raw uo).
    pose proof (zlen_nonneg raw).
    pose proof (usa_loop_spec (Z.to_nat (us - 1)) (S (Z.to_nat us)) raw 1) as H0.
    assert (HI : UInv raw 1) by (split; auto; intros p Hp; repeat split; auto; intros; lia).
    specialize (H0 HI ltac:(lia) eq_refl ltac:(lia) ltac:(intros; lia)).
    destruct (usa_loop (S (Z.to_nat us)) (usn_of raw uo) uo us raw 1) as [[out|]|e]; auto.
    destruct H0 as [H1 [H2 H3]]. split; auto. split.
    - split; auto. intros p Hp Hm. destruct (H3 p Hp) as [G _]. auto.
    - intros Ho p Hp Hm. destruct (H3 p Hp) as (_ & G & _). apply G; auto. lia.
  Qed.
End Fixup.

Lemma usa_apply_bytes_ok raw uo us out : bytes_ok raw -> usa_apply raw uo us = Ok (Some out) -> bytes_ok out.
Proof.
  unfold usa_apply. generalize (slice raw uo (uo + 2)) (S (Z.to_nat us)) 1. intros s fuel.
  revert raw. induction fuel as [|fuel IH]; intros raw i B; cbn [usa_loop]; [discriminate|].
  destruct (i <? us); [|congruence]. destruct (negb _); [discriminate|]. intro H.
  apply bind_ok in H as [a [Ha H]]. apply bind_ok in H as [b [Hb H]].
  apply index_ok in Ha, Hb. apply (IH _ _) in H; auto.
  assert (BS : bytes_ok (slice raw (uo + i * 2) (uo + i * 2 + 2))) by (apply bytes_ok_slice; auto).
  apply zset_bytes_ok; [apply zset_bytes_ok; auto|]; eapply bytes_ok_znth; eauto.
Qed.

(** ** Round trip *)

Lemma protect_facts rec usn uo us : zlen usn = 2 -> usa_off rec = uo ->
  8 <= uo -> (us - 1) * 512 = zlen rec -> uo + 2 * us <= 510 ->
  let raw := protect rec usn in
  zlen raw = zlen rec /\ zlen (with_array rec usn) = zlen rec /\
  (bytes_ok rec -> bytes_ok usn -> bytes_ok raw) /\
  (forall p, 0 <= p < uo -> znth raw p = znth rec p) /\
  (forall p, 0 <= p < zlen rec -> p < uo \/ uo + 2 * us <= p -> znth (with_array rec usn) p = znth rec p) /\
  all_intact raw uo /\
  (forall out, same_body raw out -> tails_restored raw out uo -> out = with_array rec usn).
Proof.
  intros Hu Euo A1 A2 Hno raw0.
  set (n := Z.to_nat (zlen rec / 512)).
  pose proof (zlen_nonneg rec) as Hnn.
  assert (Hn : 512 * Z.of_nat n = zlen rec) by (unfold n; rewrite Z2Nat.id; lia).
  destruct (Z.eq_dec (zlen rec) 0) as [E0|E0].
  { apply zlen_0 in E0. exfalso. subst rec. change (usa_off []) with 0 in Euo. lia. }
  assert (P0 : forall p, 0 <= p -> znth (put rec uo usn) p =
            if (uo <=? p) && (p <? uo + 2) then znth usn (p - uo) else znth rec p).
  { intros p Hp; rewrite znth_put by lia; now rewrite Hu. }
  assert (PL : zlen (put rec uo usn) = zlen rec) by (apply zlen_put; lia).
  destruct (put_saved_spec (put rec uo usn) rec uo n) as [CL [CB C]]; [lia|lia|lia|].
  unfold raw0, protect, with_array; rewrite Euo; fold n.
  set (clean := put_saved (put rec uo usn) rec uo n) in *.
  destruct (put_tails_spec clean usn n Hu ltac:(lia)) as [RL [RB R]].
  set (raw := put_tails clean usn n) in *.
  assert (Lraw : zlen raw = zlen rec) by lia.
  assert (Usn : usn_of raw uo = usn).
  { unfold usn_of. apply znth_ext; [rewrite zlen_slice by lia; lia|].
    intros i Hi; rewrite zlen_slice in Hi by lia; rewrite znth_slice by lia.
    rewrite R by lia. replace (_ && _) with false by lia.
    rewrite C by lia. replace (_ && _) with false by lia.
    rewrite P0 by lia. replace (_ && _) with true by lia. f_equal; lia. }
  assert (Int : forall k, 0 <= k -> 512 * (k + 1) <= zlen raw -> intact raw uo k).
  { intros k Hk Hk2; red; rewrite Usn. unfold tail.
    apply znth_ext; [rewrite zlen_slice by lia; lia|].
    intros i Hi; rewrite zlen_slice in Hi by lia; rewrite znth_slice by lia.
    rewrite R by lia. replace (_ && _) with true by lia. f_equal; lia. }
  split; [auto|]. split; [lia|]. split.
  { intros B1 B2. apply RB; auto. apply CB; auto. apply bytes_ok_put; auto. }
  split.
  { intros p Hp. rewrite R by lia. replace (_ && _) with false by lia.
    rewrite C by lia. replace (_ && _) with false by lia.
    rewrite P0 by lia. replace (_ && _) with false by lia. reflexivity. }
  split.
  { intros p Hp Hout. rewrite C by lia. replace (_ && _) with false by lia.
    rewrite P0 by lia. replace (_ && _) with false by lia. reflexivity. }
  split; [exact Int|].
  intros out [O1 O2] O3. apply znth_ext; [lia|]. intros p Hp.
  destruct (Z.lt_ge_cases (p mod 512) 510) as [Hlow|Hhigh].
  - rewrite O2 by lia. rewrite R by lia. replace (_ && _) with false by lia. auto.
  - rewrite O3 by lia. rewrite R by lia. replace (_ && _) with false by lia.
    rewrite C by lia. replace (_ && _) with true by lia.
    rewrite C by lia. replace (_ && _) with false by lia.
    rewrite P0 by lia. replace (_ && _) with false by lia. f_equal; lia.
Qed.
