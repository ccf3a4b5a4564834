From Verif Require Import Base BaseLemmas FieldLemmas MappingPairs MappingPairsSpec MappingPairsProofs
  Frs FrsSpec FrsProofs Usa UsaSpec UsaProofs Crc32 Crc32Proofs LogPage LogFile LogSpec.

(** ** The update sequence loop, exactly *)
Section Turn.
  Variable raw : list Z.
  Variable uo us : Z.
  Hypothesis Huo : 0 <= uo.
  Hypothesis Hus : (us - 1) * 512 = zlen raw.
  Hypothesis Hend : uo + 2 * us <= zlen raw.

  Definition turned (data : list Z) (p : Z) : Prop :=
    let q := saved_at uo p in
    znth data p = if (510 <=? q mod 512) && (q / 512 <? p / 512) then znth data q else znth raw q.

  Definition TInv (data : list Z) (i : Z) : Prop :=
    zlen data = zlen raw /\
    forall p, 0 <= p < zlen raw ->
      (p mod 512 < 510 -> znth data p = znth raw p) /\
      (510 <= p mod 512 -> p / 512 < i - 1 -> turned data p) /\
      (510 <= p mod 512 -> i - 1 <= p / 512 -> znth data p = znth raw p).

  Lemma TInv_step data i a b : TInv data i -> 1 <= i < us ->
    znth data (uo + i * 2) = Some a -> znth data (uo + i * 2 + 1) = Some b ->
    TInv (zset (zset data (i * 512 - 2) a) (i * 512 - 2 + 1) b) (i + 1).
  Proof.
    intros [Hl H] Hi Ha Hb. split; [now rewrite !zlen_zset|].
    assert (Low : forall q, q / 512 < i - 1 ->
      znth (zset (zset data (i * 512 - 2) a) (i * 512 - 2 + 1) b) q = znth data q).
    { intros q Hq. rewrite !znth_zset_other by lia. reflexivity. }
    assert (Src : forall q, 0 <= q < zlen raw ->
      znth data q = if (510 <=? q mod 512) && (q / 512 <? i - 1) then znth data q else znth raw q).
    { intros q Hq. destruct (H q Hq) as (H1 & _ & H3).
      destruct (510 <=? q mod 512) eqn:E1; cbn [andb]; [|apply H1; lia].
      destruct (q / 512 <? i - 1) eqn:E2; [reflexivity|apply H3; lia]. }
    intros p Hp. destruct (H p Hp) as (H1 & H2 & H3).
    destruct (Z.eq_dec p (i * 512 - 2)) as [->|N1]; [|destruct (Z.eq_dec p (i * 512 - 2 + 1)) as [->|N2]].
    - split; [lia|]. split; [|lia]. intros _ _. unfold turned.
      replace (saved_at uo (i * 512 - 2)) with (uo + i * 2) by (unfold saved_at; lia).
      rewrite znth_zset_other by lia. rewrite znth_zset_same by lia.
      rewrite <- Ha, Src by lia. replace ((i * 512 - 2) / 512) with (i - 1) by lia.
      destruct (510 <=? (uo + i * 2) mod 512) eqn:E1; cbn [andb]; [|reflexivity].
      destruct ((uo + i * 2) / 512 <? i - 1) eqn:E2; [|reflexivity].
      symmetry. apply Low. lia.
    - split; [lia|]. split; [|lia]. intros _ _. unfold turned.
      replace (saved_at uo (i * 512 - 2 + 1)) with (uo + i * 2 + 1) by (unfold saved_at; lia).
      rewrite znth_zset_same by (rewrite zlen_zset; lia).
      rewrite <- Hb, Src by lia. replace ((i * 512 - 2 + 1) / 512) with (i - 1) by lia.
      destruct (510 <=? (uo + i * 2 + 1) mod 512) eqn:E1; cbn [andb]; [|reflexivity].
      destruct ((uo + i * 2 + 1) / 512 <? i - 1) eqn:E2; [|reflexivity].
      symmetry. apply Low. lia.
    - split; [|split].
      + intros. rewrite !znth_zset_other by lia. auto.
      + intros M Hq. unfold turned.
        assert (Hp2 : p / 512 < i - 1) by lia. specialize (H2 M Hp2). unfold turned in H2.
        rewrite (Low p Hp2). rewrite H2. cbv zeta.
        destruct (_ && _) eqn:E; [|reflexivity]. symmetry. apply Low. lia.
      + intros. rewrite !znth_zset_other by lia. apply H3; auto; lia.
  Qed.

  Lemma usa_loop_turn n : forall fuel data i, TInv data i -> 1 <= i -> n = Z.to_nat (us - i) -> (n < fuel)%nat ->
    (forall k, 0 <= k < i - 1 -> intact raw uo k) ->
    match usa_loop fuel (usn_of raw uo) uo us data i with
    | Ok (Some out) => all_intact raw uo /\ TInv out us
    | Ok None => ~ all_intact raw uo
    | Err _ => False
    end.
  Proof.
    induction n as [|n IH]; intros fuel data i HI Hi En Hf HP; (destruct fuel as [|fuel]; [lia|]); cbn [usa_loop].
    - replace (i <? us) with false by (symmetry; apply Z.ltb_ge; lia). split.
      + intros k Hk Hk2. apply HP. lia.
      + destruct HI as [Hl H]. split; auto. intros p Hp. destruct (H p Hp) as (H1 & H2 & H3).
        split; auto. split; [|intros; lia]. intros. apply H2; auto. lia.
    - replace (i <? us) with true by (symmetry; apply Z.ltb_lt; lia). unfold USA_STRIDE.
      pose proof HI as [Hl H].
      assert (ET : slice data (i * 512 - 2) (i * 512 - 2 + 2) = tail raw (i - 1)).
      { unfold tail. replace (512 * (i - 1) + 510) with (i * 512 - 2) by lia.
        replace (512 * (i - 1) + 512) with (i * 512 - 2 + 2) by lia.
        apply slice_ext; auto; [lia|]. intros j Hj. destruct (H j ltac:(lia)) as (_ & _ & H3). apply H3; lia. }
      rewrite ET. destruct (zlist_eqb (usn_of raw uo) (tail raw (i - 1))) eqn:E; cbn [negb].
      2:{ apply zlist_eqb_neq in E. intro K. apply E. symmetry. apply K; lia. }
      apply zlist_eqb_eq in E.
      destruct (slice2 data (uo + i * 2) ltac:(lia) ltac:(lia)) as (a & b & Es & Ha & Hb).
      rewrite Es. cbn [index znth bind]. change (0 <? 0) with false. cbn [bind]. change (1 =? 0) with false.
      change (1 - 1) with 0. cbn [znth]. change (0 =? 0) with true. change (1 <? 0) with false. cbn [bind].
      apply IH; try lia.
      + apply TInv_step; auto; lia.
      + intros k Hk. destruct (Z.eq_dec k (i - 1)) as [->|]; [red; congruence|apply HP; lia].
  Qed.

  Lemma usa_apply_turn :
    match usa_apply raw uo us with
    | Ok (Some out) => all_intact raw uo /\ same_body raw out /\ tails_in_turn raw out uo
    | Ok None => ~ all_intact raw uo
    | Err _ => False
    end.
  Proof.
    unfold usa_apply. fold (usn_of raw uo).
    pose proof (zlen_nonneg raw).
    pose proof (usa_loop_turn (Z.to_nat (us - 1)) (S (Z.to_nat us)) raw 1) as H0.
    assert (HI : TInv raw 1) by (split; auto; intros p Hp; repeat split; auto; intros; lia).
    specialize (H0 HI ltac:(lia) eq_refl ltac:(lia) ltac:(intros; lia)).
    destruct (usa_loop (S (Z.to_nat us)) (usn_of raw uo) uo us raw 1) as [[out|]|e]; auto.
    destruct H0 as [H1 [H2 H3]]. split; auto. split.
    - split; auto. intros p Hp Hm. destruct (H3 p Hp) as [G _]. auto.
    - intros p Hp Hm. destruct (H3 p Hp) as (_ & G & _). apply G; auto. lia.
  Qed.

  (** The conditions determine the content. *)
  Lemma turn_unique a b : same_body raw a -> tails_in_turn raw a uo ->
    same_body raw b -> tails_in_turn raw b uo -> a = b.
  Proof.
    intros [La Ba] Ta [Lb Bb] Tb. apply znth_ext; [congruence|]. intros p Hp.
    assert (G : forall m, 0 <= m -> forall p, 0 <= p < zlen raw -> p / 512 < m -> znth a p = znth b p).
    { intros m Hm. pattern m. apply natlike_ind; auto; clear m Hm p Hp.
      - intros p Hp K. lia.
      - intros m Hm IH p Hp K. destruct (Z.lt_ge_cases (p mod 512) 510) as [M|M].
        + rewrite Ba, Bb by lia. reflexivity.
        + rewrite Ta, Tb by lia. destruct (_ && _) eqn:E; [|reflexivity].
          apply andb_true_iff in E as [E1 E2]. apply IH; [|lia].
          unfold saved_at in *. lia. }
    apply (G (p / 512 + 1)); lia.
  Qed.
End Turn.

(** ** UnprotectSectors *)

Lemma u16_at buf off : bytes_ok buf -> 0 <= off -> off + 2 <= zlen buf ->
  u16 buf off = Ok (fld 2 buf off) /\ 0 <= fld 2 buf off < 65536.
Proof. intros. split; [apply unp_ok; lia|]. pose proof (fld_bound 2 buf off). lia. Qed.
Lemma u32_at buf off : bytes_ok buf -> 0 <= off -> off + 4 <= zlen buf ->
  u32 buf off = Ok (fld 4 buf off) /\ 0 <= fld 4 buf off < 4294967296.
Proof. intros. split; [apply unp_ok; lia|]. pose proof (fld_bound 4 buf off). lia. Qed.
Lemma u64_at buf off : bytes_ok buf -> 0 <= off -> off + 8 <= zlen buf ->
  u64 buf off = Ok (fld 8 buf off) /\ 0 <= fld 8 buf off < 18446744073709551616.
Proof. intros. split; [apply unp_ok; lia|]. pose proof (fld_bound 8 buf off). lia. Qed.

Lemma crc_protected_dec raw uo us : bytes_ok raw -> log_geometry raw uo us ->
  (crc_protected raw uo us <->
   zlist_eqb (slice raw (uo + 4) (uo + 8)) sig_CRC4 = true /\
   fld 4 raw uo =? crc32 (ztake uo raw ++ zeros (us * 2) ++ zdrop (uo + us * 2) raw) = true).
Proof.
  intros B (G1 & G2 & _ & _ & G5 & G6 & G7 & G8). unfold crc_protected, put.
  rewrite zlen_zeros by lia. replace (2 * us) with (us * 2) by lia.
  rewrite zlist_eqb_eq, Z.eqb_eq. unfold sig_CRC4. tauto.
Qed.

Definition unprotect_fails (raw : list Z) : Prop := forall out e, ~ unprotects raw out e.

Lemma unprotect_spec raw : bytes_ok raw ->
  match unprotect raw with
  | Ok (out, e) => unprotects raw out e
  | Err x => x = UpdateSequenceArrayException /\ unprotect_fails raw
  end.
Proof.
  intros B. unfold unprotect, USA_STRIDE.
  destruct (_ || _) eqn:E1.
  { split; auto. intros out e (uo & us & (G1 & G2 & _) & _). lia. }
  apply orb_false_iff in E1 as [E1 E2]. apply negb_false_iff in E2.
  destruct (u16_at raw 4 B ltac:(lia) ltac:(lia)) as [-> Bo].
  destruct (u16_at raw 6 B ltac:(lia) ltac:(lia)) as [-> Bs]. cbn [bind].
  set (uo := fld 2 raw 4) in *. set (us := fld 2 raw 6) in *.
  assert (F : forall P : Prop, (log_geometry raw uo us -> P) -> forall out e, unprotects raw out e -> P).
  { intros P HP out e (uo' & us' & G & _). pose proof G as (_ & _ & Eo & Es & _).
    fold uo in Eo. fold us in Es. subst uo' us'. auto. }
  destruct (_ || _) eqn:E3.
  { split; auto. intros out e U; refine (F _ _ out e U); intros (_ & _ & _ & _ & G & _). lia. }
  destruct ((us <? 2) || _) eqn:E4.
  { split; auto. intros out e U; refine (F _ _ out e U); intros (_ & _ & _ & _ & _ & G & G' & _). lia. }
  destruct (zlen raw <=? uo + us * 2) eqn:E5.
  { split; auto. intros out e U; refine (F _ _ out e U); intros (_ & _ & _ & _ & _ & _ & _ & G). lia. }
  apply orb_false_iff in E3 as [E3 E3']. apply orb_false_iff in E4 as [E4 E4']. apply negb_false_iff in E4'.
  assert (G : log_geometry raw uo us) by (unfold log_geometry; do 4 (split; [auto; lia|]); lia).
  pose proof (crc_protected_dec raw uo us B G) as CD.
  assert (Fin : ~ crc_protected raw uo us ->
    match bind (usa_apply raw uo us) (fun r => match r with None => Err UpdateSequenceArrayException
             | Some out => Ok (out, uo + us * 2) end) with
    | Ok (out, e) => unprotects raw out e
    | Err x => x = UpdateSequenceArrayException /\ unprotect_fails raw
    end).
  { intros NC. pose proof (usa_apply_turn raw uo us ltac:(lia) ltac:(lia) ltac:(lia)) as U.
    destruct (usa_apply raw uo us) as [[out|]|x]; cbn [bind]; [|split; auto|contradiction].
    - exists uo, us. split; [exact G|]. split; [lia|]. right. tauto.
    - intros out e (uo' & us' & G' & _ & H). pose proof G' as (_ & _ & Eo & Es & _).
      fold uo in Eo. fold us in Es. subst uo' us'. destruct H as [[H _]|[_ [H _]]]; auto. }
  destruct (zlist_eqb _ sig_CRC4) eqn:EC.
  2:{ apply Fin. intro K. apply CD in K as [K _]. discriminate. }
  destruct (u32_at raw uo B ltac:(lia) ltac:(lia)) as [-> _]. cbn [bind].
  destruct (_ =? crc32 _) eqn:EQ.
  - exists uo, us. split; [exact G|]. split; [lia|]. left. split; auto. apply CD. auto.
  - apply Fin. intro K. apply CD in K as [_ K]. discriminate.
Qed.

Lemma unprotects_fun raw o1 e1 o2 e2 : unprotects raw o1 e1 -> unprotects raw o2 e2 -> o1 = o2 /\ e1 = e2.
Proof.
  intros (uo & us & G & E & H) (uo' & us' & G' & E' & H').
  pose proof G as (G1 & G2 & Eo & Es & G5 & G6 & G7 & G8). pose proof G' as (_ & _ & Eo' & Es' & _).
  assert (Q1 : uo' = uo) by congruence. assert (Q2 : us' = us) by congruence.
  rewrite Q1, Q2 in *. clear uo' us' Q1 Q2 Eo' Es'.
  split; [|congruence].
  destruct H as [[C H]|(C & I & S & T)], H' as [[C' H']|(C' & I' & S' & T')];
    [congruence|contradiction|contradiction|].
  apply (turn_unique raw uo us ltac:(lia) ltac:(lia) ltac:(lia) o1 o2); auto.
Qed.

Lemma unprotect_iff raw out e : bytes_ok raw -> (unprotect raw = Ok (out, e) <-> unprotects raw out e).
Proof.
  intros B. pose proof (unprotect_spec raw B) as H. destruct (unprotect raw) as [[o' e']|x].
  - split; [intros K; injection K as <- <-; exact H|]. intro K.
    destruct (unprotects_fun _ _ _ _ _ H K) as [-> ->]. reflexivity.
  - destruct H as [_ H]. split; [discriminate|]. intro K. destruct (H _ _ K).
Qed.

Lemma unprotects_len raw out e : unprotects raw out e -> zlen out = zlen raw /\ 1024 <= zlen raw /\
  12 <= e < zlen raw /\ e <= 508 + 2 * (zlen raw / 512).
Proof.
  intros (uo & us & (G1 & G2 & _ & _ & G5 & G6 & G7 & G8) & -> & H). split; [|lia].
  destruct H as [[_ ->]|(_ & _ & [L _] & _)]; auto.
Qed.

Lemma unprotects_bytes raw out e : bytes_ok raw -> unprotects raw out e -> bytes_ok out.
Proof.
  intros B (uo & us & G & _ & H). pose proof G as (G1 & G2 & _ & _ & G5 & G6 & G7 & G8).
  destruct H as [[_ ->]|(_ & I & S & T)]; auto.
  pose proof (usa_apply_turn raw uo us ltac:(lia) ltac:(lia) ltac:(lia)) as U.
  destruct (usa_apply raw uo us) as [[o|]|x] eqn:E; try contradiction.
  destruct U as (_ & S' & T'). rewrite (turn_unique raw uo us ltac:(lia) ltac:(lia) ltac:(lia) out o) by auto.
  eapply usa_apply_bytes_ok; eauto.
Qed.

(** The array does not reach the first tail: tails come straight from it. *)
Lemma turn_restored raw out uo us : (us - 1) * 512 = zlen raw -> 0 <= uo -> uo + 2 * us <= 510 ->
  (tails_in_turn raw out uo <-> tails_restored raw out uo).
Proof.
  intros H1 H0 H2. unfold tails_in_turn, tails_restored, saved_at. split; intros H p Hp M; specialize (H p Hp M).
  - cbv zeta in H. rewrite H. replace (510 <=? _) with false; [reflexivity|]. symmetry. apply Z.leb_gt. lia.
  - cbv zeta. rewrite H. replace (510 <=? _) with false; [reflexivity|]. symmetry. apply Z.leb_gt. lia.
Qed.
