From Verif Require Import Base BaseLemmas MappingPairs MappingPairsSpec MappingPairsProofs Frs FrsSpec FrsProofs.
From Verif Require Import FragmentedFile FragmentedFileSpec Filetime Usa UsaSpec UsaProofs.
From Verif Require Import FieldLemmas Attributes AttributesSpec.

(** ** Index sectors *)

Lemma index_sectors_spec raw : bytes_ok raw ->
  match unprotect_index raw with
  | Ok (Some out) => index_sectors_ok raw /\ same_body raw out /\
      (usa_off raw + 2 * usa_cnt raw <= 510 -> tails_restored raw out (usa_off raw))
  | Ok None => ~ index_sectors_ok raw
  | Err _ => False
  end.
Proof.
  intro B. unfold unprotect_index, index_sectors_ok, UPDATE_SEQUENCE_STRIDE_INDEX.
  destruct (_ || _) eqn:E1; bools; [lia|].
  unfold u16. rewrite !unp_ok by lia. cbn [bind]. fold (usa_off raw) (usa_cnt raw).
  pose proof (fld_bound 2 raw 4 ltac:(lia) ltac:(lia) B) as F4. fold (usa_off raw) in F4.
  destruct (_ || _) eqn:E2; bools; [lia|].
  destruct (_ || _) eqn:E3; bools; [lia|].
  destruct (_ <=? _) eqn:E4; bools; [lia|].
  pose proof (usa_apply_spec raw (usa_off raw) (usa_cnt raw) ltac:(lia) ltac:(lia) ltac:(lia)) as U.
  destruct (usa_apply raw (usa_off raw) (usa_cnt raw)) as [[out|]|e]; cbn [bind]; try tauto.
  destruct U as (U1 & U2 & U3).
  assert (ES : slice out 0 4 = ztake 4 raw).
  { change (ztake 4 raw) with (ztake (4 - 0) raw). rewrite <- (zdrop_nonpos raw 0) at 1 by lia.
    fold (slice raw 0 4). destruct U2 as [L U2]. apply slice_ext; auto; [lia|].
    intros i Hi. apply U2; lia. }
  rewrite ES. destruct (zlist_eqb (ztake 4 raw) sig_INDX) eqn:E5.
  - apply zlist_eqb_eq in E5. repeat (split; try lia); auto; apply U2.
  - apply zlist_eqb_neq in E5. tauto.
Qed.

Lemma index_round_trip rec usn : bytes_ok rec -> bytes_ok usn -> zlen usn = 2 ->
  1024 <= zlen rec -> zlen rec mod 512 = 0 -> ztake 4 rec = [73; 78; 68; 88] ->
  40 <= usa_off rec -> (usa_cnt rec - 1) * 512 = zlen rec -> usa_off rec + 2 * usa_cnt rec <= 510 ->
  unprotect_index (protect rec usn) = Ok (Some (with_array rec usn)).
Proof.
  intros B1 B2 Hu H1 H2 Hs H3 H4 H5.
  destruct (protect_facts rec usn (usa_off rec) (usa_cnt rec) Hu eq_refl ltac:(lia) H4 H5)
    as (L & L2 & B & Pre & _ & Int & Out).
  specialize (B B1 B2). set (raw := protect rec usn) in *.
  assert (FH : forall w p, 0 <= p -> p + w <= 40 -> fld w raw p = fld w rec p).
  { intros w p Hp Hw; apply fld_ext; auto; intros i Hi; apply Pre; lia. }
  assert (Euo : usa_off raw = usa_off rec) by (apply FH; lia).
  assert (Eus : usa_cnt raw = usa_cnt rec) by (apply FH; lia).
  assert (Es : ztake 4 raw = ztake 4 rec).
  { apply znth_ext; [rewrite !zlen_ztake; lia|]. intros i Hi. rewrite zlen_ztake in Hi.
    rewrite !znth_ztake by lia. apply Pre. lia. }
  pose proof (index_sectors_spec raw B) as S.
  assert (OK : index_sectors_ok raw).
  { unfold index_sectors_ok. rewrite Euo, Eus, L, Es. repeat (split; try lia); auto. }
  destruct (unprotect_index raw) as [[out|]|e]; try tauto.
  destruct S as (_ & S1 & S2). rewrite Euo, Eus in S2. do 2 f_equal. apply Out; auto.
Qed.

(** ** Partial $STANDARD_INFORMATION *)

Lemma partial_field (frag : list Z) off k : 0 <= off -> 0 <= k ->
  (off <= 8 * k /\ 8 * k + 8 <= zlen (zeros off ++ frag) <-> covered frag off k) /\
  (covered frag off k -> u64 (zeros off ++ frag) (8 * k) = Ok (covered_field frag off k)).
Proof.
  intros Ho Hk. pose proof (zlen_nonneg frag).
  assert (L : zlen (zeros off ++ frag) = off + zlen frag) by (rewrite zlen_app, zlen_zeros; lia).
  unfold covered, covered_field. rewrite L. split; [lia|]. intros [H1 H2].
  unfold u64. rewrite unp_ok by lia. rewrite fld_app_r by (rewrite zlen_zeros; lia).
  rewrite zlen_zeros by lia. unfold fld, slice. do 2 f_equal. f_equal. lia.
Qed.

(** ** Attribute lists *)

Lemma align8_unique n m : 0 <= n -> n <= m < n + 8 -> m mod 8 = 0 -> m = align8 n.
Proof. intros. pose proof (align8_spec n ltac:(lia)). lia. Qed.

Lemma al_entry_fun v pos e n e' n' : al_entry_at v pos e n -> al_entry_at v pos e' n' -> e = e' /\ n = n'.
Proof.
  unfold al_entry_at. intros (A1 & A2 & A3 & A4 & A5 & A6 & A7 & A8) (B1 & B2 & B3 & B4 & B5 & B6 & B7 & B8).
  split; [|congruence]. destruct e, e'. cbn in *. f_equal; try congruence.
  destruct A8 as [[? ?]|(? & ? & ?)], B8 as [[? ?]|(? & ? & ?)]; try lia; congruence.
Qed.

Lemma al_walk_fun v pos l : al_walk v pos l -> forall l', al_walk v pos l' -> l = l'.
Proof.
  induction 1 as [pos H|pos e n m l H Hm H8 HW IH]; intros l' W; inversion W as [? H'|? e' n' m' t H' Hm' H8' HW']; subst.
  - reflexivity.
  - now apply H in H'.
  - now apply H' in H.
  - destruct (al_entry_fun _ _ _ _ _ _ H H') as [-> ->].
    assert (m' = m) by lia. subst. f_equal. auto.
Qed.

Lemma al_loop_walk v : bytes_ok v -> forall fuel pos, 0 <= pos -> (Z.to_nat (zlen v - pos) < fuel)%nat ->
  exists l, al_loop fuel v pos = (l, Done) /\ al_walk v pos l.
Proof.
  intro B. induction fuel as [|fuel IH]; intros pos Hp Hf; [lia|]. cbn [al_loop].
  pose proof (zlen_nonneg v) as Hn.
  destruct (pos <? zlen v) eqn:E1; cbn [negb]; bools.
  2:{ exists []. split; auto. constructor. intros e n [H _]. lia. }
  assert (LH : zlen (slice v pos (pos + 26)) = Z.min 26 (zlen v - pos)) by (rewrite zlen_slice; lia).
  destruct (zlen _ =? 26) eqn:E2; cbn [negb]; bools.
  2:{ exists []. split; auto. constructor. intros e n [H _]. lia. }
  assert (F : forall w o, 0 <= o -> o + w <= 26 -> fld w (slice v pos (pos + 26)) o = fld w v (pos + o)).
  { intros. apply fld_slice; lia. }
  rewrite !F by lia. replace (pos + 0) with pos by lia.
  pose proof (fld_bound 1 v (pos + 6) ltac:(lia) ltac:(lia) B) as B6.
  pose proof (fld_bound 1 v (pos + 7) ltac:(lia) ltac:(lia) B) as B7.
  destruct (_ <? 26) eqn:E3; bools.
  { exists []. split; auto. constructor. intros e n (_ & H1 & H2 & _). lia. }
  destruct ((0 <? _) && _) eqn:E4; bools.
  { exists []. split; auto. constructor. intros e n (_ & G1 & G2 & _ & _ & _ & _ & G). lia. }
  pose proof (align8_spec (fld 2 v (pos + 4)) ltac:(lia)) as A.
  destruct (IH (pos + align8 (fld 2 v (pos + 4))) ltac:(lia) ltac:(lia)) as (l & El & W).
  rewrite El. unfold gcons. cbn [fst snd]. eexists. split; [reflexivity|].
  eapply alw_entry with (n := fld 2 v (pos + 4)) (m := align8 (fld 2 v (pos + 4))); try lia; auto.
  unfold al_entry_at. cbn [al_type al_lowest al_segment al_instance al_name].
  repeat (split; [solve [auto|lia]|]).
  destruct (0 <? fld 1 v (pos + 6)) eqn:E5; bools; [right|left; split; auto; lia].
  repeat (split; [solve [auto|lia]|]). f_equal. f_equal. f_equal. lia.
Qed.

Lemma al_entries_iff v l : bytes_ok v -> al_walk v 0 l <-> al_entries v = (l, Done).
Proof.
  intro B. unfold al_entries.
  destruct (al_loop_walk v B (S (length v)) 0 ltac:(lia) ltac:(unfold zlen; lia)) as (l' & E & W).
  rewrite E. split; intro H.
  - now rewrite (al_walk_fun _ _ _ H _ W).
  - injection H as <-. auto.
Qed.

Lemma al_walk_inside v pos l : al_walk v pos l -> 0 <= pos -> bytes_ok v -> 26 * zlen l <= Z.max 0 (zlen v - pos).
Proof.
  induction 1 as [pos H|pos e n m l H Hm H8 HW IH]; intros Hp B; [change (zlen (@nil al_entry)) with 0; lia|].
  destruct H as (H1 & H2 & H3 & _). specialize (IH ltac:(lia) B). rewrite zlen_cons. lia.
Qed.

Definition al_whole (l : list al_image) : list Z := flat_map ali_bytes l.

Lemma ali_bytes_len i : zlen (ali_bytes i) = ali_length i + zlen (ali_pad i).
Proof. unfold ali_bytes, ali_length. lens. lia. Qed.

Lemma ali_at pre i rest : ali_ok i ->
  al_entry_at (pre ++ ali_bytes i ++ rest) (zlen pre) (ali_entry i) (ali_length i).
Proof.
  intros (H1 & H2 & H3 & H4 & H5 & H6 & H7 & H8 & H9 & H10).
  pose proof (zlen_nonneg pre). pose proof (zlen_nonneg rest).
  pose proof (zlen_nonneg (ali_gap i)). pose proof (zlen_nonneg (ali_name i)).
  pose proof (zlen_nonneg (ali_extra i)). pose proof (zlen_nonneg (ali_pad i)).
  assert (F : forall w o, 0 <= o -> fld w (pre ++ ali_bytes i ++ rest) (zlen pre + o) = fld w (ali_bytes i ++ rest) o).
  { intros. rewrite fld_app_r by lia. f_equal. lia. }
  assert (F0 : forall w, fld w (pre ++ ali_bytes i ++ rest) (zlen pre) = fld w (ali_bytes i ++ rest) 0).
  { intros. rewrite fld_app_r by lia. f_equal. lia. }
  unfold al_entry_at. rewrite !F, F0 by lia.
  unfold ali_length in *.
  assert (E6 : fld 1 (ali_bytes i ++ rest) 6 = zlen (ali_name i) / 2).
  { unfold ali_bytes. rewrite <- !app_assoc. fget. }
  assert (E7 : fld 1 (ali_bytes i ++ rest) 7 = 26 + zlen (ali_gap i)).
  { unfold ali_bytes. rewrite <- !app_assoc. fget. }
  rewrite E6, E7.
  split. { rewrite !zlen_app, ali_bytes_len. unfold ali_length. lia. }
  split. { symmetry. unfold ali_bytes, ali_length. rewrite <- !app_assoc. fget. }
  split; [lia|].
  split. { symmetry. unfold ali_bytes. rewrite <- !app_assoc. cbn [ali_entry al_type]. fget. }
  split. { symmetry. unfold ali_bytes. rewrite <- !app_assoc. cbn [ali_entry al_lowest]. fget. }
  split. { symmetry. unfold ali_bytes. rewrite <- !app_assoc. cbn [ali_entry al_segment]. fget. }
  split. { symmetry. unfold ali_bytes. rewrite <- !app_assoc. cbn [ali_entry al_instance]. fget. }
  cbn [ali_entry al_name]. destruct (ali_name i) as [|c t] eqn:EN; [left; split; auto|right].
  assert (0 < zlen (c :: t)) by (rewrite zlen_cons; pose proof (zlen_nonneg t); lia).
  rewrite <- EN in *. split; [lia|]. split; [lia|]. f_equal. f_equal.
  unfold ali_bytes. rewrite <- !app_assoc.
  rewrite slice_app_r by lia. do 8 (rewrite slice_app_r by (lens; lia)).
  symmetry. rewrite !le_bytes_len. cbn [Z.of_nat Pos.of_succ_nat Pos.succ].
  replace (_ - zlen (ali_gap i)) with 0 by lia. apply slice_prefix. lia.
Qed.

Lemma al_walk_images l : forall pre, Forall ali_ok l -> al_walk (pre ++ al_whole l) (zlen pre) (map ali_entry l).
Proof.
  induction l as [|i l IH]; intros pre H; cbn [al_whole flat_map map].
  - constructor. intros e n [K _]. rewrite app_nil_r in K. lia.
  - inversion H as [|? ? Hi Hl]; subst. fold (al_whole l).
    eapply alw_entry with (m := ali_length i + zlen (ali_pad i)).
    + now apply ali_at.
    + destruct Hi as (_ & _ & _ & _ & _ & _ & _ & _ & ? & ?). pose proof (zlen_nonneg (ali_pad i)). lia.
    + apply Hi.
    + rewrite <- ali_bytes_len, <- zlen_app, app_assoc. apply IH; auto.
Qed.

Lemma al_whole_entries l : Forall ali_ok l -> bytes_ok (al_whole l) ->
  al_entries (al_whole l) = (map ali_entry l, Done).
Proof. intros H B. apply al_entries_iff; auto. apply (al_walk_images l [] H). Qed.
