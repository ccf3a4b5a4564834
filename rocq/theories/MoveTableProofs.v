(** Proofs about the move table. *)
From Verif Require Import Base BaseLemmas FrsProofs FieldLemmas Filetime FiletimeProofs Attributes MoveTable MoveTableSpec.

Definition knownb (e : list Z) : bool := (fld 4 e 8 =? 1) || (fld 4 e 8 =? 2).

(** The entries up to the first one of an unknown type. *)
Fixpoint cut (l : list (list Z)) : gen (list Z) :=
  match l with
  | [] => ([], Done)
  | e :: t => if knownb e then gcons e (cut t) else ([], Raised NotImplementedError)
  end.

Definition gused (g : gen (list Z)) : gen (list Z) := (filter (fun e => negb (fld 4 e 8 =? 1)) (fst g), snd g).

Lemma cut_app a b : gused (cut (a ++ b)) =
  match snd (cut a) with Done => gapp (fst (gused (cut a))) (gused (cut b)) | Raised x => (fst (gused (cut a)), Raised x) end.
Proof.
  induction a as [|e a IH]; cbn [app cut].
  - cbn. unfold gapp, gused. destruct (cut b). reflexivity.
  - destruct (knownb e); [|reflexivity]. unfold gused, gcons in *. cbn [fst snd] in *.
    destruct (snd (cut a)); cbn [filter] in *; destruct (negb (fld 4 e 8 =? 1)); unfold gapp in *; cbn [fst snd app] in *; injection IH as -> ->; reflexivity.
Qed.

Lemma cut_known l : Forall known_type l -> gused (cut l) = (used_slots l, Done).
Proof.
  induction 1 as [|e l H Hl IH]; [reflexivity|]. cbn [cut]. unfold knownb. unfold gused, gcons, used_slots in *. cbn [fst snd] in *.
  injection IH as I1 I2. destruct H as [H|H]; rewrite H; cbn [Z.eqb Pos.eqb orb fst snd filter]; rewrite H; cbn [Z.eqb Pos.eqb negb]; rewrite ?I1, ?I2; reflexivity.
Qed.

Lemma cut_unknown a e b : Forall known_type a -> ~ known_type e -> gused (cut (a ++ e :: b)) = (used_slots a, Raised NotImplementedError).
Proof.
  intros H1 H2. rewrite cut_app. pose proof (cut_known a H1) as E. destruct (cut a) as [l st]. unfold gused in E. cbn [fst snd] in E.
  injection E as E1 E2. cbn [snd]. rewrite E2. unfold gused, gapp. cbn [fst snd cut].
  destruct (knownb e) eqn:K; [exfalso; apply H2; unfold knownb, known_type in *; lia|].
  cbn [fst snd filter]. now rewrite E1, app_nil_r.
Qed.

Lemma mte_open_spec e : zlen e = 124 -> mte_open e = if knownb e then Ok e else Err NotImplementedError.
Proof.
  intro L. unfold mte_open, mte_type, u32. rewrite L. cbn [Z.eqb Pos.eqb negb]. rewrite unp_ok by lia. cbn [bind].
  unfold knownb. destruct (_ || _); reflexivity.
Qed.

Lemma mts_loop_cut buf : forall k j fuel, (k < fuel)%nat -> 0 <= j ->
  124 * (j + Z.of_nat k) <= zlen buf - 16 < 124 * (j + Z.of_nat k + 1) ->
  mts_loop fuel buf (124 * j) = cut (map (fun j => slice buf (124 * j) (124 * j + 124)) (zseq j k)).
Proof.
  induction k as [|k IH]; intros j [|fuel] Hf Hj HL; try lia; cbn [mts_loop zseq map cut].
  - now replace (124 * j + 124 <=? zlen buf - 16) with false by lia.
  - replace (124 * j + 124 <=? zlen buf - 16) with true by lia. cbn [negb].
    assert (L : zlen (slice buf (124 * j) (124 * j + 124)) = 124) by (rewrite zlen_slice by lia; lia).
    rewrite L. cbn [Z.eqb Pos.eqb negb]. rewrite mte_open_spec by auto.
    destruct (knownb _); [|reflexivity]. f_equal.
    replace (124 * j + 124) with (124 * (j + 1)) by lia. apply IH; lia.
Qed.

Lemma mts_entries_cut data base size : 0 <= base -> size = 512 \/ size = 4096 -> base + size <= zlen data ->
  mts_entries (slice data base (base + size)) = cut (sector_slots data base size).
Proof.
  intros Hb Hs HL. set (buf := slice data base (base + size)).
  assert (L : zlen buf = size) by (unfold buf; rewrite zlen_slice by lia; lia).
  unfold mts_entries. change 0 with (124 * 0) at 1.
  rewrite (mts_loop_cut buf (if size =? 512 then 4%nat else 32%nat)).
  - unfold sector_slots. f_equal. apply map_ext_in. intros j Hj. unfold buf.
    assert (0 <= j < 32).
    { revert Hj. destruct Hs as [-> | ->]; cbn [Z.eqb Pos.eqb zseq In]; intuition lia. }
    destruct Hs as [-> | ->].
    + revert Hj. cbn [Z.eqb Pos.eqb zseq In]. intro Hj. rewrite slice_slice by lia. f_equal; lia.
    + rewrite slice_slice by lia. f_equal; lia.
  - assert (Z.of_nat (length buf) = size) by exact L. destruct Hs as [-> | ->]; cbn [Z.eqb Pos.eqb]; lia.
  - lia.
  - rewrite L. destruct Hs as [-> | ->]; cbn [Z.eqb Pos.eqb]; lia.
Qed.

Lemma mt_loop_cut data s tail : s = 512 \/ s = 4096 -> forall n i fuel, (S n < fuel)%nat -> 1 <= i ->
  (i + Z.of_nat n) * s <= zlen data < (i + Z.of_nat n + 1) * s ->
  tail = (if (s =? 4096) && (zlen data mod 4096 =? 512) then sector_slots data (zlen data - 512) 512 else []) ->
  mt_loop fuel data s i = gused (cut (flat_map (fun i => sector_slots data (i * s) s) (zseq i n) ++ tail)).
Proof.
  intros Hs. induction n as [|n IH]; intros i [|fuel] Hf Hi HL HT; try lia; cbn [mt_loop zseq flat_map app].
  - pose proof (zlen_nonneg data).
    assert (L : zlen (slice data (i * s) (i * s + s)) = zlen data - i * s) by (rewrite zlen_slice by lia; lia).
    rewrite L. unfold valid_sector_size.
    destruct Hs as [-> | ->].
    + cbn [Z.eqb Pos.eqb andb] in HT. subst tail. replace ((_ =? 512) || (_ =? 4096)) with false by lia. reflexivity.
    + change (4096 =? 4096) with true in HT. cbn [andb] in HT.
      replace (zlen data mod 4096) with (zlen data - i * 4096) in HT by lia.
      destruct (Z.eqb_spec (zlen data - i * 4096) 512) as [E|E]; cbn [orb negb].
      * replace (slice data (i * 4096) (i * 4096 + 4096)) with (slice data (i * 4096) (i * 4096 + 512)).
        2:{ unfold slice. rewrite !ztake_all; auto; rewrite zlen_zdrop; lia. }
        rewrite (mts_entries_cut data (i * 4096) 512) by lia.
        replace (i * 4096) with (zlen data - 512) by lia. rewrite <- HT. rewrite <- (app_nil_r tail) at 2. rewrite cut_app.
        destruct (cut tail) as [es st]. unfold gused. cbn [fst snd]. destruct st; [|reflexivity].
        f_equal. destruct fuel as [|fuel]; [lia|]. cbn [mt_loop].
        rewrite slice_beyond by lia. reflexivity.
      * subst tail. now replace (zlen data - i * 4096 =? 4096) with false by lia.
  - assert (L : zlen (slice data (i * s) (i * s + s)) = s) by (rewrite zlen_slice by lia; lia).
    rewrite L. unfold valid_sector_size. replace ((s =? 512) || (s =? 4096)) with true by lia. cbn [negb].
    rewrite (mts_entries_cut data (i * s) s) by lia. rewrite <- app_assoc, cut_app.
    specialize (IH (i + 1) fuel ltac:(lia) ltac:(lia) ltac:(lia) HT). rewrite <- IH.
    destruct (cut (sector_slots data (i * s) s)) as [es st]. reflexivity.
Qed.

Lemma mt_entries_cut data s : s = 512 \/ s = 4096 -> mt_log_entries data s = gused (cut (mt_slots data s)).
Proof.
  intro Hs. pose proof (zlen_nonneg data) as Hn. unfold mt_log_entries, mt_slots.
  destruct (Z.le_gt_cases s (zlen data)) as [G|G].
  - apply mt_loop_cut; auto.
    + unfold zlen in *. destruct Hs as [-> | ->]; lia.
    + lia.
    + destruct Hs as [-> | ->]; lia.
    + destruct Hs as [-> | ->]; cbn [Z.eqb Pos.eqb andb]; auto.
      destruct (_ =? 512); auto. now replace (4096 <=? zlen data) with true by lia.
  - cbn [mt_loop]. rewrite slice_beyond by lia. cbn [valid_sector_size].
    change (valid_sector_size (zlen (@nil Z))) with false. cbn [negb].
    replace (Z.to_nat (zlen data / s - 1)) with O by (destruct Hs as [-> | ->]; lia).
    destruct Hs as [-> | ->]; cbn [Z.eqb Pos.eqb andb zseq flat_map app]; [reflexivity|].
    replace (4096 <=? zlen data) with false by lia. now rewrite andb_false_r.
Qed.

Lemma mt_other_size data s : 0 <= s -> s <> 512 -> s <> 4096 ->
  (zlen data - s = 512 \/ zlen data - s = 4096 -> zlen data - s >= s) -> mt_log_entries data s = ([], Done).
Proof.
  intros H0 H1 H2 H3. unfold mt_log_entries. cbn [mt_loop]. rewrite Z.mul_1_l. pose proof (zlen_nonneg data).
  unfold valid_sector_size. rewrite zlen_slice by lia.
  replace ((_ =? 512) || (_ =? 4096)) with false by lia. reflexivity.
Qed.

Lemma until_null_spec l : exists rest, l = until_null l ++ rest /\ ~ In 0 (until_null l) /\ (rest = [] \/ exists t, rest = 0 :: t).
Proof.
  induction l as [|x l (rest & E & N & R)]; cbn [until_null].
  - exists []. auto.
  - destruct (Z.eqb_spec x 0) as [->|D].
    + exists (0 :: l). split; [reflexivity|]. split; [tauto|]. right. eauto.
    + exists rest. split; [cbn [app]; now rewrite <- E|]. split; [cbn [In]; intuition|auto].
Qed.
