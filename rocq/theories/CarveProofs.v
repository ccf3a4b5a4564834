(** Proofs about the carvers. *)
From Verif Require Import Base BaseLemmas FieldLemmas Filetime Attributes Carve CarveSpec.
From Coq Require Import Lia.
Local Set Warnings "-abstract-large-number".

Lemma fld_sub w (v : list Z) a b k : 0 <= a -> 0 <= k -> k + w <= b - a -> fld w (slice v a b) k = fld w v (a + k).
Proof.
  intros A K L. unfold fld. rewrite slice_slice by lia. f_equal. f_equal. lia.
Qed.

(** ** Slack space *)

Lemma valid_ts_spec t : valid_timestamp t = true <-> 125000000000000000 <= t <= 145000000000000000.
Proof. unfold valid_timestamp, ts_not_before, ts_not_after. lia. Qed.

Lemma valid_name_spec n : valid_file_name n = true <-> 1 <= zlen n <= 255 /\ ~ In 47 n /\ ~ In 0 n.
Proof.
  unfold valid_file_name. pose proof (zlen_nonneg n).
  destruct (Z.eqb_spec (zlen n) 0); cbn [orb]; [split; [discriminate|lia]|].
  destruct (Z.ltb_spec 255 (zlen n)); [split; [discriminate|lia]|].
  destruct (zin 47 n) eqn:E1; cbn [orb]; [apply zin_In in E1; split; [discriminate|tauto]|].
  destruct (zin 0 n) eqn:E2; cbn [orb]; [apply zin_In in E2; split; [discriminate|tauto]|].
  apply zin_false in E1, E2. split; [intros _; split; [lia|auto]|auto].
Qed.

Lemma candidate_spec v pos : 0 <= pos -> pos <= zlen v ->
  slack_candidate v pos = if (8 <=? pos) || (pos =? 4) || (pos =? 0)
    then Some (Z.max 0 (pos - 8), attribute_at v pos) else None.
Proof.
  intros P L. unfold slack_candidate, attribute_at.
  destruct (Z.leb_spec 8 pos) as [G|G]; cbn [orb].
  - f_equal. f_equal; [lia|]. rewrite <- (ztake_zdrop (zdrop (pos - 8) v) 8) at 1. rewrite zdrop_zdrop by lia.
    unfold slice. f_equal; f_equal; lia.
  - destruct (Z.eqb_spec pos 4) as [->|]; [reflexivity|]. destruct (Z.eqb_spec pos 0) as [->|]; [|reflexivity].
    cbn [orb]. rewrite zdrop_nonpos by lia. reflexivity.
Qed.

Lemma attribute_len v pos : 0 <= pos <= zlen v -> zlen (attribute_at v pos) = 8 + (zlen v - pos) /\
  exists h, attribute_at v pos = h ++ zdrop pos v /\ zlen h = 8.
Proof.
  intros P. unfold attribute_at. set (h := if 8 <=? pos then slice v (pos - 8) pos else repeat 255 8).
  assert (H : zlen h = 8).
  { unfold h. destruct (Z.leb_spec 8 pos); [rewrite zlen_slice by lia; lia|reflexivity]. }
  split; [rewrite zlen_app, H, zlen_zdrop; lia|]. exists h. auto.
Qed.

Lemma slack_name_spec v pos : 0 <= pos -> pos + 32 <= zlen v ->
  slack_name (attribute_at v pos) =
    if pos + 57 <=? zlen v then Ok (name_field v pos (fld 1 v (pos + 56))) else Err StructError.
Proof.
  intros P L. destruct (attribute_len v pos ltac:(lia)) as (LA & h & E & H).
  assert (F : fnd (attribute_at v pos) = zdrop pos v).
  { unfold fnd. rewrite E. apply zdrop_app_exact. auto. }
  assert (T : forall k, 0 <= k <= 24 -> exists x, time_at (zdrop pos v) k = Ok x).
  { intros k K. unfold time_at, u64. rewrite unp_ok by (rewrite ?zlen_zdrop; lia). cbn [bind].
    unfold decode_filetime, decode_time. destruct (_ <? _); eexists; reflexivity. }
  unfold slack_name, fna_mtime, fna_atime, fna_ctime, fna_etime. rewrite F.
  destruct (T 8 ltac:(lia)) as (x1 & ->). destruct (T 24 ltac:(lia)) as (x2 & ->).
  destruct (T 0 ltac:(lia)) as (x3 & ->). destruct (T 16 ltac:(lia)) as (x4 & ->). cbn [bind].
  unfold fna_name, fna_name_length, u8. destruct (Z.leb_spec (pos + 57) (zlen v)) as [G|G].
  - rewrite unp_ok by lia. cbn [bind]. unfold name_field. rewrite E.
    rewrite fld_app_r by lia. rewrite fld_zdrop by lia. rewrite slice_app_r by lia. rewrite H.
    replace (pos + (64 - 8)) with (pos + 56) by lia.
    rewrite slice_zdrop by lia. do 3 f_equal; lia.
  - rewrite unp_short by lia. reflexivity.
Qed.

Lemma plausible_dec v pos : 0 <= pos -> pos + 32 <= zlen v ->
  let buf := slice v pos (pos + 32) in
  plausible v pos <->
  forallb valid_timestamp [fld 8 buf 0; fld 8 buf 8; fld 8 buf 16; fld 8 buf 24] = true /\
  (8 <=? pos) || (pos =? 4) || (pos =? 0) = true /\
  (pos + 57 <=? zlen v) = true /\ valid_file_name (name_field v pos (fld 1 v (pos + 56))) = true.
Proof.
  intros P L. cbv zeta. unfold plausible. cbv zeta. rewrite valid_name_spec. cbn [forallb].
  rewrite !fld_sub by lia. rewrite !andb_true_iff, !valid_ts_spec.
  assert (T : (forall k, 0 <= k < 4 -> 125000000000000000 <= fld 8 v (pos + 8 * k) <= 145000000000000000) <->
    125000000000000000 <= fld 8 v (pos + 0) <= 145000000000000000 /\
    125000000000000000 <= fld 8 v (pos + 8) <= 145000000000000000 /\
    125000000000000000 <= fld 8 v (pos + 16) <= 145000000000000000 /\
    125000000000000000 <= fld 8 v (pos + 24) <= 145000000000000000).
  { split.
    - intro H. pose proof (H 0 ltac:(lia)). pose proof (H 1 ltac:(lia)). pose proof (H 2 ltac:(lia)). pose proof (H 3 ltac:(lia)).
      cbn in *. tauto.
    - intros (H0 & H1 & H2 & H3) k K. assert (k = 0 \/ k = 1 \/ k = 2 \/ k = 3) as [->|[->|[->| ->]]] by lia; auto. }
  rewrite T. assert (G : (8 <= pos \/ pos = 4 \/ pos = 0) <-> (8 <=? pos) || (pos =? 4) || (pos =? 0) = true) by lia.
  rewrite <- G. rewrite Z.leb_le. tauto.
Qed.

Definition found_at (v : list Z) (p : Z) : Z * list Z := (Z.max 0 (p - 8), attribute_at v p).

Theorem slack_loop_spec v : forall fuel pos, 0 <= pos -> (zlen v < pos + 2 * Z.of_nat fuel) -> (0 < fuel)%nat ->
  exists ps, slack_loop fuel v pos = Ok (map (found_at v) ps) /\ scan (plausible v) (fun _ => 68) pos ps.
Proof.
  induction fuel as [|n IH]; intros pos P F F0; [lia|]. cbn [slack_loop].
  assert (STOP : zlen v < pos + 32 -> scan (plausible v) (fun _ => 68) pos []).
  { intro Q. constructor. intros q Q1 _ (_ & _ & Q2 & _). lia. }
  destruct (Z.ltb_spec pos (zlen v)) as [L|L]; cbn [negb].
  2:{ exists []. split; [reflexivity|apply STOP; lia]. }
  rewrite zlen_slice by lia.
  destruct (Z.eqb_spec (Z.max 0 (Z.min (pos + 32 - pos) (zlen v - pos))) 32) as [E|E]; cbn [negb].
  2:{ exists []. split; [reflexivity|apply STOP; lia]. }
  assert (L32 : pos + 32 <= zlen v) by lia. clear E STOP.
  pose proof (plausible_dec v pos P L32) as D. cbv zeta in D.
  assert (NEXT : ~ plausible v pos -> exists ps, slack_loop n v (pos + 2) = Ok (map (found_at v) ps) /\
     scan (plausible v) (fun _ => 68) pos ps).
  { intro N. destruct (IH (pos + 2) ltac:(lia) ltac:(lia) ltac:(lia)) as (ps & E & S). exists ps. split; [auto|].
    assert (X : forall q, pos <= q -> q mod 2 = pos mod 2 -> q = pos \/ pos + 2 <= q) by (intros; lia).
    inversion S as [s H|s p l H1 H2 H3 H4 H5]; subst.
    - constructor. intros q Q1 Q2. destruct (X q Q1 Q2) as [->|Q3]; [auto|]. apply H; lia.
    - constructor; [lia|lia|auto| |auto]. intros q Q1 Q2. destruct (X q ltac:(lia) Q2) as [->|Q3]; [auto|]. apply H4; lia. }
  destruct (forallb valid_timestamp _) eqn:E1.
  2:{ apply NEXT. intro Q. apply D in Q. destruct Q as [Q _]. discriminate. }
  rewrite candidate_spec by lia.
  destruct ((8 <=? pos) || (pos =? 4) || (pos =? 0)) eqn:E2.
  2:{ apply NEXT. intro Q. apply D in Q. destruct Q as (_ & Q & _). discriminate. }
  rewrite slack_name_spec by lia.
  destruct (pos + 57 <=? zlen v) eqn:E3.
  2:{ apply NEXT. intro Q. apply D in Q. destruct Q as (_ & _ & Q & _). discriminate. }
  destruct (valid_file_name _) eqn:E4.
  2:{ apply NEXT. intro Q. apply D in Q. destruct Q as (_ & _ & _ & Q). discriminate. }
  destruct (IH (pos + 68) ltac:(lia) ltac:(lia) ltac:(lia)) as (ps & E & S). rewrite E. cbn [bind].
  exists (pos :: ps). split; [reflexivity|]. constructor; [lia|auto|apply D; auto|intros; lia|auto].
Qed.

(** *** The partial name *)

Lemma skip_nulls_spec s : forall n pos, pos + 2 <= zlen s -> pos + 2 <= 2 * Z.of_nat n -> (0 < n)%nat ->
  exists k, 0 <= k /\ skip_nulls n s pos = Ok (pos - 2 * k) /\
    (forall j, 0 <= j < k -> 0 < pos - 2 * j /\ slice s (pos - 2 * j) (pos - 2 * j + 2) = [0; 0]) /\
    (pos - 2 * k <= 0 \/ slice s (pos - 2 * k) (pos - 2 * k + 2) <> [0; 0]).
Proof.
  induction n as [|n IH]; intros pos P F F0; [lia|]. cbn [skip_nulls].
  destruct (Z.ltb_spec 0 pos) as [L|L]; cbn [negb].
  2:{ exists 0. split; [lia|]. split; [f_equal; lia|]. split; [intros; lia|lia]. }
  destruct (zlist_eqb (slice s pos (pos + 2)) [0; 0]) eqn:E; cbn [negb].
  - apply zlist_eqb_eq in E. destruct (IH (pos - 2) ltac:(lia) ltac:(lia) ltac:(lia)) as (k & K1 & K2 & K3 & K4).
    exists (k + 1). split; [lia|]. split; [rewrite K2; f_equal; lia|].
    replace (pos - 2 * (k + 1)) with (pos - 2 - 2 * k) by lia. split; [|auto].
    intros j J. destruct (Z.eq_dec j 0) as [->|NJ]; [replace (pos - 2 * 0) with pos by lia; auto|].
    specialize (K3 (j - 1) ltac:(lia)). replace (pos - 2 - 2 * (j - 1)) with (pos - 2 * j) in K3 by lia. auto.
  - apply zlist_eqb_neq in E. exists 0. split; [lia|]. replace (pos - 2 * 0) with pos by lia.
    split; [auto|]. split; [intros; lia|auto].
Qed.

Lemma chars_step pos : 0 < pos -> exists n, nchars pos = S n /\ n = nchars (pos - 2).
Proof.
  intro P. exists (nchars (pos - 2)). split; [|auto]. unfold nchars.
  replace ((pos + 1) / 2) with ((pos - 2 + 1) / 2 + 1) by lia. rewrite Z2Nat.inj_add by lia. lia.
Qed.

Lemma chars_unfold v pos : 0 < pos -> pos + 2 <= zlen v -> exists a b,
  znth v pos = Some a /\ znth v (pos + 1) = Some b /\
  chars_before (nchars pos) v pos = (a, b) :: chars_before (nchars (pos - 2)) v (pos - 2).
Proof.
  intros P L. destruct (chars_step pos P) as (n & E & ->). rewrite E. cbn [chars_before].
  destruct (znth_some v pos ltac:(lia)) as (a & A). destruct (znth_some v (pos + 1) ltac:(lia)) as (b & B).
  rewrite A, B. eauto.
Qed.

Lemma chars_none v pos : pos <= 0 -> chars_before (nchars pos) v pos = [].
Proof.
  intro P. unfold nchars. replace (Z.to_nat ((pos + 1) / 2)) with O; [reflexivity|]. lia.
Qed.

Definition goodb (c : Z * Z) : bool := printable (fst c) && (snd c =? 0).
Lemma goodb_spec c : goodb c = true <-> good_char c.
Proof. unfold goodb, good_char. rewrite andb_true_iff, Z.eqb_eq. tauto. Qed.

(** The loop on characters. *)
Fixpoint name_loop (l : list (Z * Z)) (acc : list Z) : list Z :=
  match l with
  | [] => acc
  | c :: t => if goodb c then name_loop t (acc ++ [fst c]) else if 5 <=? zlen acc then acc else name_loop t []
  end.

Lemma partial_name_loop s : forall n pos acc, pos + 2 <= zlen s -> pos + 2 <= 2 * Z.of_nat n -> (0 < n)%nat ->
  partial_name n s pos acc = Ok (name_loop (chars_before (nchars pos) s pos) acc).
Proof.
  induction n as [|n IH]; intros pos acc P F F0; [lia|]. cbn [partial_name].
  destruct (Z.ltb_spec 0 pos) as [L|L]; cbn [negb]; [|rewrite chars_none by lia; reflexivity].
  destruct (chars_unfold s pos L P) as (a & b & A & B & ->).
  apply index_ok in A, B. rewrite A, B. cbn [bind name_loop].
  unfold goodb. cbn [fst snd]. destruct (printable a && (b =? 0)); [apply IH; lia|].
  destruct (5 <=? zlen acc); [reflexivity|apply IH; lia].
Qed.

(** What the loop gives: the first run of five good characters. *)
Lemma name_loop_spec : forall l pre, Forall good_char pre ->
  (exists j run rest, pre ++ l = j ++ run ++ rest /\ junk j /\ Forall good_char run /\ 5 <= zlen run /\
     (forall x t, rest = x :: t -> ~ good_char x) /\ name_loop l (map fst pre) = map fst run) \/
  (zlen (name_loop l (map fst pre)) < 5 /\
   exists j run, pre ++ l = j ++ run /\ junk j /\ Forall good_char run /\ zlen run < 5).
Proof.
  induction l as [|c t IH]; intros pre G; cbn [name_loop].
  - destruct (Z.le_gt_cases 5 (zlen pre)) as [L|L].
    + left. exists [], pre, []. rewrite app_nil_r. cbn [app]. split; [auto|]. split; [constructor|]. split; [auto|]. split; [auto|].
      split; [discriminate|auto].
    + right. rewrite zlen_map. split; [auto|]. exists [], pre. rewrite app_nil_r. cbn [app]. split; [auto|]. split; [constructor|auto].
  - destruct (goodb c) eqn:E.
    + apply goodb_spec in E. specialize (IH (pre ++ [c])). rewrite map_app in IH. cbn [map] in IH.
      rewrite <- app_assoc in IH. cbn [app] in IH. apply IH. apply Forall_app. auto.
    + assert (B : ~ good_char c) by (rewrite <- goodb_spec, E; discriminate).
      rewrite zlen_map. destruct (Z.leb_spec 5 (zlen pre)) as [L|L].
      * left. exists [], pre, (c :: t). cbn [app]. split; [auto|]. split; [constructor|]. split; [auto|]. split; [auto|].
        split; [|auto]. intros x u Q. injection Q as <- _. auto.
      * destruct (IH [] (Forall_nil _)) as [(j & run & rest & E1 & E2 & E3)|(N & j & run & E1 & E2 & E3)].
        -- left. exists (pre ++ c :: j), run, rest. cbn [app] in E1. split; [rewrite E1, <- app_assoc; auto|].
           split; [constructor; auto|auto].
        -- right. split; [auto|]. exists (pre ++ c :: j), run. cbn [app] in E1. split; [rewrite E1, <- app_assoc; auto|].
           split; [constructor; auto|auto].
Qed.

(** Long names are not in the other decomposition, so the result is the only
    one possible. *)
Lemma last_name_loop l name : (exists j run rest, l = j ++ run ++ rest /\ junk j /\ Forall good_char run /\ 5 <= zlen run /\
     (forall x t, rest = x :: t -> ~ good_char x) /\ name = map fst run) -> name_loop l [] = name.
Proof.
  intros (j & run & rest & -> & J & G & L & R & ->).
  assert (RUN : forall run acc rest, Forall good_char run -> name_loop (run ++ rest) acc = name_loop rest (acc ++ map fst run)).
  { clear. induction run as [|c t IH]; intros acc rest G; cbn [app map name_loop]; [now rewrite app_nil_r|].
    inversion G as [|? ? G1 G2]; subst. apply goodb_spec in G1. rewrite G1. rewrite IH by auto. now rewrite <- app_assoc. }
  induction J as [|r x l' G' L' B J IH]; cbn [app].
  - rewrite RUN by auto. cbn [app]. destruct rest as [|x t]; [reflexivity|]. cbn [name_loop].
    specialize (R x t eq_refl). destruct (goodb x) eqn:E; [apply goodb_spec in E; contradiction|].
    rewrite zlen_map. replace (5 <=? zlen run) with true by lia. reflexivity.
  - rewrite <- app_assoc. rewrite RUN by auto. cbn [app name_loop].
    destruct (goodb x) eqn:E; [apply goodb_spec in E; contradiction|]. rewrite zlen_map.
    replace (5 <=? zlen r) with false by lia. exact IH.
Qed.

Lemma word_nulls (s : list Z) pos a b : 0 <= pos -> znth s pos = Some a -> znth s (pos + 1) = Some b ->
  slice s pos (pos + 2) = [a; b].
Proof.
  intros P A B. apply znth_ext.
  - assert (pos + 1 < zlen s). { destruct (Z.lt_ge_cases (pos + 1) (zlen s)); [auto|]. rewrite znth_none in B by lia. discriminate. }
    rewrite zlen_slice by lia. change (zlen [a; b]) with 2. lia.
  - intros i I. assert (H : 0 <= i < 2).
    { assert (Z.max 0 (Z.min (pos + 2 - pos) (zlen s - pos)) <= 2) by lia. rewrite zlen_slice in I by lia. lia. }
    rewrite znth_slice by lia. assert (i = 0 \/ i = 1) as [->| ->] by lia; [rewrite Z.add_0_r, A|rewrite B]; reflexivity.
Qed.

(** The search for a partial name in front of the first attribute. *)
Theorem partial_spec v first fuel : 10 <= first <= zlen v -> (length v < fuel)%nat ->
  let chars := chars_before (nchars (first - 2)) v (first - 2) in
  exists acc, (let! p := skip_nulls fuel (ztake first v) (first - 2) in
               if 0 <? p then partial_name fuel (ztake first v) p [] else Ok []) = Ok acc /\
   (5 <= zlen acc -> last_name chars acc) /\ (forall name, last_name chars name -> acc = name).
Proof.
  intros F LF. cbv zeta. set (s := ztake first v).
  assert (LS : zlen s = first) by (unfold s; rewrite zlen_ztake; lia).
  assert (ZS : forall i, i < first -> znth s i = znth v i) by (intros i I; unfold s; now rewrite znth_ztake).
  assert (CH : forall n pos, pos + 2 <= first -> chars_before n v pos = chars_before n s pos).
  { induction n as [|n IH]; intros pos P; cbn [chars_before]; [auto|]. rewrite !ZS by lia. rewrite IH by lia. auto. }
  rewrite CH by lia.
  assert (LV : zlen v < Z.of_nat fuel) by (unfold zlen; lia).
  destruct (skip_nulls_spec s fuel (first - 2) ltac:(lia) ltac:(lia) ltac:(lia)) as (k & K0 & -> & K2 & K3). cbn [bind].
  assert (SPLIT : forall k, 0 <= k -> (forall j, 0 <= j < k -> 0 < first - 2 - 2 * j /\
       slice s (first - 2 - 2 * j) (first - 2 - 2 * j + 2) = [0; 0]) ->
     chars_before (nchars (first - 2)) s (first - 2) =
     repeat (0, 0) (Z.to_nat k) ++ chars_before (nchars (first - 2 - 2 * k)) s (first - 2 - 2 * k)).
  { clear K0 K2 K3. intros k0 K. pattern k0. apply natlike_ind; [| |exact K].
    - intros _. cbn [Z.to_nat repeat app]. replace (first - 2 - 2 * 0) with (first - 2) by lia. reflexivity.
    - intros x X IH H. rewrite IH by (intros; apply H; lia). destruct (H x ltac:(lia)) as [H1 H2].
      destruct (chars_unfold s (first - 2 - 2 * x) H1 ltac:(lia)) as (a & b & A & B & ->).
      rewrite (word_nulls s (first - 2 - 2 * x) a b ltac:(lia) A B) in H2. injection H2 as -> ->.
      unfold Z.succ. rewrite Z2Nat.inj_add by lia. rewrite repeat_app. cbn [repeat Z.to_nat Pos.to_nat Pos.iter_op app].
      change (Z.to_nat 1) with 1%nat. cbn [repeat]. rewrite <- app_assoc. cbn [app].
      replace (first - 2 - 2 * (x + 1)) with (first - 2 - 2 * x - 2) by lia. reflexivity. }
  rewrite (SPLIT k K0 K2). set (p := first - 2 - 2 * k) in *.
  set (cs := chars_before (nchars p) s p).
  assert (HEAD : forall x t, cs = x :: t -> x <> (0, 0)).
  { intros x t Q. destruct (Z.le_gt_cases p 0) as [NP|NP]; [unfold cs in Q; rewrite chars_none in Q by lia; discriminate|].
    destruct (chars_unfold s p NP ltac:(lia)) as (a & b & A & B & E). unfold cs in Q. rewrite E in Q. injection Q as <- _.
    intro Z0. injection Z0 as -> ->. destruct K3 as [K3|K3]; [lia|]. apply K3. now apply word_nulls; [lia| |]. }
  assert (DEC : forall name, last_name (repeat (0, 0) (Z.to_nat k) ++ cs) name ->
     exists j run rest, cs = j ++ run ++ rest /\ junk j /\ Forall good_char run /\ 5 <= zlen run /\
     (forall x t, rest = x :: t -> ~ good_char x) /\ name = map fst run).
  { intros name (nulls & j & run & rest & E & N & H & J & G & L & R & ->).
    assert (Q : j ++ run ++ rest = cs).
    { clear - E N H HEAD. set (y := j ++ run ++ rest) in *. clearbody y. clear j run rest.
      revert E. generalize (Z.to_nat k) as m. intro m. revert nulls N. induction m as [|m IH]; intros nulls N E; cbn [repeat app] in E.
      - destruct nulls as [|z zs]; [auto|]. cbn [app] in E. inversion N; subst. destruct (HEAD _ _ E eq_refl).
      - destruct nulls as [|z zs]; cbn [app] in E.
        + destruct (H _ _ (eq_sym E) eq_refl).
        + injection E as <- E. inversion N; subst. eapply IH; eauto. }
    exists j, run, rest. split; [auto|]. repeat (split; [assumption|]). reflexivity. }
  destruct (Z.ltb_spec 0 p) as [PP|PP].
  - rewrite partial_name_loop by lia. fold cs. exists (name_loop cs []). split; [auto|]. split.
    + intro L. destruct (name_loop_spec cs [] (Forall_nil _)) as [(j & run & rest & E & J & G & L' & R & Q)|(N & _)].
      2:{ cbn [map] in N. lia. }
      cbn [app map] in *. exists (repeat (0, 0) (Z.to_nat k)), j, run, rest. split; [rewrite E; auto|].
      split; [apply Forall_forall; intros x I; apply repeat_spec in I; auto|].
      split; [rewrite <- E; auto|]. auto.
    + intros name LN. apply last_name_loop. apply DEC. auto.
  - exists []. split; [reflexivity|]. split; [change (zlen (@nil Z)) with 0; lia|].
    intros name LN. apply DEC in LN as (j & run & rest & E & _ & _ & L & _ & ->).
    unfold cs in E. rewrite chars_none in E by lia. symmetry in E. apply app_eq_nil in E as [_ E].
    apply app_eq_nil in E as [-> _]. change (zlen (@nil (Z * Z))) with 0 in L. lia.
Qed.
