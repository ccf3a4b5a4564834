(** Reading from a selected shadow copy. *)
From Verif Require Import Base BaseLemmas FieldLemmas Sorting PartitionTable Shadow ShadowSpec ShadowTranslate.
From Coq Require Import Lia.

(** ** Locations are not negative *)

Definition loc_pos (x : loc) : Prop := match x with LZero => True | LLive a | LStore a => 0 <= a end.

Lemma sector_pos : forall l o r f i, Forall selected l -> 0 <= o -> 0 <= i -> loc_pos (sector l o r f i).
Proof.
  induction l as [|p nx IH]; intros o r f i F O I; [exact Logic.I|].
  inversion F as [|? ? SP SN]; subst.
  assert (BEL : forall o' fl, 0 <= o' -> loc_pos (match nx with
      | [] => if marked p o' && ps_retnull p && negb fl then LZero else LLive (o' + i * 512)
      | _ => sector nx o' true fl i end)).
  { intros o' fl O'. destruct nx; [destruct (_ && _); cbn; auto; lia|apply IH; auto]. }
  assert (V : forall e, In e (at_off p o) -> 0 <= e_vol e /\ 0 <= e_store e).
  { intros e E. destruct SP as (_ & _ & _ & _ & _ & G). apply filter_In in E as [E _]. rewrite Forall_forall in G.
    apply G in E. tauto. }
  cbn [sector]. set (ov := if r then [] else filter is_overlay (at_off p o)).
  assert (C : forall v, last_of (fun e => Z.testbit (e_alloc e) i) ov = Some v -> 0 <= e_vol v).
  { intros v E. apply last_of_In in E as [E _]. unfold ov in E. destruct r; [contradiction|].
    apply filter_In in E as [E _]. apply V in E. tauto. }
  destruct (last_of is_regular (at_off p o)) as [rg|] eqn:ER.
  { apply last_of_In in ER as [ER _]. apply V in ER.
    destruct (last_of _ ov) as [v|]; cbn; [specialize (C v eq_refl); lia|lia]. }
  destruct (last_of is_forward (at_off p o)) as [fw|] eqn:EF.
  { apply last_of_In in EF as [EF _]. apply V in EF.
    destruct ov eqn:EO; [apply BEL; tauto|]. rewrite <- EO in *.
    destruct (_ && _); [exact Logic.I|]. destruct (last_of _ ov) as [v|]; [cbn; specialize (C v eq_refl); lia|apply BEL; tauto]. }
  destruct ov eqn:EO.
  - destruct (_ && _); [exact Logic.I|]. destruct (_ && _); [exact Logic.I|]. now apply BEL.
  - rewrite <- EO in *. destruct (_ && _); [exact Logic.I|].
    destruct (last_of _ ov) as [v|]; [cbn; specialize (C v eq_refl); lia|].
    destruct (saved_in nx o); [now apply BEL|]. destruct (_ && _); cbn; [auto|lia].
Qed.

(** ** The sectors of a block *)

Section Read.
Variable o : parser.
Variable fill : bool.
Hypothesis LP : 0 <= v_off (sp_live o).
Hypothesis SP : 0 <= v_off (sp_store o).

Lemma seek512 v a : 0 <= v_off v -> 0 <= a ->
  (exists d, seek_read (v_data v) (v_off v + a) 512 = Ok d /\ zlen d <= 512 /\
     (forall j, 0 <= j < zlen d -> znth d j = znth (v_data v) (v_off v + a + j)) /\
     (zlen d < 512 -> znth (v_data v) (v_off v + a + zlen d) = None)) \/
  (seek_read (v_data v) (v_off v + a) 512 = Err OverflowError /\ 2 ^ 63 <= v_off v + a).
Proof.
  intros V A. unfold seek_read. destruct (Z.ltb_spec (v_off v + a) 0); [lia|].
  destruct (Z.leb_spec (2 ^ 63) (v_off v + a)); [auto|].
  change (2 ^ 63 <=? 512) with false. left. eexists. split; [reflexivity|].
  pose proof (zlen_nonneg (v_data v)). rewrite zlen_slice by lia. split; [lia|]. split.
  - intros j J. rewrite znth_slice by lia. auto.
  - intro Q. apply znth_none. lia.
Qed.

Lemma fill_text (text : list Z) b j : b = concat (repeat (text ++ repeat 32 (16 - length text)) 32) -> (length text <= 16)%nat ->
  0 <= j < 512 -> znth b j = Some (fill_byte text j).
Proof.
  intros -> L J. rewrite znth_nth_error by lia. unfold fill_byte.
  set (u := text ++ repeat 32 (16 - length text)).
  assert (LU : length u = 16%nat) by (unfold u; rewrite app_length, repeat_length; lia).
  assert (G : forall n k, (k < 16 * n)%nat -> nth_error (concat (repeat u n)) k = nth_error u (Nat.modulo k 16)).
  { induction n as [|n IH]; intros k K; [lia|]. cbn [repeat concat].
    destruct (Nat.lt_ge_cases k 16).
    - rewrite nth_error_app1 by lia. now rewrite Nat.mod_small.
    - rewrite nth_error_app2, LU, IH by lia. f_equal.
      replace k with ((k - 16) + 1 * 16)%nat at 2 by lia. now rewrite Nat.mod_add by lia. }
  rewrite G by lia.
  assert (M : Nat.modulo (Z.to_nat j) 16 = Z.to_nat (j mod 16)) by (rewrite Z2Nat.inj_mod by lia; reflexivity).
  rewrite M. set (m := Z.to_nat (j mod 16)). assert (m < 16)%nat by lia.
  rewrite (nth_error_nth' u 32) by lia. f_equal. unfold u.
  destruct (Nat.lt_ge_cases m (length text)).
  - now rewrite app_nth1 by lia.
  - rewrite app_nth2, (nth_overflow text) by lia. apply nth_repeat.
Qed.

Definition sectors_read (x : Z) (l : list loc) (r : result (list Z)) : Prop :=
  match r with
  | Ok d => zlen d <= 512 * zlen l /\
      (forall j, 0 <= j < zlen d -> exists y c, znth l (j / 512) = Some y /\ znth d j = Some c /\
         loc_byte o fill (x + 512 * (j / 512)) y (j mod 512) = Some c) /\
      (zlen d < 512 * zlen l -> exists y, znth l (zlen d / 512) = Some y /\
         loc_byte o fill (x + 512 * (zlen d / 512)) y (zlen d mod 512) = None)
  | Err e => e = OverflowError /\ exists i y, znth l i = Some y /\ 0 <= i /\ is_filled fill (x + 512 * i) y = false /\ loc_high o y
  end.

Lemma read_sectors_spec : forall l x, Forall loc_pos l -> sectors_read x l (read_sectors o fill x l).
Proof.
  induction l as [|y t IH]; intros x F; [cbn [read_sectors sectors_read]; change (zlen (@nil loc)) with 0; change (zlen (@nil Z)) with 0;
    split; [lia|]; split; [intros; lia|lia]|].
  inversion F as [|? ? Y FT]; subst. specialize (IH (x + 512) FT). cbn [read_sectors].
  assert (K : forall b, zlen b = 512 -> (forall j, 0 <= j < 512 -> znth b j = loc_byte o fill x y j) ->
     sectors_read x (y :: t) (let! r := read_sectors o fill (x + 512) t in Ok (b ++ r))).
  { intros b LB HB. unfold sectors_read in IH. destruct (read_sectors o fill (x + 512) t) as [r|e]; cbn [bind sectors_read].
    - destruct IH as (I1 & I2 & I3). rewrite zlen_app, zlen_cons, LB.
      assert (SH : forall k, 512 <= k -> k / 512 = (k - 512) / 512 + 1 /\ k mod 512 = (k - 512) mod 512).
      { intros k K. replace k with ((k - 512) + 1 * 512) at 1 3 by lia. rewrite Z.div_add, Z.mod_add by lia. auto. }
      assert (ZC : forall k, 0 <= k -> znth (y :: t) (k + 1) = znth t k).
      { intros k K. change (y :: t) with ([y] ++ t). rewrite znth_app2 by (change (zlen [y]) with 1; lia).
        change (zlen [y]) with 1. f_equal. lia. }
      assert (OW : forall k, x + 512 * (k + 1) = x + 512 + 512 * k) by (intro; lia).
      split; [lia|]. split.
      + intros j J. destruct (Z.lt_ge_cases j 512) as [S|S].
        * rewrite znth_app1 by lia. destruct (znth_some b j ltac:(lia)) as (c & C).
          exists y, c. replace (j / 512) with 0 by lia. split; [reflexivity|]. split; [auto|].
          replace (j mod 512) with j by lia. replace (x + 512 * 0) with x by lia. rewrite <- HB by lia. auto.
        * destruct (I2 (j - 512) ltac:(lia)) as (z & c & Z1 & Z2 & Z3). exists z, c.
          destruct (SH j S) as [-> ->]. rewrite ZC, OW by lia. rewrite znth_app2 by lia. rewrite LB. auto.
      + intro Q. destruct (I3 ltac:(lia)) as (z & Z1 & Z2). exists z. pose proof (zlen_nonneg r).
        destruct (SH (512 + zlen r) ltac:(lia)) as [-> ->]. replace (512 + zlen r - 512) with (zlen r) by lia.
        rewrite ZC, OW by lia. auto.
    - destruct IH as (-> & i & z & Z1 & Z2 & Z3). split; [auto|]. exists (i + 1), z.
      split; [|split; [lia|replace (x + 512 * (i + 1)) with (x + 512 + 512 * i) by lia; auto]].
      change (y :: t) with ([y] ++ t). rewrite znth_app2 by (change (zlen [y]) with 1; lia).
      change (zlen [y]) with 1. replace (i + 1 - 1) with i by lia. auto. }
  assert (D : forall v a, 0 <= v_off v -> 0 <= a -> (forall j, loc_byte o fill x y j = znth (v_data v) (v_off v + a + j)) ->
     is_filled fill x y = false -> (2 ^ 63 <= v_off v + a -> loc_high o y) ->
     sectors_read x (y :: t) (let! d := seek_read (v_data v) (v_off v + a) 512 in
            if negb (zlen d =? 512) then Ok d else let! r := read_sectors o fill (x + 512) t in Ok (d ++ r))).
  { intros v a V A LB FL LH. destruct (seek512 v a V A) as [(d & E & L & B & N)|(E & H)]; rewrite E; cbn [bind].
    - destruct (Z.eqb_spec (zlen d) 512) as [Q|Q]; cbn [negb].
      + apply K; [auto|]. intros j J. rewrite LB. apply B. lia.
      + pose proof (zlen_nonneg d). pose proof (zlen_nonneg t). cbn [sectors_read]. rewrite zlen_cons. split; [lia|]. split.
        * intros j J. destruct (znth_some d j J) as (c & C). exists y, c. replace (j / 512) with 0 by lia.
          replace (j mod 512) with j by lia. replace (x + 512 * 0) with x by lia.
          split; [reflexivity|]. split; [auto|]. rewrite LB, <- B by lia. auto.
        * intros _. exists y. replace (zlen d / 512) with 0 by lia. replace (zlen d mod 512) with (zlen d) by lia.
          replace (x + 512 * 0) with x by lia. split; [reflexivity|]. rewrite LB. apply N. lia.
    - split; [auto|]. exists 0, y. replace (x + 512 * 0) with x by lia. split; [reflexivity|]. split; [lia|auto]. }
  assert (OR : forall a, y = LLive a \/ y = LStore a -> fill && (a =? x) = true -> forall j, 0 <= j < 512 -> znth pattern_original j = loc_byte o fill x y j).
  { intros a Q FL j J. destruct Q as [-> | ->]; cbn [loc_byte]; unfold is_filled; rewrite FL;
      apply fill_text; auto; reflexivity || (cbn; lia). }
  destruct y as [|a|a].
  - destruct fill.
    + apply K; [reflexivity|]. intros j J. cbn [loc_byte]. apply fill_text; auto; reflexivity || (cbn; lia).
    + apply K; [reflexivity|]. intros j J. cbn [loc_byte]. rewrite znth_nth_error by lia. unfold zeros.
      rewrite nth_error_repeat; [auto|]. lia.
  - destruct (fill && (a =? x)) eqn:FL.
    + apply K; [reflexivity|]. apply (OR a); auto.
    + apply D; auto. intro j. cbn [loc_byte]. unfold is_filled. now rewrite FL.
  - destruct (fill && (a =? x)) eqn:FL.
    + apply K; [reflexivity|]. apply (OR a); auto.
    + apply D; auto. intro j. cbn [loc_byte]. unfold is_filled. now rewrite FL.
Qed.

Hypothesis SEL : Forall selected (sp_cur o :: sp_next o).

Lemma virtual_in_block off j : off mod 16384 = 0 -> 0 <= j < 16384 -> virtual_byte o fill (off + j) =
  loc_byte o fill (off + 512 * (j / 512)) (sector (sp_cur o :: sp_next o) off false false (j / 512)) (j mod 512).
Proof.
  intros AL J. unfold virtual_byte.
  assert (E1 : (off + j) / 16384 * 16384 = off) by lia.
  assert (E2 : (off + j) mod 16384 = j) by lia.
  assert (E3 : (off + j) / 512 * 512 = off + 512 * (j / 512)) by lia.
  assert (E4 : (off + j) mod 512 = j mod 512) by lia.
  now rewrite E1, E2, E3, E4.
Qed.

Theorem read_block_spec off : 0 <= off -> off mod 16384 = 0 ->
  match read_block o fill off with
  | Ok d => zlen d <= 16384 /\
      (forall j, 0 <= j < zlen d -> exists c, znth d j = Some c /\ virtual_byte o fill (off + j) = Some c) /\
      (zlen d < 16384 -> virtual_byte o fill (off + zlen d) = None)
  | Err e => block_error o fill off e
  end.
Proof.
  intros O AL. unfold read_block.
  pose proof (translate_spec (sp_vsize o) (sp_cur o :: sp_next o) off false false ltac:(discriminate) SEL O) as T.
  destruct (translate _ _ _ _ _) as [l|e]; cbn [bind].
  2:{ left. auto. }
  subst l. rewrite zlen_sectors_map. change (32 =? 0) with false.
  set (sec := sector (sp_cur o :: sp_next o) off false false) in *.
  assert (P : Forall loc_pos (map sec sectors)).
  { apply Forall_forall. intros y I. apply in_map_iff in I as (i & <- & I). unfold sectors in I.
    apply in_map_iff in I as (k & <- & _). apply sector_pos; auto; lia. }
  pose proof (read_sectors_spec _ off P) as R.
  assert (VB : forall j, 0 <= j < 16384 -> virtual_byte o fill (off + j) = loc_byte o fill (off + 512 * (j / 512)) (sec (j / 512)) (j mod 512))
    by (intros j J; apply virtual_in_block; auto).
  revert R. generalize (read_sectors o fill off (map sec sectors)). intros rd R.
  destruct rd as [d|e]; cbn [sectors_read] in R; rewrite ?zlen_sectors_map in R.
  - destruct R as (R1 & R2 & R3). split; [lia|]. split.
    + intros j J. destruct (R2 j J) as (y & c & Y1 & Y2 & Y3). exists c. split; [auto|].
      rewrite znth_map_sectors in Y1 by lia. injection Y1 as <-. rewrite VB by lia. auto.
    + intro Q. pose proof (zlen_nonneg d). destruct (R3 ltac:(lia)) as (y & Y1 & Y2).
      rewrite znth_map_sectors in Y1 by lia. injection Y1 as <-. rewrite VB by lia. auto.
  - destruct R as (-> & i & y & Y1 & Y2 & Y3 & Y4). right. split; [auto|].
    assert (I : i < 32).
    { destruct (Z.lt_ge_cases i 32) as [|G]; [auto|]. rewrite znth_none in Y1; [discriminate|].
      rewrite zlen_sectors_map. auto. }
    exists i, y. split; [lia|]. rewrite znth_map_sectors in Y1 by lia.
    split; [assert (E : sec i = y) by congruence; rewrite <- E; reflexivity|auto].
Qed.

(** ** The loop *)

(** One chunk: what is taken of the block with [pos]. *)
Lemma chunk_spec pos left b : 0 <= pos -> 0 < left -> read_block o fill (pos / 16384 * 16384) = Ok b ->
  let d := slice b (pos mod 16384) (pos mod 16384 + left) in
  zlen d <= left /\ pos mod 16384 + zlen d <= 16384 /\
  (forall j, 0 <= j < zlen d -> exists c, znth d j = Some c /\ virtual_byte o fill (pos + j) = Some c) /\
  (zlen d = left \/ pos mod 16384 + zlen d = 16384 \/
   (exists x, pos / 16384 * 16384 <= x <= pos + zlen d /\ virtual_byte o fill x = None)).
Proof.
  intros P L E. cbv zeta. pose proof (read_block_spec (pos / 16384 * 16384) ltac:(lia) ltac:(lia)) as R.
  rewrite E in R. destruct R as (R1 & R2 & R3). pose proof (zlen_nonneg b).
  rewrite zlen_slice by lia. split; [lia|]. split; [lia|]. split.
  - intros j J. rewrite znth_slice by lia. destruct (R2 (pos mod 16384 + j) ltac:(lia)) as (c & C1 & C2).
    exists c. split; [auto|]. rewrite <- C2. f_equal. lia.
  - destruct (Z.eq_dec (zlen b) 16384) as [Q|Q]; [lia|].
    specialize (R3 ltac:(lia)).
    destruct (Z.le_gt_cases (pos mod 16384 + left) (zlen b)); [lia|]. right. right.
    exists (pos / 16384 * 16384 + zlen b). split; [|auto]. lia.
Qed.

Lemma read_loop_spec vs : forall n pos left, 0 <= pos -> 0 <= left -> Z.min left (vs - pos) <= 16384 * (Z.of_nat n - 1) -> (0 < n)%nat ->
  (pos mod 16384 = 0 \/ left = 0 \/ unreadable o fill pos) ->
  match read_loop n o fill vs pos left with
  | (pos', Ok d) => pos' = pos + zlen d /\ zlen d <= left /\
      (forall j, 0 <= j < zlen d -> exists c, znth d j = Some c /\ virtual_byte o fill (pos + j) = Some c) /\
      (zlen d = left \/ vs <= pos' \/ unreadable o fill pos')
  | (pos', Err e) => pos <= pos' < vs /\ block_error o fill (pos' / 16384 * 16384) e
  end.
Proof.
  induction n as [|n IH]; intros pos left P L F N0 A; [lia|]. cbn [read_loop].
  assert (NIL : 0 = left \/ vs <= pos \/ unreadable o fill pos ->
    pos = pos + zlen (@nil Z) /\ zlen (@nil Z) <= left /\
    (forall j, 0 <= j < zlen (@nil Z) -> exists c, znth (@nil Z) j = Some c /\ virtual_byte o fill (pos + j) = Some c) /\
    (zlen (@nil Z) = left \/ vs <= pos \/ unreadable o fill pos)).
  { intro Q. change (zlen (@nil Z)) with 0. split; [lia|]. split; [lia|]. split; [intros; lia|]. exact Q. }
  destruct (Z.ltb_spec 0 left) as [L0|L0]; cbn [negb]; [|apply NIL; left; lia].
  destruct (Z.leb_spec vs pos) as [V|V]; [apply NIL; auto|]. clear NIL.
  destruct (read_block o fill (pos / 16384 * 16384)) as [b|e] eqn:E.
  2:{ split; [lia|]. pose proof (read_block_spec (pos / 16384 * 16384) ltac:(lia) ltac:(lia)) as R. now rewrite E in R. }
  destruct (chunk_spec pos left b P L0 E) as (C1 & C2 & C3 & C4). cbv zeta in *.
  set (d := slice b (pos mod 16384) (pos mod 16384 + left)) in *. pose proof (zlen_nonneg d).
  destruct (Z.eqb_spec (zlen d) 16384) as [Q|Q]; cbn [negb].
  - assert (AL : pos mod 16384 = 0) by lia.
    specialize (IH (pos + zlen d) (left - zlen d) ltac:(lia) ltac:(lia) ltac:(lia) ltac:(lia) ltac:(left; lia)).
    destruct (read_loop n o fill vs (pos + zlen d) (left - zlen d)) as [pos' [r|e]]; cbn [bind].
    + destruct IH as (-> & I2 & I3 & I4). rewrite zlen_app. split; [lia|]. split; [lia|]. split; [|destruct I4; [left; lia|auto]].
      intros j J. destruct (Z.lt_ge_cases j (zlen d)).
      * rewrite znth_app1 by lia. apply C3. lia.
      * rewrite znth_app2 by lia. destruct (I3 (j - zlen d) ltac:(lia)) as (c & X1 & X2). exists c. split; [auto|].
        rewrite <- X2. f_equal. lia.
    + destruct IH. split; [lia|auto].
  - split; [auto|]. split; [auto|]. split; [auto|]. destruct C4 as [C4|[C4|(x & X1 & X2)]]; [auto| |].
    + right. right. destruct A as [A|[A|(x & X1 & X2)]]; [lia|lia|].
      (* the block ends before pos, so nothing can have been read *)
      exfalso. assert (x < pos + zlen d) by lia.
      pose proof (read_block_spec (pos / 16384 * 16384) ltac:(lia) ltac:(lia)) as R. rewrite E in R. destruct R as (R1 & R2 & R3).
      assert (ZB : zlen b = 16384).
      { unfold d in C4. pose proof (zlen_nonneg b). rewrite zlen_slice in C4 by lia. lia. }
      destruct (R2 (x - pos / 16384 * 16384) ltac:(lia)) as (c & _ & Y).
      replace (pos / 16384 * 16384 + (x - pos / 16384 * 16384)) with x in Y by lia. congruence.
    + right. right. destruct (Z.eq_dec (pos mod 16384 + zlen d) 16384) as [G|G].
      * exfalso. assert (x < pos + zlen d \/ x = pos + zlen d) as [X|X] by lia.
        -- pose proof (read_block_spec (pos / 16384 * 16384) ltac:(lia) ltac:(lia)) as R. rewrite E in R. destruct R as (R1 & R2 & R3).
           assert (ZB : zlen b = 16384).
           { unfold d in G. pose proof (zlen_nonneg b). rewrite zlen_slice in G by lia. lia. }
           destruct (R2 (x - pos / 16384 * 16384) ltac:(lia)) as (c & _ & Y).
           replace (pos / 16384 * 16384 + (x - pos / 16384 * 16384)) with x in Y by lia. congruence.
        -- destruct A as [A|[A|(x' & X1' & X2')]]; [lia|lia|].
           pose proof (read_block_spec (pos / 16384 * 16384) ltac:(lia) ltac:(lia)) as R. rewrite E in R. destruct R as (R1 & R2 & R3).
           assert (ZB : zlen b = 16384).
           { unfold d in G. pose proof (zlen_nonneg b). rewrite zlen_slice in G by lia. lia. }
           destruct (R2 (x' - pos / 16384 * 16384) ltac:(lia)) as (c & _ & Y).
           replace (pos / 16384 * 16384 + (x' - pos / 16384 * 16384)) with x' in Y by lia. congruence.
      * exists x. split; [|auto]. replace ((pos + zlen d) / 16384 * 16384) with (pos / 16384 * 16384) by lia. lia.
Qed.

Theorem sp_read_spec size : 0 <= sp_pos o ->
  let (o', r) := sp_read o size fill in
  o' = set_pos o (sp_pos o') /\ 0 <= sp_pos o' /\ read_result o fill (sp_pos o) size (sp_pos o') r.
Proof.
  intros P. unfold sp_read, read_result.
  destruct (sp_two o && fill); [split; [destruct o; reflexivity|auto]|].
  assert (S1 : ps_sel (sp_cur o) = true) by (inversion SEL as [|? ? S ?]; apply S).
  rewrite S1. cbn [negb]. fold (wanted o (sp_pos o) size).
  replace (match size with Some n => if n <? 0 then virtual_size o - sp_pos o else n | None => virtual_size o - sp_pos o end)
    with (wanted o (sp_pos o) size) by reflexivity.
  set (w := wanted o (sp_pos o) size). set (pos := sp_pos o) in *. set (vs := virtual_size o).
  assert (SELF : o = set_pos o pos) by (unfold pos, set_pos, set_state; destruct o; reflexivity).
  destruct ((w <=? 0) || (vs <=? pos)) eqn:G; [auto|].
  assert (G' : 0 < w /\ pos < vs) by (apply orb_false_iff in G; lia). destruct G' as [G1 G2].
  destruct (read_block o fill (pos / 16384 * 16384)) as [b|e] eqn:E.
  2:{ fold pos. split; [auto|]. split; [auto|]. split; [lia|].
      pose proof (read_block_spec (pos / 16384 * 16384) ltac:(lia) ltac:(lia)) as R. now rewrite E in R. }
  destruct (chunk_spec pos w b P G1 E) as (C1 & C2 & C3 & C4). cbv zeta in *.
  set (d := slice b (pos mod 16384) (pos mod 16384 + w)) in *. pose proof (zlen_nonneg d).
  pose proof (read_loop_spec vs (Z.to_nat (Z.min w (vs - pos) / 16384 + 3)) (pos + zlen d) (w - zlen d) ltac:(lia) ltac:(lia)) as RL.
  specialize (RL ltac:(lia) ltac:(lia)).
  assert (A : (pos + zlen d) mod 16384 = 0 \/ w - zlen d = 0 \/ unreadable o fill (pos + zlen d)).
  { destruct C4 as [C4|[C4|(x & X1 & X2)]]; [lia|lia|].
    destruct (Z.eq_dec (pos mod 16384 + zlen d) 16384); [lia|]. right. right. exists x. split; [|auto].
    replace ((pos + zlen d) / 16384 * 16384) with (pos / 16384 * 16384) by lia. lia. }
  specialize (RL A).
  destruct (read_loop _ _ _ _ _ _) as [pos' [r|e]]; cbn [bind]; cbn [set_pos set_state sp_pos].
  - destruct RL as (-> & R2 & R3 & R4). pose proof (zlen_nonneg r). split; [auto|]. split; [lia|].
    rewrite zlen_app. split; [lia|]. split; [lia|]. split; [|destruct R4; [left; lia|auto]].
    intros j J. destruct (Z.lt_ge_cases j (zlen d)).
    + rewrite znth_app1 by lia. apply C3. lia.
    + rewrite znth_app2 by lia. destruct (R3 (j - zlen d) ltac:(lia)) as (c & X1 & X2). exists c. split; [auto|].
      rewrite <- X2. f_equal. lia.
  - split; [auto|]. destruct RL. split; [lia|]. split; [lia|auto].
Qed.
End Read.

(** ** Histories *)

(** The calls one after another. *)
Fixpoint run (o : parser) (ops : list op) : parser * list outcome :=
  match ops with
  | [] => (o, [])
  | x :: t =>
    let (o', out) :=
      match x with
      | OSeek off wh => let (o', r) := sp_seek o off wh in (o', OutPos r)
      | OTell => (o, OutPos (sp_tell o))
      | ORead size fill => let (o', r) := sp_read o size fill in (o', OutData r)
      end in
    let (o'', outs) := run o' t in (o'', out :: outs)
  end.

Lemma set_pos_pos o a b : set_pos (set_pos o a) b = set_pos o b.
Proof. reflexivity. Qed.

Lemma history_pos o q : forall ops pos outs pos', history (set_pos o q) pos ops outs pos' -> history o pos ops outs pos'.
Proof.
  intros ops pos outs pos' H. induction H; try (econstructor; eauto; fail).
Qed.

Theorem run_history o ops : 0 <= v_off (sp_live o) -> 0 <= v_off (sp_store o) -> selected_parser o ->
  let (o', outs) := run o ops in
  o' = set_pos o (sp_pos o') /\ history o (sp_pos o) ops outs (sp_pos o').
Proof.
  intros LP SP. revert o LP SP. induction ops as [|x t IH]; intros o LP SP (SEL & P); cbn [run].
  { split; [destruct o; reflexivity|constructor]. }
  assert (SELF : o = set_pos o (sp_pos o)) by (destruct o; reflexivity).
  assert (S1 : ps_sel (sp_cur o) = true) by (inversion SEL as [|? ? S ?]; apply S).
  assert (K : forall q, 0 <= q -> let (o', outs) := run (set_pos o q) t in
     o' = set_pos o (sp_pos o') /\ history o q t outs (sp_pos o')).
  { intros q Q. specialize (IH (set_pos o q) LP SP (conj SEL Q)). destruct (run (set_pos o q) t) as [o' outs].
    destruct IH as [I1 I2]. rewrite set_pos_pos in I1. split; [exact I1|]. apply history_pos in I2. exact I2. }
  destruct x as [off wh| |size].
  - unfold sp_seek. rewrite S1. cbn [negb].
    assert (GO : forall base, (match wh with 0 => base = 0 | 1 => base = sp_pos o | _ => wh = 2 /\ base = virtual_size o end) ->
      let (o'', outs) :=
        (let (o', out) := (let (o', r) := (if base + off <? 0 then (o, Err ValueError) else (set_pos o (base + off), Ok (base + off)))
                         in (o', OutPos r)) in
         let (o'', outs) := run o' t in (o'', out :: outs)) in
      o'' = set_pos o (sp_pos o'') /\ history o (sp_pos o) (OSeek off wh :: t) outs (sp_pos o'')).
    { intros base B. destruct (Z.ltb_spec (base + off) 0) as [N|N].
      - specialize (K (sp_pos o) P). rewrite <- SELF in K. destruct (run o t) as [o' outs]. destruct K. split; [auto|].
        eapply h_seek_neg; eauto.
      - specialize (K (base + off) N). destruct (run (set_pos o (base + off)) t) as [o' outs]. destruct K. split; [auto|].
        eapply h_seek; eauto. }
    destruct (Z.eqb_spec wh 0) as [->|W0]; [exact (GO 0 eq_refl)|].
    destruct (Z.eqb_spec wh 1) as [->|W1]; [exact (GO _ eq_refl)|].
    destruct (Z.eqb_spec wh 2) as [->|W2]; [exact (GO _ (conj eq_refl eq_refl))|].
    specialize (K (sp_pos o) P). rewrite <- SELF in K. destruct (run o t) as [o' outs]. destruct K. split; [auto|].
    eapply h_seek_bad; eauto. lia.
  - unfold sp_tell. rewrite S1. cbn [negb]. specialize (K (sp_pos o) P). rewrite <- SELF in K.
    destruct (run o t) as [o' outs]. destruct K. split; [auto|]. constructor. auto.
  - pose proof (sp_read_spec o fill LP SP SEL size P) as R. destruct (sp_read o size fill) as [o' r]. destruct R as (R1 & R2 & R3).
    specialize (K (sp_pos o') R2). rewrite <- R1 in K. destruct (run o' t) as [o'' outs]. destruct K. split; [auto|].
    eapply h_read; eauto.
Qed.
