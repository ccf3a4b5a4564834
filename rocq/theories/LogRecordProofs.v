(** Log records of the NTFS client, entries and dumps. *)
From Verif Require Import Base BaseLemmas FieldLemmas Utf16 LogFile LogRecord LogParse LogParseSpec.

Lemma u16_ok b o : 0 <= o -> o + 2 <= zlen b -> u16 b o = Ok (fld 2 b o).
Proof. intros. unfold u16. rewrite unp_ok by lia. reflexivity. Qed.

Lemma u64_ok b o : 0 <= o -> o + 8 <= zlen b -> u64 b o = Ok (fld 8 b o).
Proof. intros. unfold u64. rewrite unp_ok by lia. reflexivity. Qed.

Lemma s64_ok b o : 0 <= o -> o + 8 <= zlen b -> unp_s 8 b o = Ok (to_signed 64 (fld 8 b o)).
Proof. intros. unfold unp_s. rewrite unp_ok by lia. reflexivity. Qed.

Lemma part_fun b o n x y : part b o n x -> part b o n y -> x = y.
Proof. intros [[? ->]|(? & ? & ->)] [[? ->]|(? & ? & ->)]; auto; lia. Qed.

Lemma part_bad b o n x : part b o n x -> ~ bad_part b o n.
Proof. intros [[? _]|(? & ? & _)] [H1 H2]; lia. Qed.

Lemma redo_data_spec b : bytes_ok b -> 32 <= zlen b ->
  match nr_redo_data b with
  | Ok d => redo_part b d
  | Err e => e = ClientException /\ bad_part b 4 6
  end.
Proof.
  intros B L. unfold nr_redo_data, nr_redo_length, nr_redo_offset. rewrite !u16_ok by lia. cbn [bind].
  pose proof (fld_bound 2 b 4 ltac:(lia) ltac:(lia) B). pose proof (fld_bound 2 b 6 ltac:(lia) ltac:(lia) B). unfold redo_part, part, bad_part.
  destruct (Z.eqb_spec (fld 2 b 6) 0) as [E|E]; [left; auto|].
  destruct ((0 <? fld 2 b 4) && (fld 2 b 4 <? 32)) eqn:E2; cbn [bind]; bools; [split; [auto|lia]|].
  right. split; [auto|]. split; [lia|auto].
Qed.

Lemma undo_data_spec b : bytes_ok b -> 32 <= zlen b ->
  match nr_undo_data b with
  | Ok d => undo_part b d
  | Err e => e = ClientException /\ bad_part b 8 10
  end.
Proof.
  intros B L. unfold nr_undo_data, nr_undo_length, nr_undo_offset. rewrite !u16_ok by lia. cbn [bind].
  pose proof (fld_bound 2 b 8 ltac:(lia) ltac:(lia) B). pose proof (fld_bound 2 b 10 ltac:(lia) ltac:(lia) B). unfold undo_part, part, bad_part.
  destruct (Z.eqb_spec (fld 2 b 10) 0) as [E|E]; [left; auto|].
  destruct ((0 <? fld 2 b 8) && (fld 2 b 8 <? 32)) eqn:E2; cbn [bind]; bools; [split; [auto|lia]|].
  right. split; [auto|]. split; [lia|auto].
Qed.

Lemma op_in_spec b ops : 32 <= zlen b ->
  exists y, nr_op_in b ops = Ok y /\ (y = true <-> In (fld 2 b 0) ops \/ In (fld 2 b 2) ops).
Proof.
  intro L. unfold nr_op_in, nr_redo_op, nr_undo_op. rewrite !u16_ok by lia. cbn [bind].
  destruct (zin (fld 2 b 0) ops) eqn:E.
  - exists true. split; auto. apply zin_In in E. tauto.
  - exists (zin (fld 2 b 2) ops). split; auto. rewrite zin_In. apply zin_false in E. tauto.
Qed.

Lemma target_number_eq cluster b : bytes_ok b -> 32 <= zlen b ->
  exists y, (y = true <-> resident b) /\
    mft_target_number cluster b = Ok (if y then Some (target_byte cluster b / frs_size b) else None).
Proof.
  intros B L. unfold mft_target_number. destruct (op_in_spec b LOGGED_RESIDENT_UPDATES L) as (y & -> & H).
  exists y. split; [exact H|]. cbn [bind]. destruct y; [|reflexivity].
  unfold nr_vcn, nr_block, nr_block_size. rewrite s64_ok, !u16_ok by lia. cbn [bind].
  unfold target_byte, frs_size, FILE_RECORD_SEGMENT_SIZE_DEFAULT. pose proof (fld_bound 2 b 22 ltac:(lia) ltac:(lia) B).
  replace (0 <? fld 2 b 22) with (negb (fld 2 b 22 =? 0)) by lia.
  destruct (fld 2 b 22 =? 0); reflexivity.
Qed.

Lemma offset_in_target_eq cluster b : 32 <= zlen b ->
  exists y z, (y = true <-> resident b) /\ (z = true <-> nonresident b) /\
    offset_in_target cluster b =
      Ok (if y then Some (fld 2 b 18 + fld 2 b 16)
          else if z then Some (target_byte cluster b + fld 2 b 18 + fld 2 b 16) else None).
Proof.
  intros L. unfold offset_in_target. destruct (op_in_spec b LOGGED_RESIDENT_UPDATES L) as (y & -> & H).
  destruct (op_in_spec b LOGGED_NONRESIDENT_UPDATES L) as (z & -> & H').
  exists y, z. do 2 (split; [assumption|]). cbn [bind].
  unfold nr_vcn, nr_block, nr_attr_offset, nr_record_offset. rewrite s64_ok, !u16_ok by lia. cbn [bind].
  destruct y; [reflexivity|]. destruct z; reflexivity.
Qed.

(** ** Written records *)
Section Written.
  Variable f : fields.
  Hypothesis F : fields_ok f.

  Lemma lcns_image_len l : zlen (flat_map (fun v => le_bytes 8 (v mod 2 ^ 64)) l) = 8 * zlen l.
  Proof. induction l as [|v l IH]; [reflexivity|]. cbn [flat_map]. rewrite zlen_app, le_bytes_len, IH, zlen_cons. lia. Qed.

  Lemma written_len : zlen (written_record f) = 32 + 8 * zlen (f_lcns f) + zlen (f_redo f) + zlen (f_undo f).
  Proof. unfold written_record. cbv zeta. rewrite !zlen_app, !le_bytes_len, lcns_image_len. lia. Qed.

  Lemma written_fields :
    fld 2 (written_record f) 0 = f_redo_op f /\ fld 2 (written_record f) 2 = f_undo_op f /\
    fld 2 (written_record f) 4 = 32 + 8 * zlen (f_lcns f) /\ fld 2 (written_record f) 6 = zlen (f_redo f) /\
    fld 2 (written_record f) 8 = 32 + 8 * zlen (f_lcns f) + zlen (f_redo f) /\
    fld 2 (written_record f) 10 = zlen (f_undo f) /\ fld 2 (written_record f) 12 = f_target f /\
    fld 2 (written_record f) 14 = zlen (f_lcns f) /\ fld 2 (written_record f) 16 = f_record f /\
    fld 2 (written_record f) 18 = f_attr f /\ fld 2 (written_record f) 20 = f_block f /\
    fld 2 (written_record f) 22 = f_size f /\ to_signed 64 (fld 8 (written_record f) 24) = f_vcn f.
  Proof.
    destruct F as (F1 & F2 & F3 & F4 & F5 & F6 & F7 & F8 & _ & F9 & F10).
    pose proof (zlen_nonneg (f_lcns f)). pose proof (zlen_nonneg (f_redo f)). pose proof (zlen_nonneg (f_undo f)).
    unfold written_record. cbv zeta.
    do 12 (split; [fget|]).
    match goal with |- to_signed _ ?x = _ => assert (E : x = f_vcn f mod 2 ^ 64) by fget end.
    rewrite E. unfold to_signed. change (2 ^ (64 - 1)) with (2 ^ 63). ifs; lia.
  Qed.

  Lemma written_redo : redo_part (written_record f) (f_redo f).
  Proof.
    destruct written_fields as (_ & _ & E4 & E6 & _). unfold redo_part, part. rewrite E4, E6.
    pose proof (zlen_nonneg (f_lcns f)).
    destruct (Z.eq_dec (zlen (f_redo f)) 0) as [E|E]; [left; split; [auto|apply zlen_0; auto]|].
    right. split; [auto|]. split; [lia|]. unfold written_record. cbv zeta. repeat rewrite app_assoc.
    rewrite <- (app_assoc _ (f_redo f) (f_undo f)). symmetry. apply slice_app_mid; rewrite !zlen_app, !le_bytes_len, lcns_image_len; lia.
  Qed.

  Lemma written_undo : undo_part (written_record f) (f_undo f).
  Proof.
    destruct written_fields as (_ & _ & _ & _ & E8 & E10 & _). unfold undo_part, part. rewrite E8, E10.
    pose proof (zlen_nonneg (f_lcns f)). pose proof (zlen_nonneg (f_redo f)).
    destruct (Z.eq_dec (zlen (f_undo f)) 0) as [E|E]; [left; split; [auto|apply zlen_0; auto]|].
    right. split; [auto|]. split; [lia|]. unfold written_record. cbv zeta. repeat rewrite app_assoc.
    match goal with |- _ = slice (?a ++ f_undo f) _ _ => rewrite <- (app_nil_r (a ++ f_undo f)), <- (app_assoc a) end.
    symmetry. apply slice_app_mid; rewrite !zlen_app, !le_bytes_len, lcns_image_len; lia.
  Qed.

  Lemma lcns_loop_written l : forall n i pre post,
    Forall (fun v => - 2 ^ 63 <= v < 2 ^ 63) l -> n = length l -> zlen pre = 32 + 8 * i -> 0 <= i ->
    lcns_loop n (pre ++ flat_map (fun v => le_bytes 8 (v mod 2 ^ 64)) l ++ post) i = Ok l.
  Proof.
    induction l as [|v l IH]; intros n i pre post H -> HP Hi; [reflexivity|].
    inversion H as [|? ? Hv Hl]; subst. cbn [length lcns_loop flat_map].
    rewrite <- app_assoc.
    rewrite (slice_app_mid pre (le_bytes 8 (v mod 2 ^ 64))) by (rewrite ?le_bytes_len; lia).
    rewrite le_bytes_len. change (Z.of_nat 8 =? 8) with true. cbn [negb].
    rewrite s64_ok by (rewrite ?le_bytes_len; lia).
    assert (E : fld 8 (le_bytes 8 (v mod 2 ^ 64)) 0 = v mod 2 ^ 64).
    { rewrite <- (app_nil_r (le_bytes 8 _)). apply fld_here; [reflexivity|]. change (256 ^ 8) with (2 ^ 64). lia. }
    rewrite E. assert (E2 : to_signed 64 (v mod 2 ^ 64) = v).
    { unfold to_signed. change (2 ^ (64 - 1)) with (2 ^ 63). ifs; lia. }
    rewrite E2. cbn [bind].
    rewrite (app_assoc pre). rewrite (IH (length l) (i + 1) (pre ++ le_bytes 8 (v mod 2 ^ 64)) post); auto; try lia.
    rewrite zlen_app, le_bytes_len. lia.
  Qed.

  Lemma written_lcns : nr_lcns_for_page (written_record f) = Ok (f_lcns f).
  Proof.
    destruct written_fields as (_ & _ & _ & _ & _ & _ & _ & E & _).
    unfold nr_lcns_for_page, nr_lcns. pose proof written_len as L. pose proof (zlen_nonneg (f_lcns f)).
    pose proof (zlen_nonneg (f_redo f)). pose proof (zlen_nonneg (f_undo f)).
    rewrite u16_ok by lia. rewrite E. cbn [bind]. clear E L.
    unfold written_record. cbv zeta. repeat rewrite app_assoc.
    rewrite <- (app_assoc _ (f_redo f) (f_undo f)). rewrite <- (app_assoc _ (flat_map _ _)).
    apply lcns_loop_written.
    - destruct F as (_ & _ & _ & _ & _ & _ & _ & _ & H' & _). exact H'.
    - unfold zlen. lia.
    - rewrite !zlen_app, !le_bytes_len. lia.
    - lia.
  Qed.
End Written.

(** ** Entries and dumps *)

Lemma entry_reference_spec v e :
  entry_reference v e = match entry_ref v e with Some r => Ok r | None => Err ClientException end.
Proof.
  unfold entry_reference, entry_ref. replace (1 <=? v) with (negb (v <? 1)) by lia.
  destruct (v <? 1); cbn [negb].
  - replace (44 <=? zlen e) with (negb (zlen e <? 44)) by lia. destruct (Z.ltb_spec (zlen e) 44); cbn [negb]; auto.
    apply u64_ok; lia.
  - replace (40 <=? zlen e) with (negb (zlen e <? 40)) by lia. destruct (Z.ltb_spec (zlen e) 40); cbn [negb]; auto.
    apply u64_ok; lia.
Qed.

Lemma named_fun dump i p n : named dump i p n -> forall m, named dump i p m -> n = m.
Proof.
  induction 1 as [p H1 H2|p n H1 H2 H IH]; intros m M.
  - remember p as q in M. inversion M; subst; auto. contradiction.
  - remember p as q in M. inversion M; subst; auto. contradiction.
Qed.

Lemma named_inv dump i p n : named dump i p n ->
  p + 8 <= zlen dump /\ (fld 2 dump p = i \/ named dump i (p + 4 + fld 2 dump (p + 2) + 2) n).
Proof. destruct 1; auto. Qed.

Lemma find_name_spec dump i : bytes_ok dump -> forall fuel p, 0 <= p -> Z.max 0 (zlen dump - p) < Z.of_nat fuel ->
  match find_name_loop fuel dump i p with
  | Ok (Some n) => named dump i p n
  | Ok None => forall n, ~ named dump i p n
  | Err _ => False
  end.
Proof.
  intro B. induction fuel as [|fuel IH]; intros p Hp HF.
  { cbn [find_name_loop]. lia. }
  cbn [find_name_loop]. destruct (Z.ltb_spec p (zlen dump)) as [L|L].
  2:{ intros n N. inversion N; subst; lia. }
  unfold name_entry. rewrite zlen_zdrop. destruct (Z.ltb_spec (Z.max 0 (Z.min (zlen dump) (zlen dump - p))) 8) as [S|S].
  { intros n N. inversion N; subst; lia. }
  unfold ne_index, ne_name, ne_sizeof, ne_length.
  rewrite (u16_ok (zdrop p dump) 0), (u16_ok (zdrop p dump) 2) by (rewrite ?zlen_zdrop; lia).
  rewrite !fld_zdrop by lia. cbn [bind]. replace (p + 0) with p by lia.
  pose proof (fld_bound 2 dump (p + 2) ltac:(lia) ltac:(lia) B) as FB.
  destruct (Z.eqb_spec (fld 2 dump p) i) as [E|E].
  - rewrite slice_zdrop by lia. rewrite (Z.add_assoc p 4). apply named_here; [lia|auto].
  - specialize (IH (p + (4 + fld 2 dump (p + 2) + 2)) ltac:(lia) ltac:(lia)).
    replace (p + (4 + fld 2 dump (p + 2) + 2)) with (p + 4 + fld 2 dump (p + 2) + 2) in * by lia.
    destruct (find_name_loop fuel dump i _) as [[n|]|e]; auto.
    + apply named_later; auto. lia.
    + intros n N. remember p as q in N. inversion N; subst; [contradiction|]. eapply IH; eauto.
Qed.

Lemma find_name_iff dump i r : bytes_ok dump ->
  find_name dump i = r <->
  ((exists n, r = Ok (Some n) /\ named dump i 0 n) \/ (r = Ok None /\ forall n, ~ named dump i 0 n)).
Proof.
  intro B. unfold find_name. pose proof (find_name_spec dump i B (S (length dump)) 0 ltac:(lia) ltac:(unfold zlen; lia)) as H.
  destruct (find_name_loop (S (length dump)) dump i 0) as [[n|]|e]; [| |contradiction]; split.
  - intros <-. left. eauto.
  - intros [(m & -> & M)|[_ M]]; [rewrite (named_fun _ _ _ _ H _ M); auto|destruct (M _ H)].
  - intros <-. right. auto.
  - intros [(m & -> & M)|[-> _]]; [destruct (H _ M)|auto].
Qed.

(** The dump written for a list of entries, with anything after it. *)
Definition names_image (l : list (Z * list Z)) : list Z :=
  flat_map (fun e => name_entry_image e (utf16_encode (snd e))) l.

Definition entries_ok (l : list (Z * list Z)) : Prop :=
  Forall (fun e => 0 <= fst e < 65536 /\ Forall scalar (snd e) /\ snd e <> [] /\ zlen (utf16_encode (snd e)) < 65536) l.

Lemma utf16_nonempty s : s <> [] -> 2 <= zlen (utf16_encode s).
Proof.
  destruct s as [|c s]; [congruence|]. intros _. cbn [utf16_encode flat_map]. rewrite zlen_app.
  match goal with |- _ <= _ + zlen ?x => pose proof (zlen_nonneg x) as H; set (y := zlen x) in *; clearbody y end.
  unfold utf16_char, utf16_unit. destruct (c <? 65536); rewrite ?zlen_app, ?le_bytes_len; lia.
Qed.

Lemma named_image l : entries_ok l -> forall i e pre post, find (fun e => fst e =? i) l = Some e ->
  named (pre ++ names_image l ++ post) i (zlen pre) (snd e).
Proof.
  induction 1 as [|[j s] l (Hj & Hs & Hn & Hl) _ IH]; intros i e pre post E; [discriminate|].
  cbn [fst snd] in *. cbn [find fst] in E. cbn [names_image flat_map]. fold (names_image l). rewrite <- app_assoc.
  pose proof (utf16_nonempty s Hn) as L2. set (enc := utf16_encode s) in *.
  set (post' := names_image l ++ post) in *.
  set (D := pre ++ name_entry_image (j, s) enc ++ post').
  assert (DL : zlen (name_entry_image (j, s) enc) = 6 + zlen enc).
  { unfold name_entry_image. rewrite !zlen_app, !le_bytes_len. change (zlen [0; 0]) with 2. lia. }
  pose proof (zlen_nonneg post').
  assert (D0 : fld 2 D (zlen pre) = j).
  { unfold D, name_entry_image. cbn [fst]. rewrite <- !app_assoc. fget. }
  assert (D2 : fld 2 D (zlen pre + 2) = zlen enc).
  { unfold D, name_entry_image. cbn [fst]. rewrite <- !app_assoc. fget. }
  assert (LD : zlen pre + 8 <= zlen D) by (unfold D; rewrite !zlen_app; lia).
  destruct (Z.eqb_spec j i) as [EI|EI].
  - injection E as <-. cbn [snd].
    assert (N : s = utf16le (slice D (zlen pre + 4) (zlen pre + 4 + fld 2 D (zlen pre + 2)))).
    { rewrite D2. unfold D, name_entry_image. rewrite <- !app_assoc.
      replace (pre ++ le_bytes 2 (fst (j, s)) ++ le_bytes 2 (zlen enc) ++ enc ++ [0; 0] ++ post')
        with ((pre ++ le_bytes 2 (fst (j, s)) ++ le_bytes 2 (zlen enc)) ++ enc ++ [0; 0] ++ post') by (rewrite <- !app_assoc; auto).
      rewrite slice_app_mid by (rewrite !zlen_app, !le_bytes_len; lia). unfold enc. symmetry. apply utf16_round_trip; auto. }
    change (named D i (zlen pre) s). replace (named D i (zlen pre) s) with
      (named D i (zlen pre) (utf16le (slice D (zlen pre + 4) (zlen pre + 4 + fld 2 D (zlen pre + 2))))) by (rewrite <- N; auto).
    apply named_here; [exact LD|congruence].
  - change (named D i (zlen pre) (snd e)). apply named_later; [exact LD|congruence|]. rewrite D2.
    specialize (IH i e (pre ++ name_entry_image (j, s) enc) post E). rewrite zlen_app, DL in IH.
    unfold D. rewrite <- app_assoc in IH.
    replace (zlen pre + 4 + zlen enc + 2) with (zlen pre + (6 + zlen enc)) by lia. exact IH.
Qed.

Lemma names_image_ok l : entries_ok l -> bytes_ok (names_image l).
Proof.
  induction 1 as [|[j s] l _ _ IH]; [constructor|]. cbn [names_image flat_map]. fold (names_image l).
  apply bytes_ok_app. split; [|exact IH]. unfold name_entry_image.
  repeat (apply bytes_ok_app; split); try apply le_bytes_ok; try apply utf16_encode_ok. repeat constructor; lia.
Qed.

Lemma not_named_image l : entries_ok l -> forall i pre post n, find (fun e => fst e =? i) l = None -> zlen post < 8 ->
  ~ named (pre ++ names_image l ++ post) i (zlen pre) n.
Proof.
  induction 1 as [|[j s] l (Hj & Hs & Hn & Hl) _ IH]; intros i pre post n E HP N.
  { cbn [names_image flat_map app] in N. remember (zlen pre) as p. inversion N; subst; rewrite zlen_app in *; lia. }
  cbn [fst snd] in *. cbn [find fst] in E. cbn [names_image flat_map] in N. fold (names_image l) in N. rewrite <- app_assoc in N.
  pose proof (utf16_nonempty s Hn) as L2. set (enc := utf16_encode s) in *.
  set (post' := names_image l ++ post) in *.
  assert (DL : zlen (name_entry_image (j, s) enc) = 6 + zlen enc).
  { unfold name_entry_image. rewrite !zlen_app, !le_bytes_len. change (zlen [0; 0]) with 2. lia. }
  set (D := pre ++ name_entry_image (j, s) enc ++ post'). change (named D i (zlen pre) n) in N.
  assert (D0 : fld 2 D (zlen pre) = j).
  { unfold D, name_entry_image. cbn [fst]. rewrite <- !app_assoc. fget. }
  assert (D2 : fld 2 D (zlen pre + 2) = zlen enc).
  { unfold D, name_entry_image. cbn [fst]. rewrite <- !app_assoc. fget. }
  destruct (Z.eqb_spec j i) as [EI|EI]; [discriminate|].
  apply named_inv in N. destruct N as [_ [N|Q3]]; [congruence|].
  apply (IH i (pre ++ name_entry_image (j, s) enc) post n E HP).
  rewrite zlen_app, DL, <- app_assoc. fold post' D. rewrite D2 in Q3.
  replace (zlen pre + (6 + zlen enc)) with (zlen pre + 4 + zlen enc + 2) by lia. exact Q3.
Qed.
