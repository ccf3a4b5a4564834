(** The texts in the report on a FAT or exFAT volume can be written. *)
From Coq Require Import String.
From Verif Require Import Base BaseLemmas FieldLemmas FatBasic FatSpec FatBoot FatDir DirWalk FatFs ExBasic ExBoot ExDir ExFs Report ReportText
  ClusterRead FatFsProofs ExFsProofs Utf16 Utf8 Utf8Spec Utf8Proofs TextsMft TextsReport FatReport FatReportSpec FatReportProofs.

(** ** What a walk yields comes from the entries and the paths *)
Section Walk.
Context {entry item state : Type}.
Variable W : walker entry item state.
Variable P : entry -> Prop.
Variable T : list Z -> Prop.
Variable Q : item -> Prop.
Hypothesis T_nil : T [].
Hypothesis entries_ok : forall path buf, bytes_ok buf -> Forall P (fst (w_entries W path buf)).
Hypothesis enter_ok : forall st path e st' buf path', T path -> P e -> w_enter W st path e = Ok (st', Some (buf, path')) -> bytes_ok buf /\ T path'.
Hypothesis orphan_ok : forall st c buf path, w_orphan W st c = Ok (Some (buf, path)) -> bytes_ok buf /\ T path.
Hypothesis emit_ok : forall path e i, T path -> P e -> w_kind W e <> KSkip -> w_emit W path e = Ok i -> Q i.

Lemma titems_ok rec path es fin : T path -> Forall P es -> (forall st buf path stack, bytes_ok buf -> T path -> Forall Q (fst (snd (rec st buf path stack)))) ->
  forall st prev stack, Forall Q (fst (snd (items_loop W rec path es fin st prev stack))).
Proof.
  intros TP F R. induction F as [|e es PE F IH]; intros st prev stack; [constructor|]. cbn [items_loop]. cbv zeta.
  assert (K : w_kind W e <> KSkip -> forall stack prev, Forall Q (fst (snd (
      match w_emit W path e with
      | Err x => (st, ([], Raised x))
      | Ok it =>
        match w_enter W st path e with
        | Err x => (st, ([it], Raised x))
        | Ok (st', None) => let '(st2, g) := items_loop W rec path es fin st' prev stack in (st2, gcons it g)
        | Ok (st', Some (buf, path')) =>
          match rec st' buf path' stack with
          | (st2, (l, Raised x)) => (st2, (it :: l, Raised x))
          | (st2, (l, Done)) => let '(st3, g) := items_loop W rec path es fin st2 prev stack in (st3, gapp (it :: l) g)
          end
        end
      end)))).
  { intros NK stack' prev'. destruct (w_emit W path e) as [i|x] eqn:E; [|constructor]. pose proof (emit_ok _ _ _ TP PE NK E) as QI.
    destruct (w_enter W st path e) as [[st' [[buf path']|]]|x] eqn:EN; [| |repeat constructor; auto].
    - destruct (enter_ok _ _ _ _ _ _ TP PE EN) as [EB ET]. specialize (R st' buf path' stack' EB ET). destruct (rec st' buf path' stack') as [st2 [l [|x]]]; cbn in R |- *.
      + specialize (IH st2 prev' stack'). destruct (items_loop _ _ _ _ _ _ _ _) as [st3 g]. cbn in IH |- *. constructor; auto. apply Forall_app. auto.
      + constructor; auto.
    - specialize (IH st' prev' stack'). destruct (items_loop _ _ _ _ _ _ _ _) as [st3 g]. cbn in IH |- *. constructor; auto. }
  destruct (w_kind W e) as [| | |c] eqn:KE.
  - apply IH.
  - destruct (w_emit W path e) as [i|x] eqn:E; [|constructor].
    pose proof (emit_ok _ _ _ TP PE ltac:(rewrite KE; discriminate) E) as QI.
    specialize (IH st prev stack). destruct (items_loop _ _ _ _ _ _ _ _) as [st3 g]. cbn in IH |- *. constructor; auto.
  - apply K. discriminate.
  - destruct (zin c _); [apply IH|]. apply K. discriminate.
Qed.
Lemma tprocess_all fuel : forall st buf path stack, bytes_ok buf -> T path -> Forall Q (fst (snd (process W fuel st buf path stack))).
Proof.
  induction fuel as [|fuel IH]; intros st buf path stack BO TP; [constructor|]. cbn [process].
  pose proof (entries_ok path buf BO) as E. destruct (w_entries W path buf) as [es fin]. apply titems_ok; auto.
Qed.
Lemma twalk_all fuel st buf stack : bytes_ok buf -> Forall Q (fst (walk_from W fuel st buf stack)).
Proof.
  intros BO. unfold walk_from. pose proof (tprocess_all fuel st buf [] stack BO T_nil) as A. destruct (process W fuel st buf [] stack) as [st' [l [|x]]]; [|exact A].
  cbn in A |- *. apply Forall_app. split; [exact A|]. generalize (w_orphans W st'). clear A l. intros cs. revert st'.
  induction cs as [|c cs IH]; intros st'; [constructor|]. cbn [orphans_loop]. destruct (w_orphan W st' c) as [[[b p]|]|x] eqn:EO; [|apply IH|constructor].
  destruct (orphan_ok _ _ _ _ EO) as [OB OT]. pose proof (tprocess_all fuel st' b p [] OB OT) as B. destruct (process W fuel st' b p []) as [st2 [l [|x]]]; [|exact B].
  cbn in B |- *. apply Forall_app. split; [exact B|apply IH].
Qed.
End Walk.

(** ** FAT *)
Lemma all_ztake {A} (P : A -> Prop) l : Forall P l -> forall n, Forall P (ztake n l).
Proof. induction 1 as [|x l X L IH]; intros n; cbn [ztake]; [constructor|]. destruct (n <=? 0); [constructor|]. constructor; auto. Qed.
Definition osc (n : option (list Z)) : Prop := match n with None => True | Some n => sc n end.
Definition ditem_fine (i : dir_item) : Prop :=
  match i with FileE e => sc (fe_short e) /\ osc (fe_long e) /\ bytes_ok (fe_short_raw e) | OrphanE n => osc n end.
Lemma sc_ztake n l : sc l -> sc (ztake n l).
Proof. intros S. apply all_ztake, S. Qed.
Lemma cut_null_bytes n : forall l, (List.length l <= n)%nat -> bytes_ok l -> bytes_ok (cut_null l).
Proof.
  induction n as [|n IH]; intros l L B; [destruct l; [constructor|cbn in L; lia]|].
  destruct B as [|a l A B]; [constructor|]. destruct B as [|b l C B]; [constructor; [exact A|constructor]|]. cbn [cut_null].
  destruct (_ && _); [constructor|]. constructor; [exact A|]. constructor; [exact C|]. apply IH; [cbn in L; lia|exact B].
Qed.
Lemma cut_fine l : bytes_ok l -> sc (utf16le (cut_null l)).
Proof. intros B. apply utf16le_scalar. eapply cut_null_bytes; eauto. Qed.
Lemma bytes_concat l : Forall bytes_ok l -> bytes_ok (concat l).
Proof. induction 1; cbn [concat]; [constructor|apply bytes_app; auto]. Qed.
Lemma long_fine es : Forall bytes_ok es -> osc (build_long_name es).
Proof.
  intros B. unfold build_long_name. destruct es as [|e es]; [exact I|].
  assert (S : sc (utf16le (cut_null (concat (rev (e :: es)))))) by (apply cut_fine, bytes_concat, Forall_rev, B).
  destruct (utf16le _) as [|c n]; [exact I|]. cbn [osc]. destruct (255 <? _); [apply sc_ztake|]; exact S.
Qed.

Section Fat.
Variables dec lower : list Z -> list Z.
Hypothesis dec_ok : forall b, bytes_ok b -> sc (dec b).
Hypothesis lower_ok : forall s, sc s -> sc (lower s).

Lemma short_fine lb le a raw ck nm s : bytes_ok raw -> short_names dec lower lb le a raw = (ck, nm, Some s) -> sc s.
Proof.
  intros B. unfold short_names. destruct (negb _).
  - intros H. injection H as _ _ H. unfold parse_short_name in H. destruct (negb _); [discriminate|]. cbv zeta in H. apply fix_first_bytes in B.
    assert (S1 : sc (dec (rstrip_space (slice (fix_first raw) 0 8)))) by (apply dec_ok, rstrip_bytes, bytes_ok_slice, B).
    assert (S2 : sc (dec (rstrip_space (zdrop 8 (fix_first raw))))) by (apply dec_ok, rstrip_bytes, bytes_ok_zdrop, B).
    set (b := dec (rstrip_space (slice (fix_first raw) 0 8))) in *. set (x := dec (rstrip_space (zdrop 8 (fix_first raw)))) in *. clearbody b x.
    assert (S3 : sc (if lb then lower b else b)) by (destruct lb; auto).
    assert (S4 : sc (if le then lower x else x)) by (destruct le; auto).
    destruct (if le then lower x else x); injection H as <-; [exact S3|]. apply sc_app; [exact S3|]. constructor; [unfold scalar; lia|exact S4].
  - cbv zeta. destruct (forallb _ _); intros H; [|discriminate]. injection H as _ _ <-. apply dec_ok, rstrip_bytes, fix_first_bytes, B.
Qed.
Lemma orphan_if_fine {A} (l : list A) n : osc n -> Forall ditem_fine (orphan_if l n).
Proof. intros N. destruct l; repeat constructor. exact N. Qed.
Lemma orphan_some_fine n : osc n -> Forall ditem_fine (orphan_some n).
Proof. intros N. destruct n; repeat constructor. exact N. Qed.
Lemma pieces_bytes s : bytes_ok s -> Forall bytes_ok (lfn_pieces s).
Proof. intros B. unfold lfn_pieces. repeat (constructor; [apply bytes_ok_slice, B|]). constructor. Qed.
Lemma dir_step_fine is32 so st s st' out : bytes_ok s -> Forall bytes_ok (ds_stash st) -> dir_step dec lower is32 so st s = Ok (st', out) ->
  Forall bytes_ok (ds_stash st') /\ Forall ditem_fine out.
Proof.
  intros B ST H. unfold dir_step in H. cbv zeta in H. pose proof (long_fine _ ST) as LF.
  destruct (_ =? 15).
  - destruct so; [injection H as <- <-; split; [exact ST|constructor]|]. destruct (negb (_ =? 0)); [injection H as <- <-; split; [exact ST|constructor]|].
    destruct (negb _); [destruct (coherent _ _ None)|]; injection H as <- <-; cbn [ds_stash].
    + split; [apply pieces_bytes, B|apply orphan_if_fine, LF].
    + split; [constructor|apply orphan_if_fine, LF].
    + split; [apply Forall_app; split; [exact ST|apply pieces_bytes, B]|constructor].
  - apply bind_ok in H as (nt & _ & H).
    destruct (short_names _ _ _ _ _ _) as [[ck nm] short] eqn:SN.
    match goal with K : (let '(_, _) := ?t in _) = _ |- _ => destruct t as [long out0] eqn:LO end.
    assert (O0 : osc long /\ Forall ditem_fine out0).
    { destruct (negb _); [destruct (match ds_prev st with None => _ | Some _ => _ end)|]; injection LO as <- <-.
      - split; [exact LF|constructor].
      - split; [exact I|apply orphan_if_fine, LF].
      - split; [exact LF|constructor]. }
    destruct O0 as [LN O0].
    assert (TAIL : forall l, Forall ditem_fine l -> Forall ditem_fine (out0 ++ l)) by (intros; apply Forall_app; auto).
    assert (ST' : Forall bytes_ok (ds_stash st')).
    { destruct short; [destruct nm|]; [|injection H as <- _; constructor..].
      repeat match goal with K : (if ?c then _ else _) = Ok (st', _) |- _ => destruct c end; injection H as <- _; constructor. }
    split; [exact ST'|].
    destruct short as [short|]; [|injection H as _ <-; apply TAIL, orphan_some_fine, LN].
    destruct nm as [nm|]; [|injection H as _ <-; apply TAIL, orphan_some_fine, LN].
    do 2 match goal with K : (if ?c then _ else _) = _ |- _ => destruct c; [injection K as _ <-; apply TAIL, orphan_some_fine, LN|] end.
    injection H as _ <-. apply TAIL. constructor; [|constructor]. unfold build_entry. cbn [ditem_fine fe_short fe_long fe_short_raw].
    split; [eapply short_fine; [|exact SN]; apply bytes_ok_slice, B|]. split; [exact LN|].
    eapply short_names_bytes; [|exact SN]. apply bytes_ok_slice, B.
Qed.
Lemma dir_loop_fine is32 so slots : Forall bytes_ok slots -> forall st, Forall bytes_ok (ds_stash st) ->
  Forall ditem_fine (fst (dir_loop dec lower is32 so st slots)).
Proof.
  induction 1 as [|s slots B F IH]; intros st ST; [apply orphan_if_fine, long_fine, ST|]. cbn [dir_loop].
  destruct (dir_step dec lower is32 so st s) as [[st' out]|x] eqn:E; [|constructor]. cbn.
  destruct (dir_step_fine _ _ _ _ _ _ B ST E) as [ST' O]. apply Forall_app. split; [exact O|apply IH, ST'].
Qed.
Lemma dir_entries_fine is32 so buf : bytes_ok buf -> Forall ditem_fine (fst (dir_entries dec lower is32 so buf)).
Proof. intros B. unfold dir_entries. destruct (_ || _); [constructor|]. apply dir_loop_fine; [apply cut_slots_bytes, B|constructor]. Qed.

Lemma decimal_fine c : sc (decimal c).
Proof. unfold decimal. induction (N.to_uint _); cbn [uint_digits]; [constructor|..]; (constructor; [unfold scalar; lia|assumption]). Qed.
Lemma orphan_path_fine c : sc (orphan_path c).
Proof.
  unfold orphan_path. apply sc_app; [apply sc_small; repeat (constructor; [lia|]); constructor|]. apply sc_app; [apply decimal_fine|].
  apply sc_one. unfold scalar; lia.
Qed.
Lemma with_slash_fine p : sc p -> sc (with_slash p).
Proof.
  intros S. unfold with_slash. destruct p as [|c p]; [apply sc_one; unfold scalar, slash; lia|]. destruct (_ =? slash); [exact S|].
  apply sc_app; [exact S|]. apply sc_one; unfold scalar, slash; lia.
Qed.
Lemma below_fine p n : sc p -> sc n -> sc (p ++ [slash] ++ n).
Proof. intros P N. apply sc_app; [exact P|]. constructor; [unfold scalar, slash; lia|exact N]. Qed.

Lemma fat_walk_fine vol voff vsize fs scan : bytes_ok vol -> 0 <= voff -> fat_fs_open vol voff vsize = Ok fs ->
  Forall ditem_fine (fst (fat_walk dec lower fs scan)).
Proof.
  intros B V O. pose proof (open_ok _ _ _ _ B V O) as FO. assert (G : bytes_ok (g_vol (fs_geo fs))) by (rewrite (fo_vol _ _ _ _ FO); exact B).
  unfold fat_walk. destruct (fat_root fs) as [[[buf stack] visited]|x] eqn:R; [|constructor].
  apply (twalk_all _ ditem_fine sc).
  - constructor.
  - intros path b BB. cbn [fat_walker w_entries]. apply dir_entries_fine, BB.
  - intros st path e st' b path' TP PE H. cbn [fat_walker w_enter] in H. unfold fat_enter in H. destruct e as [e|n]; [|discriminate].
    destruct PE as (P1 & P2 & _).
    destruct (negb _); [discriminate|]. apply bind_ok in H as (al & _ & H). destruct al as [al|]; [|discriminate]. destruct (_ && _); [discriminate|].
    cbv zeta in H. destruct (fat_read_chain fs (fe_first_cluster e) None) as [[|c d]|x] eqn:RC; [discriminate| |destruct (fat_caught x); discriminate].
    apply fat_chain_bytes in RC; [|exact G].
    destruct (_ && _); [discriminate|]. apply bind_ok in H as (b1 & EB & H). injection H as _ <- <-.
    split; [|apply below_fine; [exact TP|destruct (fe_long e); [exact P2|exact P1]]].
    destruct (is_true _); [|injection EB as <-; exact RC]. unfold fat_extra in EB. apply bind_ok in EB as (cl & _ & EB).
    destruct (negb _); [injection EB as <-; exact RC|]. apply bind_ok in EB as (a2 & _ & EB). destruct a2 as [[|]|]; try (injection EB as <-; exact RC).
    destruct (fat_read_chain fs (fe_first_cluster e + 1) None) as [ex|x] eqn:RX; [|destruct (fat_caught x); [injection EB as <-; exact RC|discriminate]].
    apply fat_chain_bytes in RX; [|exact G]. apply bind_ok in EB as (m & _ & EB). injection EB as <-. destruct m; [exact (bytes_app _ _ RC RX)|exact RC].
  - intros st c b path H. cbn [fat_walker w_orphan] in H. unfold fat_orphan in H.
    destruct (fat_read_chain fs c None) as [d|x] eqn:RC; [|destruct (fat_caught x); discriminate]. destruct (_ || _); [discriminate|]. injection H as <- <-.
    split; [eapply fat_chain_bytes; eauto|apply orphan_path_fine].
  - intros path e i TP P _ H. cbn [fat_walker w_emit] in H. pose proof (with_slash_fine _ TP) as WS.
    destruct e as [e|[n|]]; cbn [fat_expand] in H; [| |discriminate]; cbv zeta in H; injection H as <-.
    + destruct P as (P1 & P2 & P3). cbn [ditem_fine fe_short fe_long fe_short_raw]. split; [apply sc_app; auto|]. split; [|exact P3].
      destruct (fe_long e); [apply sc_app; auto|exact I].
    + apply sc_app; auto.
  - exact (proj1 (root_ok _ _ _ _ B FO _ _ _ R)).
Qed.

Lemma boolean_fine b : sc (boolean_text b).
Proof. destruct b as [[|]|]; apply sc_txt. Qed.
Lemma fat_time_fine t : sc (fat_time_text t).
Proof. destruct t as [[[d [[h m] s]] ms]|]; [apply datetime_fine|apply sc_txt]. Qed.
Lemma fat_date_fine t : sc (fat_date_text t).
Proof. destruct t; [apply date_fine|apply sc_txt]. Qed.
Lemma bytes_text_fine b : bytes_ok b -> sc (bytes_text b).
Proof.
  intros B. unfold bytes_text. cbv zeta. set (qt := if zin 39 b && negb (zin 34 b) then 34 else 39). assert (Q : scalar qt) by (unfold qt, scalar; destruct (_ && _); lia). clearbody qt.
  constructor; [unfold scalar; lia|]. constructor; [exact Q|]. apply sc_app; [|apply sc_one, Q]. apply sc_flat. eapply Forall_impl; [|exact B].
  intros c C. unfold is_byte in C. unfold byte_text. destruct (_ || _); [apply sc_small; repeat (constructor; [lia|]); constructor|].
  repeat match goal with |- sc (if ?c then _ else _) => destruct c end; try solve [apply sc_small; repeat (constructor; [lia|]); constructor].
  assert (HD : forall k, 0 <= k < 16 -> scalar (LogReport.lower (hex_digit k))) by (intros k K; unfold LogReport.lower, hex_digit, scalar; destruct (k <? 10) eqn:?; destruct (65 <=? _); lia).
  constructor; [unfold scalar; lia|]. constructor; [unfold scalar; lia|]. constructor; [apply HD; lia|]. constructor; [apply HD; lia|constructor].
Qed.
Lemma q_fine : sc q.
Proof. apply sc_txt. Qed.
Lemma fat_row_fine p e : sc p -> bytes_ok (fe_short_raw e) -> Forall sc (fat_row p e).
Proof.
  intros P R. unfold fat_row. repeat (constructor; [first [exact P|apply boolean_fine|apply fat_time_fine|apply fat_date_fine|apply number_fine|apply bytes_text_fine, R]|]).
  constructor.
Qed.
Lemma fat_rows_fine items : Forall ditem_fine items -> forall found st, gall (Forall sc) (fat_rows found items st).
Proof.
  induction 1 as [|i items N F IH]; intros found st; [constructor|]. destruct i as [e|[n|]]; cbn [fat_rows]; [| |constructor].
  - destruct N as (N1 & N2 & N3). destruct (_ && _); (apply gall_cons; [apply fat_row_fine; [|exact N3]|apply IH]).
    + apply sc_app; [exact N1|apply sc_txt].
    + destruct (fe_long e); [exact N2|exact N1].
  - apply gall_cons; [|apply IH]. repeat (constructor; [first [apply q_fine|apply sc_app; [exact N|apply sc_txt]]|]). constructor.
Qed.

(** ** exFAT *)
Definition xitem_fine (i : x_item) : Prop :=
  match i with XFile e => sc (xe_name e) /\ xoke i | XOrphan n => sc n | XLabel n => sc n | XBitmap _ _ _ => True end.
Lemma x_name_fine es len n : Forall bytes_ok es -> x_build_name es len = Some n -> sc n.
Proof.
  intros B. unfold x_build_name. destruct es as [|e es]; [discriminate|].
  assert (S : sc (utf16le (cut_null (concat (e :: es))))) by (apply cut_fine, bytes_concat, B).
  cbv zeta. destruct (utf16le _) as [|c t]; [discriminate|].
  destruct len as [k|]; [destruct (k <? _); [intros H; assert (n = ztake k (c :: t)) by congruence; subst n; apply sc_ztake, S|]|];
    (destruct (existsb _ _); [discriminate|]; destruct (_ || _); [discriminate|]; intros H; injection H as <-; exact S).
Qed.
Lemma x_label_fine raw len n : bytes_ok raw -> x_build_label raw len = Some n -> sc n.
Proof.
  intros B. unfold x_build_label. pose proof (cut_fine _ B) as S. cbv zeta. destruct (utf16le _) as [|c t]; [discriminate|].
  destruct (_ <? _); [intros H; assert (n = ztake len (c :: t)) by congruence; subst n; apply sc_ztake, S|]. destruct (existsb _ _); [discriminate|]. intros H; injection H as <-; exact S.
Qed.
Lemma x_secondary_names del subs : Forall bytes_ok subs -> forall i st names v st' names', Forall bytes_ok names ->
  x_secondary del i st names v subs = Some (st', names') -> Forall bytes_ok names'.
Proof.
  induction 1 as [|s subs B F IH]; intros i st names v st' names' N H; cbn [x_secondary] in H; [injection H as _ <-; exact N|]. cbv zeta in H.
  repeat match type of H with (if ?c then _ else _) = _ => destruct c; [discriminate|] end.
  match type of H with match ?m with None => None | Some _ => _ end = _ => destruct m as [st1|]; [|discriminate] end.
  match type of H with match ?m with None => None | Some _ => _ end = _ => destruct m as [n1|] eqn:E; [|discriminate] end.
  assert (N1 : Forall bytes_ok n1).
  { destruct (_ =? 65); [|injection E as <-; exact N]. destruct st1 as [x|]; [|discriminate]. destruct (_ || _); [discriminate|]. injection E as <-.
    apply Forall_app. split; [exact N|]. constructor; [apply bytes_ok_slice, B|constructor]. }
  destruct (_ && _); [discriminate|]. eapply IH; [exact N1|exact H].
Qed.
Lemma x_gather_bytes t slots : Forall bytes_ok slots -> forall i, Forall bytes_ok (x_gather t i slots).
Proof.
  induction 1 as [|s slots B F IH]; intros i; cbn [x_gather]; [constructor|]. destruct (negb _); [constructor|]. destruct (negb _); [constructor|].
  constructor; [apply bytes_ok_slice, B|]. destruct (17 <=? _); [constructor|]. destruct (ends_null _); [constructor|apply IH].
Qed.
Definition xname_fine (i : x_item) : Prop := match i with XFile e => sc (xe_name e) | XOrphan n => sc n | XLabel n => sc n | XBitmap _ _ _ => True end.
Lemma x_file_name s rest e n : Forall bytes_ok rest -> x_file s rest = Some (e, n) -> sc (xe_name e).
Proof.
  intros B H. unfold x_file in H. cbv zeta in H. destruct (_ || _); [discriminate|]. destruct (negb _); [discriminate|].
  destruct (_ && _); [discriminate|].
  destruct (x_secondary _ _ _ _ _ _) as [[[x|] names]|] eqn:E; [|discriminate..].
  destruct (x_build_name _ _) as [name|] eqn:N; [|discriminate]. injection H as <- _. cbn [xe_name].
  eapply x_name_fine; [|exact N]. eapply x_secondary_names; [|constructor|exact E]. apply all_ztake, B.
Qed.
Lemma x_dir_loop_fine root slots : Forall bytes_ok slots -> forall l b k, Forall xname_fine (fst (x_dir_loop root l b k slots)).
Proof.
  induction 1 as [|s slots B F IH]; intros l b k; cbn [x_dir_loop]; [constructor|]. destruct (0 <? k); [apply IH|]. cbv zeta.
  repeat match goal with
  | |- Forall _ (fst (if ?c then _ else _)) => destruct c
  | |- Forall _ (fst ([], _)) => constructor
  | |- Forall _ (fst (x_dir_loop _ _ _ _ _)) => apply IH
  end.
  - destruct (x_file s slots) as [[e n]|] eqn:E; [|apply IH]. constructor; [|apply IH]. eapply x_file_name; eauto.
  - destruct (x_build_label _ _) as [n|] eqn:E; [|constructor]. constructor; [|apply IH]. eapply x_label_fine; [|exact E]. apply bytes_ok_slice, B.
  - constructor; [exact I|apply IH].
  - destruct (x_orphan s slots) as [[n m]|] eqn:E; [|apply IH]. constructor; [|apply IH]. unfold x_orphan in E. cbv zeta in E.
    destruct (x_build_name _ _) as [n'|] eqn:E'; [|discriminate]. injection E as <- _. eapply x_name_fine; [|exact E'].
    apply x_gather_bytes. constructor; auto.
Qed.
Lemma x_entries_fine root buf : bytes_ok buf -> Forall xitem_fine (fst (x_entries root buf)).
Proof.
  intros B. pose proof (x_entries_times root buf B) as T.
  assert (N : Forall xname_fine (fst (x_entries root buf))).
  { unfold x_entries. destruct (_ || _); [constructor|]. apply x_dir_loop_fine, cut_slots_bytes, B. }
  rewrite Forall_forall in T, N |- *. intros i X. specialize (T i X). specialize (N i X). destruct i as [e| | |]; try exact N. split; [exact N|apply T].
Qed.
Lemma x_expand_fine p n : sc p -> sc n -> sc (x_expand p n).
Proof. intros P N. apply sc_app; [exact (with_slash_fine p P)|exact N]. Qed.
Lemma x_walk_fine vol voff vsize fs scan : bytes_ok vol -> 0 <= voff -> x_fs_open vol voff vsize = Ok fs -> Forall xname_fine (fst (x_walk fs scan)).
Proof.
  intros B V O. pose proof (x_open_ok _ _ _ _ B V O) as FO. unfold x_walk. cbv zeta.
  destruct (x_read_chain fs _ None false) as [buf|x] eqn:R; [|constructor]. apply (twalk_all _ xitem_fine sc).
  - constructor.
  - intros path b BB. cbn [x_walker w_entries]. apply x_entries_fine, BB.
  - intros st path e st' b path' TP P H. cbn [x_walker w_enter] in H. assert (XE : xoke e) by (destruct e; [apply P|exact I..]).
    split; [exact (proj1 (proj2 (proj2 (xenter_ok _ _ _ _ B FO _ _ _ _ _ _ XE H))))|].
    unfold x_enter in H. destruct e as [e| | |]; [|discriminate..]. cbv zeta in H. apply bind_ok in H as (al & _ & H). destruct al as [al|]; [|discriminate].
    destruct (negb (xe_directory e)); [discriminate|].
    match type of H with (if ?c then _ else _) = _ => destruct c end; [apply bind_ok in H as (m & _ & H); discriminate|].
    destruct (x_read_chain fs (xe_first e) (Some (xe_size e)) (xe_no_chain e)) as [[|c d]|x]; [discriminate| |destruct (x_caught x); discriminate]. injection H as _ _ <-.
    apply below_fine; [exact TP|apply P].
  - intros st c b path H. split; [exact (xorphan_ok _ _ _ _ B FO _ _ _ _ H)|]. cbn [x_walker w_orphan] in H. unfold x_orphan_dir in H.
    destruct (meta_get c _) as [[[ts sz] nc]|]; [|discriminate]. destruct (x_read_chain fs c (Some sz) nc) as [d|x]; [|destruct (x_caught x); discriminate].
    destruct (_ || _); [discriminate|]. injection H as _ <-. apply orphan_path_fine.
  - intros path e i TP P NK H. cbn [x_walker w_emit w_kind] in H, NK. destruct e as [e|n|l|a b c]; cbn [x_emit] in H; injection H as <-.
    + cbn [xname_fine x_named xe_name]. apply x_expand_fine; [exact TP|apply P].
    + apply x_expand_fine; [exact TP|exact P].
    + exact P.
    + exact I.
  - exact (chain_bytes _ _ _ _ B FO _ _ _ _ R).
Qed.
Lemma tz_item_fine t : sc (tz_item t).
Proof.
  destruct t as [k|]; cbn [tz_item]; [|apply sc_txt]. destruct (k =? 0); [apply sc_txt|]. destruct (0 <? k); (constructor; [unfold scalar; lia|apply number_fine]).
Qed.
Lemma tz_fine a b c : sc (tz_text a b c).
Proof. unfold tz_text. scs; apply tz_item_fine. Qed.
Lemma x_rows_fine items : Forall xname_fine items -> forall st, gall (Forall sc) (x_rows items st).
Proof.
  induction 1 as [|i items N F IH]; intros st; [constructor|]. destruct i as [e|n|n|a b c]; cbn [x_rows]; [| | |constructor]; (apply gall_cons; [|apply IH]);
    cbn [xname_fine] in N;
    repeat (constructor; [first [exact N|apply q_fine|apply boolean_fine|apply fat_time_fine|apply tz_fine|apply number_fine|apply sc_txt
      |apply sc_app; [exact N|apply sc_txt]]|]); constructor.
Qed.
Lemma fat_report_fine vol voff : bytes_ok vol -> 0 <= voff -> gall (Forall sc) (fat_report dec lower vol voff).
Proof.
  intros B V. unfold fat_report. destruct (fat_fs_open vol voff None) as [fs|x] eqn:O.
  - pose proof (fat_walk_fine _ _ _ _ false B V O) as W. destruct (fat_walk _ _ _ _) as [items st]. apply gall_cons; [apply txts_fine|]. apply fat_rows_fine, W.
  - destruct (fs_exception x); [|constructor]. destruct (x_fs_open vol voff None) as [fs|y] eqn:XO; [|constructor].
    pose proof (x_walk_fine _ _ _ _ false B V XO) as W. destruct (x_walk _ _) as [items st]. apply gall_cons; [apply txts_fine|]. apply x_rows_fine, W.
Qed.
End Fat.
