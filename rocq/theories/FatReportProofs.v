(** The report on a FAT or exFAT volume. *)
From Verif Require Import Base BaseLemmas FieldLemmas FatBasic FatSpec FatDirSpec ExSpec ExDirSpec Properties_ExDir FatBoot FatDir DirWalk FatFs ExBasic ExBoot ExDir ExFs Report ReportText ReportTextSpec
  ClusterRead FatFsProofs ExFsProofs CalendarProofs ReportTextProofs CsvProofs FatReport FatReportSpec.

(** ** What a walk yields comes from the entries *)
Section Walk.
Context {entry item state : Type}.
Variable W : walker entry item state.
Variable P : entry -> Prop.
Variable Q : item -> Prop.
Hypothesis entries_ok : forall path buf, bytes_ok buf -> Forall P (fst (w_entries W path buf)).
Hypothesis enter_ok : forall st path e st' buf path', P e -> w_enter W st path e = Ok (st', Some (buf, path')) -> bytes_ok buf.
Hypothesis orphan_ok : forall st c buf path, w_orphan W st c = Ok (Some (buf, path)) -> bytes_ok buf.
Hypothesis emit_ok : forall path e i, P e -> w_kind W e <> KSkip -> w_emit W path e = Ok i -> Q i.

Lemma items_ok rec path es fin : Forall P es -> (forall st buf path stack, bytes_ok buf -> Forall Q (fst (snd (rec st buf path stack)))) ->
  forall st prev stack, Forall Q (fst (snd (items_loop W rec path es fin st prev stack))).
Proof.
  intros F R. induction F as [|e es PE F IH]; intros st prev stack; [constructor|]. cbn [items_loop]. cbv zeta.
  assert (K : w_kind W e <> KSkip -> forall stack prev, Forall Q (fst (snd (
      match w_emit W path e with
      | Err x => (st, ([], Raised x))
      | Ok it =>
        match w_enter W st path e with
        | Err x => (st, ([it], Raised x))
        | Ok (st', None) => let '(st2, g) := items_loop W rec path es fin st' prev stack in (st2, gcons it g)
        | Ok (st', Some (buf, path')) =>
          match rec st' buf path' stack with
          | (st2, (l, Raised x)) => (st2, (it :: l, Raised x))
          | (st2, (l, Done)) => let '(st3, g) := items_loop W rec path es fin st2 prev stack in (st3, gapp (it :: l) g)
          end
        end
      end)))).
  { intros NK stack' prev'. destruct (w_emit W path e) as [i|x] eqn:E; [|constructor]. pose proof (emit_ok _ _ _ PE NK E) as QI.
    destruct (w_enter W st path e) as [[st' [[buf path']|]]|x] eqn:EN; [| |repeat constructor; auto].
    - specialize (R st' buf path' stack' (enter_ok _ _ _ _ _ _ PE EN)). destruct (rec st' buf path' stack') as [st2 [l [|x]]]; cbn in R |- *.
      + specialize (IH st2 prev' stack'). destruct (items_loop _ _ _ _ _ _ _ _) as [st3 g]. cbn in IH |- *. constructor; auto. apply Forall_app. auto.
      + constructor; auto.
    - specialize (IH st' prev' stack'). destruct (items_loop _ _ _ _ _ _ _ _) as [st3 g]. cbn in IH |- *. constructor; auto. }
  destruct (w_kind W e) as [| | |c] eqn:KE.
  - apply IH.
  - destruct (w_emit W path e) as [i|x] eqn:E; [|constructor].
    pose proof (emit_ok _ _ _ PE ltac:(rewrite KE; discriminate) E) as QI.
    specialize (IH st prev stack). destruct (items_loop _ _ _ _ _ _ _ _) as [st3 g]. cbn in IH |- *. constructor; auto.
  - apply K. discriminate.
  - destruct (zin c _); [apply IH|]. apply K. discriminate.
Qed.
Lemma process_all fuel : forall st buf path stack, bytes_ok buf -> Forall Q (fst (snd (process W fuel st buf path stack))).
Proof.
  induction fuel as [|fuel IH]; intros st buf path stack BO; [constructor|]. cbn [process].
  pose proof (entries_ok path buf BO) as E. destruct (w_entries W path buf) as [es fin]. apply items_ok; auto.
Qed.
Lemma walk_all fuel st buf stack : bytes_ok buf -> Forall Q (fst (walk_from W fuel st buf stack)).
Proof.
  intros BO. unfold walk_from. pose proof (process_all fuel st buf [] stack BO) as A. destruct (process W fuel st buf [] stack) as [st' [l [|x]]]; [|exact A].
  cbn in A |- *. apply Forall_app. split; [exact A|]. generalize (w_orphans W st'). clear A l. intros cs. revert st'.
  induction cs as [|c cs IH]; intros st'; [constructor|]. cbn [orphans_loop]. destruct (w_orphan W st' c) as [[[b p]|]|x] eqn:EO; [|apply IH|constructor].
  pose proof (process_all fuel st' b p [] (orphan_ok _ _ _ _ EO)) as B. destruct (process W fuel st' b p []) as [st2 [l [|x]]]; [|exact B].
  cbn in B |- *. apply Forall_app. split; [exact B|apply IH].
Qed.
End Walk.

(** ** The times that are decoded *)
Definition date_ok (d : fat_date) : Prop := let '(y, m, d) := d in 0 <= y < 10000 /\ 0 <= m < 100 /\ 0 <= d < 100.
Definition clock_ok (c : Z * Z * Z) : Prop := let '(h, m, s) := c in 0 <= h < 100 /\ 0 <= m < 100 /\ 0 <= s < 100.
Definition t_ok (t : option (fat_datetime * Z)) : Prop :=
  match t with None => True | Some ((d, c), ms) => date_ok d /\ clock_ok c /\ 0 <= ms < 1000 end.
Lemma land_low v k : 0 <= k -> 0 <= Z.land v (Z.ones k) < 2 ^ k.
Proof. intros H. rewrite Z.land_ones by exact H. apply Z.mod_pos_bound. lia. Qed.
Lemma decode_date_ok v d : decode_fat_date v = Some d -> date_ok d.
Proof.
  unfold decode_fat_date. cbv zeta. intros H.
  pose proof (land_low v 5 ltac:(lia)) as A. change (Z.ones 5) with 31 in A.
  destruct (Z.land v 31 =? 0); [discriminate|]. destruct (_ || _) eqn:M; [discriminate|].
  destruct (Z.ltb_spec 127 (Z.land (Z.shiftr v 9) 127)) as [Y|Y]; [discriminate|].
  pose proof (land_low (Z.shiftr v 9) 7 ltac:(lia)) as C. change (Z.ones 7) with 127 in C.
  pose proof (land_low (Z.shiftr v 5) 4 ltac:(lia)) as D. change (Z.ones 4) with 15 in D.
  destruct (date_exists _ _ _); [|discriminate]. injection H as <-. unfold date_ok. lia.
Qed.
Lemma decode_time_ok v c : decode_fat_time v = Some c -> let '(h, m, s) := c in 0 <= h < 100 /\ 0 <= m < 100 /\ 0 <= s <= 58.
Proof.
  unfold decode_fat_time. cbv zeta. intros H.
  pose proof (land_low v 5 ltac:(lia)) as A. change (Z.ones 5) with 31 in A.
  pose proof (land_low (Z.shiftr v 5) 6 ltac:(lia)) as B. change (Z.ones 6) with 63 in B.
  pose proof (land_low (Z.shiftr v 11) 5 ltac:(lia)) as C. change (Z.ones 5) with 31 in C.
  destruct (Z.ltb_spec 29 (Z.land v 31)); [discriminate|]. destruct (Z.ltb_spec 59 (Z.land (Z.shiftr v 5) 63)); [discriminate|].
  destruct (Z.ltb_spec 23 (Z.land (Z.shiftr v 11) 31)); [discriminate|]. injection H as <-. lia.
Qed.
Lemma add_ms_ok d h m s ms : date_ok d -> 0 <= h < 100 -> 0 <= m < 100 -> 0 <= s <= 58 -> 0 <= ms <= 1990 -> t_ok (Some (add_ms (d, (h, m, s)) ms)).
Proof. intros D H M S MS. unfold add_ms, t_ok, clock_ok. repeat split; try lia. exact D. Qed.
Lemma x_time_ok v ms : 0 <= ms -> t_ok (x_decode_timestamp v ms).
Proof.
  intros MS. unfold x_decode_timestamp. cbv zeta.
  set (t := Z.land v 65535). set (dt := Z.land (Z.shiftr v 16) 1048575). set (m10 := if 199 <? ms then 0 else ms).
  assert (M10 : 0 <= m10 <= 199) by (unfold m10; destruct (Z.ltb_spec 199 ms); lia). clearbody t dt m10.
  pose proof (land_low t 5 ltac:(lia)) as A. change (Z.ones 5) with 31 in A.
  pose proof (land_low (Z.shiftr t 5) 6 ltac:(lia)) as B. change (Z.ones 6) with 63 in B.
  pose proof (land_low (Z.shiftr t 11) 5 ltac:(lia)) as C. change (Z.ones 5) with 31 in C.
  pose proof (land_low dt 5 ltac:(lia)) as A'. change (Z.ones 5) with 31 in A'.
  pose proof (land_low (Z.shiftr dt 9) 7 ltac:(lia)) as C'. change (Z.ones 7) with 127 in C'.
  pose proof (land_low (Z.shiftr dt 5) 4 ltac:(lia)) as D'. change (Z.ones 4) with 15 in D'.
  destruct (Z.ltb_spec 29 (Z.land t 31)); [exact I|]. destruct (Z.ltb_spec 59 (Z.land (Z.shiftr t 5) 63)); [exact I|].
  destruct (Z.ltb_spec 23 (Z.land (Z.shiftr t 11) 31)); [exact I|]. destruct (Z.land dt 31 =? 0); [exact I|]. destruct (_ || _); [exact I|].
  destruct (127 <? _); [exact I|]. destruct (date_exists _ _ _); [|exact I]. apply add_ms_ok; try lia. unfold date_ok. lia.
Qed.

(** ** The items *)
Definition entry_ok (e : file_entry) : Prop :=
  match fe_atime e with None => True | Some d => date_ok d end /\
  t_ok (match fe_mtime e with Some t => Some (t, 0) | None => None end) /\ t_ok (fe_ctime e) /\ bytes_ok (fe_short_raw e).
Definition item_ok (i : dir_item) : Prop := match i with FileE e => entry_ok e | OrphanE _ => True end.

Lemma bytes_app a b : bytes_ok a -> bytes_ok b -> bytes_ok (a ++ b).
Proof. intros. apply Forall_app. auto. Qed.
Lemma rstrip_bytes l : bytes_ok l -> bytes_ok (rstrip_space l).
Proof.
  induction 1 as [|c l C B IH]; [constructor|]. cbn [rstrip_space]. destruct (rstrip_space l); [destruct (c =? 32); [constructor|constructor; [exact C|constructor]]|].
  constructor; [exact C|exact IH].
Qed.
Lemma fix_first_bytes l : bytes_ok l -> bytes_ok (fix_first l).
Proof.
  intros B. destruct B as [|c l C B]; [constructor|]. cbn [fix_first].
  destruct (_ || _); [|destruct (c =? 5)]; (constructor; [first [exact C|unfold is_byte; lia]|exact B]).
Qed.
Lemma raw_name_bytes l r : bytes_ok l -> parse_short_name_raw l = Some r -> bytes_ok r.
Proof.
  intros B. unfold parse_short_name_raw, parse_short_name. destruct (negb _); [discriminate|]. cbv zeta. apply fix_first_bytes in B. set (n := fix_first l) in *. clearbody n.
  assert (B1 : bytes_ok (rstrip_space (slice n 0 8))) by (apply rstrip_bytes, bytes_ok_slice; exact B).
  assert (B2 : bytes_ok (rstrip_space (zdrop 8 n))) by (apply rstrip_bytes; apply bytes_ok_zdrop; exact B).
  destruct (rstrip_space (zdrop 8 n)) as [|c t]; intros H; injection H as <-; [exact B1|]. apply bytes_app; [exact B1|]. constructor; [unfold is_byte; lia|exact B2].
Qed.
Lemma short_names_bytes dec lower lb le a raw ck nm s : bytes_ok raw -> short_names dec lower lb le a raw = (ck, Some nm, s) -> bytes_ok nm.
Proof.
  intros B. unfold short_names. destruct (negb _).
  - intros H. injection H as _ H _. eapply raw_name_bytes; eauto.
  - cbv zeta. destruct (forallb _ _); intros H; [|discriminate]. injection H as _ <- _. apply rstrip_bytes, fix_first_bytes, B.
Qed.
Lemma both_ok d t : t_ok (match both (decode_fat_date d) (decode_fat_time t) with Some x => Some (x, 0) | None => None end).
Proof.
  destruct (decode_fat_date d) as [x|] eqn:D; [|exact I]. destruct (decode_fat_time t) as [[[h m] s]|] eqn:T; [|exact I].
  cbn [both t_ok]. apply decode_date_ok in D. apply decode_time_ok in T. unfold clock_ok. repeat split; try lia; exact D.
Qed.
Lemma both_ms_ok d t ms : 0 <= ms <= 1990 -> t_ok (match both (decode_fat_date d) (decode_fat_time t) with Some x => Some (add_ms x ms) | None => None end).
Proof.
  intros M. destruct (decode_fat_date d) as [x|] eqn:D; [|exact I]. destruct (decode_fat_time t) as [[[h m] s]|] eqn:T; [|exact I].
  cbn [both]. apply decode_date_ok in D. apply decode_time_ok in T. apply add_ms_ok; auto; lia.
Qed.
Lemma build_entry_ok is32 s del dir short raw long a nt enc : bytes_ok s -> bytes_ok raw -> entry_ok (build_entry is32 s del dir short raw long a nt enc).
Proof.
  intros B R. unfold build_entry, entry_ok. cbn [fe_atime fe_mtime fe_ctime fe_short_raw]. split; [|split; [|split]].
  - destruct (decode_fat_date _) eqn:D; [eapply decode_date_ok; eauto|exact I].
  - apply both_ok.
  - apply both_ms_ok. unfold byte_at. pose proof (fld_bound 1 s 13 ltac:(lia) ltac:(lia) B) as K. destruct (Z.ltb_spec 199 (fld 1 s 13)); lia.
  - exact R.
Qed.
Lemma orphan_if_ok {A} (l : list A) n : Forall item_ok (orphan_if l n).
Proof. destruct l; repeat constructor. Qed.
Lemma orphan_some_ok n : Forall item_ok (orphan_some n).
Proof. destruct n; repeat constructor. Qed.
Lemma dir_step_ok dec lower is32 so st s st' out : bytes_ok s -> dir_step dec lower is32 so st s = Ok (st', out) -> Forall item_ok out.
Proof.
  intros B H. unfold dir_step in H. cbv zeta in H.
  destruct (_ =? 15).
  - destruct so; [injection H as _ <-; constructor|]. destruct (negb (_ =? 0)); [injection H as _ <-; constructor|].
    destruct (negb _); [destruct (coherent _ _ None); injection H as _ <-; apply orphan_if_ok|injection H as _ <-; constructor].
  - apply bind_ok in H as (nt & _ & H).
    destruct (short_names _ _ _ _ _ _) as [[ck nm] short] eqn:SN.
    match goal with K : (let '(_, _) := ?t in _) = _ |- _ => destruct t as [long out0] eqn:LO end.
    assert (O0 : Forall item_ok out0).
    { destruct (negb _); [destruct (match ds_prev st with None => _ | Some _ => _ end)|]; injection LO as _ <-; [constructor|apply orphan_if_ok|constructor]. }
    assert (TAIL : forall l, Forall item_ok l -> Forall item_ok (out0 ++ l)) by (intros; apply Forall_app; auto).
    destruct short as [short|]; [|injection H as _ <-; apply TAIL, orphan_some_ok].
    destruct nm as [nm|]; [|injection H as _ <-; apply TAIL, orphan_some_ok].
    do 2 match goal with K : (if ?c then _ else _) = _ |- _ => destruct c; [injection K as _ <-; apply TAIL, orphan_some_ok|] end.
    injection H as _ <-. apply TAIL. constructor; [|constructor]. cbn [item_ok]. apply build_entry_ok; [exact B|].
    eapply short_names_bytes; [|exact SN]. apply bytes_ok_slice, B.
Qed.
Lemma dir_loop_ok dec lower is32 so slots : Forall bytes_ok slots -> forall st, Forall item_ok (fst (dir_loop dec lower is32 so st slots)).
Proof.
  induction 1 as [|s slots B F IH]; intros st; [apply orphan_if_ok|]. cbn [dir_loop].
  destruct (dir_step dec lower is32 so st s) as [[st' out]|x] eqn:E; [|constructor]. cbn. apply Forall_app. split; [eapply dir_step_ok; eauto|apply IH].
Qed.
Lemma cut_slots_bytes n : forall buf, bytes_ok buf -> Forall bytes_ok (cut_slots n buf).
Proof.
  induction n as [|n IH]; intros buf B; [constructor|]. cbn [cut_slots]. constructor; [apply bytes_ok_ztake; exact B|apply IH, bytes_ok_zdrop; exact B].
Qed.
Lemma dir_entries_ok dec lower is32 so buf : bytes_ok buf -> Forall item_ok (fst (dir_entries dec lower is32 so buf)).
Proof. intros B. unfold dir_entries. destruct (_ || _); [constructor|]. apply dir_loop_ok, cut_slots_bytes, B. Qed.

Lemma read_cluster_bytes g c d : bytes_ok (g_vol g) -> read_cluster g c = Ok d -> bytes_ok d.
Proof.
  intros B. unfold read_cluster. cbv zeta. destruct (_ <? 0); [discriminate|]. destruct (match g_vsize g with Some n => _ | None => _ end); [discriminate|].
  intros H. apply bind_ok in H as (b & R & H). unfold read_at in R. destruct (_ <? 0); [discriminate|]. injection R as <-.
  destruct (negb _); [discriminate|]. injection H as <-. apply bytes_ok_slice, B.
Qed.
Lemma zeros_bytes n : bytes_ok (zeros n).
Proof. unfold zeros. apply Forall_forall. intros x I. apply repeat_spec in I as ->. unfold is_byte; lia. Qed.
Lemma clusters_loop_bytes g size cl : bytes_ok (g_vol g) -> forall read d, clusters_loop g size read cl = Ok d -> bytes_ok d.
Proof.
  intros B. induction cl as [|c cl IH]; intros read d H; cbn [clusters_loop] in H; [injection H as <-; constructor|].
  destruct (match size with Some n => _ | None => _ end); [injection H as <-; constructor|].
  apply bind_ok in H as (b & E & H). apply bind_ok in H as (r & R & H). injection H as <-. apply bytes_app; [|eapply IH; eauto].
  destruct c as [c|]; [eapply read_cluster_bytes; eauto|injection E as <-; apply zeros_bytes].
Qed.
Lemma read_clusters_bytes g size cl d : bytes_ok (g_vol g) -> read_clusters g size cl = Ok d -> bytes_ok d.
Proof.
  intros B. unfold read_clusters. destruct cl as [|c cl]; [intros H; injection H as <-; constructor|].
  intros H. apply bind_ok in H as (b & E & H). injection H as <-. apply clusters_loop_bytes in E; [|exact B]. destruct size; [apply bytes_ok_slice|]; exact E.
Qed.
Lemma fat_chain_bytes fs first size d : bytes_ok (g_vol (fs_geo fs)) -> fat_read_chain fs first size = Ok d -> bytes_ok d.
Proof. intros B. unfold fat_read_chain. intros H. apply bind_ok in H as (cl & _ & H). eapply read_clusters_bytes; eauto. Qed.

Definition named (i : dir_item) : Prop := match i with OrphanE None => False | FileE e => entry_ok e | OrphanE (Some _) => True end.
Lemma fat_walk_ok dec lower vol voff vsize fs scan : bytes_ok vol -> 0 <= voff -> fat_fs_open vol voff vsize = Ok fs ->
  Forall named (fst (fat_walk dec lower fs scan)).
Proof.
  intros B V O. pose proof (open_ok _ _ _ _ B V O) as FO. assert (G : bytes_ok (g_vol (fs_geo fs))) by (rewrite (fo_vol _ _ _ _ FO); exact B).
  unfold fat_walk. destruct (fat_root fs) as [[[buf stack] visited]|x] eqn:R; [|constructor].
  apply (walk_all _ item_ok).
  - intros path b BB. cbn [fat_walker w_entries]. apply dir_entries_ok, BB.
  - intros st path e st' b path' _ H. cbn [fat_walker w_enter] in H. unfold fat_enter in H. destruct e as [e|n]; [|discriminate].
    destruct (negb _); [discriminate|]. apply bind_ok in H as (al & _ & H). destruct al as [al|]; [|discriminate]. destruct (_ && _); [discriminate|].
    cbv zeta in H. destruct (fat_read_chain fs (fe_first_cluster e) None) as [[|c d]|x] eqn:RC; [discriminate| |destruct (fat_caught x); discriminate].
    apply fat_chain_bytes in RC; [|exact G].
    destruct (_ && _); [discriminate|]. apply bind_ok in H as (b1 & EB & H). injection H as _ <- _.
    destruct (is_true _); [|injection EB as <-; exact RC]. unfold fat_extra in EB. apply bind_ok in EB as (cl & _ & EB).
    destruct (negb _); [injection EB as <-; exact RC|]. apply bind_ok in EB as (a2 & _ & EB). destruct a2 as [[|]|]; try (injection EB as <-; exact RC).
    destruct (fat_read_chain fs (fe_first_cluster e + 1) None) as [ex|x] eqn:RX; [|destruct (fat_caught x); [injection EB as <-; exact RC|discriminate]].
    apply fat_chain_bytes in RX; [|exact G]. apply bind_ok in EB as (m & _ & EB). injection EB as <-. destruct m; [exact (bytes_app _ _ RC RX)|exact RC].
  - intros st c b path H. cbn [fat_walker w_orphan] in H. unfold fat_orphan in H.
    destruct (fat_read_chain fs c None) as [d|x] eqn:RC; [|destruct (fat_caught x); discriminate]. destruct (_ || _); [discriminate|]. injection H as <- _.
    eapply fat_chain_bytes; eauto.
  - intros path e i P _ H. cbn [fat_walker w_emit] in H. destruct e as [e|[n|]]; cbn [fat_expand] in H; [| |discriminate]; injection H as <-; [exact P|exact I].
  - exact (proj1 (root_ok _ _ _ _ B FO _ _ _ R)).
Qed.

Definition xitem_ok (i : x_item) : Prop :=
  match i with XFile e => t_ok (xe_mtime e) /\ t_ok (xe_atime e) /\ t_ok (xe_ctime e) /\ xoke i | _ => True end.
Definition xnamed (i : x_item) : Prop := match i with XBitmap _ _ _ => False | XFile e => t_ok (xe_mtime e) /\ t_ok (xe_atime e) /\ t_ok (xe_ctime e) | _ => True end.
Lemma xtime_of_ok w c t : xtime_of w c t -> is_byte c -> t_ok t.
Proof.
  intros T IB. destruct t as [[[[[y m] d] [[h mi] s]] ms]|]; [|exact I].
  destruct (proj1 (T y m d h mi s ms) eq_refl) as (s0 & CD & Y & H & MI & S0 & _ & _ & MS & E). unfold is_byte in IB.
  assert (0 <= s < 100) by (destruct (c <=? 199) eqn:C; lia). unfold t_ok, date_ok, clock_ok. unfold calendar_date in CD.
  destruct CD as (n & ML & DN). assert (1 <= m <= 12 /\ n <= 31) by (destruct ML as [m0 I|m0 I| |]; cbn [In] in *; lia).
  repeat split; lia.
Qed.
Lemma x_entries_times root buf : bytes_ok buf -> Forall xitem_ok (fst (x_entries root buf)).
Proof.
  intros B. destruct (x_entries root buf) as [es fin] eqn:E. pose proof (x_entries_ok _ _ _ _ B E) as [OK _]. cbn [fst].
  destruct (Z.lt_ge_cases (zlen buf) 512) as [L|L]; [rewrite C54_sizes in E by lia; injection E as <- <-; constructor|].
  destruct (Z.eq_dec (zlen buf mod 512) 0) as [M|M]; [|rewrite C54_sizes in E by lia; injection E as <- <-; constructor].
  destruct (buf_slots buf B ltac:(lia) M) as (slots & -> & O & S1 & S2). rewrite Forall_forall in OK |- *.
  intros i X. specialize (OK i X). destruct i as [e| | |]; try exact I.
  destruct (C54_sound _ _ _ _ _ O S1 S2 E X) as (p & s & subs & q & -> & FS).
  assert (BS : bytes_ok s). { apply Forall_app in O as [_ O]. inversion O as [|? ? O2 _]; subst. apply O2. }
  assert (FB : forall o, 0 <= o -> is_byte (fld 1 s o)) by (intros o LO; pose proof (fld_bound 1 s o LO ltac:(lia) BS); unfold is_byte; lia).
  cbn [xitem_ok]. split; [|split; [|split; [|exact OK]]].
  - apply (xtime_of_ok _ _ _ (fs_mtime _ _ _ FS)). apply FB; lia.
  - apply (xtime_of_ok _ _ _ (fs_atime _ _ _ FS)). unfold is_byte; lia.
  - apply (xtime_of_ok _ _ _ (fs_ctime _ _ _ FS)). apply FB; lia.
Qed.
Lemma x_walk_ok vol voff vsize fs scan : bytes_ok vol -> 0 <= voff -> x_fs_open vol voff vsize = Ok fs -> Forall xnamed (fst (x_walk fs scan)).
Proof.
  intros B V O. pose proof (x_open_ok _ _ _ _ B V O) as FO. unfold x_walk. cbv zeta.
  destruct (x_read_chain fs _ None false) as [buf|x] eqn:R; [|constructor]. apply (walk_all _ xitem_ok).
  - intros path b BB. cbn [x_walker w_entries]. apply x_entries_times, BB.
  - intros st path e st' b path' P H. cbn [x_walker w_enter] in H. assert (XE : xoke e) by (destruct e; [apply P|exact I..]).
    exact (proj1 (proj2 (proj2 (xenter_ok _ _ _ _ B FO _ _ _ _ _ _ XE H)))).
  - intros st c b path H. exact (xorphan_ok _ _ _ _ B FO _ _ _ _ H).
  - intros path e i P NK H. cbn [x_walker w_emit w_kind] in H, NK. destruct e as [e|n|l|a b c]; cbn [x_emit] in H; [| | |elim NK; reflexivity]; injection H as <-.
    + destruct P as (P1 & P2 & P3 & _). exact (conj P1 (conj P2 P3)).
    + exact I.
    + exact I.
  - exact (chain_bytes _ _ _ _ B FO _ _ _ _ R).
Qed.

(** ** The rows *)
Lemma flag_ok b : flag_text b (boolean_text b).
Proof. destruct b as [[|]|]; reflexivity. Qed.
Lemma fat_time_ok t : t_ok t -> time_text t (fat_time_text t).
Proof.
  destruct t as [[[d [[h m] s]] ms]|]; [|reflexivity]. intros (D & C & M). unfold time_text, fat_time_text. cbn [clock_ok] in C.
  apply datetime_text_ok; try lia. destruct d as [[y mo] da]. exact D.
Qed.
Lemma fat_day_ok d : match d with None => True | Some d => date_ok d end -> day_text d (fat_date_text d).
Proof. destruct d as [[[y m] d]|]; [|reflexivity]. intros (Y & M & D). apply date_text_ok; assumption. Qed.
Lemma fat_row_ok e path : entry_ok e -> entry_row e path (fat_row path e).
Proof.
  intros (A & M & C & R). constructor; auto using flag_ok, fat_time_ok, fat_day_ok, number_text_ok, bytes_text_ok.
Qed.
Lemma label_bits a : is_volume_label a = true <-> Z.testbit a 3 = true /\ Z.testbit a 4 = false /\ a mod 64 <> 15.
Proof.
  unfold is_volume_label. change 0x3F with (Z.ones 6). rewrite Z.land_ones by lia. change (2 ^ 6) with 64.
  assert (L : Z.land a 24 = 8 <-> Z.testbit a 3 = true /\ Z.testbit a 4 = false).
  { split.
    - intros H. pose proof (f_equal (fun z => Z.testbit z 3) H) as H3. pose proof (f_equal (fun z => Z.testbit z 4) H) as H4. cbv beta in H3, H4.
      rewrite Z.land_spec in H3, H4. change (Z.testbit 24 3) with true in H3. change (Z.testbit 24 4) with true in H4.
      change (Z.testbit 8 3) with true in H3. change (Z.testbit 8 4) with false in H4. rewrite andb_true_r in H3, H4. auto.
    - intros [H3 H4]. apply Z.bits_inj'. intros n N. rewrite Z.land_spec.
      destruct (Z.eq_dec n 3) as [->|N3]; [rewrite H3; reflexivity|]. destruct (Z.eq_dec n 4) as [->|N4]; [rewrite H4; reflexivity|].
      assert (T : forall k, (k = 24 \/ k = 8) -> Z.testbit k n = false).
      { intros k K. destruct (Z.lt_ge_cases n 5) as [S|S].
        - assert (n = 0 \/ n = 1 \/ n = 2) as [->|[->| ->]] by lia; destruct K as [->| ->]; reflexivity.
        - apply Z.bits_above_log2; [destruct K; lia|]. destruct K as [->| ->]; [change (Z.log2 24) with 4|change (Z.log2 8) with 3]; lia. }
      rewrite (T 24 (or_introl eq_refl)), (T 8 (or_intror eq_refl)). apply andb_false_r. }
  destruct (Z.eqb_spec (a mod 64) 15) as [E|E]; [split; [discriminate|intros (_ & _ & H); contradiction]|].
  rewrite Z.eqb_eq, L. tauto.
Qed.
Lemma label_entry_iff e : negb (is_true (fe_deleted e)) && is_volume_label (fe_attributes e) = true <-> label_entry e.
Proof.
  rewrite andb_true_iff, label_bits. unfold label_entry. destruct (fe_deleted e) as [[|]|]; cbn [is_true negb]; intuition congruence.
Qed.
Lemma has_label_step before i : has_label (before ++ [i]) <-> has_label before \/ exists e, i = FileE e /\ label_entry e.
Proof.
  unfold has_label. split.
  - intros (e & I & L). apply in_app_iff in I as [I|[I|[]]]; eauto.
  - intros [(e & I & L)|(e & -> & L)]; exists e; (split; [apply in_app_iff|exact L]); [left; exact I|right; left; reflexivity].
Qed.
Lemma fat_rows_ok items : Forall named items -> forall before found st, (found = true <-> has_label before) ->
  exists rows, fat_rows found items st = (rows, st) /\ fat_listing before items rows.
Proof.
  induction 1 as [|i items N F IH]; intros before found st FL; [exists []; split; [reflexivity|constructor]|].
  destruct i as [e|[n|]]; [| |destruct N].
  - cbn [fat_rows]. destruct (negb found && negb (is_true (fe_deleted e)) && is_volume_label (fe_attributes e)) eqn:C.
    + rewrite <- andb_assoc in C. apply andb_true_iff in C as [C1 C2]. apply negb_true_iff in C1. apply label_entry_iff in C2.
      destruct (IH (before ++ [FileE e]) true st) as (rows & -> & L).
      { rewrite has_label_step. split; [|reflexivity]. intros _. right. eauto. }
      eexists. split; [reflexivity|]. constructor; [|exact L]. apply fi_label; [exact C2| |apply fat_row_ok; exact N].
      intros H. apply FL in H. congruence.
    + destruct (IH (before ++ [FileE e]) found st) as (rows & -> & L).
      { rewrite has_label_step, FL. split; [auto|]. intros [H|(e' & E & H)]; [exact H|]. injection E as <-. apply label_entry_iff in H.
        rewrite <- andb_assoc, H, andb_true_r in C. apply negb_false_iff in C. tauto. }
      eexists. split; [reflexivity|]. constructor; [|exact L]. eapply fi_file; [|reflexivity|apply fat_row_ok; exact N].
      intros [H NH]. apply label_entry_iff in H. rewrite <- andb_assoc, H, andb_true_r in C. apply negb_false_iff in C. tauto.
  - cbn [fat_rows]. destruct (IH (before ++ [OrphanE (Some n)]) found st) as (rows & -> & L).
    { rewrite has_label_step, FL. split; [auto|]. intros [H|(e' & E & _)]; [exact H|discriminate]. }
    eexists. split; [reflexivity|]. constructor; [constructor|exact L].
Qed.
Lemma tz_item_ok t : offset_text t (tz_item t).
Proof.
  destruct t as [k|]; [|reflexivity]. unfold offset_text, tz_item. destruct (Z.eqb_spec k 0) as [->|N].
  - right. split; [lia|]. exact (number_text_ok 0).
  - destruct (Z.ltb_spec 0 k) as [P|P].
    + left. split; [exact P|]. eexists. split; [reflexivity|]. replace (k * 15) with (15 * k) by lia. apply number_text_ok.
    + right. split; [exact P|]. replace (45 :: number_text (k * -15)) with (number_text (15 * k)); [apply number_text_ok|].
      unfold number_text. replace (15 * k <? 0) with true by lia. replace (k * -15 <? 0) with false by lia. repeat f_equal; lia.
Qed.
Lemma x_rows_ok items : Forall xnamed items -> forall st, exists rows, x_rows items st = (rows, st) /\ Forall2 x_item_row items rows.
Proof.
  induction 1 as [|i items N F IH]; intros st; [exists []; split; [reflexivity|constructor]|]. destruct (IH st) as (rows & E & L).
  destruct i as [e|n|l|a b c]; [| | |destruct N]; cbn [x_rows]; rewrite E; (eexists; split; [reflexivity|]); (constructor; [|exact L]); try constructor.
  all: destruct N as (N1 & N2 & N3); auto using flag_ok, fat_time_ok, number_text_ok, tz_item_ok.
Qed.
