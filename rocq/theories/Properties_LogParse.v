From Coq Require Import Permutation Sorted.
From Verif Require Import Base BaseLemmas FieldLemmas FrsSpec Utf16 LogPage LogFile LogSpec LogPageProofs LogFileProofs
  LogReadProofs LogWalkProofs LogClientProofs LogCollectProofs LogImages
  LogRecord LogParse LogParseSpec LogRecordProofs LogParseProofs LogItemsProofs LogParseTop.

(** * C32: the examined file is never written *)

(** [reach]: any sequence of calls of prepare_for_writes, discard_changes, the
    two methods that apply pages (on a writable parser, as they require) and
    parse_ntfs_records, stopped after any number of items, ended by an exception
    or resumed later.  File 0 is the caller's. *)
Theorem C32_file_unchanged : forall lf ord data w, reach lf ord data w ->
  nth 0 (w_files w) [] = data /\ (w_writable w = false -> w_data w = data).
Proof.
  intros lf ord data w R. pose proof (reach_sound _ _ _ _ R) as S. split; [apply S|]. apply sound_data; auto.
Qed.
Print Assumptions C32_file_unchanged.

(** The items come from a copy, or from the file itself if no recovery was
    asked for; after a complete iteration with recovery the parser reads the
    original again; without recovery nothing changes. *)
Theorem C32_after_parse : forall lf ord data w r is w' w'' st, reach lf ord data w ->
  parse_ntfs_records lf ord r w = (is, w', (w'', st)) ->
  nth 0 (w_files w') [] = data /\ nth 0 (w_files w'') [] = data /\
  (st = Done -> r = true -> w_data w'' = data) /\
  (r = false -> w_writable w = false -> w_data w' = data /\ w_data w'' = data).
Proof.
  intros lf ord data w r is w' w'' st R E. pose proof (reach_sound _ _ _ _ R) as S.
  destruct (sound_parse _ _ _ _ _ _ _ _ _ S E) as (S1 & S2 & H1 & H2).
  split; [apply S1|]. split; [apply S2|]. split.
  - intros D T. apply sound_data; auto.
  - intros T W. destruct (H2 T) as [W1 W2]. split; apply sound_data; auto; congruence.
Qed.
Print Assumptions C32_after_parse.

(** The condition on the two methods is needed: without a copy they write to
    the caller's file. *)
Definition stale_lf : log_file := match log_open stale_log with Ok lf => lf | Err _ =>
  {| lf_size := 0; lf_rp1 := None; lf_rp2 := None; lf_psize := 0; lf_major := 0; lf_minor := 0; lf_hl := 0; lf_doff := 0; lf_bits := 0 |} end.

Theorem C32_unprepared_refuted : exists data lf w, bytes_ok data /\ log_open data = Ok lf /\
  apply_tail_page lf (start_world data) = Ok w /\ nth 0 (w_files w) [] <> data.
Proof.
  exists stale_log, stale_lf.
  destruct (apply_tail_page stale_lf (start_world stale_log)) as [w|e] eqn:E; [|exfalso; vm_compute in E; discriminate E].
  exists w. split; [apply bytes_okb_ok; vm_compute; reflexivity|]. split; [vm_compute; reflexivity|]. split; [reflexivity|].
  intro X. assert (Q : match apply_tail_page stale_lf (start_world stale_log) with
                       | Ok w => zlist_eqb (nth 0 (w_files w) []) stale_log | Err _ => true end = false) by (vm_compute; reflexivity).
  rewrite E in Q. rewrite X in Q. clear - Q. rewrite (proj2 (zlist_eqb_eq stale_log stale_log) eq_refl) in Q. discriminate Q.
Qed.
Print Assumptions C32_unprepared_refuted.

Example C32_example :
  let '(is, w', (w'', st)) := parse_ntfs_records stale_lf no_order true (start_world stale_log) in
  zlist_eqb (w_data w') stale_log = false /\ zlist_eqb (nth 0 (w_files w') []) stale_log = true /\
  zlist_eqb (nth 0 (w_files w'') []) stale_log = true.
Proof. vm_compute. auto. Qed.

(** * C53: tail and fast pages *)

(** Version 1.1: of the two tail pages the valid one with the greater last end
    LSN is written to the offset in its header; with none, nothing is done. *)
Theorem C53_tail : forall data0 lf ord w, bytes_ok data0 -> log_open data0 = Ok lf -> reach lf ord data0 w -> w_writable w = true ->
  match apply_tail_page lf w with
  | Ok w' => lf_major lf = 1 /\ lf_minor lf = 1 /\
      ((w' = w /\ forall k buf e, k = 2 \/ k = 3 -> ~ log_page_at lf (w_data w) k buf e) \/
       exists k buf, tail_page lf (w_data w) k buf /\ 0 <= to_signed 64 (last_lsn buf) /\
         written (w_data w) (to_signed 64 (last_lsn buf)) (slice (w_data w) (4096 * k) (4096 * k + 4096)) (w_data w'))
  | Err e =>
      (e = RuntimeError_py /\ ~ (lf_major lf = 1 /\ lf_minor lf = 1)) \/
      exists k buf, tail_page lf (w_data w) k buf /\
        ((e = ValueError /\ to_signed 64 (last_lsn buf) < 0) \/ (e = OverflowError /\ 2 ^ 63 - 4096 <= to_signed 64 (last_lsn buf)))
  end.
Proof.
  intros data0 lf ord w B0 O R W. apply log_open_iff in O; auto. pose proof (opened_ok _ _ B0 O) as K.
  pose proof (files_data _ (reach_files lf K ord data0 w B0 R)) as B. pose proof (reach_sound _ _ _ _ R) as S.
  destruct ((lf_major lf =? 1) && (lf_minor lf =? 1)) eqn:V.
  - assert (M1 : lf_major lf = 1) by lia. assert (M2 : lf_minor lf = 1) by lia.
    pose proof (apply_tail_spec lf K w B M1) as H.
    assert (LEN : forall k buf, tail_page lf (w_data w) k buf -> zlen (slice (w_data w) (4096 * k) (4096 * k + 4096)) = 4096).
    { intros k buf [(e & _ & L & _) _]. exact L. }
    destruct (apply_tail_page lf w) as [w'|e].
    + do 2 (split; [auto|]). destruct H as [H|(k & buf & T & H)]; [auto|]. right. exists k, buf. split; [auto|].
      destruct (sound_write _ _ _ _ _ S W H) as (_ & _ & NN & D & _). split; [exact NN|]. rewrite D.
      apply overwrite_written; [exact NN|]. rewrite (LEN _ _ T). lia.
    + right. destruct H as (k & buf & T & H). exists k, buf. split; [auto|]. unfold write_at in H.
      rewrite (LEN _ _ T) in H.
      destruct (Z.ltb_spec (to_signed 64 (last_lsn buf)) 0); [injection H as <-; auto|].
      destruct (Z.ltb_spec 9223372036854775807 (to_signed 64 (last_lsn buf) + 4096)); [|discriminate].
      injection H as <-. right. split; [auto|]. change (2 ^ 63) with 9223372036854775808. lia.
  - unfold apply_tail_page. rewrite V. cbn [negb]. left. split; [auto|lia].
Qed.
Print Assumptions C53_tail.

(** Version 2: the pages applied are exactly the valid ones of 2 to 33 whose
    last LSN is above that of every later page, in ascending order of LSN; they
    are written where their header says.  A page with no room for that offset
    stops the method. *)
Theorem C53_fast : forall data0 lf ord w, bytes_ok data0 -> log_open data0 = Ok lf -> reach lf ord data0 w -> w_writable w = true ->
  2 <= lf_major lf ->
  exists ps, (forall p, In p ps <-> exists k, fast_page lf (w_data w) k p /\ lp_off p = lf_doff lf) /\
    StronglySorted (fun a b => last_lsn (lp_buf a) < last_lsn (lp_buf b) \/
      (last_lsn (lp_buf a) = last_lsn (lp_buf b) /\ lp_number a < lp_number b)) ps /\
    match apply_fast_pages lf w with
    | (w', Done) => pages_written (w_data w) ps (w_data w') /\ Forall (fun p => lp_end p <= 60) ps
    | (w', Raised e) => e = TypeError /\ exists p1 p p2, ps = p1 ++ p :: p2 /\ pages_written (w_data w) p1 (w_data w') /\ 60 < lp_end p
    end.
Proof.
  intros data0 lf ord w B0 O R W M. apply log_open_iff in O; auto. pose proof (opened_ok _ _ B0 O) as K.
  pose proof (files_data _ (reach_files lf K ord data0 w B0 R)) as B. pose proof (reach_sound _ _ _ _ R) as S.
  destruct (fast_pages_spec lf K (w_data w) B M) as (ps & E & H & SS). exists ps. do 2 (split; [auto|]).
  unfold apply_fast_pages. replace (lf_major lf <? 2) with false by lia. rewrite E.
  apply (write_fast_spec data0 ps w S W). apply Forall_forall. intros p Hp. apply H in Hp.
  destruct Hp as (k & (_ & L & RW & _) & _). destruct (log_page_facts _ _ _ _ _ B L) as (BB & LB & _).
  destruct L as (_ & LR & _). rewrite RW. auto.
Qed.
Print Assumptions C53_fast.

(** So a valid page of the log that is replaced was older, and where several
    fast pages have the same home the one with the greatest LSN stays. *)
Theorem C53_fast_newer : forall lf data k p n buf e, fast_page lf data k p -> home p = 4096 * n ->
  34 <= n < lf_size lf / 4096 -> log_page_at lf data n buf e -> last_lsn buf < last_lsn (lp_buf p).
Proof. intros lf data k p n buf e (_ & _ & _ & _ & _ & H) _ R L. eauto. Qed.
Print Assumptions C53_fast_newer.

Theorem C53_fast_last_wins : forall old ps new, pages_written old ps new -> Forall (fun q => zlen (lp_raw q) = 4096) ps ->
  (forall p1 p p2, ps = p1 ++ p :: p2 -> 0 <= home p -> Forall (apart p) p2 -> slice new (home p) (home p + 4096) = lp_raw p) /\
  (forall x, 0 <= x < zlen old -> Forall (fun q => ~ (home q <= x < home q + 4096)) ps -> znth new x = znth old x).
Proof.
  intros old ps new W L. split; [intros; eapply pages_written_last; eauto|intros; eapply pages_written_other; eauto].
Qed.
Print Assumptions C53_fast_last_wins.

(** A tail page is not compared with the page it replaces: here page 4 is
    valid and has later records, and it is overwritten. *)
Theorem C53_stale_tail_refuted : exists data lf w buf e buf' e',
  bytes_ok data /\ log_open data = Ok lf /\ apply_tail_page lf (prepare_for_writes (start_world data)) = Ok w /\
  log_page_at lf data 4 buf e /\ log_page_at lf (w_data w) 4 buf' e' /\ last_end_lsn buf' < last_end_lsn buf.
Proof.
  assert (B : bytes_ok stale_log) by (apply bytes_okb_ok; vm_compute; reflexivity).
  assert (O : log_open stale_log = Ok stale_lf) by (vm_compute; reflexivity).
  destruct (apply_tail_page stale_lf (prepare_for_writes (start_world stale_log))) as [w|x] eqn:E; [|exfalso; vm_compute in E; discriminate E].
  pose proof O as O'. apply log_open_iff in O'; [|exact B]. pose proof (opened_ok _ _ B O') as K.
  assert (F : files_ok w).
  { apply (files_tail stale_lf K (prepare_for_writes (start_world stale_log))); [|exact E]. apply files_prepare. constructor; [exact B|constructor]. }
  pose proof (page_by_number_spec stale_lf stale_log 4 K B ltac:(lia)) as P1.
  pose proof (page_by_number_spec stale_lf (w_data w) 4 K (files_data _ F) ltac:(lia)) as P2.
  assert (Q : match page_by_number stale_lf stale_log 4,
                match apply_tail_page stale_lf (prepare_for_writes (start_world stale_log)) with
                | Ok w => page_by_number stale_lf (w_data w) 4 | Err e => Err e end with
              | Ok (Some p), Ok (Some q) => last_end_lsn (lp_buf q) <? last_end_lsn (lp_buf p)
              | _, _ => false end = true) by (vm_compute; reflexivity).
  rewrite E in Q. destruct (page_by_number stale_lf stale_log 4) as [[p|]|]; [|discriminate Q|discriminate Q].
  destruct (page_by_number stale_lf (w_data w) 4) as [[q|]|]; [|discriminate Q|discriminate Q].
  exists stale_log, stale_lf, w, (lp_buf p), (lp_end p), (lp_buf q), (lp_end q).
  split; [exact B|]. split; [exact O|]. split; [exact E|]. split; [apply P1|]. split; [apply P2|]. apply Z.ltb_lt. exact Q.
Qed.
Print Assumptions C53_stale_tail_refuted.

(** The home of a fast page is not checked: it may be a restart page, or one of
    the fast pages. *)
Definition fast_lf (data : list Z) : log_file := match log_open data with Ok lf => lf | Err _ => stale_lf end.
Definition fast_log0 : list Z := fast_log 0.
Definition fast_lf0 : log_file := fast_lf fast_log0.

Theorem C53_home_unchecked_refuted : exists data lf w, bytes_ok data /\ log_open data = Ok lf /\
  apply_fast_pages lf (prepare_for_writes (start_world data)) = (w, Done) /\ log_open (w_data w) <> Ok lf.
Proof.
  assert (Q : (let (w, st) := apply_fast_pages fast_lf0 (prepare_for_writes (start_world fast_log0)) in
              (match st with Done => true | _ => false end) &&
              match log_open (w_data w) with Ok lf => match lf_rp1 lf with None => true | _ => false end | Err _ => true end) &&
              match log_open fast_log0 with Ok lf => match lf_rp1 lf with None => false | _ => true end | Err _ => false end &&
              bytes_okb fast_log0 = true).
  { vm_compute. reflexivity. }
  apply andb_prop in Q as [Q QB]. apply andb_prop in Q as [Q QO].
  unfold fast_lf0, fast_lf in Q. destruct (log_open fast_log0) as [lf|] eqn:O; [|discriminate QO].
  destruct (apply_fast_pages lf (prepare_for_writes (start_world fast_log0))) as [w st] eqn:E.
  apply andb_prop in Q as [Q1 Q2]. destruct st; [|discriminate Q1].
  exists fast_log0, lf, w. split; [apply bytes_okb_ok; exact QB|]. split; [exact O|]. split; [exact E|].
  intro X. rewrite X in Q2. clear - QO Q2. destruct (lf_rp1 lf); [discriminate Q2|discriminate QO].
Qed.
Print Assumptions C53_home_unchecked_refuted.

Definition fast_log1 : list Z := fast_log 20480.
Definition fast_lf1 : log_file := fast_lf fast_log1.
Example C53_example :
  let (w, st) := apply_fast_pages fast_lf1 (prepare_for_writes (start_world fast_log1)) in
  st = Done /\ zlist_eqb (slice (w_data w) 20480 24576) (slice fast_log1 8192 12288) = true /\ zlen (w_data w) = 24576.
Proof. vm_compute. auto. Qed.

(** * C55: the target of a log record *)

(** For a resident update, the number of the file record that holds the target
    byte (the virtual cluster number times the cluster size, plus the cluster
    block times 512); no number otherwise; never an exception. *)
Theorem C55_record_number : forall cluster b r, bytes_ok b -> 32 <= zlen b ->
  (mft_target_number cluster b = r <->
   (exists n, r = Ok (Some n) /\ resident b /\ n * frs_size b <= target_byte cluster b < (n + 1) * frs_size b) \/
   (r = Ok None /\ ~ resident b)).
Proof.
  intros cluster b r B L. destruct (target_number_eq cluster b B L) as (y & Y & ->).
  assert (P : 0 < frs_size b).
  { unfold frs_size. pose proof (fld_bound 2 b 22 ltac:(lia) ltac:(lia) B). destruct (Z.eqb_spec (fld 2 b 22) 0); lia. }
  destruct y.
  - split.
    + intros <-. left. eexists. split; [reflexivity|]. split; [tauto|].
      pose proof (Z.div_mod (target_byte cluster b) (frs_size b) ltac:(lia)) as D.
      pose proof (Z.mod_pos_bound (target_byte cluster b) (frs_size b) P). nia.
    + intros [(n & -> & _ & N)|[_ N]]; [|tauto]. do 2 f_equal. symmetry. apply Z.div_unique_pos with (r := target_byte cluster b - frs_size b * n); nia.
  - split.
    + intros <-. right. split; [auto|]. rewrite <- Y. discriminate.
    + intros [(n & _ & R & _)|[-> _]]; [|auto]. apply Y in R. discriminate.
Qed.
Print Assumptions C55_record_number.

(** The record the driver names is found: with file records of [size] bytes
    and clusters of [cluster] bytes (multiples of 512), record [m] starts in
    cluster [m * size / cluster]. *)
Theorem C55_driver_record : forall f m cluster, fields_ok f -> bytes_ok (written_record f) ->
  resident (written_record f) -> 0 < cluster -> cluster mod 512 = 0 -> 0 <= m ->
  let size := if f_size f =? 0 then 1024 else f_size f * 512 in
  f_vcn f = m * size / cluster -> f_block f = m * size mod cluster / 512 ->
  mft_target_number cluster (written_record f) = Ok (Some m).
Proof.
  intros f m cluster F B R Hc Hc5 Hm size EV EB.
  destruct (written_fields f F) as (_ & _ & _ & _ & _ & _ & _ & _ & _ & _ & E20 & E22 & E24).
  apply C55_record_number; [auto| |].
  { rewrite written_len. pose proof (zlen_nonneg (f_lcns f)). pose proof (zlen_nonneg (f_redo f)). pose proof (zlen_nonneg (f_undo f)). lia. }
  left. exists m. split; [auto|]. split; [auto|]. unfold target_byte, frs_size. rewrite E20, E22, E24. fold size. rewrite EV, EB.
  assert (P : 0 < size /\ size mod 512 = 0).
  { unfold size. destruct F as (_ & _ & _ & _ & _ & _ & F7 & _). destruct (Z.eqb_spec (f_size f) 0); lia. }
  destruct P as [P P5].
  assert (Q : m * size mod cluster / 512 * 512 = m * size mod cluster).
  { assert (D5 : (m * size mod cluster) mod 512 = 0).
    { apply Z.mod_divide; [lia|]. apply Z.mod_divide in Hc5; [|lia]. apply Z.mod_divide in P5; [|lia].
      rewrite Z.mod_eq by lia. apply Z.divide_sub_r; [apply Z.divide_mul_r; auto|apply Z.divide_mul_l; auto]. }
    pose proof (Z.div_mod (m * size mod cluster) 512 ltac:(lia)). lia. }
  rewrite Q. pose proof (Z.div_mod (m * size) cluster ltac:(lia)). nia.
Qed.
Print Assumptions C55_driver_record.

Theorem C55_offset_in_target : forall cluster b r, 32 <= zlen b ->
  (offset_in_target cluster b = r <->
   (resident b /\ r = Ok (Some (fld 2 b 16 + fld 2 b 18))) \/
   (~ resident b /\ nonresident b /\ r = Ok (Some (target_byte cluster b + fld 2 b 16 + fld 2 b 18))) \/
   (~ resident b /\ ~ nonresident b /\ r = Ok None)).
Proof.
  intros cluster b r L. destruct (offset_in_target_eq cluster b L) as (y & z & Y & Q & ->).
  rewrite <- Y, <- Q. clear Y Q. destruct y; [|destruct z].
  - split; [intros <-; left; split; [auto|]; do 2 f_equal; lia|].
    intros [[_ ->]|[[H _]|[H _]]]; [do 2 f_equal; lia|congruence|congruence].
  - split; [intros <-; right; left; split; [discriminate|]; split; [auto|]; do 2 f_equal; lia|].
    intros [[H _]|[(_ & _ & ->)|(_ & H & _)]]; [discriminate|do 2 f_equal; lia|congruence].
  - split; [intros <-; right; right; split; [discriminate|]; split; [discriminate|auto]|].
    intros [[H _]|[(_ & H & _)|(_ & _ & ->)]]; [discriminate|discriminate|auto].
Qed.
Print Assumptions C55_offset_in_target.

(** The parts of a log record are read back. *)
Theorem C55_record_parts : forall f, fields_ok f -> bytes_ok (written_record f) ->
  nr_redo_data (written_record f) = Ok (f_redo f) /\ nr_undo_data (written_record f) = Ok (f_undo f) /\
  nr_lcns_for_page (written_record f) = Ok (f_lcns f).
Proof.
  intros f F B.
  assert (L : 32 <= zlen (written_record f)).
  { rewrite written_len. pose proof (zlen_nonneg (f_lcns f)). pose proof (zlen_nonneg (f_redo f)). pose proof (zlen_nonneg (f_undo f)). lia. }
  pose proof (redo_data_spec _ B L) as R. pose proof (undo_data_spec _ B L) as U.
  pose proof (written_redo f F) as R'. pose proof (written_undo f F) as U'. split; [|split; [|apply written_lcns; auto]].
  - destruct (nr_redo_data (written_record f)) as [d|e]; [f_equal; eapply part_fun; eauto|]. destruct R as [_ R]. destruct (part_bad _ _ _ _ R' R).
  - destruct (nr_undo_data (written_record f)) as [d|e]; [f_equal; eapply part_fun; eauto|]. destruct U as [_ U]. destruct (part_bad _ _ _ _ U' U).
Qed.
Print Assumptions C55_record_parts.

Definition sample : fields :=
  {| f_redo_op := 7; f_undo_op := 7; f_target := 24; f_record := 56; f_attr := 24; f_block := 6; f_size := 2; f_vcn := 10;
     f_lcns := [786442]; f_redo := [1; 2; 3]; f_undo := [4; 5] |}.

(** Record 43 of 1024 bytes, with clusters of 4096 bytes: cluster 10, block 6. *)
Example C55_example :
  mft_target_number 4096 (written_record sample) = Ok (Some 43) /\
  offset_in_target 4096 (written_record sample) = Ok (Some 80) /\
  nr_lcns_for_page (written_record sample) = Ok [786442] /\ nr_undo_data (written_record sample) = Ok [4; 5].
Proof. vm_compute. auto. Qed.

(** * C62: the items of parse_ntfs_records *)

(** The items are those of the collected records, grouped by client, in
    ascending order of LSN, each with its data and with the tables as they were
    at that point ([shows]); an exception comes from the first record that is
    not well formed, or from the stages before any item. *)
Theorem C62_items : forall data0 lf ord w r is w' w'' st, bytes_ok data0 -> log_open data0 = Ok lf ->
  (forall k l, Permutation (ord k l) l) -> reach lf ord data0 w ->
  parse_ntfs_records lf ord r w = (is, w', (w'', st)) -> addressable lf (w_data w') ->
  (is = [] /\ exists e, st = Raised e /\
     ((r = true /\ recover lf w = (w', Raised e) /\ (e = TypeError \/ e = ValueError \/ e = OverflowError)) \/
      (collect_lsns lf (w_data w') ord (w_cfg w') = Err e /\ ~ restarts_readable lf /\
       (e = StructError \/ e = RestartAreaException \/ e = ClientRecordException)))) \/
  exists c0 lsns d, collect_lsns lf (w_data w') ord c0 = Ok (lsns, w_cfg w') /\
    grouped lf (w_data w') lsns d /\ (forall x, In x lsns -> exists id xs, In (id, xs) d /\ In x xs) /\
    all_items lf (w_data w') (w_cfg w') d is st.
Proof.
  intros data0 lf ord w r is w' w'' st B0 O OP R E AD.
  destruct (top_ok data0 lf B0 O) as [K PK].
  pose proof (reach_files lf K ord data0 w B0 R) as F.
  destruct (parse_items data0 lf ord B0 O OP r w is w' w'' st F E AD) as [(-> & e & -> & H)|H]; [|auto].
  left. split; [auto|]. exists e. split; [auto|]. destruct H as [[-> H]|H].
  - left. split; [auto|]. split; [auto|]. eapply (recover_errors data0 lf ord B0 O OP w e F).
    + right. eapply reach_sound; eauto.
    + rewrite H. reflexivity.
  - right. split; [auto|]. pose proof (files_data _ (proj1 (files_parse lf K ord r w _ _ _ _ F E))) as BD.
    pose proof (first_lsns_spec lf (w_data w') K BD PK) as FS.
    destruct (first_lsns lf (w_data w')) as [s|x] eqn:E0.
    + exfalso. destruct FS as [RR _].
      destruct (collect_stages lf (w_data w') ord K BD PK OP (w_cfg w') RR AD) as (s2 & s3 & s4 & s5 & s6 & c2 & E' & _). congruence.
    + rewrite (collect_err lf _ ord _ x E0) in H. injection H as ->. tauto.
Qed.
Print Assumptions C62_items.

(** A complete iteration yields every collected record of a type it knows
    (log record or restart area), once. *)
Theorem C62_every_record_once : forall lf data c lsns d is, grouped lf data lsns d ->
  (forall x, In x lsns -> exists id xs, In (id, xs) d /\ In x xs) -> all_items lf data c d is Done ->
  NoDup (map item_lsn is) /\
  forall x, In x (map item_lsn is) <->
    In x lsns /\ exists cd, data_of lf data (cf_cluster c) x cd /\ (cd_type cd = 1 \/ cd_type cd = 2).
Proof.
  intros lf data c lsns d is G CV A. split; [eapply all_items_nodup; eauto|]. intro x.
  rewrite (all_items_in _ _ _ _ _ _ x A eq_refl). split.
  - intros (id & l & I & J & D). split; [|auto]. destruct G as [_ G]. apply (G id l I). auto.
  - intros [I D]. destruct (CV x I) as (id & xs & J & J2). eauto.
Qed.
Print Assumptions C62_every_record_once.

(** The two outcomes exclude each other: what is shown does not stop it. *)
Theorem C62_stops_only_when_bad : forall c before cds is cd e, shows c before cds is -> In cd cds -> ~ stops c cd e.
Proof. intros c before cds is cd e H I. eapply shows_not_stops; eauto. Qed.
Print Assumptions C62_stops_only_when_bad.

(** After complete checkpoints (a dump of the table, then one of the names) a
    record has both dumps of the last one. *)
Theorem C62_complete_checkpoint : forall c before cd cds b lsn tid k t od ad is d n l,
  shows c before (cd :: cds) (Rec b lsn tid k t od ad :: is) -> cf_dumps c = Some true ->
  cd_buf cd = b -> cd_type cd = 1 -> checkpoints (b :: before) None ((d, n) :: l) ->
  od = Some (d, cf_oat c) /\ ad = Some n.
Proof.
  intros c before cd cds b lsn tid k t od ad is d n l S D EB T CP.
  destruct (checkpoints_dumps _ _ _ CP) as [D1 D2]. cbn [map fst snd] in D1, D2.
  remember (cd :: cds) as x. remember (Rec b lsn tid k t od ad :: is) as y.
  destruct S as [|before cd' cds' is' H1 H2 _|before cd' cds' is' H1 _ _|before cd' cds' is' t' od' ad' H1 _ _ H _]; try discriminate.
  - injection Heqx as -> ->. congruence.
  - injection Heqx as -> ->. injection Heqy as E1 E2 E3 E4 E5 E6 E7 E8. subst od' ad'. rewrite D in H.
    destruct H as (oats & names & O1 & O2 & A & V). rewrite EB in O1, O2.
    pose proof (dumps_fun _ _ _ O1 _ D1) as ->. pose proof (dumps_fun _ _ _ O2 _ D2) as ->.
    unfold attached in A. cbn [length nth_error Nat.eqb] in A. rewrite !map_length, Nat.eqb_refl in A.
    injection A as A1 A2. split; [|auto]. destruct od as [[d' v]|]; [|discriminate]. cbn in A1. injection A1 as ->.
    rewrite (V d v eq_refl). reflexivity.
Qed.
Print Assumptions C62_complete_checkpoint.

(** While the names of a new checkpoint are missing the dumps of two different
    checkpoints are attached: the table of the last complete one with the names
    of the one before. *)
Theorem C62_open_checkpoint : forall c before cd cds b lsn tid k t od ad is d d1 n1 l,
  shows c before (cd :: cds) (Rec b lsn tid k t od ad :: is) -> cf_dumps c = Some true ->
  cd_buf cd = b -> cd_type cd = 1 -> checkpoints (b :: before) (Some d) ((d1, n1) :: l) ->
  od = Some (d1, cf_oat c) /\ ad = nth_error (map snd l) 0.
Proof.
  intros c before cd cds b lsn tid k t od ad is d d1 n1 l S D EB T CP.
  destruct (checkpoints_dumps _ _ _ CP) as [D1 D2]. cbn [map fst snd] in D1, D2.
  remember (cd :: cds) as x. remember (Rec b lsn tid k t od ad :: is) as y.
  destruct S as [|before cd' cds' is' H1 H2 _|before cd' cds' is' H1 _ _|before cd' cds' is' t' od' ad' H1 _ _ H _]; try discriminate.
  - injection Heqx as -> ->. congruence.
  - injection Heqx as -> ->. injection Heqy as E1 E2 E3 E4 E5 E6 E7 E8. subst od' ad'. rewrite D in H.
    destruct H as (oats & names & O1 & O2 & A & V). rewrite EB in O1, O2.
    pose proof (dumps_fun _ _ _ O1 _ D1) as ->. pose proof (dumps_fun _ _ _ O2 _ D2) as ->.
    assert (LN : (length (d :: d1 :: map fst l) =? length (n1 :: map snd l))%nat = false).
    { apply Nat.eqb_neq. cbn [length]. rewrite !map_length. lia. }
    unfold attached in A. rewrite LN in A. change (length (d :: d1 :: map fst l) =? 0)%nat with false in A. cbv iota in A.
    cbn [nth_error] in A.
    injection A as A1 A2. split; [|exact A2]. destruct od as [[d' v]|]; [|discriminate]. cbn in A1. injection A1 as ->.
    rewrite (V d1 v eq_refl). reflexivity.
Qed.
Print Assumptions C62_open_checkpoint.

Definition rec_of (op target : Z) (redo : list Z) : list Z :=
  written_record {| f_redo_op := op; f_undo_op := 0; f_target := target; f_record := 0; f_attr := 0; f_block := 0;
    f_size := 0; f_vcn := 0; f_lcns := []; f_redo := redo; f_undo := [] |}.
Definition names_of (s : list Z) : list Z := names_image [(24, s)] ++ zeros 4.

(** Two complete checkpoints, in which attribute 24 is file 555 with the name
    "o" and then file 777 with the name "n", and the table of a third. *)
Definition mixed_log : list Z :=
  log_of [(2, area_image); (1, rec_of 29 0 (table_image 555)); (1, rec_of 30 0 (names_of [111]));
          (1, rec_of 29 0 (table_image 777)); (1, rec_of 30 0 (names_of [110]));
          (1, rec_of 29 0 (table_image 777)); (1, rec_of 8 24 [])].
Definition mixed_lf : log_file := match log_open mixed_log with Ok lf => lf | Err _ => stale_lf end.

Local Lemma parts {A B C D} (a a' : A) (b b' : B) (c c' : C) (d d' : D) : (a, b, (c, d)) = (a', b', (c', d')) -> a = a' /\ b = b' /\ c = c' /\ d = d'.
Proof. intros E. injection E. auto. Qed.

Theorem C62_mixed_checkpoints_refuted : exists data lf is w w' b lsn tid k t od ad,
  bytes_ok data /\ log_open data = Ok lf /\ parse_ntfs_records lf no_order false (start_world data) = (is, w, (w', Done)) /\
  In (Rec b lsn tid k t od ad) is /\ nonresident b /\
  od = Some (table_image 777, 1) /\ ad = Some (names_of [111]) /\ target_reference b t od ad = Ok (Some (777, Some [111])).
Proof.
  assert (X : (bytes_okb mixed_log, match log_open mixed_log with Ok _ => true | Err _ => false end,
               let '(is, _, (_, st)) := parse_ntfs_records mixed_lf no_order false (start_world mixed_log) in (nth_error is 6, st)) =
              (true, true, (Some (Rec (rec_of 8 24 []) (lsn40 1 4 816) 1 4096 [] (Some (table_image 777, 1)) (Some (names_of [111]))), Done)))
    by (vm_compute; reflexivity).
  destruct (parse_ntfs_records mixed_lf no_order false (start_world mixed_log)) as [[is w] [w' st]] eqn:E.
  apply parts in X as (XB & XO & XI & XS). apply nth_error_In in XI. rewrite XS in E.
  assert (O : log_open mixed_log = Ok mixed_lf) by (unfold mixed_lf; destruct (log_open mixed_log); [reflexivity|discriminate XO]).
  exists mixed_log, mixed_lf, is, w, w', (rec_of 8 24 []), (lsn40 1 4 816), 1, 4096, [], (Some (table_image 777, 1)), (Some (names_of [111])).
  split; [apply bytes_okb_ok; exact XB|]. split; [exact O|]. split; [exact E|].
  split; [exact XI|]. split; [left; vm_compute; auto|]. do 2 (split; [reflexivity|]). vm_compute. reflexivity.
Qed.
Print Assumptions C62_mixed_checkpoints_refuted.

(** One record that is too short, or a log without a restart area, ends
    everything, although the later records are fine. *)
Definition outcome (data : list Z) : option (list Z * status) :=
  match log_open data with
  | Ok lf => let '(is, _, (_, st)) := parse_ntfs_records lf no_order true (start_world data) in Some (map item_lsn is, st)
  | Err _ => None
  end.

Theorem C62_later_records_lost_refuted :
  outcome (log_of [(2, area_image); (1, rec_of 7 24 []); (1, pay 16); (1, rec_of 7 24 [])]) =
    Some ([lsn40 1 4 64; lsn40 1 4 192], Raised ClientException) /\
  collected (log_of [(2, area_image); (1, rec_of 7 24 []); (1, pay 16); (1, rec_of 7 24 [])]) =
    Ok [lsn40 1 4 64; lsn40 1 4 192; lsn40 1 4 272; lsn40 1 4 336].
Proof. vm_compute. auto. Qed.
Print Assumptions C62_later_records_lost_refuted.

Theorem C62_no_restart_area_refuted :
  outcome (log_of [(1, rec_of 7 24 []); (1, rec_of 7 24 [])]) = Some ([], Raised AttributeError_py).
Proof. vm_compute. reflexivity. Qed.
Print Assumptions C62_no_restart_area_refuted.

Example C62_example :
  outcome (log_of [(2, area_image); (1, rec_of 7 24 []); (3, pay 16); (1, rec_of 7 24 [])]) =
    Some ([lsn40 1 4 64; lsn40 1 4 192; lsn40 1 4 336], Done).
Proof. vm_compute. reflexivity. Qed.

(** * C63: attribute names and references from dumps *)

Theorem C63_find_name : forall dump i r, bytes_ok dump ->
  (find_name dump i = r <->
   (exists n, r = Ok (Some n) /\ named dump i 0 n) \/ (r = Ok None /\ forall n, ~ named dump i 0 n)).
Proof. intros. apply find_name_iff. auto. Qed.
Print Assumptions C63_find_name.

(** Names written in a dump are found again (the first, if an index is there
    twice), whatever follows; others are not (up to seven bytes may follow). *)
Theorem C63_round_trip : forall l i post, entries_ok l -> bytes_ok post ->
  (forall e, find (fun e => fst e =? i) l = Some e -> find_name (names_image l ++ post) i = Ok (Some (snd e))) /\
  (find (fun e => fst e =? i) l = None -> zlen post < 8 -> find_name (names_image l ++ post) i = Ok None).
Proof.
  intros l i post H BP. assert (B : bytes_ok (names_image l ++ post)) by (apply bytes_ok_app; split; [apply names_image_ok; auto|auto]). split.
  - intros e E. apply C63_find_name; [auto|]. left. eexists. split; [reflexivity|].
    exact (named_image l H i e [] post E).
  - intros E L. apply C63_find_name; [auto|]. right. split; [auto|]. intros n. exact (not_named_image l H i [] post n E L).
Qed.
Print Assumptions C63_round_trip.

(** The reference and the name of the target of a record: from the table if the
    attribute was opened, otherwise from the dumps; always a result. *)
Theorem C63_target : forall b t od ad r, bytes_ok b -> 32 <= zlen b -> (forall names, ad = Some names -> bytes_ok names) ->
  (target_reference b t od ad = r <-> exists res, r = Ok res /\ target b t od ad res).
Proof.
  intros b t od ad r B L BA. destruct (target_spec b t od ad B L BA) as (res & -> & T). split.
  - intros <-. eauto.
  - intros (res' & -> & T'). f_equal. eapply target_fun; eauto.
Qed.
Print Assumptions C63_target.

Example C63_example :
  let dump := names_image [(24, [36; 73; 51; 48]); (88, [36; 79])] ++ zeros 4 in
  find_name dump 88 = Ok (Some [36; 79]) /\ find_name dump 24 = Ok (Some [36; 73; 51; 48]) /\ find_name dump 25 = Ok None /\
  target_reference (rec_of 8 24 []) [] (Some (table_image 281474976710661, 1)) (Some dump) = Ok (Some (281474976710661, Some [36; 73; 51; 48])).
Proof. vm_compute. auto. Qed.
