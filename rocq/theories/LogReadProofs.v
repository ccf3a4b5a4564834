From Verif Require Import Base BaseLemmas FieldLemmas FrsSpec FrsProofs UsaSpec LogPage LogFile LogSpec LogPageProofs LogFileProofs.

(** ** LSN arithmetic *)

Lemma lsn_to_offset_spec lf lsn : lf_ok lf ->
  lsn_pos lf lsn (fst (lsn_to_offset lf lsn)) (snd (lsn_to_offset lf lsn)).
Proof.
  intros (Ep & _ & _ & Eb & _). unfold lsn_to_offset, lsn_pos. rewrite Ep. cbn [fst snd].
  set (b := lf_bits lf) in *.
  assert (E : Z.shiftr (Z.land (Z.shiftl lsn b) 18446744073709551615) (b - 3) = 8 * (lsn mod 2 ^ (64 - b))).
  { rewrite Z.shiftl_mul_pow2 by lia. change 18446744073709551615 with (Z.ones 64).
    rewrite Z.land_ones by lia. rewrite Z.shiftr_div_pow2 by lia.
    replace 64 with (64 - b + b) at 1 by lia. rewrite Z.pow_add_r by lia.
    rewrite Z.mul_mod_distr_r by (apply Z.pow_nonzero; lia).
    replace b with (3 + (b - 3)) at 2 by lia. rewrite (Z.pow_add_r 2 3) by lia.
    rewrite Z.mul_assoc. rewrite Z.div_mul by (apply Z.pow_nonzero; lia). lia. }
  rewrite E. lia.
Qed.

Lemma lsn_pos_fun lf lsn n off n' off' : lsn_pos lf lsn n off -> lsn_pos lf lsn n' off' -> n = n' /\ off = off'.
Proof. unfold lsn_pos. lia. Qed.

Lemma lsn_pos_bounds lf lsn n off : lf_ok lf -> lsn_pos lf lsn n off ->
  0 <= n /\ 0 <= off < 4096 /\ off mod 8 = 0 /\ n * 4096 + off < 8 * 2 ^ (64 - lf_bits lf).
Proof.
  intros (_ & _ & _ & Eb & _) [H1 H2].
  pose proof (Z.mod_pos_bound lsn (2 ^ (64 - lf_bits lf)) ltac:(apply Z.pow_pos_nonneg; lia)).
  lia.
Qed.

Lemma lsn_to_offset_iff lf lsn n off : lf_ok lf -> (lsn_to_offset lf lsn = (n, off) <-> lsn_pos lf lsn n off).
Proof.
  intros K. pose proof (lsn_to_offset_spec lf lsn K) as H.
  destruct (lsn_to_offset lf lsn) as [n' off']. cbn [fst snd] in H. split.
  - intros E. injection E as <- <-. exact H.
  - intros P. destruct (lsn_pos_fun _ _ _ _ _ _ H P) as [-> ->]. reflexivity.
Qed.

Lemma lsn_to_seqnum_spec lf lsn : lf_ok lf -> lsn_to_seqnum lf lsn = lsn_seq lf lsn.
Proof. intros (_ & _ & _ & Eb & _). unfold lsn_to_seqnum, lsn_seq. rewrite Z.shiftr_div_pow2 by lia. reflexivity. Qed.

Lemma offset_to_lsn_spec lf n off seq : lf_ok lf -> 0 <= n * 4096 + off < 8 * 2 ^ (64 - lf_bits lf) ->
  offset_to_lsn lf n off seq = (n * 4096 + off) / 8 + seq * 2 ^ (64 - lf_bits lf).
Proof.
  intros (Ep & _ & _ & Eb & _) H. unfold offset_to_lsn. rewrite Ep.
  rewrite Z.shiftr_div_pow2 by lia. change (2 ^ 3) with 8.
  rewrite Z.lor_comm, lor_shiftl_add; [lia|lia|]. split; [lia|].
  apply Z.div_lt_upper_bound; lia.
Qed.

Lemma offset_to_lsn_pos lf n off seq : lf_ok lf -> 0 <= n -> 0 <= off < 4096 -> off mod 8 = 0 ->
  n * 4096 + off < 8 * 2 ^ (64 - lf_bits lf) ->
  lsn_pos lf (offset_to_lsn lf n off seq) n off /\ lsn_seq lf (offset_to_lsn lf n off seq) = seq.
Proof.
  intros K Hn Ho Ha Hm. rewrite offset_to_lsn_spec by (auto; lia).
  assert (P : 0 < 2 ^ (64 - lf_bits lf)) by (destruct K as (_ & _ & _ & Eb & _); apply Z.pow_pos_nonneg; lia).
  assert (Q : 0 <= (n * 4096 + off) / 8 < 2 ^ (64 - lf_bits lf)).
  { split; [lia|]. apply Z.div_lt_upper_bound; lia. }
  unfold lsn_pos, lsn_seq. revert P Q Hm. generalize (2 ^ (64 - lf_bits lf)). intros m P Q Hm. split.
  - rewrite Z.mod_add by lia. rewrite Z.mod_small by lia. lia.
  - rewrite Z.div_add by lia. rewrite Z.div_small by lia. lia.
Qed.

Lemma lsn_round_trip lf lsn : lf_ok lf ->
  offset_to_lsn lf (fst (lsn_to_offset lf lsn)) (snd (lsn_to_offset lf lsn)) (lsn_to_seqnum lf lsn) = lsn.
Proof.
  intros K. pose proof (lsn_to_offset_spec lf lsn K) as H.
  pose proof (lsn_pos_bounds _ _ _ _ K H) as (A1 & A2 & A3 & A4).
  rewrite offset_to_lsn_spec by (auto; lia). rewrite lsn_to_seqnum_spec by auto.
  unfold lsn_seq. destruct H as [-> _].
  assert (P : 0 < 2 ^ (64 - lf_bits lf)) by (destruct K as (_ & _ & _ & Eb & _); apply Z.pow_pos_nonneg; lia).
  revert P. generalize (2 ^ (64 - lf_bits lf)). intros m P.
  pose proof (Z.div_mod lsn m ltac:(lia)). pose proof (Z.mod_pos_bound lsn m P).
  replace (8 * (lsn mod m) / 8) with (lsn mod m) by (rewrite Z.mul_comm, Z.div_mul; lia). lia.
Qed.

(** ** Pages and records *)

Lemma wrapped_page_spec lf : lf_ok lf -> wrapped_page lf = Ok (first_page lf) /\ 4 <= first_page lf <= 34.
Proof.
  intros (_ & _ & _ & _ & V & _). unfold wrapped_page, first_page.
  destruct V as [[-> ->]|[[-> ->]|[-> ->]]]; cbn; split; auto; lia.
Qed.

Definition page_shows (lf : log_file) (data : list Z) (n : Z) (p : log_page) : Prop :=
  log_page_at lf data n (lp_buf p) (lp_end p) /\ lp_raw p = slice data (4096 * n) (4096 * n + 4096) /\
  lp_number p = n /\ lp_off p = lf_doff lf.

Lemma page_by_number_spec lf data n : lf_ok lf -> bytes_ok data -> 0 <= n ->
  match page_by_number lf data n with
  | Ok (Some p) => page_shows lf data n p
  | Ok None => forall buf e, ~ log_page_at lf data n buf e
  | Err _ => False
  end.
Proof.
  intros (Ep & _ & Ed & _) B Hn. unfold page_by_number, read_at. rewrite Ep.
  replace (n * 4096 <? 0) with false by lia. cbn [bind]. rewrite (Z.mul_comm n).
  set (raw := slice data (4096 * n) (4096 * n + 4096)).
  destruct (zlen raw =? 4096) eqn:EL; cbn [negb].
  2:{ intros buf e (_ & K & _). fold raw in K. lia. }
  assert (Br : bytes_ok raw) by (apply bytes_ok_slice; auto).
  unfold log_record_page. pose proof (unprotect_spec raw Br) as U.
  destruct (unprotect raw) as [[buf e]|x]; cbn [bind].
  2:{ destruct U as [-> U]. cbn. intros buf e (_ & _ & K & _). exact (U _ _ K). }
  destruct (sig_in _ _) eqn:ES; cbn [negb].
  2:{ cbn. intros buf' e' (_ & _ & K & SG & _). fold raw in K.
      destruct (unprotects_fun _ _ _ _ _ U K) as [<- <-]. apply sig_in3 in SG.
      change [82; 67; 82; 68] with sig_RCRD in SG. change [67; 72; 75; 68] with sig_CHKD in SG.
      change [66; 65; 65; 68] with sig_BAAD in SG. congruence. }
  apply sig_in3 in ES.
  destruct (_ || _) eqn:EO.
  { cbn. intros buf' e' (_ & _ & K & _ & K1 & K2 & K3). fold raw in K.
    destruct (unprotects_fun _ _ _ _ _ U K) as [<- <-]. lia. }
  repeat (apply orb_false_iff in EO as [EO ?]).
  unfold page_shows. cbn [lp_buf lp_end lp_raw lp_number lp_off]. fold raw.
  split; [|auto]. unfold log_page_at. fold raw. do 3 (split; [auto; lia|]). split; [exact ES|]. lia.
Qed.

Lemma log_page_at_fun lf data n b e b' e' : log_page_at lf data n b e -> log_page_at lf data n b' e' -> b = b' /\ e = e'.
Proof. intros (_ & _ & U & _) (_ & _ & U' & _). exact (unprotects_fun _ _ _ _ _ U U'). Qed.

Lemma page_by_number_some lf data n buf e : lf_ok lf -> bytes_ok data ->
  log_page_at lf data n buf e -> exists p, page_by_number lf data n = Ok (Some p) /\ lp_buf p = buf /\
    lp_end p = e /\ page_shows lf data n p.
Proof.
  intros K B L. pose proof L as (Hn & _). pose proof (page_by_number_spec lf data n K B Hn) as H.
  destruct (page_by_number lf data n) as [[p|]|x]; [|destruct (H _ _ L)|contradiction].
  exists p. pose proof H as (H1 & _). destruct (log_page_at_fun _ _ _ _ _ _ _ H1 L). auto.
Qed.

Lemma log_page_facts lf data n buf e : bytes_ok data -> log_page_at lf data n buf e ->
  bytes_ok buf /\ zlen buf = 4096 /\ 4096 * n + 4096 <= zlen data.
Proof.
  intros B (Hn & L & U & _). assert (Br : bytes_ok (slice data (4096 * n) (4096 * n + 4096))) by (apply bytes_ok_slice; auto).
  split; [exact (unprotects_bytes _ _ _ Br U)|]. pose proof (unprotects_len _ _ _ U).
  split; [lia|]. rewrite zlen_slice in L by lia. pose proof (zlen_nonneg data). lia.
Qed.

Lemma header_at_spec lf data n p off : lf_ok lf -> bytes_ok data -> page_shows lf data n p -> 0 <= off ->
  match header_at p off (lf_hl lf) with
  | Ok h => record_at lf data n off h
  | Err x => x = LogFileException /\ forall h, ~ record_at lf data n off h
  end.
Proof.
  intros (_ & Eh & _) B (L & _ & _ & Eo) Ho. unfold header_at, record_header. rewrite Eo.
  pose proof (log_page_facts _ _ _ _ _ B L) as (_ & LL & _).
  replace (lf_hl lf <? 48) with false by lia. replace (lf_hl lf <? 8) with false by lia. cbn [orb].
  assert (F : forall h, record_at lf data n off h -> lf_doff lf <= off /\ lf_hl lf mod 8 = 0 /\ off + lf_hl lf <= 4096).
  { intros h (b & e & _ & ?). tauto. }
  pose proof (zlen_zdrop (lp_buf p) off) as LZ.
  destruct (off <? lf_doff lf) eqn:E1; [split; auto; intros h K; apply F in K; lia|].
  destruct (lf_hl lf mod 8 =? 0) eqn:E2; cbn [negb]; [|split; auto; intros h K; apply F in K; lia].
  destruct (zlen (zdrop off (lp_buf p)) <? lf_hl lf) eqn:E3; [split; auto; intros h K; apply F in K; lia|].
  exists (lp_buf p), (lp_end p). split; [exact L|]. do 3 (split; [lia|]). reflexivity.
Qed.

Lemma fetch_spec lf data n off : lf_ok lf -> bytes_ok data -> 0 <= n -> 0 <= off ->
  match fetch lf data n off with
  | Ok (Some h) => record_at lf data n off h
  | Ok None => forall h, ~ record_at lf data n off h
  | Err _ => False
  end.
Proof.
  intros K B Hn Ho. unfold fetch. pose proof (page_by_number_spec lf data n K B Hn) as P.
  destruct (page_by_number lf data n) as [[p|]|x]; cbn [bind]; [|intros h (b & e & L & _); exact (P _ _ L)|auto].
  pose proof (header_at_spec lf data n p off K B P Ho) as H. unfold or_none.
  destruct (header_at p off (lf_hl lf)) as [h|x]; auto. destruct H as [-> H]. exact H.
Qed.

Lemma record_at_fun lf data n off h h' : record_at lf data n off h -> record_at lf data n off h' -> h = h'.
Proof.
  intros (b & e & L & _ & _ & _ & ->) (b' & e' & L' & _ & _ & _ & ->).
  destruct (log_page_at_fun _ _ _ _ _ _ _ L L') as [-> _]. reflexivity.
Qed.

Lemma fetch_iff lf data n off h : lf_ok lf -> bytes_ok data -> 0 <= n -> 0 <= off ->
  (fetch lf data n off = Ok (Some h) <-> record_at lf data n off h).
Proof.
  intros K B Hn Ho. pose proof (fetch_spec lf data n off K B Hn Ho) as H.
  destruct (fetch lf data n off) as [[h'|]|x]; [| |contradiction].
  - split; [intros E; injection E as <-; exact H|]. intro R. rewrite (record_at_fun _ _ _ _ _ _ H R). reflexivity.
  - split; [discriminate|]. intro R. destruct (H _ R).
Qed.

Lemma record_at_facts lf data n off h : lf_ok lf -> bytes_ok data -> record_at lf data n off h ->
  bytes_ok h /\ zlen h = 4096 - off /\ 0 <= n /\ 8 <= lf_doff lf <= off /\ lf_doff lf mod 8 = 0 /\
  lf_hl lf mod 8 = 0 /\ off + lf_hl lf <= 4096 /\ 4096 * n + 4096 <= zlen data.
Proof.
  intros (_ & Eh & Ed & _) B (b & e & L & H1 & H2 & H3 & ->).
  pose proof (log_page_facts _ _ _ _ _ B L) as (Bb & Lb & LD). destruct L as (Hn & _ & _ & _ & D1 & D2 & D3).
  split; [apply bytes_ok_zdrop; auto|]. rewrite zlen_zdrop. pose proof (zlen_nonneg b). lia.
Qed.

Lemma header_fields lf data n off h : lf_ok lf -> bytes_ok data -> record_at lf data n off h ->
  lh_this_lsn h = Ok (fld 8 h 0) /\ lh_previous_lsn h = Ok (fld 8 h 8) /\ lh_undo_lsn h = Ok (fld 8 h 16) /\
  lh_data_length h = Ok (fld 4 h 24) /\ lh_client_id h = Ok (fld 4 h 28) /\
  lh_record_type h = Ok (fld 4 h 32) /\ lh_transaction_id h = Ok (fld 4 h 36) /\
  0 <= fld 8 h 0 < 2 ^ 64 /\ 0 <= fld 8 h 8 < 2 ^ 64 /\ 0 <= fld 8 h 16 < 2 ^ 64 /\ 0 <= fld 4 h 24 < 2 ^ 32.
Proof.
  intros K B R. pose proof (record_at_facts _ _ _ _ _ K B R) as (Bh & Lh & _ & H1 & _ & _ & H2 & _).
  destruct K as (_ & Eh & _).
  unfold lh_this_lsn, lh_previous_lsn, lh_undo_lsn, lh_data_length, lh_client_id, lh_record_type, lh_transaction_id.
  destruct (u64_at h 0 Bh ltac:(lia) ltac:(lia)) as [-> ?]. destruct (u64_at h 8 Bh ltac:(lia) ltac:(lia)) as [-> ?].
  destruct (u64_at h 16 Bh ltac:(lia) ltac:(lia)) as [-> ?].
  destruct (u32_at h 24 Bh ltac:(lia) ltac:(lia)) as [-> ?]. destruct (u32_at h 28 Bh ltac:(lia) ltac:(lia)) as [-> ?].
  destruct (u32_at h 32 Bh ltac:(lia) ltac:(lia)) as [-> ?]. destruct (u32_at h 36 Bh ltac:(lia) ltac:(lia)) as [-> ?].
  change (2 ^ 64) with 18446744073709551616. change (2 ^ 32) with 4294967296.
  do 7 (split; [reflexivity|]). lia.
Qed.

(** Some record of the file has this LSN (at whatever place). *)
Definition holds (lf : log_file) (data : list Z) (n off lsn : Z) : Prop :=
  exists h, record_at lf data n off h /\ fld 8 h 0 = lsn.

Lemma holds_lsn_spec lf data n off lsn : lf_ok lf -> bytes_ok data -> 0 <= n -> 0 <= off ->
  exists b, holds_lsn lf data n off lsn = Ok b /\ (b = true <-> holds lf data n off lsn).
Proof.
  intros K B Hn Ho. unfold holds_lsn. pose proof (fetch_spec lf data n off K B Hn Ho) as H.
  destruct (fetch lf data n off) as [[h|]|x]; cbn [bind]; [| |contradiction].
  - destruct (header_fields _ _ _ _ _ K B H) as (-> & _). cbn [bind]. exists (fld 8 h 0 =? lsn). split; auto.
    rewrite Z.eqb_eq. split; [intros; exists h; auto|]. intros (h' & R & E).
    rewrite (record_at_fun _ _ _ _ _ _ H R). exact E.
  - exists false. split; auto. split; [discriminate|]. intros (h & R & _). destruct (H _ R).
Qed.

Lemma locate_spec lf data lsn : lf_ok lf -> bytes_ok data ->
  match locate lf data lsn with
  | Ok (Some h) => exists n off, lsn_pos lf lsn n off /\ n <> 0 /\ record_at lf data n off h
  | Ok None => forall n off h, lsn_pos lf lsn n off -> n <> 0 -> ~ record_at lf data n off h
  | Err _ => False
  end.
Proof.
  intros K B. unfold locate. pose proof (lsn_to_offset_spec lf lsn K) as P.
  destruct (lsn_to_offset lf lsn) as [n off]. cbn [fst snd] in P.
  pose proof (lsn_pos_bounds _ _ _ _ K P) as (Hn & Ho & _).
  destruct (Z.eqb_spec n 0) as [E|E].
  { intros n' off' h P' N _. destruct (lsn_pos_fun _ _ _ _ _ _ P P'). lia. }
  pose proof (fetch_spec lf data n off K B Hn ltac:(lia)) as F.
  destruct (fetch lf data n off) as [[h|]|x]; [eauto| |exact F].
  intros n' off' h P' _ R. destruct (lsn_pos_fun _ _ _ _ _ _ P P') as [<- <-]. exact (F _ R).
Qed.
