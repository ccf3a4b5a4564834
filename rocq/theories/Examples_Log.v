(** The condition "written once" (C29, C31) and the relations used there, shown
    for a small log. *)
From Coq Require Import Permutation Sorted.
From Verif Require Import Base BaseLemmas FieldLemmas LogPage LogFile LogSpec LogPageProofs LogFileProofs LogReadProofs LogWalkProofs LogClientProofs
  LogCollectProofs LogImages Properties_Log.

(** A check of all records of a page. *)
Definition passb (lf : log_file) (data : list Z) (q n : Z) : bool :=
  match page_by_number lf data n with
  | Ok (Some p) => forallb (fun k => let off := 8 * Z.of_nat k in let x := fld 8 (lp_buf p) off in
      let (m, o) := lsn_to_offset lf x in negb ((m =? n) && (o =? off)) || (lsn_to_seqnum lf x =? q)) (seq 0 512)
  | Ok None => true
  | Err _ => false
  end.
Lemma passb_ok lf data q : lf_ok lf -> bytes_ok data ->
  forallb (fun k => passb lf data q (Z.of_nat k)) (seq 0 (Z.to_nat (zlen data / 4096))) = true -> one_pass lf data q.
Proof.
  intros K B H x (n & off & h & P & N & R & E). rewrite forallb_forall in H.
  pose proof (record_at_facts _ _ _ _ _ K B R) as (_ & _ & Hn & _ & _ & _ & Ho & Hd).
  destruct R as (buf & e & L & D & _ & _ & ->). rewrite fld_zdrop in E by (destruct L as (_ & _ & _ & _ & X & _); lia).
  assert (X : passb lf data q n = true).
  { replace n with (Z.of_nat (Z.to_nat n)) by lia. apply H. apply in_seq. pose proof (Z.div_mod (zlen data) 4096 ltac:(lia)).
    pose proof (Z.mod_pos_bound (zlen data) 4096 ltac:(lia)). lia. }
  unfold passb in X. destruct (page_by_number_some _ _ _ _ _ K B L) as (p & EP & EB & _ & _). rewrite EP, EB in X. rewrite forallb_forall in X.
  assert (M : exists k, (k < 512)%nat /\ off = 8 * Z.of_nat k).
  { destruct P as [P Q]. exists (Z.to_nat (off / 8)). pose proof (Z.div_mod off 8 ltac:(lia)).
    assert (off mod 8 = 0); [|lia]. replace off with (0 + (x mod 2 ^ (64 - lf_bits lf) - n * 512) * 8) by lia. apply Z.mod_add. lia. }
  destruct M as (k & Hk & Eo). specialize (X k ltac:(apply in_seq; lia)). rewrite <- Eo, Z.add_0_r in *. rewrite E in X.
  rewrite (proj2 (lsn_to_offset_iff lf x n off K) P) in X. rewrite !Z.eqb_refl in X. cbn [andb negb orb] in X.
  apply Z.eqb_eq in X. rewrite lsn_to_seqnum_spec in X by auto. exact X.
Qed.

Definition plain_lf : log_file := match log_open plain_log with Ok lf => lf | Err _ => tight_lf end.
Definition pa := lsn40 1 4 64. Definition pb := lsn40 1 4 128. Definition pc := lsn40 1 4 192. Definition pd := lsn40 1 5 64.
Lemma plain_bytes : bytes_ok plain_log.
Proof. apply bytes_okb_ok. vm_compute. reflexivity. Qed.
Lemma plain_opens : log_open plain_log = Ok plain_lf.
Proof. vm_compute. reflexivity. Qed.
Lemma plain_ok : lf_ok plain_lf.
Proof. apply (opened_ok plain_log); [exact plain_bytes|]. apply log_open_iff; [exact plain_bytes|exact plain_opens]. Qed.
Lemma plain_once : one_pass plain_lf plain_log 1.
Proof. apply passb_ok; [exact plain_ok|exact plain_bytes|]. vm_compute. reflexivity. Qed.
Lemma plain_addressable : addressable plain_lf plain_log.
Proof. unfold addressable. vm_compute. discriminate. Qed.

(** Records of the log: where they are, and their length. *)
Definition heldb (x n off len : Z) : bool :=
  match fetch plain_lf plain_log n off with
  | Ok (Some h) => let (m, o) := lsn_to_offset plain_lf x in (m =? n) && (o =? off) && (fld 8 h 0 =? x) && (fld 4 h 24 =? len) && negb (n =? 0)
  | _ => false
  end.
Lemma heldb_ok x n off len : 0 <= n -> 0 <= off -> heldb x n off len = true ->
  exists h, lsn_pos plain_lf x n off /\ n <> 0 /\ record_at plain_lf plain_log n off h /\ fld 8 h 0 = x /\ fld 4 h 24 = len.
Proof.
  intros Hn Ho H. unfold heldb in H. pose proof (fetch_spec plain_lf plain_log n off plain_ok plain_bytes Hn Ho) as F.
  destruct (fetch plain_lf plain_log n off) as [[h|]|]; [|discriminate|discriminate].
  destruct (lsn_to_offset plain_lf x) as [m o] eqn:E. apply lsn_to_offset_iff in E; [|exact plain_ok].
  repeat (apply andb_prop in H as [H ?]). exists h. rewrite negb_true_iff in *. rewrite ?Z.eqb_eq, ?Z.eqb_neq in *. subst m o. auto.
Qed.
Lemma held : exists ha hb hc hd,
  (lsn_pos plain_lf pa 4 64 /\ 4 <> 0 /\ record_at plain_lf plain_log 4 64 ha /\ fld 8 ha 0 = pa /\ fld 4 ha 24 = 16) /\
  (lsn_pos plain_lf pb 4 128 /\ 4 <> 0 /\ record_at plain_lf plain_log 4 128 hb /\ fld 8 hb 0 = pb /\ fld 4 hb 24 = 16) /\
  (lsn_pos plain_lf pc 4 192 /\ 4 <> 0 /\ record_at plain_lf plain_log 4 192 hc /\ fld 8 hc 0 = pc /\ fld 4 hc 24 = 16) /\
  (lsn_pos plain_lf pd 5 64 /\ 5 <> 0 /\ record_at plain_lf plain_log 5 64 hd /\ fld 8 hd 0 = pd /\ fld 4 hd 24 = 16).
Proof.
  assert (HA : heldb pa 4 64 16 = true) by (vm_compute; reflexivity). assert (HB : heldb pb 4 128 16 = true) by (vm_compute; reflexivity).
  assert (HC : heldb pc 4 192 16 = true) by (vm_compute; reflexivity). assert (HD : heldb pd 5 64 16 = true) by (vm_compute; reflexivity).
  apply heldb_ok in HA; [|lia|lia]. apply heldb_ok in HB; [|lia|lia]. apply heldb_ok in HC; [|lia|lia]. apply heldb_ok in HD; [|lia|lia].
  destruct HA as [ha HA], HB as [hb HB], HC as [hc HC], HD as [hd HD]. exists ha, hb, hc, hd. auto.
Qed.
Lemma plain_none z : lsn_pos plain_lf z 4 256 -> lsn_seq plain_lf z = 1 -> ~ valid_lsn plain_lf plain_log z.
Proof.
  intros P S (n & off & h & P' & _ & R & E). destruct (lsn_pos_fun _ _ _ _ _ _ P P') as [<- <-].
  assert (X : match fetch plain_lf plain_log 4 256 with Ok (Some h) => fld 8 h 0 | _ => 0 end = 0) by (vm_compute; reflexivity).
  apply fetch_iff in R; [|exact plain_ok|exact plain_bytes|lia|lia]. rewrite R, E in X. subst z. rewrite X in S. clear - S. vm_compute in S. discriminate S.
Qed.

Lemma plain_settings : lf_hl plain_lf = 48 /\ lf_doff plain_lf = 64 /\ lf_size plain_lf = 24576 /\
  lsn_seq plain_lf pa = 1 /\ lsn_seq plain_lf pb = 1 /\ lsn_seq plain_lf pc = 1 /\ lsn_seq plain_lf pd = 1.
Proof. vm_compute. auto 10. Qed.

(** The records [a] to [d] follow each other: the last one is in the next page. *)
Lemma plain_chain : chain (follows plain_lf plain_log) pa pd.
Proof.
  destruct held as (ha & hb & hc & hd & (PA & NA & RA & EA & LA) & (PB & NB & RB & EB & LB) & (PC & NC & RC & EC & LC) & (PD & ND & RD & ED & LD)).
  destruct plain_settings as (SH & SD & SZ & QA & QB & QC & QD).
  assert (VB : valid_lsn plain_lf plain_log pb) by (exists 4, 128, hb; auto).
  assert (VC : valid_lsn plain_lf plain_log pc) by (exists 4, 192, hc; auto).
  assert (VD : valid_lsn plain_lf plain_log pd) by (exists 5, 64, hd; auto).
  pose proof plain_none as PN.
  generalize dependent plain_lf. generalize pa pb pc pd. intros xa xb xc xd lf. intros.
  apply chain_cons with xb; [|apply chain_cons with xc; [|apply chain_cons with xd; [|apply chain_nil]]].
  - exists 4, 64, ha, 4, 128. rewrite LA, SH, SZ, QA, QB. do 3 (split; [auto|]). split; [lia|]. split; [reflexivity|].
    split; [apply (ends_here lf 4 64 (48 + 16)); lia|]. split; [lia|]. split; [auto|]. split; [reflexivity|]. left. exact PB.
  - exists 4, 128, hb, 4, 192. rewrite LB, SH, SZ, QB, QC. do 3 (split; [auto|]). split; [lia|]. split; [reflexivity|].
    split; [apply (ends_here lf 4 128 (48 + 16)); lia|]. split; [lia|]. split; [auto|]. split; [reflexivity|]. left. exact PC.
  - exists 4, 192, hc, 4, 256. rewrite LC, SH, SZ, QC, QD. do 3 (split; [auto|]). split; [lia|]. split; [reflexivity|].
    split; [apply (ends_here lf 4 192 (48 + 16)); lia|]. split; [lia|]. split; [auto|]. split; [reflexivity|]. right. rewrite SD. split; [exact PD|]. exact PN.
Qed.

Lemma plain_seed : seed_lsn plain_lf plain_log pa.
Proof.
  destruct held as (ha & _ & _ & _ & (PA & NA & RA & EA & LA) & _). split; [exists 4, 64, ha; auto|]. left. left.
  assert (X : match lf_rp1 plain_lf with
    | Some b => let area := zdrop (fld 2 b 24) b in (0 <? fld 2 area 8) && (fld 8 area (fld 2 area 22 + 160 * 0) =? pa) | None => false end = true)
    by (vm_compute; reflexivity).
  destruct (lf_rp1 plain_lf) as [b|]; [|discriminate]. exists b. split; [auto|]. right. right. exists 0. apply andb_prop in X as [X1 X2].
  apply Z.ltb_lt in X1. apply Z.eqb_eq in X2. split; [lia|]. left. symmetry. exact X2.
Qed.

Local Opaque plain_log plain_lf.
Example C31_forward_example : forall ord c l c', (forall k l, Permutation (ord k l) l) ->
  collect_lsns plain_lf plain_log ord c = Ok (l, c') -> In pd l.
Proof.
  intros ord c l c' OP E.
  exact (C31_forward_complete plain_log plain_log plain_lf ord c l c' 1 plain_bytes plain_bytes plain_opens plain_addressable OP plain_once E
           pa pd plain_seed plain_chain).
Qed.
