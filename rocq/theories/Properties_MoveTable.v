(** Property C51. *)
From Verif Require Import Base BaseLemmas FrsProofs FieldLemmas Filetime FiletimeProofs Attributes MoveTable MoveTableSpec MoveTableProofs.

(** Every log whose slots all have known types. *)
Theorem C51_entries : forall data s, s = 512 \/ s = 4096 -> Forall known_type (mt_slots data s) ->
  mt_log_entries data s = (used_slots (mt_slots data s), Done).
Proof. intros data s Hs H. rewrite mt_entries_cut by auto. now apply cut_known. Qed.
Print Assumptions C51_entries.

(** A slot of an unknown type ends the iteration there. *)
Theorem C51_unknown_type : forall data s a e b, s = 512 \/ s = 4096 -> mt_slots data s = a ++ e :: b ->
  Forall known_type a -> ~ known_type e ->
  mt_log_entries data s = (used_slots a, Raised NotImplementedError).
Proof. intros data s a e b Hs E H1 H2. rewrite mt_entries_cut, E by auto. now apply cut_unknown. Qed.
Print Assumptions C51_unknown_type.

(** One of the two always applies. *)
Theorem C51_total : forall data s, s = 512 \/ s = 4096 ->
  Forall known_type (mt_slots data s) \/
  exists a e b, mt_slots data s = a ++ e :: b /\ Forall known_type a /\ ~ known_type e.
Proof.
  intros data s _. induction (mt_slots data s) as [|e l IH]; [left; constructor|].
  destruct (Z.eq_dec (fld 4 e 8) 1) as [E|E]; [|destruct (Z.eq_dec (fld 4 e 8) 2) as [E2|E2]].
  3:{ right. exists [], e, l. split; auto. split; [constructor|]. unfold known_type. tauto. }
  all: destruct IH as [IH|(a & x & b & -> & IH1 & IH2)];
    [left; constructor; [unfold known_type; tauto|auto]
    |right; exists (e :: a), x, b; split; auto; split; [constructor; [unfold known_type; tauto|auto]|auto]].
Qed.
Print Assumptions C51_total.

(** The slots are disjoint 124-byte pieces of the file: sector [i], slot [j]. *)
Lemma zseq_nth n : forall start k, 0 <= k < Z.of_nat n -> znth (zseq start n) k = Some (start + k).
Proof.
  induction n as [|n IH]; intros start k Hk; [lia|]. cbn [zseq znth].
  destruct (Z.eqb_spec k 0) as [->|N]; [f_equal; lia|]. rewrite IH by lia. f_equal. lia.
Qed.
Lemma zseq_len n : forall start, zlen (zseq start n) = Z.of_nat n.
Proof. induction n as [|n IH]; intro start; [reflexivity|]. cbn [zseq]. rewrite zlen_cons, IH. lia. Qed.

Lemma sector_slots_nth data base size j : 0 <= j < (if size =? 512 then 4 else 32) ->
  znth (sector_slots data base size) j = Some (slice data (base + 124 * j) (base + 124 * j + 124)).
Proof.
  intro H. unfold sector_slots. set (n := if size =? 512 then 4%nat else 32%nat).
  assert (N : 0 <= j < Z.of_nat n) by (unfold n; destruct (size =? 512); lia).
  rewrite znth_nth_error, nth_error_map, <- znth_nth_error by lia. rewrite zseq_nth by auto. reflexivity.
Qed.

Lemma sector_slots_len data base size : zlen (sector_slots data base size) = if size =? 512 then 4 else 32.
Proof. unfold sector_slots. rewrite zlen_map, zseq_len. destruct (size =? 512); reflexivity. Qed.

Theorem C51_slots : forall data s i j per, s = 512 /\ per = 4 \/ s = 4096 /\ per = 32 ->
  1 <= i -> (i + 1) * s <= zlen data -> 0 <= j < per ->
  znth (mt_slots data s) ((i - 1) * per + j) = Some (slice data (i * s + 124 * j) (i * s + 124 * j + 124)).
Proof.
  intros data s i j per Hs Hi HL Hj. unfold mt_slots.
  assert (SP : forall b, zlen (sector_slots data b s) = per) by (intro b; rewrite sector_slots_len; destruct Hs as [[-> ->]|[-> ->]]; reflexivity).
  assert (FL : forall n st, zlen (flat_map (fun i => sector_slots data (i * s) s) (zseq st n)) = per * Z.of_nat n).
  { induction n as [|n IH]; intro st; cbn [zseq flat_map]; [change (zlen (@nil (list Z))) with 0; lia|]. rewrite zlen_app, SP, IH. lia. }
  assert (G : forall n st, st <= i -> i < st + Z.of_nat n ->
    znth (flat_map (fun i => sector_slots data (i * s) s) (zseq st n)) ((i - st) * per + j) = Some (slice data (i * s + 124 * j) (i * s + 124 * j + 124))).
  { induction n as [|n IH]; intros st H1 H2; [lia|]. cbn [zseq flat_map].
    destruct (Z.eq_dec st i) as [->|N].
    - rewrite znth_app1 by (rewrite SP; lia). replace ((i - i) * per + j) with j by lia.
      apply sector_slots_nth. destruct Hs as [[-> ->]|[-> ->]]; cbn [Z.eqb Pos.eqb]; lia.
    - rewrite znth_app2 by (rewrite SP; destruct Hs as [[_ ->]|[_ ->]]; lia). rewrite SP.
      replace ((i - st) * per + j - per) with ((i - (st + 1)) * per + j) by lia. apply IH; lia. }
  assert (Q : i + 1 <= zlen data / s) by (apply Z.div_le_lower_bound; destruct Hs as [[-> _]|[-> _]]; lia).
  rewrite znth_app1.
  - apply G; lia.
  - rewrite FL. destruct Hs as [[_ ->]|[_ ->]]; lia.
Qed.
Print Assumptions C51_slots.

(** The timestamp range: [ft] is a FILETIME whose high half is the stored value. *)
Theorem C51_timestamp : forall b ft us, zlen b = 124 -> bytes_ok b -> ft / 2 ^ 32 = fld 4 b 116 ->
  decode_filetime ft true = Ok (Some us) ->
  exists lo hi, mte_timestamp b = Ok (Some lo, hi) /\ lo <= us /\
    match hi with Some h => us <= h | None => 2650467743999999840 <= 2 ^ 32 * fld 4 b 116 + (2 ^ 32 - 1) end.
Proof.
  intros b ft us L B E H. unfold mte_timestamp, u32. rewrite unp_ok by lia. cbn [bind].
  pose proof (fld_bound 4 b 116 ltac:(lia) ltac:(lia) B) as Bt. set (t := fld 4 b 116) in *.
  rewrite lor_shiftl_add by lia. rewrite Z.shiftl_mul_pow2 by lia.
  assert (F : 0 <= t * 2 ^ 32 <= ft /\ ft <= t * 2 ^ 32 + 0xFFFFFFFF) by lia.
  assert (D : forall t, 0 <= t -> decode_filetime t true = if t <? 2650467743999999840 then Ok (Some (us_of t)) else Ok None).
  { intros t' Ht'. unfold decode_filetime. rewrite (decode_time_threshold ordinal_1601 2650467743999999840) by (auto; vm_compute; split; congruence). reflexivity. }
  rewrite D in H by lia. rewrite !D by lia.
  destruct (Z.ltb_spec ft 2650467743999999840) as [K|K]; [|discriminate]. injection H as <-.
  replace (t * 2 ^ 32 <? 2650467743999999840) with true by lia. cbn [bind].
  destruct (Z.ltb_spec (t * 2 ^ 32 + 0xFFFFFFFF) 2650467743999999840) as [K2|K2]; cbn [bind].
  - exists (us_of (t * 2 ^ 32)), (Some (us_of (t * 2 ^ 32 + 0xFFFFFFFF))). split; [reflexivity|].
    split; apply us_of_mono; lia.
  - exists (us_of (t * 2 ^ 32)), None. split; [reflexivity|]. split; [apply us_of_mono|]; lia.
Qed.
Print Assumptions C51_timestamp.

(** Machine identifiers end at the first null byte. *)
Theorem C51_machine_id : forall b, zlen b = 124 -> exists rest,
  slice b 68 84 = mte_machine_id b ++ rest /\ ~ In 0 (mte_machine_id b) /\ (rest = [] \/ exists t, rest = 0 :: t).
Proof. intros b _. apply until_null_spec. Qed.
Print Assumptions C51_machine_id.

(** Headers. *)
Theorem C51_header : forall data s h, mt_header data s = Ok h <->
  (h = slice data 0 s /\ (zlen h = 512 \/ zlen h = 4096) /\ ztake 16 h = mt_signature).
Proof.
  intros data s h. unfold mt_header, mth_open, valid_sector_size. set (b := slice data 0 s).
  assert (T : slice b 0 16 = ztake 16 b) by (unfold slice; rewrite (zdrop_nonpos b) by lia; reflexivity).
  rewrite T.
  destruct (Z.eqb_spec (zlen b) 512) as [E|E]; [|destruct (Z.eqb_spec (zlen b) 4096) as [E2|E2]]; cbn [orb negb].
  3:{ split; [discriminate|]. intros (-> & [K|K] & _); lia. }
  all: destruct (zlist_eqb (ztake 16 b) mt_signature) eqn:Q; cbn [negb];
    [apply zlist_eqb_eq in Q; split; [intro K; injection K as <-; auto|intros (-> & _); auto]
    |apply zlist_eqb_neq in Q; split; [discriminate|intros (-> & _ & K); congruence]].
Qed.
Print Assumptions C51_header.

(** Three sectors: entries of types 2 1 2 1, then 1 1 1 2, with a tail cut off. *)
Definition mt_entry (kind idx : Z) : list Z := zeros 8 ++ le_bytes 4 kind ++ le_bytes 4 idx ++ zeros 108.
Definition mt_sample : list Z :=
  zeros 512 ++
  mt_entry 2 7 ++ mt_entry 1 0 ++ mt_entry 2 8 ++ mt_entry 1 0 ++ zeros 16 ++
  mt_entry 1 0 ++ mt_entry 1 0 ++ mt_entry 1 0 ++ mt_entry 2 9 ++ zeros 16 ++ mt_entry 2 10.

Example C51_case :
  mt_sector_size mt_sample None = 512 /\ zlen (mt_slots mt_sample 512) = 8 /\
  mt_log_entries mt_sample 512 = ([mt_entry 2 7; mt_entry 2 8; mt_entry 2 9], Done) /\
  mt_log_entries (zset mt_sample 892 3) 512 = ([mt_entry 2 7; mt_entry 2 8], Raised NotImplementedError).
Proof. vm_compute. repeat split. Qed.

(** An entry of an unknown type hides the later ones of the log, though they are in
    use: the part "exactly the used entries" fails on such logs. *)
Theorem C51_later_entries_lost_refuted : exists data, mt_log_entries data 512 = ([], Raised NotImplementedError) /\
  zlen (used_slots (mt_slots data 512)) = 2.
Proof. exists (zset mt_sample 520 3). vm_compute. split; reflexivity. Qed.
Print Assumptions C51_later_entries_lost_refuted.
