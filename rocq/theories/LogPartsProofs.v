(** Proofs about the report on the log: the values in a log record. *)
From Coq Require Import String.
From Verif Require Import Base BaseLemmas FieldLemmas Frs FrsSpec FrsProofs FileRecord FileRecordProofs Mft MftSpec MftProofs Filetime Usn UsnSpec UsnProofs
  Attributes AttributesSpec AttributesProofs
  LogRecord LogSpec LogParseSpec LogRecordProofs Report ReportSpec ReportMoreSpec ReportProofs ReportTable ReportSound ReportMore HexdumpProofs
  LogReport LogReportSpec LogTextProofs.
Local Open Scope Z_scope.

(** An equation of values. *)
Ltac val := match goal with H : Ok _ = Ok _ |- _ => injection H as <-; reflexivity | H : Ok _ = Ok _ |- _ => injection H as ->; reflexivity end.

(** ** Times *)
Lemma times_inv m a c e ls : times_of m a c e = Ok ls -> exists m' a' c' e', m = Ok m' /\ a = Ok a' /\ c = Ok c' /\ e = Ok e' /\
  ls = four_lines (filetime_cell m') (filetime_cell a') (filetime_cell c') (filetime_cell e').
Proof.
  intro H. unfold times_of in H. apply bind_ok in H as (m' & Em & H). apply bind_ok in H as (a' & Ea & H).
  apply bind_ok in H as (c' & Ec & H). apply bind_ok in H as (e' & Ee & H). injection H as <-. exists m', a', c', e'. auto 10.
Qed.

Lemma times_at v o ls : 0 <= o -> times_of (time_at v (o + 8)) (time_at v (o + 24)) (time_at v o) (time_at v (o + 16)) = Ok ls ->
  times_shown v o ls /\ o + 32 <= zlen v.
Proof.
  intros Ho H. apply times_inv in H as (m & a & c & e & Em & Ea & Ec & Ee & ->).
  apply filetime_at in Em as [? Em]; [|lia]. apply filetime_at in Ea as [? Ea]; [|lia].
  apply filetime_at in Ec as [? Ec]; [|lia]. apply filetime_at in Ee as [? Ee]; [|lia].
  split; [|lia]. exists (filetime_cell m), (filetime_cell a), (filetime_cell c), (filetime_cell e). auto 10.
Qed.
Lemma times_total v o : 0 <= o -> o + 32 <= zlen v ->
  exists ls, times_of (time_at v (o + 8)) (time_at v (o + 24)) (time_at v o) (time_at v (o + 16)) = Ok ls.
Proof.
  intros Ho L. unfold times_of. destruct (filetime_total v (o + 8)) as [? ->]; [lia|lia|]. destruct (filetime_total v (o + 24)) as [? ->]; [lia|lia|].
  destruct (filetime_total v o) as [? ->]; [lia|lia|]. destruct (filetime_total v (o + 16)) as [? ->]; [lia|lia|]. cbn [bind]. eauto.
Qed.

Lemma fn_times v ls : times_of (fna_mtime v) (fna_atime v) (fna_ctime v) (fna_etime v) = Ok ls -> times_shown v 8 ls.
Proof.
  intro H. apply (times_at (fnd v) 0) in H as [H _]; [|lia]. destruct H as (m & a & c & e & Hc & Hm & He & Ha & ->).
  unfold fnd in *. rewrite fld_zdrop in * by lia. exists m, a, c, e. auto 10.
Qed.
Lemma fn_times_total v : 40 <= zlen v -> exists ls, times_of (fna_mtime v) (fna_atime v) (fna_ctime v) (fna_etime v) = Ok ls.
Proof. intro L. apply (times_total (fnd v) 0); [lia|]. unfold fnd. rewrite zlen_zdrop. lia. Qed.

Lemma si_shown v ls : bytes_ok v -> si_lines v = Ok ls -> si_value v ls.
Proof.
  intros B H. unfold si_lines in H. apply bind_ok in H as (times & Et & H). apply bind_ok in H as (n & En & H). injection H as <-.
  apply (times_at v 0) in Et as [Et _]; [|lia]. unfold si_file_attributes, u32 in En. apply unp_inv in En as [L ->]; try lia.
  split; [lia|]. exists times, (resolve_file_attributes (fld 4 v 32)). split; [auto|]. split; [|reflexivity].
  apply attributes_text. now apply fld_nonneg.
Qed.
Lemma si_total v : 36 <= zlen v -> exists ls, si_lines v = Ok ls.
Proof.
  intro L. unfold si_lines. destruct (times_total v 0) as [ls E]; [lia|lia|].
  unfold si_mtime, si_atime, si_ctime, si_etime. cbn [Z.add] in E. rewrite E. cbn [bind]. unfold si_file_attributes, u32. rewrite unp_ok by lia. cbn [bind]. eauto.
Qed.

Lemma oid_shown v ls : bytes_ok v -> oid_lines v = Ok ls -> oid_value v ls.
Proof.
  intros B H. unfold oid_lines in H. apply bind_ok in H as (t & Et & H). injection H as <-. pose proof (oid_dated v B t Et) as D.
  exists (guid_text (oid_guid v)), (format_timestamp ordinal_1582 t). split; [now apply guid_text_shown|]. split; [|reflexivity].
  destruct t as [us|]; [left|right; split; [exact D|reflexivity]]. exists us. split; [exact D|]. reflexivity.
Qed.
Lemma oid_total v : exists ls, oid_lines v = Ok ls.
Proof.
  unfold oid_lines, oid_timestamp. destruct (oid_guid v); [|cbn [bind]; eauto]. destruct (_ && _); [|cbn [bind]; eauto].
  destruct (decode_quiet ordinal_1582 (guid_time l)) as [o E]. unfold decode_guid_time. rewrite E. cbn [bind]. eauto.
Qed.

(** ** Parts of $STANDARD_INFORMATION *)
Lemma part_at buf o k (c : bool) (t : result (option Z)) x : 0 <= o -> 0 <= k -> 8 <= zlen buf ->
  c = (o <=? k) && (k + 8 <=? o + zlen buf) -> t = (if c then time_at (zeros o ++ buf) k else Ok None) -> t = Ok x ->
  part_time buf o k (filetime_cell x).
Proof.
  intros Ho Hk L -> -> H. unfold part_time. destruct (Z.leb_spec o k); cbn [andb] in H.
  2:{ right. injection H as <-. split; [lia|reflexivity]. }
  destruct (Z.leb_spec (k + 8) (o + zlen buf)).
  2:{ right. injection H as <-. split; [lia|reflexivity]. }
  left. split; [auto|]. split; [auto|]. apply filetime_at in H as [_ H]; [|lia].
  pose proof (zlen_zeros o Ho) as LZ. rewrite fld_app_r, LZ in H by lia. exact H.
Qed.

Lemma partial_shown title buf o ls : 0 <= o -> partial_si title buf o = Ok ls -> si_update title buf o ls.
Proof.
  intros Ho H. unfold partial_si in H. destruct (Z.leb_spec 8 (zlen buf)) as [L|L].
  2:{ left. injection H as <-. auto. }
  right. split; [auto|]. apply bind_ok in H as (times & Et & H). injection H as <-.
  apply times_inv in Et as (m & a & c & e & Em & Ea & Ec & Ee & ->). do 4 eexists.
  unfold sip_mtime, sip_atime, sip_ctime, sip_etime, sip_open in *. cbn [sip_offset sip_value] in *. 
  assert (LZ : zlen (zeros o ++ buf) = o + zlen buf) by (rewrite zlen_app, zlen_zeros; lia). rewrite LZ in *.
  split; [eapply (part_at buf o 0); [lia|lia|auto| |reflexivity|exact Ec]; lia|].
  split; [eapply (part_at buf o 8); [lia|lia|auto| |reflexivity|exact Em]; lia|].
  split; [eapply (part_at buf o 16); [lia|lia|auto| |reflexivity|exact Ee]; lia|].
  split; [eapply (part_at buf o 24); [lia|lia|auto| |reflexivity|exact Ea]; lia|]. reflexivity.
Qed.

Lemma partial_total title buf o : 0 <= o -> exists ls, partial_si title buf o = Ok ls.
Proof.
  intro Ho. unfold partial_si. destruct (8 <=? zlen buf); [|eauto].
  unfold times_of, sip_mtime, sip_atime, sip_ctime, sip_etime, sip_open. cbn [sip_offset sip_value].
  assert (K : forall (c : bool) k, 0 <= k -> (c = true -> k + 8 <= zlen (zeros o ++ buf)) ->
    exists x, (if c then time_at (zeros o ++ buf) k else Ok None) = Ok x).
  { intros [] k Hk H; [|eauto]. apply filetime_total; [auto|]. now apply H. }
  destruct (K ((o <=? 8) && (16 <=? zlen (zeros o ++ buf))) 8) as [? ->]; [lia|lia|].
  destruct (K ((o <=? 24) && (32 <=? zlen (zeros o ++ buf))) 24) as [? ->]; [lia|lia|].
  destruct (K ((o =? 0) && (8 <=? zlen (zeros o ++ buf))) 0) as [? ->]; [lia|lia|].
  destruct (K ((o <=? 16) && (24 <=? zlen (zeros o ++ buf))) 16) as [? ->]; [lia|lia|].
  cbn [bind]. eauto.
Qed.

Lemma frs_size_eq b : 32 <= zlen b -> lr_frs_size b = Ok (frs_size b).
Proof.
  intro L. unfold lr_frs_size, nr_block_size. rewrite u16_ok by lia. cbn [bind]. unfold frs_size.
  destruct (Z.eqb_spec (fld 2 b 22) 0) as [->|N]; [reflexivity|]. destruct (Z.eqb_spec (fld 2 b 22 * 512) 0); [lia|reflexivity].
Qed.

(** ** Duplicated information *)
Lemma dup_shown title v ls : dup_lines title v = Ok ls -> dup_value title v ls.
Proof.
  intro H. unfold dup_lines in H. destruct (Z.eqb_spec (zlen v) 56) as [L|L]; [right|left; split; [auto|val]].
  split; [auto|]. apply bind_ok in H as (times & Et & H). injection H as <-. apply (times_at v 0) in Et as [Et _]; [|lia]. exists times. auto.
Qed.
Lemma dup_total title v : exists ls, dup_lines title v = Ok ls.
Proof.
  unfold dup_lines. destruct (Z.eqb_spec (zlen v) 56) as [L|L]; [|eauto].
  destruct (times_total v 0) as [ls E]; [lia|lia|]. cbn [Z.add] in E. rewrite E. cbn [bind]. eauto.
Qed.

Lemma zin_pair n a b : zin n [a; b] = true <-> n = a \/ n = b.
Proof. rewrite zin_In. cbn. intuition. Qed.

Lemma lr_dup_shown r u redo undo b ls : r = fld 2 b 0 -> u = fld 2 b 2 -> lr_dup r u redo undo = Ok ls -> name_update b redo undo ls.
Proof.
  intros -> -> H. unfold lr_dup in H. apply bind_ok in H as (x & Ex & H). apply bind_ok in H as (y & Ey & H). injection H as <-.
  exists x, y. split; [reflexivity|].
  assert (K : forall op title d z, (if zin op [UpdateFileNameRoot; UpdateFileNameAllocation] then dup_lines title d else Ok []) = Ok z ->
    ((op = 19 \/ op = 20) /\ dup_value title d z) \/ (~ (op = 19 \/ op = 20) /\ z = [])).
  { intros op title d z K. destruct (zin op _) eqn:E.
    - left. apply zin_pair in E. split; [exact E|]. now apply dup_shown.
    - right. split; [|val]. intro Q. apply (zin_pair op UpdateFileNameRoot UpdateFileNameAllocation) in Q. congruence. }
  split; now apply K.
Qed.
Lemma lr_dup_total r u redo undo : exists ls, lr_dup r u redo undo = Ok ls.
Proof.
  unfold lr_dup. destruct (dup_total "Update to duplicated information (redo data):" redo) as [x Ex].
  destruct (dup_total "Update to duplicated information (undo data):" undo) as [y Ey].
  destruct (zin r _); rewrite ?Ex; cbn [bind]; destruct (zin u _); rewrite ?Ey; cbn [bind]; eauto.
Qed.

(** ** Parts of $STANDARD_INFORMATION in a record *)
Lemma lr_resident_shown cluster b r u offset redo undo ls : 32 <= zlen b -> r = fld 2 b 0 -> u = fld 2 b 2 ->
  offset_in_target cluster b = Ok offset -> lr_resident b offset r u redo undo = Ok ls -> value_update b redo undo ls.
Proof.
  intros L -> -> HO H. unfold value_update. cbn zeta. set (o := fld 2 b 16 + fld 2 b 18) in *.
  set (meant := fun x => (fld 2 b 0 = 7 \/ fld 2 b 2 = 7) /\ si_start b x /\ x <= o <= x + 32).
  destruct (offset_in_target_eq cluster b L) as (y & z & Hy & Hz & E). rewrite E in HO. clear E.
  assert (N : ~ (fld 2 b 0 = 7 \/ fld 2 b 2 = 7) -> ls = [] -> (forall x, ~ meant x) /\ ls = []).
  { intros N ->. split; [|auto]. intros x (K & _). tauto. }
  assert (RES : fld 2 b 0 = 7 \/ fld 2 b 2 = 7 -> y = true).
  { intro K. apply Hy. destruct K as [K|K]; [left|right]; rewrite K; apply zin_In; reflexivity. }
  unfold lr_resident in H. destruct offset as [off|].
  2:{ right. apply N; [|val]. intro K. rewrite (RES K) in HO. discriminate. }
  destruct ((fld 2 b 0 =? UpdateResidentValue) || (fld 2 b 2 =? UpdateResidentValue)) eqn:E.
  2:{ right. apply N; [|val]. change UpdateResidentValue with 7 in E. lia. }
  change UpdateResidentValue with 7 in E. assert (OP : fld 2 b 0 = 7 \/ fld 2 b 2 = 7) by lia.
  rewrite (RES OP) in HO. replace off with o in * by (injection HO as HO; unfold o; lia). clear HO.
  rewrite frs_size_eq in H by auto. cbn [bind] in H.
  assert (NS : ls = [] -> (forall x, si_start b x -> ~ x <= o <= x + 32) ->
     (exists x l1 l2, meant x /\ si_update "Possible update to $STANDARD_INFORMATION (redo data):" redo (o - x) l1 /\
       si_update "Possible update to $STANDARD_INFORMATION (undo data):" undo (o - x) l2 /\ ls = l1 ++ l2) \/ ((forall x, ~ meant x) /\ ls = [])).
  { intros -> K. right. split; [|auto]. intros x (_ & S & K'). exact (K x S K'). }
  destruct ((frs_size b =? 1024) || (frs_size b =? 4096)) eqn:ES.
  2:{ apply NS; [val|]. unfold si_start. lia. }
  set (si := if frs_size b =? 4096 then 72 + 24 else 56 + 24) in *.
  assert (SI : forall x, si_start b x <-> x = si) by (intro x; unfold si_start, si; destruct (Z.eqb_spec (frs_size b) 4096); lia).
  destruct ((si <=? o) && (o <=? si + 32)) eqn:EO.
  2:{ apply NS; [val|]. intros x S. apply SI in S. lia. }
  apply bind_ok in H as (x & Ex & H). apply bind_ok in H as (w & Ew & H). injection H as <-.
  left. exists si, x, w. split; [split; [auto|]; split; [now apply SI|lia]|].
  split; [apply partial_shown; [lia|auto]|]. split; [apply partial_shown; [lia|auto]|]. reflexivity.
Qed.
Lemma lr_resident_total b r u offset redo undo : 32 <= zlen b -> exists ls, lr_resident b offset r u redo undo = Ok ls.
Proof.
  intro L. unfold lr_resident. destruct offset as [off|]; [|eauto]. destruct (_ || _); [|eauto].
  rewrite frs_size_eq by auto. cbn [bind]. destruct (_ || _); [|eauto].
  set (si := if frs_size b =? 4096 then 72 + 24 else 56 + 24). destruct ((si <=? off) && (off <=? si + 32)) eqn:E; [|eauto].
  destruct (partial_total "Possible update to $STANDARD_INFORMATION (redo data):" redo (off - si)) as [? ->]; [lia|].
  destruct (partial_total "Possible update to $STANDARD_INFORMATION (undo data):" undo (off - si)) as [? ->]; [lia|]. cbn [bind]. eauto.
Qed.

(** ** Records of the change journal *)
Lemma get_usn_in v : bytes_ok v ->
  match get_usn_record v with
  | Ok r => usn_in v (ur_raw r) (ur_version r)
  | Err e => (e = ValueError \/ e = NotImplementedError) /\ forall u k, ~ usn_in v u k
  end.
Proof.
  intro B. unfold get_usn_record. pose proof (zlen_nonneg v) as Hn.
  assert (M : forall k, 2 <= k <= 4 -> 62 <= usn_min k) by (intros k Hk; unfold usn_min; ifs; lia).
  set (n := fld 4 v 0) in *. set (k := fld 2 v 4) in *.
  assert (Bn : 0 <= n) by (now apply fld_nonneg).
  assert (A : forall u j, usn_in v u j -> j = k /\ u = slice v 0 n /\ n <= zlen v /\ usn_min k <= n /\ n mod 8 = 0 /\ 2 <= k <= 4).
  { intros u j (H1 & H2 & H3 & H4 & H5 & H6). fold k in H2. fold n in H3, H4. subst j. subst u. rewrite zlen_slice in H4 by lia.
    rewrite zlen_slice in H5, H6 by lia. repeat split; auto; lia. }
  destruct (zlen v <? 8) eqn:E0; bools.
  { split; auto. intros u j H. apply A in H. specialize (M k ltac:(lia)). lia. }
  unfold u32, u16. rewrite !unp_ok by lia. cbn [bind]. fold n k.
  destruct (n <? 8) eqn:E1; bools.
  { split; auto. intros u j H. apply A in H. specialize (M k ltac:(lia)). lia. }
  assert (LS : zlen (slice v 0 n) = Z.min n (zlen v)) by (rewrite zlen_slice by lia; lia).
  assert (C : usn_min k <= zlen (slice v 0 n) -> 2 <= k <= 4 ->
    match ur_check (mk_ur k (slice v 0 n)) with
    | Ok r => usn_in v (ur_raw r) (ur_version r)
    | Err e => (e = ValueError \/ e = NotImplementedError) /\ forall u j, ~ usn_in v u j
    end).
  { intros HM Hk. unfold ur_check, ur_record_length, ur_major, u32, u16. cbn [ur_raw ur_version]. specialize (M k Hk).
    rewrite !unp_ok by lia. cbn [bind]. rewrite !fld_slice by lia. rewrite !Z.add_0_l. fold n k.
    destruct (n <? 8) eqn:E2; bools; [lia|]. cbn [orb].
    destruct (Z.eqb_spec (n mod 8) 0) as [E3|E3]; cbn [negb].
    2:{ split; auto. intros m j H. apply A in H. lia. }
    destruct (zlen (slice v 0 n) <? n) eqn:E4; bools.
    { split; auto. intros m j H. apply A in H. lia. }
    rewrite Z.eqb_refl. cbn [negb ur_raw ur_version]. unfold usn_in. fold n k. assert (LN : zlen (slice v 0 n) = n) by lia. rewrite LN.
    repeat split; auto; lia. }
  assert (S : zlen (slice v 0 n) < usn_min k -> forall m j, ~ usn_in v m j).
  { intros HM m j H. apply A in H. lia. }
  unfold usn_v23_open, usn_v4_open. unfold usn_min in *.
  destruct (Z.eqb_spec k 2) as [E2|E2].
  { cbn [negb andb]. destruct (_ <? 62) eqn:E3; bools; [split; auto|]. rewrite <- E2. apply C; lia. }
  destruct (Z.eqb_spec k 3) as [E3|E3].
  { cbn [negb andb]. destruct (_ <? 62 + 16) eqn:E4; bools; [split; auto; apply S; lia|]. rewrite <- E3. apply C; lia. }
  destruct (Z.eqb_spec k 4) as [E4|E4].
  { destruct (_ <? 80) eqn:E5; bools; [split; auto|]. rewrite <- E4. apply C; lia. }
  split; auto. intros m j H. apply A in H. lia.
Qed.

Lemma usn_in_fun v u k u' k' : usn_in v u k -> usn_in v u' k' -> u = u' /\ k = k'.
Proof. intros (_ & ? & ? & _) (_ & ? & ? & _). split; congruence. Qed.

(** A name of a record: it fits, or it is refused. *)
Lemma usn_name_cases u off : bytes_ok u -> 0 <= off -> off + 4 <= zlen u ->
  (let! o := unp 2 u (off + 2) in let! n := unp 2 u off in
   if negb (zlen (slice u o (o + n)) =? n) then Err ValueError else Ok (utf16le (slice u o (o + n)))) =
  if (fld 2 u off =? 0) || (fld 2 u (off + 2) + fld 2 u off <=? zlen u)
  then Ok (utf16le (slice u (fld 2 u (off + 2)) (fld 2 u (off + 2) + fld 2 u off))) else Err ValueError.
Proof.
  intros B Ho L. rewrite !unp_ok by lia. cbn [bind]. cbn zeta. pose proof (fld_nonneg 2 u off B). pose proof (fld_nonneg 2 u (off + 2) B).
  rewrite zlen_slice by lia. set (a := fld 2 u off) in *. set (b := fld 2 u (off + 2)) in *.
  destruct (Z.eqb_spec a 0) as [->|]; cbn [orb].
  - replace (Z.max _ _ =? 0) with true by lia. reflexivity.
  - destruct (Z.leb_spec (b + a) (zlen u)).
    + replace (Z.max _ _ =? a) with true by lia. reflexivity.
    + replace (Z.max _ _ =? a) with false by lia. reflexivity.
Qed.

Lemma usn_lines_shown v ls : bytes_ok v -> usn_lines v = Ok ls -> usn_value v ls.
Proof.
  intros B H. unfold usn_lines in H. pose proof (get_usn_in v B) as G. destruct (get_usn_record v) as [[k u]|e].
  2:{ left. destruct G as [E G]. split; [exact G|]. destruct E as [-> | ->]; val. }
  cbn [ur_raw ur_version] in G. right. exists u, k.
  assert (Bu : bytes_ok u) by (destruct G as (_ & _ & -> & _); now apply bytes_ok_slice).
  pose proof G as (Hk & _ & _ & _ & HM & _).
  assert (F : forall w off, 0 <= off -> 0 <= w -> off + w <= zlen u -> unp w u off = Ok (fld w u off)) by (intros; now apply unp_ok).
  assert (CV : forall w off, codes_shown reason_list (fld w u off) (codes_text (resolve_reason_codes (fld w u off))) /\
    codes_shown source_list (fld w u off) (codes_text (resolve_source_codes (fld w u off)))).
  { intros. split; [apply reason_text|apply source_text]; now apply fld_nonneg. }
  unfold ur_file_reference, ur_parent_reference, ur_usn, ur_reason, ur_source,
      ur_timestamp, ur_file_name, ur_name_offset, ur_name_length, ur_inc, u64, u32, u16 in H. cbn [ur_raw ur_version] in H.
  unfold usn_min in HM.
  assert (k = 2 \/ k = 3 \/ k = 4) as [->|[->| ->]] by lia; cbn [Z.eqb Pos.eqb] in H, HM;
    rewrite ?wide_value, ?(F 8), ?(F 4) in H by (auto; lia); cbn [bind] in H.
  - change decode_filetime with (decode_time ordinal_1601) in H.
    destruct (decode_quiet ordinal_1601 (fld 8 u (32 + 0))) as [o Eo]. rewrite Eo in H. cbn [bind] in H.
    change (58 + 0) with (56 + 2) in H. change (56 + 0) with 56 in H. rewrite (usn_name_cases u 56) in H by (auto; lia).
    destruct ((_ =? 0) || _) eqn:Q; [|discriminate]. cbn [bind] in H. apply orb_true_iff in Q.
    do 3 eexists. split; [exact G|]. cbn [Z.eqb Pos.eqb]. split; [apply CV|]. split; [apply CV|]. split; [lia|].
    split; [intros _; eexists; split; [apply time_cell; exact Eo|]; split; [|reflexivity]; unfold name_fits; change (8 + 2 * 8 + 32) with 56; lia|].
    injection H as <-. reflexivity.
  - change decode_filetime with (decode_time ordinal_1601) in H.
    destruct (decode_quiet ordinal_1601 (fld 8 u (32 + 16))) as [o Eo]. rewrite Eo in H. cbn [bind] in H.
    change (58 + 16) with (72 + 2) in H. change (56 + 16) with 72 in H. rewrite (usn_name_cases u 72) in H by (auto; lia).
    destruct ((_ =? 0) || _) eqn:Q; [|discriminate]. cbn [bind] in H. apply orb_true_iff in Q.
    do 3 eexists. split; [exact G|]. cbn [Z.eqb Pos.eqb]. split; [apply CV|]. split; [apply CV|]. split; [lia|].
    split; [intros _; eexists; split; [apply time_cell; exact Eo|]; split; [|reflexivity]; unfold name_fits; change (8 + 2 * 16 + 32) with 72; lia|].
    injection H as <-. reflexivity.
  - do 3 eexists. split; [exact G|]. cbn [Z.eqb Pos.eqb]. split; [apply CV|]. split; [apply CV|]. split; [reflexivity|].
    split; [congruence|]. injection H as <-. reflexivity.
Qed.

Lemma usn_lines_total v : bytes_ok v -> (forall u k, usn_in v u k -> k <> 4 -> name_fits u (if k =? 2 then 56 else 72)) ->
  exists ls, usn_lines v = Ok ls.
Proof.
  intros B S. unfold usn_lines. pose proof (get_usn_in v B) as G. destruct (get_usn_record v) as [[k u]|e].
  2:{ destruct G as [[-> | ->] _]; eauto. }
  cbn [ur_raw ur_version] in G. specialize (S u k G).
  assert (Bu : bytes_ok u) by (destruct G as (_ & _ & -> & _); now apply bytes_ok_slice).
  pose proof G as (Hk & _ & _ & _ & HM & _).
  assert (F : forall w off, 0 <= off -> 0 <= w -> off + w <= zlen u -> unp w u off = Ok (fld w u off)) by (intros; now apply unp_ok).
  unfold ur_file_reference, ur_parent_reference, ur_usn, ur_reason, ur_source,
      ur_timestamp, ur_file_name, ur_name_offset, ur_name_length, ur_inc, u64, u32, u16. cbn [ur_raw ur_version].
  unfold usn_min in HM. unfold name_fits in S.
  assert (k = 2 \/ k = 3 \/ k = 4) as [->|[->| ->]] by lia; cbn [Z.eqb Pos.eqb] in HM, S |- *;
    rewrite ?wide_value, ?(F 8), ?(F 4) by (auto; lia); cbn [bind].
  - change decode_filetime with (decode_time ordinal_1601).
    destruct (decode_quiet ordinal_1601 (fld 8 u (32 + 0))) as [o Eo]. rewrite Eo. cbn [bind].
    change (58 + 0) with (56 + 2). change (56 + 0) with 56. rewrite (usn_name_cases u 56) by (auto; lia).
    destruct ((_ =? 0) || _) eqn:Q; [cbn [bind]; eauto|]. specialize (S ltac:(lia)). lia.
  - change decode_filetime with (decode_time ordinal_1601).
    destruct (decode_quiet ordinal_1601 (fld 8 u (32 + 16))) as [o Eo]. rewrite Eo. cbn [bind].
    change (58 + 16) with (72 + 2). change (56 + 16) with 72. rewrite (usn_name_cases u 72) by (auto; lia).
    destruct ((_ =? 0) || _) eqn:Q; [cbn [bind]; eauto|]. specialize (S ltac:(lia)). lia.
  - eauto.
Qed.

Lemma lr_usn_shown name r u redo undo b ls : bytes_ok redo -> bytes_ok undo -> r = fld 2 b 0 -> u = fld 2 b 2 ->
  lr_usn name r u redo undo = Ok ls -> journal_update name b redo undo ls.
Proof.
  intros Br Bu -> -> H. unfold lr_usn in H. destruct name as [n|]; [|left; split; [discriminate|val]].
  destruct (zlist_eqb n (txt "$J")) eqn:E.
  2:{ left. split; [|val]. intro K. injection K as ->. assert (zlist_eqb (txt "$J") (txt "$J") = true) by now apply zlist_eqb_eq. congruence. }
  apply zlist_eqb_eq in E. subst n. right. split; [reflexivity|].
  apply bind_ok in H as (x & Ex & H). apply bind_ok in H as (y & Ey & H). injection H as <-. exists x, y. split; [reflexivity|].
  assert (K : forall op d z, bytes_ok d -> (if op =? UpdateNonresidentValue then usn_lines d else Ok []) = Ok z ->
    (op = 8 /\ usn_value d z) \/ (op <> 8 /\ z = [])).
  { intros op d z Bd K. change UpdateNonresidentValue with 8 in K. destruct (Z.eqb_spec op 8); [left|right; split; [auto|val]].
    split; [auto|]. now apply usn_lines_shown. }
  split; now apply K.
Qed.
Lemma lr_usn_total name r u redo undo b : bytes_ok redo -> bytes_ok undo -> r = fld 2 b 0 -> u = fld 2 b 2 ->
  (name = Some (txt "$J") -> forall v w k, usn_in v w k -> k <> 4 ->
         (fld 2 b 0 = 8 /\ v = redo) \/ (fld 2 b 2 = 8 /\ v = undo) -> name_fits w (if k =? 2 then 56 else 72)) ->
  exists ls, lr_usn name r u redo undo = Ok ls.
Proof.
  intros Br Bu -> -> S. unfold lr_usn. destruct name as [n|]; [|eauto]. destruct (zlist_eqb n (txt "$J")) eqn:E; [|eauto].
  apply zlist_eqb_eq in E. subst n. specialize (S eq_refl). change UpdateNonresidentValue with 8.
  assert (K1 : exists x, (if fld 2 b 0 =? 8 then usn_lines redo else Ok []) = Ok x).
  { destruct (Z.eqb_spec (fld 2 b 0) 8); [|eauto]. apply usn_lines_total; [auto|]. intros. eapply S; eauto. }
  assert (K2 : exists x, (if fld 2 b 2 =? 8 then usn_lines undo else Ok []) = Ok x).
  { destruct (Z.eqb_spec (fld 2 b 2) 8); [|eauto]. apply usn_lines_total; [auto|]. intros. eapply S; eauto. }
  destruct K1 as [x ->], K2 as [y ->]. cbn [bind]. eauto.
Qed.
