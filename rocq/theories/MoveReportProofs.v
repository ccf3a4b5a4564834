(** Proofs about the report on a move table. *)
From Coq Require Import List String.
From Verif Require Import Base BaseLemmas FrsProofs FieldLemmas Filetime FiletimeProofs Attributes MoveTable MoveTableSpec MoveTableProofs
  Report ReportSpec ReportProofs LogReport LogReportSpec LogTextProofs ReportText ReportTextSpec ReportTextProofs MoveReport MoveReportSpec.
Local Open Scope Z_scope.

(** ** Code pages *)
Lemma zseq_In n : forall s b, s <= b < s + Z.of_nat n -> In b (zseq s n).
Proof.
  induction n as [|n IH]; intros s b H; [lia|]. cbn [zseq]. destruct (Z.eq_dec s b) as [->|N]; [left; reflexivity|right; apply IH; lia].
Qed.
Lemma all_bytes (P : Z -> bool) : forallb P (zseq 0 256) = true -> forall b, is_byte b -> P b = true.
Proof. intros F b B. eapply forallb_forall in F; [exact F|]. apply zseq_In. unfold is_byte in B. lia. Qed.

Definition f866 := in_page cp866_high.
Definition f1252 := in_page cp1252_high.

Fixpoint index_of (c : Z) (l : list Z) (i : Z) : Z := match l with [] => i | x :: t => if x =? c then i else index_of c t (i + 1) end.
Definition unpage (c : Z) : Z := if c <? 128 then c else index_of c cp866_high 128.
Lemma f866_back b : is_byte b -> unpage (f866 b) = b.
Proof.
  intros B. apply Z.eqb_eq. revert b B. apply (all_bytes (fun b => unpage (f866 b) =? b)). vm_compute. reflexivity.
Qed.
Lemma f866_inj a b : is_byte a -> is_byte b -> f866 a = f866 b -> a = b.
Proof. intros A B E. rewrite <- (f866_back a A), <- (f866_back b B), E. reflexivity. Qed.

Definition page866_of (b : Z) : option Z :=
  if b <? 128 then Some b else if b <? 0xB0 then Some (b + 0x390) else if b <? 0xE0 then znth boxes (b - 0xB0)
  else if b <? 0xF0 then Some (b + 0x360) else znth signs866 (b - 0xF0).
Definition page1252_of (b : Z) : option Z :=
  if (b <? 128) || (0xA0 <=? b) then Some b else match find (fun x => fst x =? b) extra1252 with Some x => Some (snd x) | None => None end.

Lemma page866_fun b : is_byte b -> page866_of b = Some (f866 b).
Proof.
  intros B. assert (T : match page866_of b with Some c => c =? f866 b | None => false end = true).
  { revert b B. apply (all_bytes (fun b => match page866_of b with Some c => c =? f866 b | None => false end)). vm_compute. reflexivity. }
  destruct (page866_of b) as [c|]; [|discriminate]. apply Z.eqb_eq in T. congruence.
Qed.
Lemma page866_ok b c : page866 b c <-> is_byte b /\ c = f866 b.
Proof.
  split.
  - intros H. assert (B : is_byte b) by (destruct H; unfold is_byte; lia). split; [exact B|]. pose proof (page866_fun b B) as E. unfold page866_of in E.
    destruct H as [b H|b H|b c H G|b H|b c H G].
    + replace (b <? 128) with true in E by lia. congruence.
    + replace (b <? 128) with false in E by lia. replace (b <? 0xB0) with true in E by lia. congruence.
    + replace (b <? 128) with false in E by lia. replace (b <? 0xB0) with false in E by lia. replace (b <? 0xE0) with true in E by lia. congruence.
    + replace (b <? 128) with false in E by lia. replace (b <? 0xB0) with false in E by lia. replace (b <? 0xE0) with false in E by lia.
      replace (b <? 0xF0) with true in E by lia. congruence.
    + replace (b <? 128) with false in E by lia. replace (b <? 0xB0) with false in E by lia. replace (b <? 0xE0) with false in E by lia.
      replace (b <? 0xF0) with false in E by lia. congruence.
  - intros [B ->]. pose proof (page866_fun b B) as E. unfold is_byte in B. unfold page866_of in E.
    destruct (Z.ltb_spec b 128); [injection E as <-; apply p8_ascii; lia|]. destruct (Z.ltb_spec b 0xB0); [|destruct (Z.ltb_spec b 0xE0); [|destruct (Z.ltb_spec b 0xF0)]].
    + assert (f866 b = b + 0x390) as -> by congruence. apply p8_capital. lia.
    + apply p8_box; [lia|exact E].
    + assert (f866 b = b + 0x360) as -> by congruence. apply p8_small. lia.
    + apply p8_sign; [lia|exact E].
Qed.

Lemma page1252_fun b : is_byte b -> page1252_of b = if 0 <=? f1252 b then Some (f1252 b) else None.
Proof.
  intros B. assert (T : match page1252_of b with Some c => (0 <=? f1252 b) && (c =? f1252 b) | None => negb (0 <=? f1252 b) end = true).
  { revert b B. apply (all_bytes (fun b => match page1252_of b with Some c => (0 <=? f1252 b) && (c =? f1252 b) | None => negb (0 <=? f1252 b) end)). vm_compute. reflexivity. }
  destruct (page1252_of b) as [c|]; destruct (0 <=? f1252 b); try discriminate; [|reflexivity]. cbn [andb] in T. apply Z.eqb_eq in T. congruence.
Qed.
Lemma extra_find b c : In (b, c) extra1252 -> find (fun x => fst x =? b) extra1252 = Some (b, c).
Proof.
  intros H. assert (F : forallb (fun x => match find (fun y => fst y =? fst x) extra1252 with Some y => (fst y =? fst x) && (snd y =? snd x) | None => false end) extra1252 = true)
    by (vm_compute; reflexivity).
  eapply forallb_forall in F; [|exact H]. cbn [fst snd] in F. destruct (find _ extra1252) as [[x y]|]; [|discriminate]. cbn [fst snd] in F.
  apply andb_true_iff in F as [F1 F2]. apply Z.eqb_eq in F1, F2. congruence.
Qed.
Lemma extra_range b c : In (b, c) extra1252 -> 0x80 <= b < 0xA0.
Proof.
  intros H. assert (F : forallb (fun x => (0x80 <=? fst x) && (fst x <? 0xA0)) extra1252 = true) by (vm_compute; reflexivity).
  eapply forallb_forall in F; [|exact H]. cbn [fst] in F. lia.
Qed.
Lemma page1252_ok b c : page1252 b c <-> is_byte b /\ c = f1252 b /\ 0 <= c.
Proof.
  split.
  - intros H. assert (B : is_byte b) by (destruct H as [b H|b c H]; [|apply extra_range in H]; unfold is_byte; lia). split; [exact B|].
    pose proof (page1252_fun b B) as E. unfold page1252_of in E. destruct H as [b H|b c H].
    + replace ((b <? 128) || (0xA0 <=? b)) with true in E by lia. destruct (Z.leb_spec 0 (f1252 b)); [|discriminate]. split; [congruence|]. unfold is_byte in B. lia.
    + pose proof (extra_range _ _ H). replace ((b <? 128) || (0xA0 <=? b)) with false in E by lia. rewrite (extra_find _ _ H) in E. cbn [snd] in E.
      destruct (Z.leb_spec 0 (f1252 b)); [|discriminate]. assert (c = f1252 b) as -> by congruence. auto.
  - intros (B & -> & N). pose proof (page1252_fun b B) as E. replace (0 <=? f1252 b) with true in E by lia. unfold page1252_of in E. unfold is_byte in B.
    destruct ((b <? 128) || (0xA0 <=? b)) eqn:K.
    + assert (f1252 b = b) as -> by congruence. apply p1_latin. lia.
    + destruct (find _ extra1252) as [[x y]|] eqn:F; [|discriminate]. apply find_some in F as [I F]. cbn [fst snd] in *. apply Z.eqb_eq in F. apply p1_extra.
      assert (f1252 b = y) as -> by congruence. now subst x.
Qed.

Lemma page866_all b s : Forall2 page866 b s <-> bytes_ok b /\ s = map f866 b.
Proof.
  revert s. induction b as [|x b IH]; intros s.
  - split; [intros H; inversion H; split; [constructor|reflexivity]|intros [_ ->]; constructor].
  - split.
    + intros H. inversion H as [|? c ? t P Q]; subst. apply page866_ok in P as [B ->]. apply IH in Q as [BS ->]. split; [constructor; auto|reflexivity].
    + intros [B ->]. inversion B; subst. constructor; [apply page866_ok; auto|apply IH; auto].
Qed.
Lemma page1252_all b s : Forall2 page1252 b s <-> bytes_ok b /\ s = map f1252 b /\ Forall (fun c => 0 <= c) s.
Proof.
  revert s. induction b as [|x b IH]; intros s.
  - split; [intros H; inversion H; split; [constructor|split; [reflexivity|constructor]]|intros (_ & -> & _); constructor].
  - split.
    + intros H. inversion H as [|? c ? t P Q]; subst. apply page1252_ok in P as (B & -> & N). apply IH in Q as (BS & -> & NS). split; [constructor; auto|]. split; [reflexivity|constructor; auto].
    + intros (B & -> & N). inversion B; subst. cbn [map] in N. inversion N; subst. constructor; [apply page1252_ok; auto|apply IH; auto].
Qed.

(** DecodeString shows a name as specified. *)
Lemma decode_name b : bytes_ok b -> name_shown b (decode_string b).
Proof.
  intros B. unfold decode_string, decode_page. fold f866 f1252. change (in_page cp866_high) with f866. change (in_page cp1252_high) with f1252.
  assert (P : forallb (fun c => 0 <=? c) (map f866 b) = true).
  { clear - B. induction B as [|x b X B IH]; [reflexivity|]. cbn [map forallb]. rewrite IH. rewrite andb_true_r.
    revert x X. apply (all_bytes (fun x => 0 <=? f866 x)). vm_compute. reflexivity. }
  rewrite P. destruct (forallb (fun c => 0 <=? c) (map f1252 b)) eqn:Q.
  - assert (N : Forall (fun c => 0 <= c) (map f1252 b)).
    { apply Forall_forall. intros c I. eapply forallb_forall in Q; [|exact I]. lia. }
    destruct (zlist_eqb (map f866 b) (map f1252 b)) eqn:E.
    + apply zlist_eqb_eq in E. apply ns_same; [apply page866_all; auto|]. apply page1252_all. rewrite E. auto.
    + apply zlist_eqb_neq in E. apply ns_both; [apply page866_all; auto|apply page1252_all; auto|exact E].
  - apply ns_one; [apply page866_all; auto|]. intros t T. apply page1252_all in T as (_ & -> & N).
    assert (forallb (fun c => 0 <=? c) (map f1252 b) = true); [|congruence]. apply forallb_forall. intros c I. eapply Forall_forall in N; [|exact I]. lia.
Qed.

(** ** Different names have different texts *)
Lemma high866 b : is_byte b -> f866 b < 128 -> b < 128.
Proof.
  intros B H. assert (T : (128 <=? f866 b) || (b <? 128) = true); [|lia].
  revert b B H. intros b B _. revert b B. apply (all_bytes (fun b => (128 <=? f866 b) || (b <? 128))). vm_compute. reflexivity.
Qed.
Lemma low_same b : b < 128 -> f866 b = b /\ f1252 b = b.
Proof. intros H. unfold f866, f1252, in_page. replace (b <? 128) with true by lia. auto. Qed.
Lemma both_low b : is_byte b -> f866 b = f1252 b -> b < 128.
Proof.
  intros B H. assert (T : negb (f866 b =? f1252 b) || (b <? 128) = true).
  { clear H. revert b B. apply (all_bytes (fun b => negb (f866 b =? f1252 b) || (b <? 128))). vm_compute. reflexivity. }
  rewrite H, Z.eqb_refl in T. cbn [negb orb] in T. lia.
Qed.
Lemma undefined_letter u b : is_byte u -> is_byte b -> f1252 u < 0 -> 128 <= f866 u /\ f1252 b <> f866 u.
Proof.
  intros U B N. assert (T : (0 <=? f1252 u) || ((128 <=? f866 u) && forallb (fun b => negb (f1252 b =? f866 u)) (zseq 0 256)) = true).
  { clear N. revert u U. apply (all_bytes (fun u => (0 <=? f1252 u) || ((128 <=? f866 u) && forallb (fun b => negb (f1252 b =? f866 u)) (zseq 0 256)))). vm_compute. reflexivity. }
  replace (0 <=? f1252 u) with false in T by lia. cbn [orb] in T. apply andb_true_iff in T as [T1 T2]. split; [lia|].
  pose proof (all_bytes _ T2 b B) as T3. cbn beta in T3. lia.
Qed.

Definition both_text (s t : list Z) : list Z := txt """" ++ s ++ txt """ (cp-866), """ ++ t ++ txt """ (windows-1252)".
Definition one_reading (a : list Z) : Prop := Forall (fun c => c < 128) a \/ exists u, In u a /\ f1252 u < 0.

Lemma name_cases b s : bytes_ok b -> name_shown b s ->
  (s = map f866 b /\ one_reading b) \/ (s = both_text (map f866 b) (map f1252 b) /\ Forall (fun c => 0 <= f1252 c) b /\ map f866 b <> map f1252 b).
Proof.
  intros B H. destruct H as [s P N|s P Q|s t P Q D].
  - left. apply page866_all in P as [_ ->]. split; [reflexivity|]. right.
    destruct (Exists_dec (fun u => f1252 u < 0) b) as [X|X]; [intros x; apply Z_lt_dec|apply Exists_exists in X; exact X|].
    elim (N (map f1252 b)). apply page1252_all. split; [exact B|]. split; [reflexivity|]. apply Forall_forall. intros c I. apply in_map_iff in I as (x & <- & I).
    destruct (Z.le_gt_cases 0 (f1252 x)) as [L|L]; [exact L|]. elim X. apply Exists_exists. eauto.
  - left. apply page866_all in P as [_ ->]. apply page1252_all in Q as (_ & E & _). split; [reflexivity|]. left. clear - B E.
    induction B as [|x b X B IH]; [constructor|]. cbn [map] in E. injection E as E1 E2. constructor; [now apply both_low|auto].
  - right. apply page866_all in P as [_ ->]. apply page1252_all in Q as (_ & -> & N). split; [reflexivity|]. split; [|exact D].
    apply Forall_forall. intros c I. eapply Forall_forall in N; [exact N|]. now apply in_map.
Qed.

Lemma map_f866_inj a b : bytes_ok a -> bytes_ok b -> map f866 a = map f866 b -> a = b.
Proof.
  intros A. revert b. induction A as [|x a X A IH]; intros [|y b] B E; try discriminate; [reflexivity|]. cbn [map] in E. injection E as E1 E2. inversion B; subst.
  f_equal; [now apply f866_inj|now apply IH].
Qed.

Lemma one_both a b : bytes_ok a -> bytes_ok b -> one_reading a -> Forall (fun c => 0 <= f1252 c) b -> map f866 b <> map f1252 b ->
  map f866 a <> both_text (map f866 b) (map f1252 b).
Proof.
  intros A B O N D E. destruct O as [L|(u & I & U)].
  - apply D. assert (K : Forall (fun c => c < 128) (map f866 a)).
    { apply Forall_forall. intros c J. apply in_map_iff in J as (x & <- & J). eapply Forall_forall in L; [|exact J]. cbn beta in L. destruct (low_same x L) as [-> _]. exact L. }
    rewrite E in K. unfold both_text in K. apply Forall_app in K as [_ K]. apply Forall_app in K as [K _]. clear - K B.
    induction B as [|x b X B IH]; [reflexivity|]. cbn [map] in *. inversion K; subst. destruct (low_same x) as [-> ->]; [now apply high866|]. f_equal. auto.
  - assert (UB : is_byte u) by (eapply Forall_forall in A; eauto). assert (J : In (f866 u) (map f866 a)) by now apply in_map.
    rewrite E in J. unfold both_text in J.
    assert (TX : forall s, forallb (fun c => c <? 128) (txt s) = true -> ~ In (f866 u) (txt s)).
    { intros s F X. eapply forallb_forall in F; [|exact X]. destruct (undefined_letter u u UB UB U) as [G _]. lia. }
    repeat (apply in_app_or in J as [J|J]); try (now apply TX in J).
    + apply in_map_iff in J as (x & Q & J). apply f866_inj in Q; [|eapply Forall_forall in B; eauto|exact UB]. subst x. eapply Forall_forall in N; [|exact J]. cbn beta in N. lia.
    + apply in_map_iff in J as (x & Q & J). destruct (undefined_letter u x UB) as [_ G]; [eapply Forall_forall in B; eauto|exact U|]. contradiction.
Qed.

Lemma name_unique a b s : bytes_ok a -> bytes_ok b -> name_shown a s -> name_shown b s -> a = b.
Proof.
  intros A B HA HB. apply name_cases in HA as [(-> & OA)|(-> & NA & DA)]; [| |exact A]; (apply name_cases in HB as [(EB & OB)|(EB & NB & DB)]; [| |exact B]).
  - now apply map_f866_inj.
  - elim (one_both a b A B OA NB DB EB).
  - elim (one_both b a B A OB NA DA). congruence.
  - unfold both_text in EB. apply app_inv_head in EB. assert (L : List.length a = List.length b).
    { apply (f_equal (@List.length Z)) in EB. rewrite !app_length, !map_length in EB. lia. }
    apply app_same in EB as [EB _]; [now apply map_f866_inj|rewrite !map_length; lia].
Qed.

(** ** The blocks *)
Lemma until_stored b o n : stored_name b o n (until_null (slice b o (o + n))).
Proof. destruct (until_null_spec (slice b o (o + n))) as (rest & E & N & R). exists rest. auto. Qed.
Lemma until_bytes l : bytes_ok l -> bytes_ok (until_null l).
Proof. induction 1 as [|x l X L IH]; cbn [until_null]; [constructor|]. destruct (x =? 0); [constructor|constructor; auto]. Qed.
Lemma id_text b o : bytes_ok b -> 0 <= o -> o + 16 <= zlen b -> id_shown b o (guid_text (Some (slice b o (o + 16)))).
Proof.
  intros B O L. unfold id_shown. pose proof (guid_text_shown (slice b o (o + 16)) (bytes_ok_slice _ _ _ B)) as H. unfold oid_guid in H.
  rewrite slice_slice in H by lia. replace (o + 0) with o in H by lia. rewrite Z.min_id in H. rewrite zlen_slice in H by lia. replace (_ =? 16) with true in H by lia. exact H.
Qed.
Lemma id_dated b o t : bytes_ok b -> 0 <= o -> o + 16 <= zlen b -> guid_timestamp (slice b o (o + 16)) = Ok t -> id_time b o (format_timestamp ordinal_1582 t).
Proof.
  intros B O L E. pose proof (oid_dated (slice b o (o + 16)) (bytes_ok_slice _ _ _ B) t) as H. unfold oid_timestamp, oid_guid in H.
  rewrite slice_slice in H by lia. replace (o + 0) with o in H by lia. rewrite Z.min_id in H. rewrite zlen_slice in H by lia. replace (_ =? 16) with true in H by lia.
  specialize (H E). unfold id_time, format_timestamp. destruct t as [us|]; [left; exists us; split; [exact H|]|right; auto].
  f_equal.
Qed.
Lemma guid_timestamp_quiet g : exists t, guid_timestamp g = Ok t.
Proof. unfold guid_timestamp. destruct (_ && _); [apply decode_quiet|eauto]. Qed.

Lemma header_block_shown h : bytes_ok h -> 512 <= zlen h -> header_shown h (move_header_block h).
Proof.
  intros B L. apply (hs h (mth_machine_id h)); [exact (until_stored h 40 16)|apply decode_name, until_bytes, bytes_ok_slice, B|].
  exact (id_text h 56 B ltac:(lia) ltac:(lia)).
Qed.

Lemma entry_block_shown e : bytes_ok e -> zlen e = 124 -> exists b, move_entry_block e = Ok b /\ entry_shown e b.
Proof.
  intros B L. unfold move_entry_block, mte_guid_timestamps.
  destruct (guid_timestamp_quiet (mte_object_id e)) as [t1 T1]. destruct (guid_timestamp_quiet (snd (mte_droid e))) as [t2 T2].
  destruct (guid_timestamp_quiet (snd (mte_birth_droid e))) as [t3 T3]. rewrite T1, T2, T3. cbn [bind]. unfold mte_timestamp, u32. rewrite unp_ok by lia. cbn [bind].
  destruct (decode_quiet ordinal_1601 (Z.shiftl (fld 4 e 116) 32)) as [l El].
  destruct (decode_quiet ordinal_1601 (Z.lor (Z.shiftl (fld 4 e 116) 32) 0xFFFFFFFF)) as [u Eu]. unfold decode_filetime. rewrite El, Eu. cbn [bind fst snd].
  eexists. split; [reflexivity|].
  rewrite lor_shiftl_add in Eu by lia. rewrite Z.shiftl_mul_pow2 in El by lia. rewrite (Z.mul_comm (fld 4 e 116)) in El, Eu.
  change [Txt []] with gap. 
  apply (es e _ _ _ (mte_machine_id e)).
  - exact (id_text e 20 B ltac:(lia) ltac:(lia)).
  - exact (id_text e 36 B ltac:(lia) ltac:(lia)).
  - exact (id_text e 52 B ltac:(lia) ltac:(lia)).
  - exact (until_stored e 68 16).
  - apply decode_name, until_bytes, bytes_ok_slice, B.
  - exact (id_text e 84 B ltac:(lia) ltac:(lia)).
  - exact (id_text e 100 B ltac:(lia) ltac:(lia)).
  - exact (id_dated e 20 _ B ltac:(lia) ltac:(lia) T1).
  - exact (id_dated e 52 _ B ltac:(lia) ltac:(lia) T2).
  - exact (id_dated e 100 _ B ltac:(lia) ltac:(lia) T3).
  - exact (time_cell _ _ _ El).
  - exact (time_cell _ _ _ Eu).
Qed.

Lemma move_blocks_shown es st : Forall (fun e => bytes_ok e /\ zlen e = 124) es -> exists bs, move_blocks es st = (bs, st) /\ Forall2 entry_shown es bs.
Proof.
  induction 1 as [|e es [B L] H (bs & E & S)]; cbn [move_blocks]; [exists []; split; [reflexivity|constructor]|].
  destruct (entry_block_shown e B L) as (b & -> & Sb). rewrite E. exists (b :: bs). split; [reflexivity|constructor; auto].
Qed.

(** ** Reading the text *)

(** Runs of characters other than a quote are at most 16 long; [n] are left in
    the first one. *)
Fixpoint runs (n : nat) (m : list Z) : Prop :=
  match m with
  | [] => True
  | c :: t => if c =? 34 then runs 16 t else match n with O => False | S n => runs n t end
  end.
Lemma runs_mono m : forall n k, (n <= k)%nat -> runs n m -> runs k m.
Proof.
  induction m as [|c m IH]; intros n k L H; [exact I|]. cbn [runs] in *. destruct (c =? 34); [exact H|]. destruct n as [|n]; [contradiction|].
  destruct k as [|k]; [lia|]. apply (IH n); [lia|exact H].
Qed.
Lemma runs_app s : forall n t, (List.length s <= n <= 16)%nat -> (t = [] \/ exists t', t = 34 :: t' /\ runs 16 t') -> runs n (s ++ t).
Proof.
  induction s as [|c s IH]; intros n t L T; cbn [app].
  - destruct T as [->|(t' & -> & R)]; [exact I|exact R].
  - cbn [List.length] in L. cbn [runs]. destruct (c =? 34); [apply IH; [lia|exact T]|]. destruct n as [|n]; [lia|]. apply IH; [lia|exact T].
Qed.
Lemma runs_short s n : (List.length s <= n <= 16)%nat -> runs n s.
Proof. intros L. rewrite <- (app_nil_r s). apply runs_app; auto. Qed.
Lemma runs_suffix a : forall n m, (n <= 16)%nat -> runs n (a ++ m) -> runs 16 m.
Proof.
  induction a as [|c a IH]; intros n m L H; [now apply (runs_mono m n)|]. cbn [app runs] in H. destruct (c =? 34); [now apply (IH 16%nat)|].
  destruct n as [|n]; [contradiction|]. apply (IH n); [lia|exact H].
Qed.
Lemma runs_window w : forall n t, runs n (w ++ t) -> ~ In 34 w -> (List.length w <= n)%nat.
Proof.
  induction w as [|c w IH]; intros n t H N; [cbn; lia|]. cbn [app runs] in H. cbn [In] in N. destruct (Z.eqb_spec c 34) as [->|D]; [elim N; auto|].
  destruct n as [|n]; [contradiction|]. specialize (IH n t H ltac:(auto)). cbn [List.length]. lia.
Qed.

Lemma name_runs b s : bytes_ok b -> zlen b <= 16 -> name_shown b s -> runs 16 s.
Proof.
  intros B L H. assert (LN : (List.length b <= 16)%nat) by (unfold zlen in L; lia).
  apply name_cases in H as [(-> & _)|(-> & _ & _)]; [| |exact B].
  - apply runs_short. rewrite map_length. lia.
  - unfold both_text. change (txt """") with [34]. change (txt """ (cp-866), """) with (34 :: txt " (cp-866), " ++ [34]).
    change (txt """ (windows-1252)") with (34 :: txt " (windows-1252)"). cbn [app runs]. change (34 =? 34) with true. cbv iota.
    apply runs_app; [rewrite map_length; lia|]. right. eexists. split; [reflexivity|]. rewrite <- app_assoc. apply runs_app; [vm_compute; lia|].
    right. eexists. split; [reflexivity|]. apply runs_app; [rewrite map_length; lia|]. right. eexists. split; [reflexivity|]. apply runs_short. vm_compute. lia.
Qed.

(** A literal text that cannot overlap itself ends a name. *)
Definition no_overlap (lit : list Z) : bool :=
  (16 <? zlen lit) && negb (zin 34 lit) && forallb (fun k => negb (zlist_eqb (firstn (List.length lit - k) lit) (skipn k lit))) (seq 1 (List.length lit - 1)).
Lemma ends_name_le lit m1 m2 r1 r2 : no_overlap lit = true -> runs 16 m2 -> (List.length m1 <= List.length m2)%nat ->
  m1 ++ lit ++ r1 = m2 ++ lit ++ r2 -> m1 = m2 /\ r1 = r2.
Proof.
  intros NO R L E. unfold no_overlap in NO. apply andb_true_iff in NO as [NO F]. apply andb_true_iff in NO as [LL NQ].
  apply negb_true_iff in NQ. rewrite <- (firstn_skipn (List.length m1) m2), <- app_assoc in E.
  assert (L1 : List.length (firstn (List.length m1) m2) = List.length m1) by (rewrite firstn_length; lia).
  apply app_same in E as [E1 E2]; [|lia]. set (d := skipn (List.length m1) m2) in *. 
  assert (M : m2 = m1 ++ d) by (rewrite E1 at 1; unfold d; now rewrite firstn_skipn). clearbody d. clear E1 L1.
  destruct d as [|x d']; [rewrite app_nil_r in M; cbn [app] in E2; apply app_inv_head in E2; auto|]. exfalso. set (d := x :: d') in *.
  assert (DN : (0 < List.length d)%nat) by (unfold d; cbn; lia). clearbody d. subst m2. apply runs_suffix in R; [|lia].
  destruct (Nat.lt_ge_cases (List.length d) (List.length lit)) as [S|S].
  - eapply forallb_forall in F; [|apply in_seq with (start := 1%nat); split; [exact DN|]; lia]. apply negb_true_iff, zlist_eqb_neq in F. apply F.
    rewrite <- (firstn_skipn (List.length d) lit) in E2 at 1. rewrite <- app_assoc in E2. apply app_same in E2 as [_ E2]; [|rewrite firstn_length; lia].
    rewrite <- (firstn_skipn (List.length lit - List.length d) lit) in E2 at 2. rewrite <- app_assoc in E2.
    apply app_same in E2 as [E2 _]; [congruence|rewrite skipn_length, firstn_length; lia].
  - rewrite <- (firstn_skipn (List.length lit) d), <- app_assoc in E2. apply app_same in E2 as [E2 _]; [|rewrite firstn_length; lia].
    rewrite <- (firstn_skipn (List.length lit) d), <- E2 in R. apply runs_window in R; [unfold zlen in LL; lia|]. intros I. apply zin_In in I. congruence.
Qed.
Lemma ends_name lit m1 m2 r1 r2 : no_overlap lit = true -> runs 16 m1 -> runs 16 m2 -> m1 ++ lit ++ r1 = m2 ++ lit ++ r2 -> m1 = m2 /\ r1 = r2.
Proof.
  intros NO R1 R2 E. destruct (Nat.le_ge_cases (List.length m1) (List.length m2)) as [L|L].
  - now apply (ends_name_le lit).
  - symmetry in E. apply (ends_name_le lit) in E as [-> ->]; auto.
Qed.

(** Times. *)
Definition good_time (c : cell) : Prop := c = Txt (txt "N/A") \/ exists us, c = Stamp us /\ us_per_day <= us < (ordinal_max + 1) * us_per_day.
Lemma stamp_length us : us_per_day <= us < (ordinal_max + 1) * us_per_day -> zlen (stamp_text us) = 26 /\ digit (hd 0 (stamp_text us)).
Proof.
  intros R. destruct (stamp_text_ok us R) as (t & T & _). remember (stamp_text us) as s eqn:E. clear E.
  inversion T as [short sd sc sf d c f D C W|]; subst. pose proof (date_written_len _ _ D) as LD. pose proof (clock_written_len _ _ C) as LC. destruct W as [LW _].
  split; [rewrite zlen_app, zlen_cons, zlen_app, zlen_cons; lia|].
  destruct D as [sy sm sdd y m dd [LY (N & G & _)] _ _]. destruct sy as [|q sy]; [contradiction|]. cbn [app hd]. inversion G; subst. assumption.
Qed.
Lemma stamp_inj a b : us_per_day <= a < (ordinal_max + 1) * us_per_day -> us_per_day <= b < (ordinal_max + 1) * us_per_day -> stamp_text a = stamp_text b -> a = b.
Proof. intros A B E. pose proof (stamp_text_ok a A) as HA. rewrite E in HA. exact (reads_time_unique _ _ _ _ HA (stamp_text_ok b B)). Qed.
Lemma time_prefix c d r s : good_time c -> good_time d -> cell_text stamp_text c ++ r = cell_text stamp_text d ++ s -> c = d /\ r = s.
Proof.
  assert (X : forall us r s, us_per_day <= us < (ordinal_max + 1) * us_per_day -> stamp_text us ++ r = txt "N/A" ++ s -> False).
  { intros us u v R E. destruct (stamp_length us R) as [L D]. destruct (stamp_text us) as [|q t]; [discriminate L|]. cbn [hd] in D. change (txt "N/A") with [78; 47; 65] in E.
    cbn [app] in E. injection E as E _ . unfold digit in D. lia. }
  intros [->|(a & -> & A)] [->|(b & -> & B)] E; cbn [cell_text] in E.
  - apply app_inv_head in E. auto.
  - symmetry in E. elim (X _ _ _ B E).
  - elim (X _ _ _ A E).
  - apply app_same_z in E as [E ->]; [apply stamp_inj in E as ->; auto|]. rewrite (proj1 (stamp_length a A)), (proj1 (stamp_length b B)). reflexivity.
Qed.
Lemma decoded_good epoch raw c : 1 <= epoch -> 0 <= raw -> time_shown epoch raw c -> good_time c.
Proof.
  intros E R (o & D & ->). destruct o as [us|]; [right|left; reflexivity]. eexists. split; [reflexivity|]. unfold decode_time in D. cbv zeta in D.
  pose proof (us_of_nonneg raw R) as N. unfold us_of in N.
  destruct (Z.ltb_spec (td_microseconds (py_div raw 10)) ((ordinal_max + 1 - epoch) * us_per_day)) as [L|L]; [|discriminate].
  assert (us = td_microseconds (py_div raw 10)) as -> by congruence. change us_per_day with 86400000000 in *. lia.
Qed.
Lemma id_time_good b o c : bytes_ok b -> 0 <= o -> o + 16 <= zlen b -> id_time b o c -> good_time c.
Proof.
  intros B O L [(us & (_ & _ & _ & D) & ->)|(_ & ->)]; [|left; reflexivity]. eapply (decoded_good 577736); [lia| |exists (Some us); split; [exact D|reflexivity]].
  set (v := slice b o (o + 16)). assert (BV : bytes_ok v) by now apply bytes_ok_slice. pose proof (fld_bound 4 v 0 ltac:(lia) ltac:(lia) BV). pose proof (fld_bound 2 v 4 ltac:(lia) ltac:(lia) BV).
  pose proof (Z.mod_pos_bound (fld 2 v 6) 4096 ltac:(lia)). lia.
Qed.

(** ** A block is the beginning of only one text *)
Lemma id_length b o s : 0 <= o -> o + 16 <= zlen b -> id_shown b o s -> zlen s = 36.
Proof.
  intros O L [(X & _)|(_ & a & c & d & e & f & -> & (A & _) & (C & _) & (D & _) & (E & _) & (F & _))]; [rewrite zlen_slice in X by lia; lia|].
  rewrite !zlen_app. change (zlen [45]) with 1. lia.
Qed.
Lemma stored_bytes b o n m : bytes_ok b -> 0 <= o -> 0 <= n -> stored_name b o n m -> bytes_ok m /\ zlen m <= n.
Proof.
  intros B O N (rest & E & _). pose proof (bytes_ok_slice b o (o + n) B) as S. rewrite E in S. apply Forall_app in S as [S _]. split; [exact S|].
  pose proof (zlen_slice b o (o + n) ltac:(lia)) as L. rewrite E, zlen_app in L. pose proof (zlen_nonneg rest). lia.
Qed.

Definition header_rest : list Z := 10 :: txt " * Volume object ID: ".
Lemma header_text name volume : block_text [text_line "File header:" []; text_line " * Machine ID: " [Txt name]; text_line " * Volume object ID: " [Txt volume]] =
  (txt "File header:" ++ 10 :: txt " * Machine ID: ") ++ name ++ header_rest ++ volume ++ separator.
Proof.
  unfold block_text, line_text, text_line, header_rest. cbn [map joined flat_map cell_text]. rewrite !app_nil_r. now rewrite <- !app_assoc.
Qed.
Lemma header_prefix h h' b b' r r' : bytes_ok h -> bytes_ok h' -> 512 <= zlen h -> 512 <= zlen h' -> header_shown h b -> header_shown h' b' ->
  block_text b ++ r = block_text b' ++ r' -> b = b' /\ r = r'.
Proof.
  intros B B' L L' H H' E. destruct H as [m name volume M N V], H' as [m' name' volume' M' N' V']. rewrite !header_text, <- !app_assoc in E.
  apply app_inv_head in E. change (10 :: txt " * Machine ID: ") with ((10 :: txt " * Machine ID: ") ++ []) in E. rewrite <- !app_assoc in E. apply app_inv_head in E. cbn [app] in E.
  apply stored_bytes in M as [M1 M2]; [|auto; lia..]. apply stored_bytes in M' as [M1' M2']; [|auto; lia..].
  apply ends_name in E as [-> E]; [|vm_compute; reflexivity|exact (name_runs _ _ M1 M2 N)|exact (name_runs _ _ M1' M2' N')].
  apply app_same_z in E as [-> E]; [apply app_inv_head in E; auto|]. rewrite (id_length h 56 _ ltac:(lia) ltac:(lia) V), (id_length h' 56 _ ltac:(lia) ltac:(lia) V'). reflexivity.
Qed.

Definition birth_rest : list Z := [10; 10] ++ txt "Birth domain-relative object ID, volume: ".
Lemma entry_text oid dv df name bv bf t1 t2 t3 low high :
  block_text [
      text_line "Object ID: " [Txt oid]; gap;
      text_line "Domain-relative object ID, volume: " [Txt dv]; text_line "Domain-relative object ID, file: " [Txt df]; gap;
      text_line "Machine ID: " [Txt name]; gap;
      text_line "Birth domain-relative object ID, volume: " [Txt bv]; text_line "Birth domain-relative object ID, file: " [Txt bf]; gap;
      text_line "GUID timestamps:" []; text_line " * Object ID: " [t1]; text_line " * Domain-relative object ID, file: " [t2];
      text_line " * Birth domain-relative object ID, file: " [t3]; gap;
      text_line "Timestamp (range): " [low; Txt [32; 45; 32]; high]] =
  txt "Object ID: " ++ oid ++ ([10; 10] ++ txt "Domain-relative object ID, volume: ") ++ dv ++ ([10] ++ txt "Domain-relative object ID, file: ") ++ df ++
  ([10; 10] ++ txt "Machine ID: ") ++ name ++ birth_rest ++ bv ++ ([10] ++ txt "Birth domain-relative object ID, file: ") ++ bf ++
  ([10; 10] ++ txt "GUID timestamps:" ++ [10] ++ txt " * Object ID: ") ++ cell_text stamp_text t1 ++ ([10] ++ txt " * Domain-relative object ID, file: ") ++ cell_text stamp_text t2 ++
  ([10] ++ txt " * Birth domain-relative object ID, file: ") ++ cell_text stamp_text t3 ++ ([10; 10] ++ txt "Timestamp (range): ") ++ cell_text stamp_text low ++
  [32; 45; 32] ++ cell_text stamp_text high ++ separator.
Proof.
  unfold block_text, line_text, text_line, gap, birth_rest. cbn [map joined flat_map]. cbn [cell_text]. rewrite !app_nil_r, <- !app_assoc. reflexivity.
Qed.
Lemma entry_prefix e e' b b' r r' : bytes_ok e -> bytes_ok e' -> zlen e = 124 -> zlen e' = 124 -> entry_shown e b -> entry_shown e' b' ->
  block_text b ++ r = block_text b' ++ r' -> b = b' /\ r = r'.
Proof.
  intros B B' L L' H H' E.
  destruct H as [oid dv df m name bv bf t1 t2 t3 low high H1 H2 H3 M N H4 H5 T1 T2 T3 TL TH], H' as [oid' dv' df' m' name' bv' bf' t1' t2' t3' low' high' H1' H2' H3' M' N' H4' H5' T1' T2' T3' TL' TH'].
  rewrite !entry_text in E. rewrite <- !(app_assoc _ _ r) in E. rewrite <- !(app_assoc _ _ r') in E. 
  assert (P : forall b o s b' o' s' x y, 0 <= o -> o + 16 <= zlen b -> 0 <= o' -> o' + 16 <= zlen b' -> id_shown b o s -> id_shown b' o' s' -> s ++ x = s' ++ y -> s = s' /\ x = y).
  { intros c o s c' o' s' x y O1 O2 O3 O4 S S' Q. apply app_same_z in Q; [exact Q|]. rewrite (id_length _ _ _ O1 O2 S), (id_length _ _ _ O3 O4 S'). reflexivity. }
  apply stored_bytes in M as [M1 M2]; [|auto; lia..]. apply stored_bytes in M' as [M1' M2']; [|auto; lia..].
  apply app_inv_head in E. apply (P e 20 _ e' 20 _ _ _ ltac:(lia) ltac:(lia) ltac:(lia) ltac:(lia) H1 H1') in E as [-> E].
  apply app_inv_head in E. apply (P e 36 _ e' 36 _ _ _ ltac:(lia) ltac:(lia) ltac:(lia) ltac:(lia) H2 H2') in E as [-> E].
  apply app_inv_head in E. apply (P e 52 _ e' 52 _ _ _ ltac:(lia) ltac:(lia) ltac:(lia) ltac:(lia) H3 H3') in E as [-> E].
  apply app_inv_head in E. apply ends_name in E as [-> E]; [|vm_compute; reflexivity|exact (name_runs _ _ M1 M2 N)|exact (name_runs _ _ M1' M2' N')].
  apply (P e 84 _ e' 84 _ _ _ ltac:(lia) ltac:(lia) ltac:(lia) ltac:(lia) H4 H4') in E as [-> E].
  apply app_inv_head in E. apply (P e 100 _ e' 100 _ _ _ ltac:(lia) ltac:(lia) ltac:(lia) ltac:(lia) H5 H5') in E as [-> E].
  apply app_inv_head in E. apply time_prefix in E as [-> E]; [|eapply id_time_good; [| | |eassumption]; auto; lia..].
  apply app_inv_head in E. apply time_prefix in E as [-> E]; [|eapply id_time_good; [| | |eassumption]; auto; lia..].
  apply app_inv_head in E. apply time_prefix in E as [-> E]; [|eapply id_time_good; [| | |eassumption]; auto; lia..].
  pose proof (fld_bound 4 e 116 ltac:(lia) ltac:(lia) B). pose proof (fld_bound 4 e' 116 ltac:(lia) ltac:(lia) B').
  apply app_inv_head in E. apply time_prefix in E as [-> E]; [|eapply decoded_good; [| |eassumption]; lia..].
  apply app_inv_head in E. apply time_prefix in E as [-> E]; [|eapply decoded_good; [| |eassumption]; lia..].
  apply app_inv_head in E. auto.
Qed.

Lemma entries_text es : forall es' bs bs', Forall (fun e => bytes_ok e /\ zlen e = 124) es -> Forall (fun e => bytes_ok e /\ zlen e = 124) es' ->
  Forall2 entry_shown es bs -> Forall2 entry_shown es' bs' -> log_text bs = log_text bs' -> bs = bs'.
Proof.
  assert (NE : forall e b, entry_shown e b -> forall r, block_text b ++ r <> []).
  { intros e b H r. destruct H. rewrite entry_text. discriminate. }
  induction es as [|e es IH]; intros [|e' es'] bs bs' F F' S S' E; inversion S as [|? b ? bt S1 S2]; inversion S' as [|? b' ? bt' S1' S2']; subst; cbn [log_text flat_map] in E.
  - reflexivity.
  - symmetry in E. elim (NE _ _ S1' _ E).
  - elim (NE _ _ S1 _ E).
  - inversion F as [|? ? [F1 F2] F3]; inversion F' as [|? ? [F1' F2'] F3']; subst. apply (entry_prefix e e' b b' _ _ F1 F1' F2 F2' S1 S1') in E as [-> E]. f_equal. exact (IH es' bt bt' F3 F3' S2 S2' E).
Qed.

(** ** What a block tells *)
Lemma filetime_far f f' c : 0 <= f -> 0 <= f' -> filetime_shown (2 ^ 32 * f) c -> filetime_shown (2 ^ 32 * f') c ->
  f = f' \/ (2650467743999999840 <= 2 ^ 32 * f /\ 2650467743999999840 <= 2 ^ 32 * f').
Proof.
  assert (D : forall t, 0 <= t -> decode_time 584389 t true = if t <? 2650467743999999840 then Ok (Some (us_of t)) else Ok None).
  { intros t Ht. rewrite (decode_time_threshold 584389 2650467743999999840) by (auto; vm_compute; split; congruence). reflexivity. }
  intros F F' (o & O & E) (o' & O' & E'). change (2 ^ 32) with 4294967296 in *. remember (4294967296 * f) as x eqn:X. remember (4294967296 * f') as x' eqn:X'.
  rewrite D in O, O' by lia. pose proof (us_of_error x 58 ltac:(lia) ltac:(lia)) as G. pose proof (us_of_error x' 58 ltac:(lia) ltac:(lia)) as G'.
  destruct (Z.ltb_spec x 2650467743999999840) as [L|L], (Z.ltb_spec x' 2650467743999999840) as [L'|L'].
  - left. assert (o = Some (us_of x)) as -> by congruence. assert (o' = Some (us_of x')) as -> by congruence.
    assert (Q : 86400000000 * 584389 + us_of x = 86400000000 * 584389 + us_of x') by congruence. clear E E' O O' D.
    change (2 ^ 54) with 18014398509481984 in *. change (2 ^ 53) with 9007199254740992 in *. change (2 ^ 58) with 288230376151711744 in *. lia.
  - assert (o = Some (us_of x)) as -> by congruence. assert (o' = None) as -> by congruence. congruence.
  - assert (o = None) as -> by congruence. assert (o' = Some (us_of x')) as -> by congruence. congruence.
  - right. auto.
Qed.
