(** Proofs about the master file table model. *)
From Coq Require Import Lia ZifyBool Sorted.
From Verif Require Import Base BaseLemmas MappingPairs MappingPairsSpec MappingPairsProofs
  Frs FrsSpec FrsProofs FileRecord FileRecordSpec FileRecordProofs Mft MftSpec.
Local Set Warnings "-abstract-large-number".

Lemma frs_open_frs_exn raw a s e : bytes_ok raw -> frs_open raw a s = Err e -> is_frs_exn e = true.
Proof. intros B H; destruct (C05_only_file_record_exceptions_lemma _ _ _ _ B H); subst; reflexivity. Qed.

Lemma is_frs_mft e : is_frs_exn e = true -> is_mft_exn e = true.
Proof. destruct e; easy. Qed.

Lemma frs_open_suggested raw a s f : frs_open raw a s = Ok f -> frs_suggested f = s.
Proof.
  unfold frs_open. destruct (negb _); [discriminate|].
  intro H; apply bind_ok in H as [[uo us] [_ H]].
  apply bind_ok in H as [d [_ H]]. apply bind_ok in H as [u [_ H]].
  injection H as <-; reflexivity.
Qed.

Lemma land1_odd x : (0 <? Z.land x 1) = Z.odd x.
Proof.
  replace 1 with (Z.ones 1) by reflexivity.
  rewrite Z.land_ones by lia. change (2 ^ 1) with 2. rewrite Zodd_mod.
  pose proof (Z.mod_pos_bound x 2 ltac:(lia)). unfold Zeq_bool.
  destruct (Z.ltb_spec 0 (x mod 2)); destruct (Z.compare_spec (x mod 2) 1); try easy; lia.
Qed.

Lemma land2_testbit x : 0 <= x -> (0 <? Z.land x 2) = Z.testbit x 1.
Proof.
  intro H. assert (E : Z.land x 2 = if Z.testbit x 1 then 2 else 0).
  { apply Z.bits_inj'; intros n Hn. rewrite Z.land_spec.
    change 2 with (2 ^ 1) at 1. rewrite Z.pow2_bits_eqb by lia.
    destruct (Z.eqb_spec 1 n) as [<-|Hne].
    - destruct (Z.testbit x 1); reflexivity.
    - rewrite andb_false_r. destruct (Z.testbit x 1); [|now rewrite Z.bits_0].
      change 2 with (2 ^ 1). rewrite Z.pow2_bits_eqb by lia. symmetry; apply Z.eqb_neq; auto. }
  rewrite E; destruct (Z.testbit x 1); reflexivity.
Qed.

Lemma h_in_use_spec f : h_in_use (frs_data f) = true <-> in_use f.
Proof. unfold h_in_use, in_use, h_flags. rewrite land1_odd. reflexivity. Qed.

Lemma last_sequence_iff f s : bytes_ok (frs_data f) ->
  last_sequence f s <-> s = effective_sequence f.
Proof.
  intro B. unfold last_sequence, effective_sequence.
  pose proof (fld_bound 2 (frs_data f) 16 ltac:(lia) ltac:(lia) B) as Hb.
  change (256 ^ 2) with 65536 in Hb. rewrite <- h_in_use_spec.
  unfold stored_sequence, h_sequence. generalize dependent (fld 2 (frs_data f) 16); intros x Hb.
  destruct (h_in_use (frs_data f)).
  - split; [intros [[_ H]|[[H _]|[H _]]]; congruence|left; auto].
  - destruct (Z.leb_spec 2 x); [|destruct (Z.eqb_spec x 0)].
    + split.
      * intros [[H' _]|[[_ H']|[_ H']]]; [discriminate|lia|lia].
      * intros ->; right; left; lia.
    + split.
      * intros [[H' _]|[[_ H']|[_ H']]]; [discriminate|lia|lia].
      * intros ->; right; left; lia.
    + split.
      * intros [[H' _]|[[_ H']|[_ H']]]; [discriminate|lia|lia].
      * intros ->; right; right; lia.
Qed.

Lemma h_is_base_spec f : h_is_base (frs_data f) = true <-> is_base f.
Proof. unfold h_is_base, h_base_ref, is_base, base_reference. apply Z.eqb_eq. Qed.

Lemma mft_number_spec f k : bytes_ok (frs_data f) -> frs_suggested f = Some k ->
  frs_mft_number f = Some (number_in k f).
Proof.
  intros B S. unfold frs_mft_number, number_in, frs_short.
  destruct (frs_usa_offset f <? 48); auto. f_equal.
  pose proof (fld_bound 4 (frs_data f) 44 ltac:(lia) ltac:(lia) B) as Hb.
  change (256 ^ 4) with (2 ^ 32) in Hb.
  apply lor_shiftl_add; lia.
Qed.

(** ** The loops over the slots *)

Definition cache_step (c : list (Z * list Z)) (kf : Z * frs) : list (Z * list Z) :=
  if h_is_base (frs_data (snd kf)) then c else cache_add c (h_base_ref (frs_data (snd kf))) (fst kf).
Definition cache_of (l : list (Z * frs)) (c : list (Z * list Z)) := fold_left cache_step l c.

Definition children_count (l : list (Z * frs)) : Z :=
  zlen (filter (fun kf => negb (h_is_base (frs_data (snd kf)))) l).

Lemma slot_whole data size k : 0 < size -> 0 <= k -> k < zlen data / size ->
  k * size < zlen data /\ zlen (slot data size k) = size.
Proof.
  intros Hs Hk H. pose proof (Z.mul_div_le (zlen data) size Hs).
  assert (k * size + size <= zlen data) by nia.
  split; [lia|]. unfold slot. rewrite zlen_slice by nia. lia.
Qed.

Lemma slot_partial data size k : 0 < size -> 0 <= k -> zlen data / size <= k ->
  k * size < zlen data -> zlen (slot data size k) <> size.
Proof.
  intros Hs Hk H L. pose proof (Z.mul_succ_div_gt (zlen data) size Hs).
  assert (zlen data < k * size + size) by nia.
  unfold slot. rewrite zlen_slice by nia. lia.
Qed.

Lemma bytes_ok_slot data size k : bytes_ok data -> bytes_ok (slot data size k).
Proof. apply bytes_ok_slice. Qed.

Lemma first_pass_loop_spec data size n : bytes_ok data -> 0 < size -> forall fuel k c cnt ch,
  0 <= k -> n = Z.to_nat (zlen data / size - k) -> (n < fuel)%nat ->
  first_pass_loop fuel data size (k * size) c cnt ch =
  Ok (cache_of (segments data size k n) c,
      (cnt + zlen (segments data size k n), ch + children_count (segments data size k n))).
Proof.
  intros B Hs. induction n as [|n IH]; intros fuel k c cnt ch Hk En Hf;
    (destruct fuel as [|fuel]; [lia|]); cbn [first_pass_loop segments].
  - unfold cache_of, children_count. cbn [fold_left filter]. change (zlen (@nil (Z * frs))) with 0.
    rewrite !Z.add_0_r.
    destruct (Z.ltb_spec (k * size) (zlen data)); auto.
    pose proof (slot_partial data size k Hs Hk ltac:(lia) H) as HP. unfold slot in HP.
    apply Z.eqb_neq in HP; rewrite HP; reflexivity.
  - destruct (slot_whole data size k Hs Hk ltac:(lia)) as [L W].
    replace (k * size <? zlen data) with true by (symmetry; apply Z.ltb_lt; lia).
    unfold slot in W. rewrite W, Z.eqb_refl. cbn [negb].
    rewrite Z.div_mul by lia. fold (slot data size k).
    replace (k * size + size) with ((k + 1) * size) by lia.
    destruct (frs_open (slot data size k) true (Some k)) as [f|e] eqn:E.
    + destruct (h_is_base (frs_data f)) eqn:Eb.
      * rewrite IH by (try lia). f_equal. f_equal; [|f_equal].
        -- cbn [cache_of fold_left]. unfold cache_step at 2. cbn [fst snd]. rewrite Eb. reflexivity.
        -- rewrite zlen_cons; lia.
        -- unfold children_count. cbn [filter snd]. rewrite Eb. reflexivity.
      * rewrite IH by (try lia). f_equal. f_equal; [|f_equal].
        -- cbn [cache_of fold_left]. unfold cache_step at 2. cbn [fst snd]. rewrite Eb. reflexivity.
        -- rewrite zlen_cons; lia.
        -- unfold children_count. cbn [filter snd]. rewrite Eb. cbn [negb]. rewrite zlen_cons; lia.
    + rewrite (frs_open_frs_exn _ _ _ _ (bytes_ok_slot data size k B) E).
      rewrite IH by lia. reflexivity.
Qed.

(** A parser over [data] whose cache was filled from the segments [t]. *)
Definition parser_of (data : list Z) (size : Z) (t : list (Z * frs)) (p : mft) : Prop :=
  bytes_ok data /\ size_ok size /\ m_data p = data /\ m_frs_size p = size /\
  m_cache p = cache_of t [] /\ (t = [] \/ t = table data size).

Lemma fuel_enough (data : list Z) size : 0 < size -> (Z.to_nat (zlen data / size - 0) < S (length data))%nat.
Proof.
  intro H. assert (zlen data / size <= zlen data).
  { apply Z.div_le_upper_bound; auto. pose proof (zlen_nonneg data); nia. }
  unfold zlen in *. lia.
Qed.

Lemma mft_open_spec data b p : bytes_ok data -> mft_open data b = Ok p ->
  parser_of data (fld 4 data 28) (if b then table data (fld 4 data 28) else []) p /\
  m_stats p = (if b then Some (zlen (table data (fld 4 data 28)), children_count (table data (fld 4 data 28))) else None).
Proof.
  intros B H. unfold mft_open in H.
  destruct (negb (zlist_eqb (slice data 0 4) sig_FILE)); [discriminate|].
  destruct (negb (zlen (slice data 28 32) =? 4)); [discriminate|].
  destruct (zin (fld 4 data 28) frs_sizes) eqn:Es; [|discriminate]. cbn [negb] in H.
  apply frs_sizes_ok in Es.
  apply bind_ok in H as [u [_ H]].
  assert (Hs : 0 < fld 4 data 28) by (destruct Es; lia).
  destruct b.
  - unfold first_pass in H. cbn [m_data m_frs_size m_cache] in H.
    replace 0 with (0 * fld 4 data 28) in H at 1 by lia.
    rewrite (first_pass_loop_spec data (fld 4 data 28) (Z.to_nat (zlen data / fld 4 data 28 - 0)) B Hs
               (S (length data)) 0) in H; [|lia|reflexivity|apply fuel_enough; auto].
    cbn [bind] in H. injection H as <-. rewrite Z.sub_0_r.
    split; [|reflexivity].
    repeat split; auto.
  - injection H as <-. split; [|reflexivity]. repeat split; auto.
Qed.

(** ** The cache *)

Lemma cache_get_add c r n r' :
  cache_get (cache_add c r n) r' =
  if r =? r' then Some (match cache_get c r with Some v => v ++ [n] | None => [n] end)
  else cache_get c r'.
Proof.
  induction c as [|[k v] c IH]; cbn [cache_add cache_get].
  - destruct (r =? r'); reflexivity.
  - destruct (Z.eqb_spec k r) as [->|Hk]; cbn [cache_get].
    + destruct (Z.eqb_spec r r'); reflexivity.
    + destruct (Z.eqb_spec k r') as [->|Hk'].
      * destruct (Z.eqb_spec r r'); [congruence|reflexivity].
      * apply IH.
Qed.

Definition children_ks (l : list (Z * frs)) (r : Z) : list Z :=
  map fst (filter (fun kf => negb (h_is_base (frs_data (snd kf))) && (h_base_ref (frs_data (snd kf)) =? r)) l).

Lemma cache_get_of l : forall c r, cache_get (cache_of l c) r =
  match cache_get c r with
  | Some v => Some (v ++ children_ks l r)
  | None => match children_ks l r with [] => None | x => Some x end
  end.
Proof.
  induction l as [|[k f] l IH]; intros c r.
  - cbn. destruct (cache_get c r); [now rewrite app_nil_r|reflexivity].
  - cbn [cache_of fold_left]. fold (cache_of l (cache_step c (k, f))). rewrite IH.
    unfold cache_step, children_ks. cbn [fst snd filter].
    destruct (h_is_base (frs_data f)) eqn:Eb; cbn [negb andb]; auto.
    rewrite cache_get_add. destruct (Z.eqb_spec (h_base_ref (frs_data f)) r) as [->|Hr]; auto.
    cbn [map fst]. destruct (cache_get c r); [now rewrite <- app_assoc|reflexivity].
Qed.

Lemma cache_entry_add c r n k v m : In (k, v) (cache_add c r n) -> In m v ->
  (k = r /\ m = n) \/ exists v', In (k, v') c /\ In m v'.
Proof.
  induction c as [|[k0 v0] c IH]; cbn [cache_add In].
  - intros [H|[]] Hm. injection H as <- <-. destruct Hm as [<-|[]]; auto.
  - destruct (Z.eqb_spec k0 r) as [->|Hk]; cbn [In].
    + intros [H|H] Hm.
      * injection H as <- <-. apply in_app_iff in Hm as [Hm|[<-|[]]]; eauto.
      * right; eauto.
    + intros [H|H] Hm.
      * injection H as <- <-. right; eauto.
      * destruct (IH H Hm) as [?|[v' [? ?]]]; eauto.
Qed.

Lemma cache_entry_of l : forall c k v m, In (k, v) (cache_of l c) -> In m v ->
  (exists f, In (m, f) l /\ h_is_base (frs_data f) = false /\ h_base_ref (frs_data f) = k) \/
  exists v', In (k, v') c /\ In m v'.
Proof.
  induction l as [|[j f] l IH]; intros c k v m H Hm; [right; eauto|].
  cbn [cache_of fold_left] in H. fold (cache_of l (cache_step c (j, f))) in H.
  destruct (IH _ _ _ _ H Hm) as [[g [Hg ?]]|[v' [H1 H2]]].
  - left; exists g; split; [right|]; auto.
  - unfold cache_step in H1; cbn [fst snd] in H1.
    destruct (h_is_base (frs_data f)) eqn:Eb; [right; eauto|].
    destruct (cache_entry_add _ _ _ _ _ _ H1 H2) as [[-> ->]|?]; [|right; auto].
    left; exists f; split; [left|]; auto.
Qed.

Lemma cache_get_In c r v : cache_get c r = Some v -> In (r, v) c.
Proof.
  induction c as [|[k w] c IH]; cbn [cache_get In]; [discriminate|].
  destruct (Z.eqb_spec k r); [intro H; injection H as ->; subst; auto|auto].
Qed.

Lemma parent_in_cache_spec c n :
  match parent_in_cache c n with
  | Some r => exists v, In (r, v) c /\ In n v
  | None => forall r v, In (r, v) c -> ~ In n v
  end.
Proof.
  induction c as [|[k v] c IH]; cbn [parent_in_cache]; [intros r v []|].
  destruct (zin n v) eqn:E.
  - exists v; split; [left; auto|now apply zin_In].
  - destruct (parent_in_cache c n).
    + destruct IH as [w [? ?]]; exists w; split; [right|]; auto.
    + intros r w [H|H]; [injection H as <- <-; now apply zin_false|eauto].
Qed.

(** ** Segments of the table *)

Lemma segments_In data size n : forall k j f, 0 <= k ->
  In (j, f) (segments data size k n) <->
  k <= j < k + Z.of_nat n /\ segment_at data size j f.
Proof.
  induction n as [|n IH]; intros k j f Hk; cbn [segments].
  - split; [intros []|lia].
  - assert (D : k <= j < k + Z.of_nat (S n) <-> j = k \/ k + 1 <= j < k + 1 + Z.of_nat n) by lia.
    rewrite D. clear D.
    destruct (frs_open (slot data size k) true (Some k)) as [g|e] eqn:E; cbn [In]; rewrite IH by lia.
    + split.
      * intros [H|[H1 H2]]; [injection H as <- <-; split; [auto|split; auto]|auto].
      * intros [[->|H] [H1 H2]]; [left; congruence|right; split; [auto|split; auto]].
    + split; [intros [H1 H2]; auto|].
      intros [[->|H] [H1 H2]]; [congruence|split; [auto|split; auto]].
Qed.

Lemma table_In data size j f : 0 < size ->
  In (j, f) (table data size) <-> j * size + size <= zlen data /\ segment_at data size j f.
Proof.
  intro Hs. unfold table. rewrite segments_In by lia.
  pose proof (zlen_nonneg data). pose proof (Z.div_pos (zlen data) size ltac:(lia) Hs).
  rewrite Z2Nat.id by lia.
  pose proof (Z.mul_div_le (zlen data) size Hs). pose proof (Z.mul_succ_div_gt (zlen data) size Hs).
  split; intros [H3 H4]; split; auto; destruct H4 as [H4 _]; nia.
Qed.

Lemma segments_sorted data size n : forall k, StronglySorted Z.lt (map fst (segments data size k n)).
Proof.
  induction n as [|n IH]; intro k; cbn [segments]; [constructor|].
  destruct (frs_open (slot data size k) true (Some k)); auto.
  cbn [map fst]. constructor; auto.
  assert (G : forall m j, k < j -> Forall (Z.lt k) (map fst (segments data size j m))).
  { induction m as [|m IHm]; intros j Hj; cbn [segments]; [constructor|].
    destruct (frs_open (slot data size j) true (Some j)); cbn [map fst];
      [constructor; auto|]; apply IHm; lia. }
  apply G; lia.
Qed.

Lemma segment_at_bytes data size k f : bytes_ok data -> segment_at data size k f ->
  bytes_ok (frs_data f) /\ frs_suggested f = Some k.
Proof.
  intros B [_ H]. split; [|now apply frs_open_suggested in H].
  apply frs_open_bytes_ok in H; auto. now apply bytes_ok_slot.
Qed.

Lemma frs_by_number_iff data size t p n f : parser_of data size t p -> 0 <= n ->
  frs_by_number p n = Ok f <-> segment_at data size n f.
Proof.
  intros (B & Hs & Hd & Hz & _) Hn. unfold frs_by_number, segment_at, m_file_size.
  assert (0 < size) by (destruct Hs; lia).
  rewrite Hd, Hz. unfold read_at.
  replace (n * size <? 0) with false by (symmetry; apply Z.ltb_ge; nia).
  cbn [bind]. fold (slot data size n).
  destruct (Z.ltb_spec (zlen data) (n * size)).
  - split; [discriminate|]. intros [_ Ho]. unfold slot in Ho.
    rewrite slice_beyond in Ho by lia. discriminate.
  - tauto.
Qed.

Lemma frs_by_number_err data size t p n e : parser_of data size t p -> 0 <= n ->
  frs_by_number p n = Err e -> is_mft_exn e = true.
Proof.
  intros (B & Hs & Hd & Hz & _) Hn. unfold frs_by_number.
  assert (0 < size) by (destruct Hs; lia).
  rewrite Hd, Hz. unfold read_at.
  replace (n * size <? 0) with false by (symmetry; apply Z.ltb_ge; nia).
  destruct (m_file_size p <? n * size); [intro E; injection E as <-; reflexivity|].
  cbn [bind]. intro E. apply is_frs_mft. eapply frs_open_frs_exn; [|exact E].
  now apply bytes_ok_slice.
Qed.

Lemma open_children_spec data size t p l : parser_of data size t p ->
  Forall (fun kf => segment_at data size (fst kf) (snd kf)) l ->
  open_children p (map fst l) = Ok (map snd l).
Proof.
  intros HP. induction 1 as [|[k f] l H _ IH]; cbn [map fst snd open_children]; auto.
  cbn [fst snd] in H. rewrite (proj2 (frs_by_number_iff _ _ _ _ k f HP (proj1 H)) H).
  cbn [bind]. rewrite IH. reflexivity.
Qed.

Lemma table_segments data size t p : parser_of data size t p ->
  Forall (fun kf => segment_at data size (fst kf) (snd kf)) t.
Proof.
  intros (_ & Hs & _ & _ & _ & [->| ->]); [constructor|].
  apply Forall_forall; intros [k f] H. cbn [fst snd].
  apply table_In in H; [tauto|destruct Hs; lia].
Qed.

(** No slot number needs more than 48 bits. *)

Lemma number_in_bound data size k f : fits data -> size_ok size -> bytes_ok data ->
  segment_at data size k f -> 0 <= number_in k f < 2 ^ 48.
Proof.
  intros F Hs B H. destruct (segment_at_bytes _ _ _ _ B H) as [Bf _].
  unfold number_in. destruct (frs_usa_offset f <? 48).
  - destruct H as [Hk Ho]. split; auto.
    destruct (Z.ltb_spec k (2 ^ 48)); auto. exfalso.
    unfold slot in Ho. unfold fits in F. rewrite slice_beyond in Ho by (destruct Hs; nia). discriminate.
  - pose proof (fld_bound 2 (frs_data f) 42 ltac:(lia) ltac:(lia) Bf).
    pose proof (fld_bound 4 (frs_data f) 44 ltac:(lia) ltac:(lia) Bf).
    change (256 ^ 2) with (2 ^ 16) in *. change (256 ^ 4) with (2 ^ 32) in *. lia.
Qed.

Lemma effective_sequence_bound f : bytes_ok (frs_data f) -> 0 <= effective_sequence f <= 65535.
Proof.
  intro B. unfold effective_sequence, h_sequence.
  pose proof (fld_bound 2 (frs_data f) 16 ltac:(lia) ltac:(lia) B) as Hb.
  change (256 ^ 2) with 65536 in Hb. ifs; bools; lia.
Qed.

Lemma child_of_encode num seq c : bytes_ok (frs_data c) -> 0 <= num < 2 ^ 48 -> 0 <= seq ->
  negb (h_is_base (frs_data c)) && (h_base_ref (frs_data c) =? encode_ref num seq) = child_of num seq c.
Proof.
  intros B Hn Hs. rewrite encode_ref_value by auto.
  unfold child_of, h_is_base, h_base_ref, base_reference.
  pose proof (fld_nonneg 8 (frs_data c) 32 B). set (r := fld 8 (frs_data c) 32) in *.
  rewrite <- andb_assoc. f_equal. apply eq_iff_eq_true.
  rewrite andb_true_iff, !Z.eqb_eq. split; [intros ->|intros [? ?]]; lia.
Qed.

Lemma with_children_spec data size t p k f : fits data -> parser_of data size t p ->
  segment_at data size k f ->
  with_children p f = Ok (mk_fr f (children_in t (number_in k f) (effective_sequence f))).
Proof.
  intros F HP H. pose proof HP as (B & Hs & _ & _ & Hc & _).
  destruct (segment_at_bytes _ _ _ _ B H) as [Bf Hsug].
  unfold with_children. rewrite (mft_number_spec f k Bf Hsug).
  pose proof (number_in_bound _ _ _ _ F Hs B H) as Hn.
  pose proof (effective_sequence_bound f Bf) as He.
  set (num := number_in k f) in *. set (sq := effective_sequence f) in *.
  rewrite Hc, cache_get_of. cbn [cache_get].
  pose proof (table_segments _ _ _ _ HP) as HT.
  assert (E : filter (fun kf => negb (h_is_base (frs_data (snd kf))) && (h_base_ref (frs_data (snd kf)) =? encode_ref num sq)) t
            = filter (fun kc => child_of num sq (snd kc)) t).
  { apply filter_ext_in. intros [j c] Hj. cbn [snd].
    rewrite Forall_forall in HT. specialize (HT _ Hj). cbn [fst snd] in HT.
    apply child_of_encode; try lia. now apply (segment_at_bytes data size j c). }
  unfold children_ks, children_in. rewrite E.
  assert (HF : Forall (fun kf => segment_at data size (fst kf) (snd kf)) (filter (fun kc => child_of num sq (snd kc)) t)).
  { apply Forall_forall; intros x Hx. apply filter_In in Hx as [Hx _].
    rewrite Forall_forall in HT; auto. }
  pose proof (open_children_spec _ _ _ _ _ HP HF) as HO.
  destruct (filter (fun kc => child_of num sq (snd kc)) t) as [|x l]; [reflexivity|].
  cbn [map] in *. rewrite HO. reflexivity.
Qed.

(** ** Enumeration *)

Definition yielded (in_use_only : bool) (f : frs) : bool :=
  h_is_base (frs_data f) && (negb in_use_only || h_in_use (frs_data f)).

Lemma file_records_loop_spec data size t p b n : fits data -> parser_of data size t p ->
  forall fuel k, 0 <= k -> n = Z.to_nat (zlen data / size - k) -> (n < fuel)%nat ->
  file_records_loop fuel p b (k * size) =
  (map (fun kf => mk_fr (snd kf) (children_in t (number_in (fst kf) (snd kf)) (effective_sequence (snd kf))))
       (filter (fun kf => yielded b (snd kf)) (segments data size k n)), Done).
Proof.
  intros F HP. pose proof HP as (B & Hz & Hd & Hm & _).
  assert (Hs : 0 < size) by (destruct Hz; lia).
  induction n as [|n IH]; intros fuel k Hk En Hf;
    (destruct fuel as [|fuel]; [lia|]); cbn [file_records_loop segments];
    unfold m_file_size; rewrite Hd, Hm.
  - destruct (Z.ltb_spec (k * size) (zlen data)); auto.
    pose proof (slot_partial data size k Hs Hk ltac:(lia) H) as HPp. unfold slot in HPp.
    apply Z.eqb_neq in HPp; rewrite HPp; reflexivity.
  - destruct (slot_whole data size k Hs Hk ltac:(lia)) as [L W].
    replace (k * size <? zlen data) with true by (symmetry; apply Z.ltb_lt; lia).
    unfold slot in W. rewrite W, Z.eqb_refl. cbn [negb].
    rewrite Z.div_mul by lia. fold (slot data size k).
    replace (k * size + size) with ((k + 1) * size) by lia.
    destruct (frs_open (slot data size k) true (Some k)) as [f|e] eqn:E.
    + assert (HA : segment_at data size k f) by (split; auto).
      cbn [filter snd]. unfold yielded at 1.
      rewrite (with_children_spec _ _ _ _ _ _ F HP HA).
      destruct b, (h_in_use (frs_data f)), (h_is_base (frs_data f)); cbn [negb andb orb];
        rewrite IH by lia; reflexivity.
    + rewrite (frs_open_frs_exn _ _ _ _ (bytes_ok_slot data size k B) E).
      now rewrite IH by lia.
Qed.

Lemma file_records_spec data size t p b : fits data -> parser_of data size t p ->
  file_records p b =
  (map (fun kf => mk_fr (snd kf) (children_in t (number_in (fst kf) (snd kf)) (effective_sequence (snd kf))))
       (filter (fun kf => yielded b (snd kf)) (table data size)), Done).
Proof.
  intros F HP. pose proof HP as (B & Hz & Hd & Hm & _).
  assert (Hs : 0 < size) by (destruct Hz; lia).
  unfold file_records, table. replace 0 with (0 * size) at 1 by lia.
  rewrite (file_records_loop_spec data size t p b (Z.to_nat (zlen data / size - 0)) F HP);
    [now rewrite Z.sub_0_r|lia|reflexivity|rewrite Hd; apply fuel_enough; auto].
Qed.

Lemma record_at_spec data size t p n seq fr : fits data -> parser_of data size t p ->
  record_at t data size n seq fr <->
  exists f, segment_at data size n f /\ h_is_base (frs_data f) = true /\ seq_mismatch f seq = false /\
    with_children p f = Ok fr.
Proof.
  intros F HP. pose proof HP as (B & _). unfold record_at. split.
  - intros (f & s & H & Hb & Hl & Hq & ->). exists f.
    destruct (segment_at_bytes _ _ _ _ B H) as [Bf _].
    apply last_sequence_iff in Hl; auto. subst s.
    rewrite (with_children_spec _ _ _ _ _ _ F HP H).
    split; auto. split; [now apply h_is_base_spec|]. split; auto.
    destruct Hq as [->| ->]; cbn [seq_mismatch]; auto. rewrite Z.eqb_refl; reflexivity.
  - intros (f & H & Hb & Hq & Hw). exists f, (effective_sequence f).
    destruct (segment_at_bytes _ _ _ _ B H) as [Bf _].
    rewrite (with_children_spec _ _ _ _ _ _ F HP H) in Hw. injection Hw as <-.
    split; auto. split; [now apply h_is_base_spec|]. split; [now apply last_sequence_iff|].
    split; auto. destruct seq as [s|]; auto. right. cbn [seq_mismatch] in Hq.
    bools. now rewrite Hq.
Qed.

Lemma by_number_base_iff data size t p n seq fr : fits data -> parser_of data size t p -> 0 <= n ->
  by_number_base p n seq = Ok fr <-> record_at t data size n seq fr.
Proof.
  intros F HP Hn. rewrite (record_at_spec _ _ _ _ _ _ _ F HP). unfold by_number_base. split.
  - intro H. apply bind_ok in H as [f [H1 H2]].
    apply (frs_by_number_iff _ _ _ _ _ _ HP Hn) in H1.
    exists f. destruct (h_is_base (frs_data f)); [|discriminate].
    destruct (seq_mismatch f seq); [discriminate|]. auto.
  - intros (f & H1 & H2 & H3 & H4).
    rewrite (proj2 (frs_by_number_iff _ _ _ _ _ _ HP Hn) H1). cbn [bind].
    now rewrite H2, H3.
Qed.

Lemma by_number_false p n seq : by_number p n seq false = by_number_base p n seq.
Proof. reflexivity. Qed.

Lemma with_children_err data size t p n f e : fits data -> parser_of data size t p ->
  segment_at data size n f -> with_children p f = Err e -> False.
Proof. intros F HP H. rewrite (with_children_spec _ _ _ _ _ _ F HP H). discriminate. Qed.

Lemma by_number_base_err data size t p n seq e : fits data -> parser_of data size t p -> 0 <= n ->
  by_number_base p n seq = Err e -> is_mft_exn e = true.
Proof.
  intros F HP Hn. unfold by_number_base.
  destruct (frs_by_number p n) as [f|e'] eqn:E; cbn [bind].
  - apply (frs_by_number_iff _ _ _ _ _ _ HP Hn) in E.
    ifs; intro H; try (injection H as <-; reflexivity).
    exfalso; eapply with_children_err; eauto.
  - intro H; injection H as <-. eapply frs_by_number_err; eauto.
Qed.

Lemma decode_ref_bounds r : 0 <= r -> 0 <= fst (decode_ref r) < 2 ^ 48 /\
  fst (decode_ref r) = r mod 2 ^ 48 /\ snd (decode_ref r) = r / 2 ^ 48.
Proof. intro H. rewrite decode_ref_value by auto. cbn [fst snd]. lia. Qed.

Lemma table_fun data size t p n f g : parser_of data size t p ->
  In (n, f) t -> segment_at data size n g -> f = g.
Proof.
  intros HP Hi [_ Hg]. pose proof (table_segments _ _ _ _ HP) as HT.
  rewrite Forall_forall in HT. specialize (HT _ Hi). cbn [fst snd] in HT.
  destruct HT as [_ HT]. congruence.
Qed.

Lemma parent_cached data size t p n f : parser_of data size t p -> segment_at data size n f ->
  h_is_base (frs_data f) = false ->
  parent_in_cache (m_cache p) n = if in_dec Z.eq_dec n (map fst t) then Some (base_reference f) else None.
Proof.
  intros HP Hn Hb. pose proof HP as (B & Hs & _ & _ & Hc & _). rewrite Hc.
  pose proof (parent_in_cache_spec (cache_of t []) n) as HS.
  destruct (parent_in_cache (cache_of t []) n) as [r|].
  - destruct HS as [v [H1 H2]].
    destruct (cache_entry_of _ _ _ _ _ H1 H2) as [[g [G1 [G2 G3]]]|[v' [[] _]]].
    pose proof (table_fun _ _ _ _ _ _ _ HP G1 Hn); subst g.
    destruct (in_dec Z.eq_dec n (map fst t)) as [_|N].
    + f_equal. symmetry; exact G3.
    + exfalso; apply N. change n with (fst (n, f)). now apply in_map.
  - destruct (in_dec Z.eq_dec n (map fst t)) as [N|]; auto. exfalso.
    apply in_map_iff in N as [[n' g] [E N]]. cbn [fst] in E; subst n'.
    pose proof (table_fun _ _ _ _ _ _ _ HP N Hn); subst g.
    assert (K : In n (children_ks t (base_reference f))).
    { unfold children_ks. change n with (fst (n, f)). apply in_map. apply filter_In.
      split; auto. cbn [snd]. rewrite Hb. cbn [negb andb]. apply Z.eqb_refl. }
    pose proof (cache_get_of t [] (base_reference f)) as G. cbn [cache_get] in G.
    destruct (children_ks t (base_reference f)) as [|x l] eqn:Ek; [contradiction|].
    apply cache_get_In in G. exact (HS _ _ G K).
Qed.

Lemma by_number_true_iff data size t p n seq fr : fits data -> parser_of data size t p -> 0 <= n ->
  by_number p n seq true = Ok fr <->
  record_at t data size n seq fr \/
  exists f s, segment_at data size n f /\ ~ is_base f /\ last_sequence f s /\
    (seq = None \/ seq = Some s) /\ In (n, f) t /\
    record_at t data size (base_reference f mod 2 ^ 48) (Some (base_reference f / 2 ^ 48)) fr.
Proof.
  intros F HP Hn. pose proof HP as (B & _).
  assert (Q : forall f s, s = effective_sequence f ->
            (seq_mismatch f seq = false <-> seq = None \/ seq = Some s)).
  { intros f s ->. destruct seq as [q|]; cbn [seq_mismatch].
    - split; [intro H; right; bools; congruence|intros [H|H]; [discriminate|injection H as ->; now rewrite Z.eqb_refl]].
    - tauto. }
  unfold by_number.
  destruct (frs_by_number p n) as [f|e] eqn:E; cbn [bind].
  2:{ split; [discriminate|]. intros [(f & s & H & _)|(f & s & H & _)];
      apply (frs_by_number_iff _ _ _ _ _ _ HP Hn) in H; congruence. }
  apply (frs_by_number_iff _ _ _ _ _ _ HP Hn) in E.
  assert (U : forall g, segment_at data size n g -> g = f).
  { intros g [_ Hg]; destruct E as [_ E]; congruence. }
  destruct (segment_at_bytes _ _ _ _ B E) as [Bf _].
  destruct (h_is_base (frs_data f)) eqn:Eb.
  - rewrite (record_at_spec _ _ _ _ _ _ _ F HP). split.
    + destruct (seq_mismatch f seq) eqn:Eq; [discriminate|]. intro H; left; eauto.
    + intros [(g & H & _ & H3 & H4)|(g & s & H & H2 & _)]; rewrite (U _ H) in *.
      * now rewrite H3.
      * apply h_is_base_spec in Eb; contradiction.
  - split.
    + destruct (seq_mismatch f seq) eqn:Eq; [discriminate|].
      rewrite (parent_cached _ _ _ _ _ _ HP E Eb).
      destruct (in_dec Z.eq_dec n (map fst t)) as [N|]; [|discriminate].
      intro H. pose proof (fld_nonneg 8 (frs_data f) 32 Bf) as Hr. fold (base_reference f) in Hr.
      destruct (decode_ref_bounds _ Hr) as [D1 [D2 D3]].
      apply (by_number_base_iff _ _ _ _ _ _ _ F HP) in H; [|lia].
      rewrite D2, D3 in H. right. exists f, (effective_sequence f).
      split; auto. split; [rewrite <- h_is_base_spec; congruence|].
      split; [now apply last_sequence_iff|]. split; [now apply (Q f)|]. split; auto.
      apply in_map_iff in N as [[n' g] [E' N]]. cbn [fst] in E'; subst n'.
      now rewrite <- (table_fun _ _ _ _ _ _ _ HP N E).
    + intros [H|(g & s & H & H2 & H3 & H4 & H5 & H6)].
      * apply (record_at_spec _ _ _ _ _ _ _ F HP) in H as (g & H & H2 & _).
        rewrite (U _ H) in H2. congruence.
      * rewrite (U _ H) in *. clear g U H.
        apply last_sequence_iff in H3; auto. apply (Q f s H3) in H4. rewrite H4.
        rewrite (parent_cached _ _ _ _ _ _ HP E Eb).
        destruct (in_dec Z.eq_dec n (map fst t)) as [_|N].
        2:{ exfalso; apply N. change n with (fst (n, f)). now apply in_map. }
        pose proof (fld_nonneg 8 (frs_data f) 32 Bf) as Hr. fold (base_reference f) in Hr.
        destruct (decode_ref_bounds _ Hr) as [D1 [D2 D3]].
        apply (by_number_base_iff _ _ _ _ _ _ _ F HP); [lia|]. now rewrite D2, D3.
Qed.

Lemma by_number_err data size t p n seq a e : fits data -> parser_of data size t p -> 0 <= n ->
  by_number p n seq a = Err e -> is_mft_exn e = true.
Proof.
  intros F HP Hn. pose proof HP as (B & _). unfold by_number.
  destruct (frs_by_number p n) as [f|e'] eqn:E; cbn [bind].
  2:{ intro H; injection H as <-. eapply frs_by_number_err; eauto. }
  apply (frs_by_number_iff _ _ _ _ _ _ HP Hn) in E.
  destruct (segment_at_bytes _ _ _ _ B E) as [Bf _].
  destruct (h_is_base (frs_data f)) eqn:Eb.
  - ifs; intro H; [injection H as <-; reflexivity|].
    exfalso; eapply with_children_err; eauto.
  - destruct a; [|intro H; injection H as <-; reflexivity].
    destruct (seq_mismatch f seq); [intro H; injection H as <-; reflexivity|].
    rewrite (parent_cached _ _ _ _ _ _ HP E Eb).
    destruct (in_dec Z.eq_dec n (map fst t)); [|intro H; injection H as <-; reflexivity].
    apply (by_number_base_err _ _ _ _ _ _ _ F HP).
    pose proof (fld_nonneg 8 (frs_data f) 32 Bf) as Hr. fold (base_reference f) in Hr.
    destruct (decode_ref_bounds _ Hr); lia.
Qed.

Lemma record_at_fun t data size n seq fr fr' : bytes_ok data ->
  record_at t data size n seq fr -> record_at t data size n seq fr' -> fr = fr'.
Proof.
  intros B (f & s & [H1 H] & _ & Hl & _ & ->) (f' & s' & [H1' H'] & _ & Hl' & _ & ->).
  rewrite H in H'; injection H' as <-.
  destruct (segment_at_bytes data size n f B (conj H1 H)) as [Bf _].
  apply last_sequence_iff in Hl, Hl'; auto. congruence.
Qed.

(** ** Statements for the property file *)


Lemma sorted_filter {A} (g : A -> bool) (h : A -> Z) l :
  StronglySorted Z.lt (map h l) -> StronglySorted Z.lt (map h (filter g l)).
Proof.
  induction l as [|x l IH]; cbn [map filter]; intro H; [constructor|].
  inversion H as [|? ? H1 H2]; subst. destruct (g x); auto. cbn [map]. constructor; auto.
  rewrite Forall_forall in *. intros y Hy. apply H2.
  apply in_map_iff in Hy as [z [<- Hz]]. apply in_map. now apply filter_In in Hz.
Qed.

Lemma file_records_char data size t p b : fits data -> parser_of data size t p ->
  exists items ks, file_records p b = (items, Done) /\ StronglySorted Z.lt ks /\
    Forall2 (fun k fr => record_at t data size k None fr) ks items /\
    forall k, In k ks <-> exists f, whole_slot data size k /\ segment_at data size k f /\
                            is_base f /\ (b = true -> in_use f).
Proof.
  intros F HP. pose proof HP as (B & Hz & _).
  rewrite (file_records_spec _ _ _ _ b F HP).
  set (l := filter (fun kf => yielded b (snd kf)) (table data size)).
  exists (map (fun kf => mk_fr (snd kf) (children_in t (number_in (fst kf) (snd kf)) (effective_sequence (snd kf)))) l),
         (map fst l).
  split; auto. split; [apply sorted_filter, segments_sorted|].
  assert (G : forall k f, In (k, f) l <-> whole_slot data size k /\ segment_at data size k f /\
                            is_base f /\ (b = true -> in_use f)).
  { intros k f. unfold l. rewrite filter_In, table_In by (destruct Hz; lia).
    cbn [snd]. unfold yielded. rewrite andb_true_iff, h_is_base_spec, orb_true_iff, h_in_use_spec.
    unfold whole_slot. destruct b; cbn [negb]; intuition congruence. }
  split.
  - assert (K : forall l', incl l' l -> Forall2 (fun k fr => record_at t data size k None fr) (map fst l')
       (map (fun kf => mk_fr (snd kf) (children_in t (number_in (fst kf) (snd kf)) (effective_sequence (snd kf)))) l')).
    { induction l' as [|[k f] l' IH]; intro I; cbn [map]; constructor.
      - cbn [fst snd]. destruct (proj1 (G k f) (I _ (or_introl eq_refl))) as (_ & H & Hb & _).
        exists f, (effective_sequence f). destruct (segment_at_bytes _ _ _ _ B H) as [Bf _].
        repeat (split; auto). now apply last_sequence_iff.
      - apply IH. intros x Hx; apply I; right; auto. }
    apply K, incl_refl.
  - intro k. rewrite in_map_iff. split.
    + intros [[k' f] [E H]]. cbn [fst] in E; subst. exists f. now apply G.
    + intros [f H]. exists (k, f). split; auto. now apply G.
Qed.

Lemma children_char data size num seq : bytes_ok data -> size_ok size ->
  exists js, StronglySorted Z.lt js /\
    Forall2 (fun j c => segment_at data size j c) js (children_in (table data size) num seq) /\
    forall j, In j js <-> exists c, whole_slot data size j /\ segment_at data size j c /\ ~ is_base c /\
      base_reference c mod 2 ^ 48 = num /\ base_reference c / 2 ^ 48 = seq.
Proof.
  intros B Hz. set (l := filter (fun kc => child_of num seq (snd kc)) (table data size)).
  exists (map fst l). split; [apply sorted_filter, segments_sorted|]. 
  assert (G : forall j c, In (j, c) l <-> whole_slot data size j /\ segment_at data size j c /\ ~ is_base c /\
      base_reference c mod 2 ^ 48 = num /\ base_reference c / 2 ^ 48 = seq).
  { intros j c. unfold l. rewrite filter_In, table_In by (destruct Hz; lia). cbn [snd].
    unfold child_of, is_base, whole_slot. rewrite !andb_true_iff, negb_true_iff, Z.eqb_neq, !Z.eqb_eq. tauto. }
  split.
  - unfold children_in. fold l.
    assert (K : forall l', incl l' l -> Forall2 (fun j c => segment_at data size j c) (map fst l') (map snd l')).
    { induction l' as [|[k f] l' IH]; intro I; cbn [map]; constructor.
      - cbn [fst snd]. apply (proj1 (G k f) (I _ (or_introl eq_refl))).
      - apply IH. intros x Hx; apply I; right; auto. }
    apply K, incl_refl.
  - intro j. rewrite in_map_iff. split.
    + intros [[k' f] [E H]]. cbn [fst] in E; subst. exists f. now apply G.
    + intros [f H]. exists (j, f). split; auto. now apply G.
Qed.
