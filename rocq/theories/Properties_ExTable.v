(** Properties of exFAT tables and allocation bitmaps (C33, C34, C60). *)
From Verif Require Import Base BaseLemmas FieldLemmas FatSpec FatProofs ExTable ExTableSpec ExTableProofs.

(** ** C34: entries *)

(** Tables are opened exactly with a sector-aligned offset and a positive whole number of sectors. *)
Theorem C33_exfat_open data off size last f : 0 <= off ->
  (xfat_open data off size last = Ok f <->
   f = mk_xfat data off size last /\ off mod 512 = 0 /\ size mod 512 = 0 /\ 0 < size).
Proof.
  intro Ho. unfold xfat_open. destruct ((0 <? off) && negb (off mod 512 =? 0)) eqn:E1; bools.
  { split; [discriminate|lia]. }
  destruct ((size <? 512) || negb (size mod 512 =? 0)) eqn:E2; bools.
  { split; [discriminate|lia]. }
  split.
  - intro X. injection X as <-. repeat split; lia.
  - intros (-> & _). reflexivity.
Qed.

(** Reading entry [n] gives bits [32 n .. 32 n + 31] of the table. *)
Theorem C34_exfat_entry f n v : xfat_ok f -> 0 <= n ->
  (x_get_element f n = Ok v <-> has_entry 32 (xtable f) (xf_last f) n /\ v = packed_entry 32 (xtable f) n).
Proof. apply x_get_element_iff. Qed.

Theorem C34_exfat_out_of_range f n e : xfat_ok f -> 0 <= n -> x_get_element f n = Err e ->
  e = FileAllocationTableException /\ ~ has_entry 32 (xtable f) (xf_last f) n.
Proof.
  intros F Hn E. split.
  - rewrite x_get_element_spec in E by auto. destruct (xentryb f n); congruence.
  - intro H. assert (X : x_get_element f n = Ok (packed_entry 32 (xtable f) n)) by (apply x_get_element_iff; auto). congruence.
Qed.

Theorem C34_exfat_round_trip vals pre post size last n v :
  size >= 4 * zlen vals -> 0 <= size -> bytes_ok pre -> bytes_ok post -> zlen vals <= last + 1 -> znth vals n = Some v ->
  x_get_element (mk_xfat (pre ++ le_bytes (Z.to_nat size) (table_number 32 vals) ++ post) (zlen pre) size last) n =
  Ok (v mod 2 ^ 32).
Proof.
  intros S S0 Bp Bq L V. pose proof (znth_Some_range _ _ _ V) as R. pose proof (zlen_nonneg pre) as Lp.
  set (f := mk_xfat _ _ _ _).
  assert (F : xfat_ok f).
  { repeat split; cbn [f xf_off xf_size xf_data]; auto. apply bytes_ok_app. split; auto. apply bytes_ok_app. split; auto. apply le_bytes_ok. }
  assert (T : xtable f = le_bytes (Z.to_nat size) (table_number 32 vals)).
  { unfold xtable. cbn [f xf_data xf_off xf_size]. apply slice_app_mid; auto. rewrite le_bytes_len. lia. }
  apply x_get_element_iff; auto; [lia|]. cbn [f xf_last]. fold f. rewrite T.
  split.
  - unfold has_entry. rewrite le_bytes_len. lia.
  - assert (VAL : le_val (le_bytes (Z.to_nat size) (table_number 32 vals)) = table_number 32 vals).
    { apply le_val_le_bytes. split; [apply table_number_nonneg; lia|].
      eapply Z.lt_le_trans; [apply table_number_bound; lia|]. rewrite pow256 by lia. apply Z.pow_le_mono_r; lia. }
    unfold packed_entry. rewrite VAL. symmetry. apply table_number_entry; [lia|exact V].
Qed.

(** ** C33: chains *)

Theorem C33_exfat_chain_iff f first l : xfat_ok f -> 2 <= first -> first <> x_bad ->
  (x_chain f first = Ok l <-> xchain_from (xtable f) (xf_last f) [] first l).
Proof. apply x_chain_iff. Qed.

(** The first cluster 0 or 1 means an empty chain; a bad first cluster is refused. *)
Theorem C33_exfat_reserved f : x_chain f 0 = Ok [] /\ x_chain f 1 = Ok [] /\ x_chain f x_bad = Err FileAllocationTableException.
Proof. repeat split. Qed.

Theorem C33_exfat_terminates f first : xfat_ok f -> 0 <= first ->
  (exists l, x_chain f first = Ok l) \/ x_chain f first = Err FileAllocationTableException.
Proof.
  intros F H. pose proof (x_chain_total f first F H). destruct (x_chain f first); [eauto|]. right. congruence.
Qed.

Theorem C33_exfat_distinct_and_valid f first l : xfat_ok f -> 2 <= first -> x_chain f first = Ok l ->
  (exists r, l = Some first :: r) /\ NoDup (somes l) /\
  forall c, In c (somes l) -> has_entry 32 (xtable f) (xf_last f) c.
Proof.
  intros F H E. pose proof (x_chain_not_bad f first l H E) as NB.
  apply x_chain_iff in E; auto. split.
  - inversion E; subst; eauto.
  - split; [eapply xchain_nodup; eauto|]. intros c C. eapply xchain_in_range; eauto.
Qed.

Theorem C33_exfat_successors f first l p a b q : xfat_ok f -> 2 <= first -> x_chain f first = Ok l -> l = p ++ a :: b :: q ->
  exists x, a = Some x /\
    match b with
    | Some y => packed_entry 32 (xtable f) x = y
    | None => packed_entry 32 (xtable f) x = x_bad /\ q = []
    end.
Proof.
  intros F H E EL. pose proof (x_chain_not_bad f first l H E) as NB.
  apply x_chain_iff in E; auto. eapply xchain_links; eauto.
Qed.

Theorem C33_exfat_end f first l p x : xfat_ok f -> 2 <= first -> x_chain f first = Ok l -> l = p ++ [Some x] ->
  packed_entry 32 (xtable f) x < 2 \/ packed_entry 32 (xtable f) x = x_end \/
  In (packed_entry 32 (xtable f) x) (somes l).
Proof.
  intros F H E EL. pose proof (x_chain_not_bad f first l H E) as NB.
  apply x_chain_iff in E; auto. eapply (xchain_end _ _ [] _ _ E); eauto.
Qed.

Theorem C33_exfat_written_chain f c l : xfat_ok f -> 2 <= c -> c <> x_bad -> xlinked (xtable f) (xf_last f) (c :: l) -> NoDup (c :: l) ->
  x_chain f c = Ok (map Some (c :: l)).
Proof. intros F H NB L ND. apply x_chain_iff; auto. apply xlinked_chain; auto. Qed.

Print Assumptions C33_exfat_open.
Print Assumptions C34_exfat_entry.
Print Assumptions C34_exfat_out_of_range.
Print Assumptions C34_exfat_round_trip.
Print Assumptions C33_exfat_chain_iff.
Print Assumptions C33_exfat_reserved.
Print Assumptions C33_exfat_terminates.
Print Assumptions C33_exfat_distinct_and_valid.
Print Assumptions C33_exfat_successors.
Print Assumptions C33_exfat_end.
Print Assumptions C33_exfat_written_chain.

Definition exfat_of (vals : list Z) : xfat := mk_xfat (le_bytes 512 (table_number 32 vals)) 0 512 (zlen vals - 1).
Example C33_exfat_example_chain : x_chain (exfat_of [0xFFFFFFF8; 0xFFFFFFFF; 5; 0; 0xFFFFFFFF; 4]) 2 = Ok [Some 2; Some 5; Some 4].
Proof. vm_compute. reflexivity. Qed.
Example C33_exfat_example_loop : x_chain (exfat_of [0xFFFFFFF8; 0xFFFFFFFF; 5; 0; 2; 4]) 2 = Ok [Some 2; Some 5; Some 4].
Proof. vm_compute. reflexivity. Qed.
Example C33_exfat_example_bad : x_chain (exfat_of [0xFFFFFFF8; 0xFFFFFFFF; 3; 0xFFFFFFF7]) 2 = Ok [Some 2; Some 3; None].
Proof. vm_compute. reflexivity. Qed.
(** Unlike FAT32, the values 0xFFFFFFF8 to 0xFFFFFFFE are not marks but clusters out of range. *)
Example C33_exfat_example_range : x_chain (exfat_of [0xFFFFFFF8; 0xFFFFFFFF; 3; 0xFFFFFFF8]) 2 = Err FileAllocationTableException.
Proof. vm_compute. reflexivity. Qed.

(** ** C60: the allocation bitmap *)

(** The state of a cluster of the volume is its bit of the bitmap; nothing else has a state. *)
Theorem C60_state buf last c : bytes_ok buf ->
  x_is_allocated buf last c =
    if (2 <=? c) && (c <=? last) then
      if c - 2 <? 8 * zlen buf then Ok (Some (bit_of_cluster buf c)) else Err IndexError
    else Ok None.
Proof. apply x_is_allocated_spec. Qed.

(** A bitmap written from a list of states is read back; the padding after it does not matter. *)
Theorem C60_round_trip bits k pad last c b : zlen bits <= 8 * k -> bytes_ok pad -> 
  znth bits (c - 2) = Some b -> c <= last ->
  x_is_allocated (le_bytes (Z.to_nat k) (bitmap_number bits) ++ pad) last c = Ok (Some b).
Proof.
  intros L B E HL. pose proof (znth_Some_range _ _ _ E) as R. pose proof (zlen_nonneg pad).
  rewrite x_is_allocated_spec by (apply bytes_ok_app; split; [apply le_bytes_ok|auto]).
  replace (_ && _) with true by lia. rewrite zlen_app, le_bytes_len. rewrite Z2Nat.id by lia.
  replace (c - 2 <? 8 * (k + zlen pad)) with true by lia. do 2 f_equal. unfold bit_of_cluster.
  rewrite le_val_app, le_bytes_len. rewrite le_val_le_bytes.
  2:{ pose proof (bitmap_number_bound bits) as BB. split; [lia|]. eapply Z.lt_le_trans; [apply BB|].
      rewrite Z2Nat.id, pow256 by lia. apply Z.pow_le_mono_r; lia. }
  rewrite Z2Nat.id, pow256 by lia. rewrite <- (bitmap_number_bit bits (c - 2) b E).
  rewrite <- (Z.mod_pow2_bits_low _ (8 * k) (c - 2)) by lia.
  f_equal. rewrite Z.mul_comm, Z_mod_plus_full. apply Z.mod_small.
  pose proof (bitmap_number_bound bits) as BB. split; [lia|]. eapply Z.lt_le_trans; [apply BB|]. apply Z.pow_le_mono_r; lia.
Qed.

(** A bitmap that covers all clusters never fails. *)
Theorem C60_total buf last c : bytes_ok buf -> last - 1 <= 8 * zlen buf -> exists r, x_is_allocated buf last c = Ok r.
Proof.
  intros B L. rewrite x_is_allocated_spec by auto. destruct ((2 <=? c) && (c <=? last)) eqn:E; bools; [|eauto].
  replace (c - 2 <? 8 * zlen buf) with true by lia. eauto.
Qed.

(** A bitmap shorter than the volume gives an IndexError, not an exception of the module. *)
Theorem C60_short_refuted : exists buf last c, bytes_ok buf /\ 2 <= c <= last /\ x_is_allocated buf last c = Err IndexError.
Proof. exists [0xFF], 100, 10. repeat split; try lia. now apply bytes_okb_ok. Qed.

Print Assumptions C60_state.
Print Assumptions C60_round_trip.
Print Assumptions C60_total.
Print Assumptions C60_short_refuted.

Example C60_example : map (x_is_allocated [0x05; 0x80] 17) [1; 2; 3; 4; 16; 17; 18] =
  [Ok None; Ok (Some true); Ok (Some false); Ok (Some true); Ok (Some false); Ok (Some true); Ok None].
Proof. vm_compute. reflexivity. Qed.
