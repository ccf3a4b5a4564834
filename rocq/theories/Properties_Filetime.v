(** Properties C16, C17. *)
From Verif Require Import Base BaseLemmas Filetime FiletimeProofs.
From Coq Require Import Lia.
Local Set Warnings "-abstract-large-number".

(** C16: which values are decoded, for every unsigned value. *)
Theorem C16_filetime_range : forall t b, 0 <= t ->
  (t < 2650467743999999840 -> exists us, decode_filetime t b = Ok (Some us) /\ 0 <= us) /\
  (2650467743999999840 <= t -> decode_filetime t b = if b then Ok None else Err OverflowError).
Proof.
  intros t b Ht. unfold decode_filetime.
  rewrite (decode_time_threshold ordinal_1601 2650467743999999840) by (auto; vm_compute; split; congruence).
  destruct (Z.ltb_spec t 2650467743999999840); split; intro; try lia; eauto using us_of_nonneg.
Qed.
Print Assumptions C16_filetime_range.

Theorem C16_guid_time_range : forall t b, 0 <= t ->
  (t < 2656215935999999840 -> exists us, decode_guid_time t b = Ok (Some us) /\ 0 <= us) /\
  (2656215935999999840 <= t -> decode_guid_time t b = if b then Ok None else Err OverflowError).
Proof.
  intros t b Ht. unfold decode_guid_time.
  rewrite (decode_time_threshold ordinal_1582 2656215935999999840) by (auto; vm_compute; split; congruence).
  destruct (Z.ltb_spec t 2656215935999999840); split; intro; try lia; eauto using us_of_nonneg.
Qed.
Print Assumptions C16_guid_time_range.

Lemma decode_some epoch t b us : decode_time epoch t b = Ok (Some us) -> us = us_of t.
Proof. unfold decode_time, us_of. destruct (_ <? _); [congruence|destruct b; discriminate]. Qed.

(** The order of timestamps is kept. *)
Theorem C16_order : forall epoch s t b us_s us_t, 0 <= s <= t ->
  decode_time epoch s b = Ok (Some us_s) -> decode_time epoch t b = Ok (Some us_t) -> us_s <= us_t.
Proof.
  intros epoch s t b us_s us_t H Hs Ht. apply decode_some in Hs, Ht. subst. now apply us_of_mono.
Qed.
Print Assumptions C16_order.

Theorem C16_earlier_decodes : forall epoch s t b us_t, 0 <= s <= t ->
  decode_time epoch t b = Ok (Some us_t) -> exists us_s, decode_time epoch s b = Ok (Some us_s).
Proof.
  intros epoch s t b us_t H. unfold decode_time. fold (us_of s). fold (us_of t).
  pose proof (us_of_mono s t H). intro K.
  destruct (Z.ltb_spec (us_of t) ((ordinal_max + 1 - epoch) * us_per_day)); [|destruct b; discriminate].
  replace (us_of s <? (ordinal_max + 1 - epoch) * us_per_day) with true by (symmetry; apply Z.ltb_lt; lia). eauto.
Qed.
Print Assumptions C16_earlier_decodes.

(** Distance to the exact value, in tenths of a microsecond: half a unit in the
    last place of a double below 2^k, plus half a microsecond. *)
Theorem C16_error : forall epoch t b us k, 0 <= t -> 0 <= k -> t < 10 * 2 ^ k ->
  decode_time epoch t b = Ok (Some us) ->
  2 ^ 54 * Z.abs (10 * us - t) <= 10 * (2 ^ 53 + 2 ^ k).
Proof. intros epoch t b us k Ht Hk Hb H. apply decode_some in H. subst. now apply us_of_error. Qed.
Print Assumptions C16_error.

(** At most one microsecond before 10 * 2^54 (November 2171 for FILETIME). *)
Theorem C16_within_one_microsecond : forall epoch t b us, 0 <= t < 10 * 2 ^ 54 ->
  decode_time epoch t b = Ok (Some us) -> Z.abs (10 * us - t) <= 10.
Proof. intros epoch t b us Ht H. apply decode_some in H. subst. now apply us_of_within_one. Qed.
Print Assumptions C16_within_one_microsecond.

(** Exact for whole microseconds below 2^53 (June 1886). *)
Theorem C16_exact_before_1886 : forall u b, 0 <= u < 2 ^ 53 -> decode_filetime (10 * u) b = Ok (Some u).
Proof.
  intros u b H. destruct (C16_filetime_range (10 * u) b ltac:(lia)) as [[us [E _]] _]; [lia|].
  rewrite E. apply decode_some in E. now rewrite us_of_exact in E by auto; subst.
Qed.
Print Assumptions C16_exact_before_1886.

Example C16_case : decode_filetime 132223104000000000 true = Ok (Some 13222310400000000) /\
  decode_filetime 0 true = Ok (Some 0) /\ decode_filetime (2 ^ 64 - 1) true = Ok None /\
  decode_filetime (2 ^ 64 - 1) false = Err OverflowError /\
  decode_filetime 132223104000000019 true = Ok (Some 13222310400000002).
Proof. vm_compute; repeat split; reflexivity. Qed.

(** C17 is false: 2020-01-01T00:00:00.000001 decodes to midnight. *)
Theorem C17_exact_microseconds_refuted : exists t us, 0 <= t < 2 ^ 64 /\
  decode_filetime t true = Ok (Some us) /\ t mod 10 = 0 /\ 10 * us <> t.
Proof. exists 132223104000000010, 13222310400000000. repeat split; vm_compute; congruence. Qed.
Print Assumptions C17_exact_microseconds_refuted.

(** Every odd microsecond is lost from June 1886 to November 2171. *)
Theorem C17_odd_microseconds_lost_refuted : forall t b us, 10 * 2 ^ 53 <= t < 10 * 2 ^ 54 ->
  decode_filetime t b = Ok (Some us) -> Z.even us = true.
Proof. intros t b us Ht H. apply decode_some in H. subst. now apply us_of_even. Qed.
Print Assumptions C17_odd_microseconds_lost_refuted.
