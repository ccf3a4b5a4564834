(** Properties C01, C02, C03. *)
From Verif Require Import Base BaseLemmas MappingPairs MappingPairsSpec MappingPairsProofs.
Local Set Warnings "-abstract-large-number".

(** C01: decode inverts encode, encode inverts decode, and the encoding is the
    documented layout (sequence number in the top 16 of 64 bits). *)
Theorem C01_decode_of_encode : forall number sequence,
  0 <= number < 2 ^ 48 -> 0 <= sequence < 2 ^ 16 ->
  encode_ref number sequence = sequence * 2 ^ 48 + number /\
  0 <= encode_ref number sequence < 2 ^ 64 /\
  decode_ref (encode_ref number sequence) = (number, sequence).
Proof. exact ref_decode_of_encode. Qed.
Print Assumptions C01_decode_of_encode.

Theorem C01_encode_of_decode : forall reference,
  0 <= reference < 2 ^ 64 ->
  encode_ref (fst (decode_ref reference)) (snd (decode_ref reference)) = reference /\
  0 <= fst (decode_ref reference) < 2 ^ 48 /\ 0 <= snd (decode_ref reference) < 2 ^ 16.
Proof. exact ref_encode_of_decode. Qed.
Print Assumptions C01_encode_of_decode.

Theorem C01_no_collision : forall n s n' s',
  0 <= n < 2 ^ 48 -> 0 <= s < 2 ^ 16 -> 0 <= n' < 2 ^ 48 -> 0 <= s' < 2 ^ 16 ->
  encode_ref n s = encode_ref n' s' -> n = n' /\ s = s'.
Proof. exact ref_no_collision. Qed.
Print Assumptions C01_no_collision.

Example C01_case : decode_ref (encode_ref 0x123456789A 0xBEEF) = (0x123456789A, 0xBEEF).
Proof. reflexivity. Qed.

(** C02: the decoder accepts exactly the grammar, with exactly those runs. *)
Theorem C02_decode_iff_grammar : forall bytes runs, bytes_ok bytes ->
  decode_mapping_pairs bytes = Ok runs <-> MP 0 true bytes runs.
Proof. exact decode_mapping_pairs_iff. Qed.
Print Assumptions C02_decode_iff_grammar.

Theorem C02_only_mapping_pairs_exception : forall bytes e, bytes_ok bytes ->
  decode_mapping_pairs bytes = Err e -> e = MappingPairsException.
Proof. exact decode_mapping_pairs_err. Qed.
Print Assumptions C02_only_mapping_pairs_exception.

Theorem C02_round_trip : forall runs, runs_ok 0 true runs ->
  decode_mapping_pairs (mp_encode 0 runs) = Ok runs.
Proof. exact mp_round_trip. Qed.
Print Assumptions C02_round_trip.

Theorem C02_lengths_positive : forall bytes runs, bytes_ok bytes ->
  decode_mapping_pairs bytes = Ok runs -> Forall (fun r => 0 < snd r) runs.
Proof. exact decode_lengths_positive. Qed.
Print Assumptions C02_lengths_positive.

(** A real run list: 0x38 clusters at 0x342573, then 0x114 clusters lower, then
    a hole, and trailing bytes after the terminator. *)
Example C02_case : decode_mapping_pairs [0x31; 0x38; 0x73; 0x25; 0x34; 0x22; 0x14; 0x01; 0xF5; 0xFF; 0x01; 0x08; 0; 0x55]
  = Ok [(Some 0x342573, 0x38); (Some 0x342568, 0x114); (None, 8)].
Proof. reflexivity. Qed.

Example C02_case_round_trip : runs_ok 0 true [(Some 0, 16); (None, 3); (Some 77, 1); (Some 12, 5)].
Proof. cbn; repeat split; try lia; auto. Qed.

Example C02_case_rejects :
  decode_mapping_pairs [0x11; 0x01; 0x05; 0x11; 0x01; 0xFB; 0] = Err MappingPairsException
  /\ decode_mapping_pairs [0x11; 0x01] = Err MappingPairsException
  /\ decode_mapping_pairs [0x11; 0x01; 0x05] = Err MappingPairsException
  /\ decode_mapping_pairs [0x11; 0x80; 0x05; 0] = Err MappingPairsException.
Proof. repeat split; reflexivity. Qed.

(** C03 is false: a run may be placed before the start of the volume. *)
Theorem C03_negative_lcn_refuted : exists bytes runs o n,
  bytes_ok bytes /\ decode_mapping_pairs bytes = Ok runs /\ In (Some o, n) runs /\ o < 0.
Proof. exact negative_lcn_witness. Qed.
Print Assumptions C03_negative_lcn_refuted.
