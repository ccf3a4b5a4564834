(** Properties C04, C05, C06. *)
From Verif Require Import Base BaseLemmas MappingPairs MappingPairsSpec Frs FrsSpec FrsProofs.
Local Set Warnings "-abstract-large-number".

(** C04: what opening with update sequence processing does, for every buffer:
    it succeeds exactly when the header and the array are in range and no used
    sector is torn; the sector tails are then restored from the array. *)
Theorem C04_open_restores : forall raw sug f, bytes_ok raw ->
  frs_open raw true sug = Ok f ->
  used_intact raw /\
  (usa_off raw + 2 * usa_cnt raw <= 510 -> restored raw (frs_data f) (usa_off raw)) /\
  zlen (frs_data f) = zlen raw /\
  (forall p, 0 <= p < zlen raw -> p mod 512 < 510 -> znth (frs_data f) p = znth raw p).
Proof. exact C04_open_restores_lemma. Qed.
Print Assumptions C04_open_restores.

Theorem C04_torn_rejected : forall raw sug k, bytes_ok raw ->
  0 <= k -> 512 * (k + 1) <= zlen raw -> 512 * k < first_free_off raw ->
  ~ intact raw (usa_off raw) k ->
  exists e, frs_open raw true sug = Err e /\ exn_frs e.
Proof. exact C04_torn_rejected_lemma. Qed.
Print Assumptions C04_torn_rejected.

Theorem C04_protect_round_trip : forall rec usn sug,
  bytes_ok rec -> bytes_ok usn -> zlen usn = 2 ->
  header_ok rec -> usa_ok rec -> usa_off rec + 2 * usa_cnt rec <= 510 ->
  frs_open (protect rec usn) true sug =
  Ok (mk_frs (with_array rec usn) (usa_off rec) (usa_cnt rec) sug).
Proof. exact protect_round_trip. Qed.
Print Assumptions C04_protect_round_trip.

Theorem C04_overlapping_array_refuted : exists raw f,
  bytes_ok raw /\ frs_open raw true None = Ok f /\ used_intact raw /\
  znth (frs_data f) 1022 <> znth raw (usa_off raw + 2 * (1 + 1)).
Proof. exact C04_overlapping_array_refuted_lemma. Qed.
Print Assumptions C04_overlapping_array_refuted.

Example C04_case :
  bytes_ok sample_record /\ header_ok sample_record /\ usa_ok sample_record /\
  usa_off sample_record + 2 * usa_cnt sample_record <= 510 /\
  frs_open (protect sample_record [5; 6]) true (Some 7) =
    Ok (mk_frs (with_array sample_record [5; 6]) 48 3 (Some 7)) /\
  slice (protect sample_record [5; 6]) 508 512 = [0; 0; 5; 6] /\
  slice (with_array sample_record [5; 6]) 508 512 = [0; 0; 0xAA; 0xBB].
Proof.
  split; [apply bytes_okb_ok; vm_compute; reflexivity|].
  unfold header_ok, usa_ok, size_ok, signature_ok.
  repeat split; try (vm_compute; auto; discriminate).
Qed.

Example C04_torn_case :
  frs_open (put (protect sample_record [5; 6]) 510 [5; 7]) true None = Err FileRecordSegmentException.
Proof. vm_compute; reflexivity. Qed.

(** C05 *)
Theorem C05_accepted_iff : forall raw sug, bytes_ok raw ->
  (exists f, frs_open raw false sug = Ok f) <-> header_ok raw.
Proof. exact C05_accepted_iff_lemma. Qed.
Print Assumptions C05_accepted_iff.

Theorem C05_accepted_protected_iff : forall raw sug, bytes_ok raw ->
  (exists f, frs_open raw true sug = Ok f) <-> header_ok raw /\ usa_ok raw /\ used_intact raw.
Proof. exact C05_accepted_protected_iff_lemma. Qed.
Print Assumptions C05_accepted_protected_iff.

Theorem C05_only_file_record_exceptions : forall raw apply sug e, bytes_ok raw ->
  frs_open raw apply sug = Err e -> exn_frs e.
Proof. exact C05_only_file_record_exceptions_lemma. Qed.
Print Assumptions C05_only_file_record_exceptions.

Example C05_case : exists f, frs_open sample_record false None = Ok f.
Proof. apply C05_accepted_iff; apply C04_case. Qed.

(** C06: the enumeration yields exactly the chain of attribute records that
    starts at the first-attribute offset, and stops at the first-free offset, at
    the end marker, or - with an attribute exception - at the first place
    where there is neither a well-formed record nor the end marker. *)
Theorem C06_attributes : forall raw apply sug f, bytes_ok raw -> frs_open raw apply sug = Ok f ->
  let d := frs_data f in let ff := first_free_off d in let r := frs_attributes f in
  zlen d = zlen raw /\ 0 <= ff <= zlen d /\
  exists e, attr_seq d ff shows (first_attr_off d) (ar_items r) e /\ first_attr_off d <= e /\
    match ar_status r with
    | Done => (ff <= e /\ ar_real_size r = None) \/
              (e < ff /\ end_at d e /\ ar_real_size r = Some (e + 4))
    | Raised x => e < ff /\ exn_attr x /\ ~ end_at d e /\
        (forall len ty name c a, attr_at d ff e len ty name c -> ~ shows a ty name c)
    end.
Proof. exact frs_attributes_spec. Qed.
Print Assumptions C06_attributes.

Theorem C06_records_increasing_inside : forall (A : Type) d ff P pos (l : list A) e,
  attr_seq d ff P pos l e -> pos <= ff -> pos + 8 * zlen l <= e <= ff.
Proof. exact @attr_seq_bounds. Qed.
Print Assumptions C06_records_increasing_inside.

Theorem C06_record_inside : forall d ff pos len ty name c,
  bytes_ok d -> 0 <= pos -> attr_at d ff pos len ty name c ->
  pos + len <= ff /\
  match name with None => fld 1 d (pos + 9) = 0 | Some n => zlen n = 2 * fld 1 d (pos + 9) end /\
  match c with
  | inl v => zlen v = fld 4 d (pos + 16) /\
      exists o, pos + 24 <= o /\ o + zlen v <= pos + len /\ v = slice d o (o + zlen v)
  | inr (mp, (lo, hi), size) => lo <= hi /\ 0 <= size /\
      exists o, pos + 64 <= o < pos + len /\ mp = slice d o (pos + len)
  end.
Proof. exact attr_at_inside. Qed.
Print Assumptions C06_record_inside.

Example C06_case : exists f, frs_open sample_record false None = Ok f /\
  ar_items (frs_attributes f) =
    [Resident 0x10 None [1; 2; 3; 4]; Resident 0x80 (Some [65; 66]) [7; 8; 9];
     Nonresident 0x80 None (Some [0x11; 5; 100; 0; 0; 0; 0; 0]) [(Some 100, 5)] 0 4 0x4FFF] /\
  ar_status (frs_attributes f) = Done /\ ar_real_size (frs_attributes f) = Some 204.
Proof. eexists; split; [vm_compute; reflexivity|]. vm_compute; auto. Qed.

(** The third record shortened to overlap its neighbour's bounds is refused. *)
Example C06_case_error : exists f, frs_open (put sample_record 128 [0x80; 0; 0; 0; 96; 0; 0; 0]) false None = Ok f /\
  ar_status (frs_attributes f) = Raised AttributeException /\ zlen (ar_items (frs_attributes f)) = 2.
Proof. eexists; split; [vm_compute; reflexivity|]. vm_compute; auto. Qed.
