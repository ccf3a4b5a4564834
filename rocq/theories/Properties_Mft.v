(** Properties C11 to C15. *)
From Verif Require Import Base BaseLemmas MappingPairs MappingPairsSpec Frs FrsSpec FrsProofs
  Sorting FileRecord FileRecordSpec FileRecordProofs Mft MftSpec MftProofs MftPathProofs MftSamples.
From Coq Require Import Sorted.
Local Set Warnings "-abstract-large-number".

(** The segments known as possible children: those of all whole slots when the
    first pass was made, else none. *)
Definition known (data : list Z) (first_pass : bool) : list (Z * frs) :=
  if first_pass then table data (fld 4 data 28) else [].

(** Which files are accepted. *)
Theorem C11_open : forall data b, bytes_ok data ->
  (exists p, mft_open data b = Ok p) <->
  slice data 0 4 = [70; 73; 76; 69] /\ 32 <= zlen data /\ size_ok (fld 4 data 28) /\
  supported_volume data (fld 4 data 28).
Proof. exact mft_open_iff. Qed.
Print Assumptions C11_open.

(** C11: one record per slot with a valid (in-use) base segment, by position. *)
Theorem C11_file_records : forall data b p only, bytes_ok data -> fits data -> mft_open data b = Ok p ->
  exists items ks, file_records p only = (items, Done) /\ StronglySorted Z.lt ks /\
    Forall2 (fun k fr => record_at (known data b) data (fld 4 data 28) k None fr) ks items /\
    forall k, In k ks <-> exists f, whole_slot data (fld 4 data 28) k /\ segment_at data (fld 4 data 28) k f /\
                            is_base f /\ (only = true -> in_use f).
Proof.
  intros data b p only B F H. destruct (mft_open_spec _ _ _ B H) as [HP _].
  exact (file_records_char _ _ _ _ only F HP).
Qed.
Print Assumptions C11_file_records.

(** The children attached: every valid non-base segment of a whole slot that
    refers to that number and sequence number, by position. *)
Theorem C11_children : forall data size num seq, bytes_ok data -> size_ok size ->
  exists js, StronglySorted Z.lt js /\
    Forall2 (fun j c => segment_at data size j c) js (children_in (table data size) num seq) /\
    forall j, In j js <-> exists c, whole_slot data size j /\ segment_at data size j c /\ ~ is_base c /\
      base_reference c mod 2 ^ 48 = num /\ base_reference c / 2 ^ 48 = seq.
Proof. exact children_char. Qed.
Print Assumptions C11_children.

Example C11_case :
  let data := sample_table 1024 2 (mk_record 1024 9 1 1 (8 + 2 ^ 48) (mk_attr 0x30 (mk_name 5 5 3 [121]))) in
  bytes_okb data = true /\
  (let! p := mft_open data true in
   Ok (m_stats p, map (fun fr => (frs_mft_number (fr_base fr), map frs_mft_number (fr_children fr))) (fst (file_records p true)))) =
  Ok (Some (7, 1), [(Some 0, []); (Some 3, []); (Some 5, []); (Some 7, []); (Some 8, [Some 9])]).
Proof. vm_compute; split; reflexivity. Qed.

(** C12: lookup by number and sequence number. *)
Theorem C12_lookup : forall data b p n seq fr, bytes_ok data -> fits data -> mft_open data b = Ok p -> 0 <= n ->
  by_number p n seq false = Ok fr <-> record_at (known data b) data (fld 4 data 28) n seq fr.
Proof.
  intros data b p n seq fr B F H Hn. destruct (mft_open_spec _ _ _ B H) as [HP _].
  rewrite by_number_false. exact (by_number_base_iff _ _ _ _ _ _ _ F HP Hn).
Qed.
Print Assumptions C12_lookup.

(** The same when the number of a child segment is allowed. *)
Theorem C12_lookup_child : forall data b p n seq fr, bytes_ok data -> fits data -> mft_open data b = Ok p -> 0 <= n ->
  let t := known data b in let size := fld 4 data 28 in
  by_number p n seq true = Ok fr <->
  record_at t data size n seq fr \/
  exists f s, segment_at data size n f /\ ~ is_base f /\ last_sequence f s /\
    (seq = None \/ seq = Some s) /\ In (n, f) t /\
    record_at t data size (base_reference f mod 2 ^ 48) (Some (base_reference f / 2 ^ 48)) fr.
Proof.
  intros data b p n seq fr B F H Hn. destruct (mft_open_spec _ _ _ B H) as [HP _].
  exact (by_number_true_iff _ _ _ _ _ _ _ F HP Hn).
Qed.
Print Assumptions C12_lookup_child.

Theorem C12_lookup_error : forall data b p n seq allow e, bytes_ok data -> fits data -> mft_open data b = Ok p -> 0 <= n ->
  by_number p n seq allow = Err e ->
  e = MasterFileTableException \/ e = FileRecordSegmentException \/ e = FileRecordSegmentSignatureException \/
  e = AttributeException \/ e = MappingPairsException.
Proof.
  intros data b p n seq allow e B F H Hn E. destruct (mft_open_spec _ _ _ B H) as [HP _].
  apply (by_number_err _ _ _ _ _ _ _ _ F HP Hn) in E. destruct e; try discriminate; tauto.
Qed.
Print Assumptions C12_lookup_error.

(** At most one record and one sequence number fit. *)
Theorem C12_unique : forall t data size n seq fr fr', bytes_ok data ->
  record_at t data size n seq fr -> record_at t data size n seq fr' -> fr = fr'.
Proof. exact record_at_fun. Qed.
Print Assumptions C12_unique.

Example C12_case :
  (let! p := mft_open (sample_table 1024 2 []) true in
   let! a := by_number p 6 (Some 1) false in
   let! b := by_number p 8 (Some 1) false in
   Ok (frs_mft_number (fr_base a), frs_mft_number (fr_base b))) = Ok (Some 6, Some 8) /\
  (let! p := mft_open (sample_table 1024 2 []) true in by_number p 6 (Some 2) false) = Err MasterFileTableException.
Proof. vm_compute; split; reflexivity. Qed.

(** A lookup by number may return a segment shorter than the segment size when
    the file is cut; enumeration does not. *)
Theorem C12_cut_slot_refuted : exists data, bytes_ok data /\
  (let! p := mft_open data true in
   let! fr := by_number p 9 None false in
   Ok (m_frs_size p, (frs_mft_number (fr_base fr), zlen (frs_data (fr_base fr))),
       map (fun x => frs_mft_number (fr_base x)) (fst (file_records p false)))) =
  Ok (4096, (Some 9, 1024), [Some 0; Some 3; Some 5; Some 6; Some 7; Some 8]).
Proof.
  exists (sample_table 4096 1 (mk_record 1024 9 1 1 0 (mk_attr 0x30 (mk_name 5 5 3 name_x)))).
  split; [apply bytes_okb_ok; vm_compute; reflexivity|]. vm_compute; reflexivity.
Qed.
Print Assumptions C12_cut_slot_refuted.

(** C13: the paths of a record.  Long names first (the last one found leading),
    each name with the chain of its parents. *)
Theorem C13_paths : forall data b p n seq fr l, bytes_ok data -> fits data -> mft_open data b = Ok p ->
  let t := known data b in let size := fld 4 data 28 in
  record_at t data size n seq fr ->
  build_full_paths p fr = Ok l <->
  exists vs, has_names fr vs /\
    Forall2 (path_line t data size) (rev (filter long_name vs) ++ filter (fun v => negb (long_name v)) vs) l.
Proof.
  intros data b p n seq fr l B F H t size HR. destruct (mft_open_spec _ _ _ B H) as [HP _].
  rewrite (build_full_paths_iff _ _ _ _ _ _ F HP (record_at_opened _ _ _ _ _ _ _ HP HR)).
  destruct HP as (_ & Hz & _).
  split; intros [vs [H1 H2]]; exists vs; (split; [auto|now apply (path_lines _ _ _ _ _ Hz)]).
Qed.
Print Assumptions C13_paths.

(** It always ends, with paths or one of the tool's errors. *)
Theorem C13_errors : forall data b p n seq fr e, bytes_ok data -> fits data -> mft_open data b = Ok p ->
  record_at (known data b) data (fld 4 data 28) n seq fr ->
  build_full_paths p fr = Err e -> path_exn e.
Proof.
  intros data b p n seq fr e B F H HR E. destruct (mft_open_spec _ _ _ B H) as [HP _].
  pose proof (build_full_paths_spec _ _ _ _ _ F HP (record_at_opened _ _ _ _ _ _ _ HP HR)) as K.
  rewrite E in K. apply K.
Qed.
Print Assumptions C13_errors.

(** One chain per name, bounded by the size of the table; it starts with the
    name and ends at the root or with the orphan marker. *)
Theorem C13_shape : forall t data size v l, size_ok size -> path_of t data size v l ->
  exists names e, l = names ++ [e] /\ (e = [] \/ e = orphan) /\ hd_error names = Some (name_field v) /\
    zlen names <= zlen data / size + 2.
Proof. exact path_of_shape. Qed.
Print Assumptions C13_shape.

Theorem C13_one_chain : forall t data size v l m, bytes_ok data ->
  path_of t data size v l -> path_of t data size v m -> l = m.
Proof. exact path_of_fun. Qed.
Print Assumptions C13_one_chain.

(** Hard links; a cycle (directory 9 is its own parent); a stale parent. *)
Example C13_case :
  let data := sample_table 1024 3
    (mk_record 1024 9 1 3 0 (mk_attr 0x30 (mk_name 9 1 3 [99])) ++
     mk_record 1024 10 1 1 0 (mk_attr 0x30 (mk_name 9 1 2 [100]) ++ mk_attr 0x30 (mk_name 7 4 1 [101]))) in
  (let! p := mft_open data true in
   let! x := by_number p 8 None false in let! y := by_number p 10 None false in
   let! lx := build_full_paths p x in let! ly := build_full_paths p y in Ok (map fst lx, map fst ly)) =
  Ok ([path_bx; path_ax], [orphan ++ [47; 101]; orphan ++ [47; 99; 47; 100]]).
Proof. vm_compute; reflexivity. Qed.

(** Paths are not built when a parent directory has no name. *)
Theorem C13_nameless_parent_refuted : exists data, bytes_ok data /\
  (let! p := mft_open data true in
   let! fr := by_number p 10 None false in Ok (fr_in_use fr, build_full_paths p fr)) =
  Ok (true, Err MasterFileTableException).
Proof.
  exists (sample_table 1024 3 (mk_record 1024 9 1 3 0 [] ++ mk_record 1024 10 1 1 0 (mk_attr 0x30 (mk_name 9 1 1 [99])))).
  split; [apply bytes_okb_ok; vm_compute; reflexivity|]. vm_compute; reflexivity.
Qed.
Print Assumptions C13_nameless_parent_refuted.

(** C14: a result of a lookup by path: the first slot whose in-use record (a
    directory for a trailing separator) is reached from the root through
    records with these names. *)
Theorem C14_by_path : forall data b p upper cs dir comps c, bytes_ok data -> fits data -> mft_open data b = Ok p ->
  Forall component (comps ++ [c]) ->
  match by_path upper p (path_text (comps ++ [c]) ++ (if dir : bool then [47] else [])) cs with
  | Ok r => no_dots comps /\ first_resolving data (fld 4 data 28) (known data b) upper cs dir (c :: rev comps) 0 r
  | Err e => path_exn e
  end.
Proof.
  intros data b p upper cs dir comps c B F H HF. destruct (mft_open_spec _ _ _ B H) as [HP _].
  exact (by_path_spec _ _ _ _ _ _ _ _ _ F HP HF).
Qed.
Print Assumptions C14_by_path.

Theorem C14_root : forall upper p cs,
  by_path upper p [47] cs = (let! fr := by_number p 5 None true in Ok (Some fr)).
Proof. exact by_path_root. Qed.
Print Assumptions C14_root.

Theorem C14_relative : forall upper p path cs, (forall s, path <> 47 :: s) \/ path = [47; 47] ->
  by_path upper p path cs = Err MasterFileTableException.
Proof. exact by_path_relative. Qed.
Print Assumptions C14_relative.

Example C14_case :
  let data := sample_table 1024 3 [] in
  (let! p := mft_open data true in found (by_path same p path_ax true)) = Ok (Some 8) /\
  (let! p := mft_open data true in found (by_path same p (path_ax ++ [47]) true)) = Ok None /\
  (let! p := mft_open data true in found (by_path same p [47; 98; 47] true)) = Ok (Some 7).
Proof. vm_compute; repeat split; reflexivity. Qed.

(** The parents need not be in use, nor be directories. *)
Theorem C14_live_parents_refuted : exists data1 data2, bytes_ok data1 /\ bytes_ok data2 /\
  (let! p := mft_open data1 true in
   let! d := by_number p 6 None false in
   let! x := found (by_path same p path_ax true) in Ok (x, fr_in_use d)) = Ok (Some 8, false) /\
  (let! p := mft_open data2 true in
   let! d := by_number p 6 None false in
   let! x := found (by_path same p path_ax true) in Ok (x, fr_directory d)) = Ok (Some 8, false).
Proof.
  exists (sample_table 1024 2 []), (sample_table 1024 1 []).
  split; [apply bytes_okb_ok; vm_compute; reflexivity|].
  split; [apply bytes_okb_ok; vm_compute; reflexivity|].
  split; vm_compute; reflexivity.
Qed.
Print Assumptions C14_live_parents_refuted.

(** C15: when all records can be decoded no lookup fails, so (C14_by_path) a
    record is returned exactly when some record is reached by the path.  Only
    the first $FILE_NAME with the wanted name counts, see below. *)
Theorem C15_clean_lookup_partial : forall data b p upper (cs dir : bool) comps c,
  bytes_ok data -> fits data -> mft_open data b = Ok p ->
  Forall component (comps ++ [c]) -> no_dots comps -> all_clean (known data b) data (fld 4 data 28) ->
  exists r, by_path upper p (path_text (comps ++ [c]) ++ (if dir then [47] else [])) cs = Ok r /\
    first_resolving data (fld 4 data 28) (known data b) upper cs dir (c :: rev comps) 0 r.
Proof.
  intros data b p upper cs dir comps c B F H HF HD HC. destruct (mft_open_spec _ _ _ B H) as [HP _].
  destruct (by_path_total _ _ _ _ upper cs dir _ _ F HP HF HD HC) as [r Er].
  pose proof (by_path_spec _ _ _ _ upper cs dir _ _ F HP HF) as HS. rewrite Er in HS.
  exists r. split; [exact Er|apply HS].
Qed.
Print Assumptions C15_clean_lookup_partial.

(** The second of two hard links with the same name cannot be looked up. *)
Theorem C15_hard_link_refuted : exists data, bytes_ok data /\
  (let! p := mft_open data true in
   let! fr := by_number p 8 None false in
   let! l := build_full_paths p fr in
   Ok (fr_in_use fr, map fst l, found (by_path same p path_ax true), by_path same p path_bx true)) =
  Ok (true, [path_bx; path_ax], Ok (Some 8), Ok None).
Proof.
  exists (sample_table 1024 3 []). split; [apply bytes_okb_ok; vm_compute; reflexivity|]. vm_compute; reflexivity.
Qed.
Print Assumptions C15_hard_link_refuted.

(** One damaged record, here an unrelated one with a short $FILE_NAME, makes
    the lookup of a sound path fail. *)
Theorem C15_damaged_record_refuted : exists good bad, bytes_ok (good ++ bad) /\
  (let! p := mft_open good true in found (by_path same p path_ax true)) = Ok (Some 8) /\
  (let! p := mft_open (good ++ bad) true in by_path same p path_ax true) = Err StructError.
Proof.
  exists (sample_table 1024 3 []), (mk_record 1024 9 1 1 0 (mk_attr 0x30 (zeros 10))).
  split; [apply bytes_okb_ok; vm_compute; reflexivity|].
  split; vm_compute; reflexivity.
Qed.
Print Assumptions C15_damaged_record_refuted.
