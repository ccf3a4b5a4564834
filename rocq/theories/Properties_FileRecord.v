(** Properties C07, C08. *)
From Verif Require Import Base BaseLemmas MappingPairs MappingPairsSpec Frs FrsSpec FrsProofs
  Sorting FileRecord FileRecordSpec FileRecordProofs.
Local Set Warnings "-abstract-large-number".

(** C07: [l] is the matching records in VCN order.  A run list is returned
    exactly when they follow each other from VCN 0 without gap or overlap (and
    a non-empty stream has runs); it is then the concatenation of the runs. *)
Theorem C07_data_runs : forall fr name idx items, opened_record fr ->
  fr_attributes fr = (items, Done) -> forall l,
  stable_sorted first_vcn (stream_parts name idx items) l ->
  match get_data_runs fr name idx with
  | Ok None => l = []
  | Ok (Some runs) => l <> [] /\ contiguous 0 l runs /\ (0 < first_size l -> runs <> [])
  | Err e => e = MappingPairsException /\
      forall runs, contiguous 0 l runs -> 0 < first_size l /\ runs = []
  end.
Proof. exact get_data_runs_spec. Qed.
Print Assumptions C07_data_runs.

Theorem C07_each_record_in_place : forall v l runs, contiguous v l runs ->
  forall front a back, l = front ++ a :: back ->
  exists r1 r2, runs = r1 ++ runs_of a ++ r2 /\ first_vcn a = v + clusters r1.
Proof. exact contiguous_split. Qed.
Print Assumptions C07_each_record_in_place.

Theorem C07_enumeration_error_escapes : forall fr name idx items e,
  fr_attributes fr = (items, Raised e) -> get_data_runs fr name idx = Err e.
Proof. exact get_data_runs_raises. Qed.
Print Assumptions C07_enumeration_error_escapes.

Theorem C07_data_size : forall fr name idx items, fr_attributes fr = (items, Done) ->
  match get_data_size fr name idx with
  | Ok (Some sz) => exists ty n mp r hi back,
      filter starts_stream (stream_parts name idx items) = Nonresident ty n mp r 0 hi sz :: back
  | Ok None => filter starts_stream (stream_parts name idx items) = []
  | Err _ => False
  end.
Proof. exact get_data_size_spec. Qed.
Print Assumptions C07_data_size.

Example C07_case : exists fr, sample_fr = Ok fr /\ opened_record fr /\ snd (fr_attributes fr) = Done /\
  get_data_runs fr None false = Ok (Some [(Some 100, 5); (Some 30, 3); (Some 20, 4)]) /\
  get_data_size fr (Some []) false = Ok (Some 0x4FFF) /\
  get_data_runs fr (Some [65]) false = Ok None.
Proof.
  eexists; split; [vm_compute; reflexivity|]. split.
  - assert (B : bytes_ok sample_record) by (apply bytes_okb_ok; vm_compute; reflexivity).
    assert (B1 : bytes_ok (sample_child 8 4 20)) by (apply bytes_okb_ok; vm_compute; reflexivity).
    assert (B2 : bytes_ok (sample_child 5 3 30)) by (apply bytes_okb_ok; vm_compute; reflexivity).
    split; cbn [fr_base fr_children].
    + exists sample_record, false, None; split; auto; vm_compute; reflexivity.
    + constructor; [|constructor; [|constructor]].
      * exists (sample_child 8 4 20), false, None; split; auto; vm_compute; reflexivity.
      * exists (sample_child 5 3 30), false, None; split; auto; vm_compute; reflexivity.
  - vm_compute; auto.
Qed.

(** A gap (VCN 6 after 5 clusters) is refused. *)
Example C07_case_gap :
  (let! b := frs_open sample_record false None in
   let! c := frs_open (sample_child 6 3 30) false None in
   get_data_runs (mk_fr b [c]) None false) = Err MappingPairsException.
Proof. vm_compute; reflexivity. Qed.

(** C08: merge mode reports the resident attributes in order, then one record
    for every record that starts a stream (VCN 0), carrying its own runs
    followed by those of the continuation records in VCN order. *)
Theorem C08_merge : forall fr items, opened_record fr -> fr_attributes fr = (items, Done) ->
  exists ms, fr_attributes_merged fr = (filter is_resident_attr items ++ ms, Done) /\
    Forall2 (merged_as items) (filter starts_stream items) ms.
Proof. exact fr_attributes_merged_spec. Qed.
Print Assumptions C08_merge.

Theorem C08_merge_error : forall fr items e, fr_attributes fr = (items, Raised e) ->
  fr_attributes_merged fr = (filter is_resident_attr items, Raised e).
Proof. exact fr_attributes_merged_raises. Qed.
Print Assumptions C08_merge_error.

(** The merged record and the run list of the stream reader agree. *)
Theorem C08_agrees_with_data_runs : forall fr name idx items b m runs, opened_record fr ->
  fr_attributes fr = (items, Done) ->
  filter starts_stream (stream_parts name idx items) = [b] ->
  merged_as items b m -> get_data_runs fr name idx = Ok (Some runs) ->
  runs_of m = runs.
Proof. exact merged_agrees. Qed.
Print Assumptions C08_agrees_with_data_runs.

Example C08_case : exists fr items, sample_fr = Ok fr /\ fr_attributes fr = (items, Done) /\ zlen items = 9 /\
  map a_resident (fst (fr_attributes_merged fr)) = [true; true; true; true; true; true; false] /\
  map runs_of (skipn 6 (fst (fr_attributes_merged fr))) = [[(Some 100, 5); (Some 30, 3); (Some 20, 4)]].
Proof. do 2 eexists; split; [vm_compute; reflexivity|]. split; [vm_compute; reflexivity|]. vm_compute; auto. Qed.

(** Parts are lost when the record that starts the stream is missing. *)
Theorem C08_part_without_start_dropped_refuted : exists fr items a,
  opened_record fr /\ fr_attributes fr = (items, Done) /\ In a items /\ runs_of a <> [] /\
  snd (fr_attributes_merged fr) = Done /\
  forall m, In m (fst (fr_attributes_merged fr)) -> runs_of m = [].
Proof. exact C08_part_without_start_dropped_refuted_lemma. Qed.
Print Assumptions C08_part_without_start_dropped_refuted.
