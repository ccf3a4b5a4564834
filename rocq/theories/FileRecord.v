(** Model of FileRecord (dfir_ntfs/MFT.py:741-885). *)
From Verif Require Import Base MappingPairs Frs Sorting.

(** MFT.py:744-746. *)
Record file_record : Type := mk_fr { fr_base : frs; fr_children : list frs }.

(** Accessors of attribute record objects, MFT.py:485-563. *)
Definition a_type (a : attr) : Z :=
  match a with Resident t _ _ => t | Nonresident t _ _ _ _ _ _ => t end.
Definition a_name (a : attr) : option (list Z) :=
  match a with Resident _ n _ => n | Nonresident _ n _ _ _ _ _ => n end.
Definition a_resident (a : attr) : bool :=
  match a with Resident _ _ _ => true | _ => false end.
Definition a_lowest (a : attr) : Z :=
  match a with Nonresident _ _ _ _ lo _ _ => lo | _ => 0 end.
Definition a_highest (a : attr) : Z :=
  match a with Nonresident _ _ _ _ _ hi _ => hi | _ => 0 end.
Definition a_size (a : attr) : Z :=
  match a with Nonresident _ _ _ _ _ _ sz => sz | _ => 0 end.
(** DecodeMappingPairs(attr.mapping_pairs); a merged record has None there and
    len(None) fails. *)
Definition a_decode (a : attr) : result (list run) :=
  match a with
  | Nonresident _ _ (Some mp) _ _ _ _ => decode_mapping_pairs mp
  | _ => Err TypeError
  end.

Definition name_eqb (a b : option (list Z)) : bool :=
  match a, b with
  | None, None => true
  | Some x, Some y => zlist_eqb x y
  | _, _ => false
  end.

(** Consuming several generators one after the other. *)
Fixpoint gconcat {A} (l : list (gen A)) : gen A :=
  match l with
  | [] => ([], Done)
  | g :: t => match snd g with Done => gapp (fst g) (gconcat t) | Raised _ => g end
  end.

Definition frs_gen (f : frs) : gen attr :=
  let r := frs_attributes f in (ar_items r, ar_status r).

(** MFT.py:764-770: attributes(False). *)
Definition fr_attributes (fr : file_record) : gen attr :=
  gconcat (frs_gen (fr_base fr) :: map frs_gen (fr_children fr)).

(** MFT.py:748-756 slack(). *)
Definition slack_gen (f : frs) : gen (list Z) :=
  match frs_slack f with
  | Ok (Some s) => ([s], Done)
  | Ok None => ([], Done)
  | Err e => ([], Raised e)
  end.
Definition fr_slack (fr : file_record) : gen (list Z) :=
  gconcat (slack_gen (fr_base fr) :: map slack_gen (fr_children fr)).

(** MFT.py:803-806: decode the base, then append the decoded extensions. *)
Fixpoint extend_runs (runs : list run) (exts : list attr) : result (list run) :=
  match exts with
  | [] => Ok runs
  | a :: t => let! r := a_decode a in extend_runs (runs ++ r) t
  end.

(** MFT.py:787-810: the loop over the attributes with a zero lowest VCN. *)
Fixpoint merge_loop (bases exts : list attr) : gen attr :=
  match bases with
  | [] => ([], Done)
  | b :: t =>
    let mine := sort_by a_lowest
      (filter (fun x => (a_type x =? a_type b) && name_eqb (a_name x) (a_name b)) exts) in
    match rev mine with
    | [] => gcons b (merge_loop t exts)
    | last :: _ =>
      match (let! r := a_decode b in extend_runs r mine) with
      | Err e => ([], Raised e)
      | Ok runs =>
        gcons (Nonresident (a_type b) (a_name b) None runs 0 (a_highest last) (a_size b))
              (merge_loop t exts)
      end
    end
  end.

(** MFT.py:771-810: attributes(True). *)
Definition fr_attributes_merged (fr : file_record) : gen attr :=
  let g := fr_attributes fr in
  let res := filter a_resident (fst g) in
  match snd g with
  | Raised e => (res, Raised e)
  | Done =>
    let non := filter (fun a => negb (a_resident a)) (fst g) in
    gapp res (merge_loop (filter (fun a => a_lowest a =? 0) non)
                         (filter (fun a => negb (a_lowest a =? 0)) non))
  end.

Definition ATTR_TYPE_DATA : Z := 0x80.             (* Attributes.py:19 *)
Definition ATTR_TYPE_INDEX_ALLOCATION : Z := 0xA0. (* Attributes.py:21 *)

(** MFT.py:819-820, 871-872: '' means the unnamed attribute. *)
Definition norm_name (n : option (list Z)) : option (list Z) :=
  match n with Some [] => None | _ => n end.

(** MFT.py:823-835: the tests on one attribute. *)
Definition data_match (name : option (list Z)) (use_idx : bool) (a : attr) : bool :=
  negb (a_resident a)
  && (a_type a =? (if use_idx then ATTR_TYPE_INDEX_ALLOCATION else ATTR_TYPE_DATA))
  && name_eqb name (a_name a).

(** MFT.py:841-855: the loop; [size] is file_size. *)
Fixpoint data_runs_loop (attrs : list attr) (size : option Z) (vcn : Z) (runs : list run)
  : result (option Z * list run) :=
  match attrs with
  | [] => Ok (size, runs)
  | a :: t =>
    let size := match size with
                | None => if a_lowest a =? 0 then Some (a_size a) else None
                | s => s
                end in
    if negb (a_lowest a =? vcn) then Err MappingPairsException else
    let! r := a_decode a in
    data_runs_loop t size (vcn + fold_left Z.add (map snd r) 0) (runs ++ r)
  end.

(** MFT.py:812-862 get_data_runs. *)
Definition get_data_runs (fr : file_record) (name : option (list Z)) (use_idx : bool)
  : result (option (list run)) :=
  let name := norm_name name in
  let g := fr_attributes fr in
  match snd g with
  | Raised e => Err e
  | Done =>
    let attrs := filter (data_match name use_idx) (fst g) in
    match attrs with
    | [] => Ok None
    | _ =>
      let! (size, runs) := data_runs_loop (sort_by a_lowest attrs) None 0 [] in
      match size with
      | None => Err AttributeException
      | Some sz =>
        if (0 <? sz) && (zlen runs =? 0) then Err MappingPairsException else Ok (Some runs)
      end
    end
  end.

(** MFT.py:864-885 get_data_size: stops at the first match, so an exception of
    the enumeration only escapes when no match precedes it. *)
Definition get_data_size (fr : file_record) (name : option (list Z)) (use_idx : bool)
  : result (option Z) :=
  let name := norm_name name in
  let g := fr_attributes fr in
  match find (fun a => data_match name use_idx a && (a_lowest a =? 0)) (fst g) with
  | Some a => Ok (Some (a_size a))
  | None => match snd g with Done => Ok None | Raised e => Err e end
  end.
