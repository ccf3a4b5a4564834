(** Specification of streams split over attribute records. *)
From Verif Require Import Base Sorting Frs FileRecord.

(** A segment object obtained from the constructor. *)
Definition opened (f : frs) : Prop :=
  exists raw apply sug, bytes_ok raw /\ frs_open raw apply sug = Ok f.

Definition opened_record (fr : file_record) : Prop :=
  opened (fr_base fr) /\ Forall opened (fr_children fr).

(** Number of clusters described by a run list. *)
Fixpoint clusters (runs : list (option Z * Z)) : Z :=
  match runs with [] => 0 | (_, n) :: t => n + clusters t end.

Definition runs_of (a : attr) : list (option Z * Z) :=
  match a with Nonresident _ _ _ r _ _ _ => r | Resident _ _ _ => [] end.

Definition first_vcn (a : attr) : Z :=
  match a with Nonresident _ _ _ _ lo _ _ => lo | Resident _ _ _ => 0 end.

Definition opt_name_dec (a b : option (list Z)) : {a = b} + {a <> b}.
Proof. repeat decide equality. Defined.

(** Non-resident records of a given type and name. *)
Definition part_of (ty : Z) (name : option (list Z)) (a : attr) : bool :=
  match a with
  | Nonresident t n _ _ _ _ _ => (t =? ty) && (if opt_name_dec n name then true else false)
  | Resident _ _ _ => false
  end.

(** The records follow each other from cluster [v] on without gap or overlap;
    the last argument is the concatenation of their runs. *)
Inductive contiguous : Z -> list attr -> list (option Z * Z) -> Prop :=
| contig_nil : forall v, contiguous v [] []
| contig_cons : forall v ty name mp r hi sz rest runs,
    contiguous (v + clusters r) rest runs ->
    contiguous v (Nonresident ty name mp r v hi sz :: rest) (r ++ runs).

(** Size recorded in the first record of a list. *)
Definition first_size (l : list attr) : Z :=
  match l with Nonresident _ _ _ _ _ _ sz :: _ => sz | _ => 0 end.

(** The stream reader's '' and None both mean "unnamed". *)
Definition stream_name (n : option (list Z)) : option (list Z) :=
  match n with Some [] => None | _ => n end.

Definition stream_type (use_idx : bool) : Z := if use_idx then 0xA0 else 0x80.

(** Records of one stream of the enumerated attributes. *)
Definition stream_parts (name : option (list Z)) (use_idx : bool) (items : list attr) : list attr :=
  filter (part_of (stream_type use_idx) (stream_name name)) items.

(** Merging: what is reported for a record [b] with first VCN 0 given all
    enumerated attributes. *)
Definition continues (b a : attr) : bool :=
  match b with
  | Nonresident t n _ _ _ _ _ => part_of t n a && negb (first_vcn a =? 0)
  | Resident _ _ _ => false
  end.

Definition merged_as (items : list attr) (b m : attr) : Prop :=
  exists exts, stable_sorted first_vcn (filter (continues b) items) exts /\
  match b with
  | Resident _ _ _ => False
  | Nonresident t n mp r lo hi sz =>
    match exts with
    | [] => m = b
    | _ => exists ty' n' mp' r' lo' hi' sz' front,
        exts = front ++ [Nonresident ty' n' mp' r' lo' hi' sz'] /\
        m = Nonresident t n None (r ++ concat (map runs_of exts)) 0 hi' sz
    end
  end.

Definition is_resident_attr (a : attr) : bool :=
  match a with Resident _ _ _ => true | _ => false end.

Definition starts_stream (a : attr) : bool :=
  match a with Nonresident _ _ _ _ lo _ _ => lo =? 0 | _ => false end.
