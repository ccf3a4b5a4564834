(** Specification of the master file table: slots, lookups and paths. *)
From Verif Require Import Base Frs FrsSpec FileRecord.

(** ** Slots *)

(** The bytes of slot [k] (fewer when the file ends inside it). *)
Definition slot (data : list Z) (size k : Z) : list Z := slice data (k * size) (k * size + size).

(** Slot [k] holds the valid segment [f]. *)
Definition segment_at (data : list Z) (size k : Z) (f : frs) : Prop :=
  0 <= k /\ frs_open (slot data size k) true (Some k) = Ok f.

(** The valid segments of [n] consecutive slots from [k] on. *)
Fixpoint segments (data : list Z) (size k : Z) (n : nat) : list (Z * frs) :=
  match n with
  | O => []
  | S n => match frs_open (slot data size k) true (Some k) with
           | Ok f => (k, f) :: segments data size (k + 1) n
           | Err _ => segments data size (k + 1) n
           end
  end.

(** All whole slots of the file. *)
Definition table (data : list Z) (size : Z) : list (Z * frs) :=
  segments data size 0 (Z.to_nat (zlen data / size)).

(** Header fields, as on disk. *)
Definition base_reference (f : frs) : Z := fld 8 (frs_data f) 32.
Definition is_base (f : frs) : Prop := base_reference f = 0.
Definition in_use (f : frs) : Prop := Z.odd (fld 2 (frs_data f) 22) = true.
Definition stored_sequence (f : frs) : Z := fld 2 (frs_data f) 16.

(** The record number: stored in the header, or that of the slot when the header
    has no such field (update sequence array below offset 48). *)
Definition number_in (k : Z) (f : frs) : Z :=
  if frs_usa_offset f <? 48 then k
  else fld 2 (frs_data f) 42 * 2 ^ 32 + fld 4 (frs_data f) 44.

(** Deallocation adds one (modulo 2^16) to the sequence number, which is never
    zero while allocated; [last_sequence] is the number last used. *)
Definition last_sequence (f : frs) (s : Z) : Prop :=
  (in_use f /\ s = stored_sequence f) \/
  (~ in_use f /\ 1 <= s <= 65535 /\ (s + 1) mod 65536 = stored_sequence f) \/
  (~ in_use f /\ stored_sequence f = 1 /\ s = 1).

(** The children of the base segment [f] of slot [k]: the valid non-base
    segments whose base reference is the number and sequence of [f]. *)
Definition child_of (num seq : Z) (c : frs) : bool :=
  negb (base_reference c =? 0) && (base_reference c mod 2 ^ 48 =? num) && (base_reference c / 2 ^ 48 =? seq).

Definition children_in (t : list (Z * frs)) (num seq : Z) : list frs :=
  map snd (filter (fun kc => child_of num seq (snd kc)) t).

(** ** Lookup *)

(** [record_at t data size n seq fr]: slot [n] holds a valid base segment, last
    used with sequence number [seq] if one is given; [fr] is that segment with
    its children among the segments [t]. *)
Definition record_at (t : list (Z * frs)) (data : list Z) (size n : Z) (seq : option Z)
    (fr : file_record) : Prop :=
  exists f s, segment_at data size n f /\ is_base f /\ last_sequence f s /\
    (seq = None \/ seq = Some s) /\ fr = mk_fr f (children_in t (number_in n f) s).

(** ** Names *)

(** $FILE_NAME fields. *)
Definition name_field (v : list Z) : list Z := utf16le (slice v 66 (66 + 2 * fld 1 v 64)).
Definition parent_number (v : list Z) : Z := fld 8 v 0 mod 2 ^ 48.
Definition parent_sequence (v : list Z) : Z := fld 8 v 0 / 2 ^ 48.
(** Win32 or POSIX name space. *)
Definition long_name (v : list Z) : bool := Z.odd (fld 1 v 65) || (fld 1 v 65 =? 0).

(** The resident $FILE_NAME values among attributes. *)
Fixpoint name_values (l : list attr) : list (list Z) :=
  match l with
  | [] => []
  | Resident ty _ v :: t => if ty =? 0x30 then v :: name_values t else name_values t
  | Nonresident _ _ _ _ _ _ _ :: t => name_values t
  end.

(** A resident attribute of type 0xA0 cannot be decoded by the tool. *)
Definition decodable (a : attr) : Prop :=
  match a with Resident t _ _ => t <> 0xA0 | _ => True end.

(** The names of a file record, all of them complete. *)
Definition has_names (fr : file_record) (vs : list (list Z)) : Prop :=
  exists items, fr_attributes fr = (items, Done) /\ Forall decodable items /\
    vs = name_values items /\ Forall (fun v => 66 <= zlen v) vs.

(** The name used for a directory: the first long one, else the first. *)
Inductive main_name : list (list Z) -> list Z -> Prop :=
| main_long : forall l1 v l2, long_name v = true -> Forall (fun x => long_name x = false) l1 ->
    main_name (l1 ++ v :: l2) v
| main_first : forall v l, Forall (fun x => long_name x = false) (v :: l) -> main_name (v :: l) v.

Definition is_directory (fr : file_record) : Prop :=
  Z.testbit (fld 2 (frs_data (fr_base fr)) 22) 1 = true.

(** ** Paths *)

Definition orphan : list Z := [60; 79; 114; 112; 104; 97; 110; 62]. (* <Orphan> *)

Section Table.
  Variable t : list (Z * frs).
  Variable data : list Z.
  Variable size : Z.

  Definition parent_of (v : list Z) (fr : file_record) : Prop :=
    record_at t data size (parent_number v) (Some (parent_sequence v)) fr.

  (** Names of a directory and of its ancestors, nearest first, closed by the
      root ("") or the orphan marker.  [seen] are the numbers already visited. *)
  Inductive ancestry : list Z -> file_record -> list (list Z) -> Prop :=
  | anc_cycle : forall seen fr vs v, has_names fr vs -> main_name vs v ->
      In (parent_number v) seen -> ancestry seen fr [name_field v; orphan]
  | anc_lost : forall seen fr vs v, has_names fr vs -> main_name vs v ->
      ~ In (parent_number v) seen -> (forall fr', ~ parent_of v fr') ->
      ancestry seen fr [name_field v; orphan]
  | anc_root : forall seen fr vs v fr', has_names fr vs -> main_name vs v ->
      ~ In (parent_number v) seen -> parent_of v fr' -> parent_number v = 5 ->
      ancestry seen fr [name_field v; []]
  | anc_file : forall seen fr vs v fr', has_names fr vs -> main_name vs v ->
      ~ In (parent_number v) seen -> parent_of v fr' -> parent_number v <> 5 ->
      ~ is_directory fr' -> ancestry seen fr [name_field v; orphan]
  | anc_up : forall seen fr vs v fr' l, has_names fr vs -> main_name vs v ->
      ~ In (parent_number v) seen -> parent_of v fr' -> parent_number v <> 5 ->
      is_directory fr' -> ancestry (parent_number v :: seen) fr' l ->
      ancestry seen fr (name_field v :: l).

  Inductive path_of (v : list Z) : list (list Z) -> Prop :=
  | path_root : parent_number v = 5 -> path_of v [name_field v; []]
  | path_lost : parent_number v <> 5 -> (forall fr', ~ parent_of v fr') ->
      path_of v [name_field v; orphan]
  | path_file : forall fr', parent_number v <> 5 -> parent_of v fr' -> ~ is_directory fr' ->
      path_of v [name_field v; orphan]
  | path_up : forall fr' l, parent_number v <> 5 -> parent_of v fr' -> is_directory fr' ->
      ancestry [parent_number v] fr' l -> path_of v (name_field v :: l).

  (** Comparison of names, exact or after [upper]. *)
  Definition same_name (upper : list Z -> list Z) (cs : bool) (a b : list Z) : Prop :=
    if cs then a = b else upper a = upper b.

  (** [v] is the first $FILE_NAME of the record with the name [n]; attributes
      after it do not matter. *)
  Definition first_named (upper : list Z -> list Z) (cs : bool) (fr : file_record) (n v : list Z) : Prop :=
    exists l1 nm l2 st, fr_attributes fr = (l1 ++ Resident 0x30 nm v :: l2, st) /\
      Forall decodable l1 /\
      Forall (fun x => 65 <= zlen x /\ ~ same_name upper cs (name_field x) n) (name_values l1) /\
      65 <= zlen v /\ same_name upper cs (name_field v) n.

  (** Starting at the name value [v], the parents carry the names [comps]
      (nearest first) and the last one is the root. *)
  Inductive leads (upper : list Z -> list Z) (cs : bool) : list Z -> list (list Z) -> Prop :=
  | leads_root : forall v, parent_number v = 5 -> leads upper cs v []
  | leads_up : forall v fr c w l, parent_number v <> 5 -> parent_of v fr ->
      first_named upper cs fr c w -> leads upper cs w l -> leads upper cs v (c :: l).

  (** Slot [k] holds an in-use record reached by the components (last one
      first), a directory if [dir]. *)
  Definition resolves (upper : list Z -> list Z) (cs dir : bool) (comps : list (list Z))
      (k : Z) (fr : file_record) : Prop :=
    exists c l v, comps = c :: l /\ record_at t data size k None fr /\ in_use (fr_base fr) /\
      (dir = true -> is_directory fr) /\ first_named upper cs fr c v /\ leads upper cs v l.
End Table.

(** A path text: "/" ^ c1 ^ "/" ^ ... ^ cn, optionally followed by "/" when
    [dir]. *)
Fixpoint path_text (comps : list (list Z)) : list Z :=
  match comps with [] => [] | c :: l => 47 :: c ++ path_text l end.

Definition plain (c : list Z) : Prop := ~ In 47 c.

(** A component of a path: not empty, without separator. *)
Definition component (c : list Z) : Prop := plain c /\ c <> [].

(** No component is "." or "..". *)
Definition no_dots (comps : list (list Z)) : Prop := ~ In [46] comps /\ ~ In [46; 46] comps.

(** The line reported for the name value [v]: "<Orphan>" or nothing, then the
    names from the top down. *)
Definition path_line (t : list (Z * frs)) (data : list Z) (size : Z) (v : list Z) (sv : list Z * list Z) : Prop :=
  snd sv = v /\ exists names e, path_of t data size v (names ++ [e]) /\ fst sv = e ++ path_text (rev names).

(** The record in the first slot from [i] on that is reached by the components,
    None if there is none. *)
Definition first_resolving data size t upper cs dir comps i (r : option file_record) : Prop :=
  match r with
  | Some fr => exists k, i <= k /\ resolves t data size upper cs dir comps k fr /\
      forall j fr', i <= j < k -> ~ resolves t data size upper cs dir comps j fr'
  | None => forall k fr, i <= k -> ~ resolves t data size upper cs dir comps k fr
  end.

(** Every record can be decoded. *)
Definition all_clean (t : list (Z * frs)) (data : list Z) (size : Z) : Prop :=
  forall k seq fr, record_at t data size k seq fr -> exists vs, has_names fr vs.

(** What looking up or building paths may raise. *)
Definition path_exn (e : exn) : Prop :=
  e = StructError \/ e = AttributeError_py \/ e = MasterFileTableException \/ exn_attr e.

(** Numbers fit the 48 bits of a reference. *)
Definition fits (data : list Z) : Prop := zlen data <= 2 ^ 58.

Definition whole_slot (data : list Z) (size k : Z) : Prop := k * size + size <= zlen data.

(** Slot 3 holds a volume information attribute with version 3.1 or 3.x. *)
Definition supported_volume (data : list Z) (size : Z) : Prop :=
  exists f l1 nm v l2, segment_at data size 3 f /\ fst (frs_gen f) = l1 ++ Resident 0x70 nm v :: l2 /\
    Forall decodable l1 /\ (forall nm' v', ~ In (Resident 0x70 nm' v') l1) /\ 10 <= zlen v /\
    fld 1 v 8 = 3 /\ 1 <= fld 1 v 9.
