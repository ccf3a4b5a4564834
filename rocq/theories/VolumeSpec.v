(** Specification: where the $MFT file of a volume is. *)
From Verif Require Import Base Sorting Frs FrsSpec FileRecord FileRecordSpec FragmentedFileSpec Attributes AttributesSpec
  BootSectorProofs MftSpec.

(** Reading [n] bytes at [off] of a file of [fsize] bytes laid out by [ly]. *)
Definition reads (ly : layout) (fsize off n : Z) (out : list Z) : Prop :=
  bytes_at ly off out /\ zlen out = read_length (ly_cluster ly) fsize off (Some n).

(** Segment [k] of the table laid out by [ly]. *)
Definition table_segment (ly : layout) (fsize size k : Z) (f : frs) : Prop :=
  exists raw, k * size <= fsize /\ reads ly fsize (k * size) size raw /\ frs_open raw true (Some k) = Ok f.

(** The record holds a volume information attribute with version 3.1 or 3.x. *)
Definition version_3 (f : frs) : Prop :=
  exists l1 nm v l2, fst (frs_gen f) = l1 ++ Resident 0x70 nm v :: l2 /\
    Forall decodable l1 /\ (forall nm' v', ~ In (Resident 0x70 nm' v') l1) /\ 10 <= zlen v /\
    fld 1 v 8 = 3 /\ 1 <= fld 1 v 9.

(** The table laid out by [ly] can be parsed; its segments have [size] bytes. *)
Definition parsable (ly : layout) (fsize size : Z) : Prop :=
  reads ly fsize 0 4 [70; 73; 76; 69] /\
  (exists b, reads ly fsize 28 4 b /\ zlen b = 4 /\ size = le_val b) /\ size_ok size /\
  exists f, table_segment ly fsize size 3 f /\ version_3 f.

(** The unnamed data stream of a base segment and its children. *)
Definition main_stream (base : frs) (children : list frs) (runs : list (option Z * Z)) : Prop :=
  exists items l, fr_attributes (mk_fr base children) = (items, Done) /\
    stable_sorted first_vcn (stream_parts None false items) l /\
    l <> [] /\ contiguous 0 l runs /\ (0 < first_size l -> runs <> []).

(** Its size, from the first record with VCN 0. *)
Definition main_size (base : frs) (fsize : Z) : Prop :=
  exists items ty n mp r hi back, fr_attributes (mk_fr base []) = (items, Done) /\
    filter starts_stream (stream_parts None false items) = Nonresident ty n mp r 0 hi fsize :: back.

(** All clusters of a nonresident value, none of them in a hole. *)
Definition whole_value (vol : list Z) (voff cs : Z) (runs : list (option Z * Z)) (w : list Z) : Prop :=
  Forall (fun r => fst r <> None) runs /\ zlen w = clusters runs * cs /\
  bytes_at (mk_layout vol voff cs runs) 0 w.

(** The value of an attribute list. *)
Inductive list_value (vol : list Z) (voff cs : Z) : attr -> list Z -> Prop :=
| lv_resident : forall nm v, list_value vol voff cs (Resident 0x20 nm v) v
| lv_nonresident : forall nm mp runs lo hi size w, whole_value vol voff cs runs w ->
    list_value vol voff cs (Nonresident 0x20 nm mp runs lo hi size) (ztake size w).

Definition no_list (l : list attr) : Prop := Forall (fun a => a_type a <> 0x20) l.

(** The first attribute list of the record, if there is one. *)
Definition record_list (vol : list Z) (voff cs : Z) (f : frs) (r : option (list Z)) : Prop :=
  (r = None /\ snd (frs_gen f) = Done /\ no_list (fst (frs_gen f))) \/
  (exists l1 a l2 v, fst (frs_gen f) = l1 ++ a :: l2 /\ no_list l1 /\ list_value vol voff cs a v /\ r = Some v).

(** An entry for the unnamed $DATA attribute, and the segment it names. *)
Definition for_data (e : al_entry) : bool :=
  (al_type e =? 0x80) && (match al_name e with None => true | Some _ => false end).
Definition segment_number (e : al_entry) : Z := al_segment e mod 2 ^ 48.

(** The pieces are added one after the other: the segment with the next piece
    is read from what is known of the table so far. *)
Inductive grows (vol : list Z) (voff cs fsize : Z) (base : frs)
  : list frs -> list (option Z * Z) -> list al_entry -> list (option Z * Z) -> Prop :=
| grows_done : forall children runs, grows vol voff cs fsize base children runs [] runs
| grows_piece : forall children runs e t size f runs' final,
    parsable (mk_layout vol voff cs runs) fsize size ->
    table_segment (mk_layout vol voff cs runs) fsize size (segment_number e) f ->
    main_stream base (children ++ [f]) runs' ->
    grows vol voff cs fsize base (children ++ [f]) runs' t final ->
    grows vol voff cs fsize base children runs (e :: t) final.

(** The geometry in the boot sector: bytes per cluster, bytes per segment and
    the first cluster of the table.  (A segment size from 2^63 on cannot be
    read.) *)
Definition geometry (boot : list Z) (cs frs_size cluster : Z) : Prop :=
  ntfs_boot boot /\
  exists spc bps, cluster_code (fld 1 boot 13) spc /\
    bps = fld 2 boot 11 /\ 512 <= bps /\ bps mod 512 = 0 /\ cs = spc * bps /\
    record_code (fld 1 boot 64) cs frs_size /\ frs_size < 2 ^ 63 /\ cluster = fld 8 boot 48 /\ cluster <> 0.

(** [located vol voff boot cs runs fsize]: the table of the volume at [voff] is
    stored in [runs] and has [fsize] bytes. *)
Definition table_located (vol : list Z) (voff : Z) (boot : list Z) (cs : Z) (runs : list (option Z * Z)) (fsize : Z)
  : Prop :=
  exists frs_size cluster f0 runs0 r,
    boot = slice vol voff (voff + 512) /\ geometry boot cs frs_size cluster /\
    frs_open (slice vol (voff + cluster * cs) (voff + cluster * cs + frs_size)) true (Some 0) = Ok f0 /\
    main_stream f0 [] runs0 /\ main_size f0 fsize /\ record_list vol voff cs f0 r /\
    match r with
    | None => runs = runs0
    | Some v => exists l e0 t, al_walk v 0 l /\ stable_sorted al_lowest (filter for_data l) (e0 :: t) /\
        segment_number e0 = 0 /\ grows vol voff cs fsize f0 [] runs0 t runs
    end.

(** The segment holds one record of the unnamed data stream: the runs [r] from
    cluster [lo] on. *)
Definition holds_piece (f : frs) (lo : Z) (r : list (option Z * Z)) (size : Z) : Prop :=
  exists items mp hi, frs_gen f = (items, Done) /\ stream_parts None false items = [Nonresident 0x80 None mp r lo hi size].

(** A table as it is written: [ly] lays out all of it; every segment with a
    piece lies in front of that piece. *)
Inductive written (ly : layout) (fsize size : Z) : list (option Z * Z) -> list al_entry -> list (option Z * Z) -> Prop :=
| written_done : forall runs, written ly fsize size runs [] runs
| written_piece : forall runs e t f r sz final,
    table_segment ly fsize size (segment_number e) f ->
    (segment_number e + 1) * size <= clusters runs * ly_cluster ly ->
    holds_piece f (clusters runs) r sz ->
    written ly fsize size (runs ++ r) t final ->
    written ly fsize size runs (e :: t) final.

Definition table_written (vol : list Z) (voff : Z) (boot : list Z) (cs : Z) (runs : list (option Z * Z)) (fsize : Z)
  : Prop :=
  exists frs_size cluster f0 runs0 v l e0 t size,
    boot = slice vol voff (voff + 512) /\ geometry boot cs frs_size cluster /\
    frs_open (slice vol (voff + cluster * cs) (voff + cluster * cs + frs_size)) true (Some 0) = Ok f0 /\
    holds_piece f0 0 runs0 fsize /\ runs0 <> [] /\ record_list vol voff cs f0 (Some v) /\ al_walk v 0 l /\
    stable_sorted al_lowest (filter for_data l) (e0 :: t) /\ segment_number e0 = 0 /\
    parsable (mk_layout vol voff cs runs) fsize size /\ 4 * size <= clusters runs0 * cs /\
    written (mk_layout vol voff cs runs) fsize size runs0 t runs.
