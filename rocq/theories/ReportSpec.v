(** Specification of the reports: what each row has to show. *)
From Coq Require Import String Sorted.
From Verif Require Import Base Frs FrsSpec FileRecord MftSpec Filetime Wsl Attributes AttributesSpec Carve CarveSpec Report.
Local Open Scope Z_scope.

(** ** Cells *)

Definition empty : cell := Txt [].
Definition question : cell := Txt [63].

(** A stored time, counted in tenths of a microsecond from the epoch (given by
    the ordinal of its day); out of range: N/A. *)
Definition time_shown (epoch raw : Z) (c : cell) : Prop :=
  exists o, decode_time epoch raw true = Ok o /\
    c = match o with Some us => Stamp (86400000000 * epoch + us) | None => Txt [78; 47; 65] end.
(** 1601-01-01 is day 584389. *)
Definition filetime_shown := time_shown 584389.

Definition flag_shown (P : Prop) (c : cell) : Prop := (P /\ c = Txt [89]) \/ (~ P /\ c = Txt [78]).

(** [source] or "source (tag)". *)
Definition source_shown (source : list Z) (tag : option (list Z)) (c : cell) : Prop :=
  (((tag = None \/ tag = Some []) /\ c = Txt source) \/
  exists t, tag = Some t /\ t <> [] /\ c = Txt (source ++ [32; 40] ++ t ++ [41])).

(** The first element with a property. *)
Definition first_where {A} (P : A -> Prop) (l : list A) (a : A) : Prop :=
  exists l1 l2, l = l1 ++ a :: l2 /\ Forall (fun x => ~ P x) l1 /\ P a.

(** ** Attributes of a file record *)

(** M, A, C, E and USN of the first $STANDARD_INFORMATION. *)
Definition is_si (a : attr) : Prop := exists nm v, a = Resident 0x10 nm v.
Inductive si_shown (items : list attr) : list cell -> Prop :=
| si_none : Forall (fun a => ~ is_si a) items -> si_shown items [empty; empty; empty; empty; empty]
| si_some : forall nm v m a c e u, first_where is_si items (Resident 0x10 nm v) -> 32 <= zlen v ->
    filetime_shown (fld 8 v 8) m -> filetime_shown (fld 8 v 24) a ->
    filetime_shown (fld 8 v 0) c -> filetime_shown (fld 8 v 16) e ->
    (72 <= zlen v /\ u = Num (fld 8 v 64)) \/ (zlen v < 72 /\ u = empty) ->
    si_shown items [m; a; c; e; u].

(** M, A, C, E of a $FILE_NAME. *)
Inductive fn_shown (v : list Z) : list cell -> Prop :=
| fn_some : forall m a c e, 40 <= zlen v ->
    filetime_shown (fld 8 v 16) m -> filetime_shown (fld 8 v 32) a ->
    filetime_shown (fld 8 v 8) c -> filetime_shown (fld 8 v 24) e -> fn_shown v [m; a; c; e].

(** The size of the unnamed data: the first resident value or the first piece
    that starts the stream. *)
Definition is_content (a : attr) : Prop :=
  match a with
  | Resident ty name _ => ty = 0x80 /\ name = None
  | Nonresident ty name _ _ lo _ _ => ty = 0x80 /\ name = None /\ lo = 0
  end.
Definition content_size (a : attr) : Z :=
  match a with Resident _ _ v => zlen v | Nonresident _ _ _ _ _ _ size => size end.
Definition size_shown (items : list attr) (c : cell) : Prop :=
  (exists a, first_where is_content items a /\ c = Num (content_size a)) \/
  (Forall (fun a => ~ is_content a) items /\ c = question).

(** The names of the other data streams, each once, in the order of their code
    points, separated by spaces. *)
Inductive text_lt : list Z -> list Z -> Prop :=
| lt_prefix : forall x t, text_lt [] (x :: t)
| lt_here : forall x y s t, x < y -> text_lt (x :: s) (y :: t)
| lt_later : forall x s t, text_lt s t -> text_lt (x :: s) (x :: t).
Fixpoint spaced_text (l : list (list Z)) : list Z :=
  match l with [] => [] | [x] => x | x :: t => x ++ [32] ++ spaced_text t end.
Definition stream_name (items : list attr) (n : list Z) : Prop :=
  exists a, In a items /\ a_type a = 0x80 /\ a_name a = Some n.
Definition ads_shown (items : list attr) (c : cell) : Prop :=
  exists names, StronglySorted text_lt names /\ (forall n, In n names <-> stream_name items n) /\
    c = Txt (spaced_text names).

(** The time of the first object identifier made from a time: a GUID of variant
    2 (top bits 10) and version 1; 1582-10-15 is day 577736. *)
Definition guid_dated (v : list Z) (us : Z) : Prop :=
  16 <= zlen v /\ fld 1 v 8 / 64 = 2 /\ fld 2 v 6 / 4096 = 1 /\
  decode_time 577736 (fld 4 v 0 + 2 ^ 32 * fld 2 v 4 + 2 ^ 48 * (fld 2 v 6 mod 4096)) true = Ok (Some us).
Definition is_dated (a : attr) : Prop := exists nm v us, a = Resident 0x40 nm v /\ guid_dated v us.
Inductive objid_shown (items : list attr) : cell -> Prop :=
| objid_none : Forall (fun a => ~ is_dated a) items -> objid_shown items empty
| objid_some : forall nm v us, first_where is_dated items (Resident 0x40 nm v) -> guid_dated v us ->
    objid_shown items (Stamp (86400000000 * 577736 + us)).

(** The times kept by the Linux subsystem: the last valid LXATTRB entry of the
    first $EA with one; 1970-01-01 is day 719163. *)
Definition lx_name : list Z := [76; 88; 65; 84; 84; 82; 66; 0].
Definition is_lx (e : list Z * Z * list Z) : Prop :=
  fst (fst e) = lx_name /\ zlen (snd e) = 56 /\ fld 2 (snd e) 2 = 1 /\ fld 2 (snd e) 0 = 0.
Definition lx_times (b : list Z) (m a c : Z) : Prop :=
  decode_unixtime (fld 8 b 40) (fld 4 b 24) = Ok m /\
  decode_unixtime (fld 8 b 32) (fld 4 b 20) = Ok a /\
  decode_unixtime (fld 8 b 48) (fld 4 b 28) = Ok c.
Definition has_lx (a : attr) : Prop :=
  exists nm v l e, a = Resident 0xE0 nm v /\ ea_walk v l /\ In e l /\ is_lx e.
Inductive wsl_shown (items : list attr) : list cell -> Prop :=
| wsl_none : Forall (fun a => ~ has_lx a) items -> wsl_shown items [empty; empty; empty]
| wsl_some : forall nm v l1 n f b l2 m a c, first_where has_lx items (Resident 0xE0 nm v) ->
    ea_walk v (l1 ++ (n, f, b) :: l2) -> is_lx (n, f, b) -> Forall (fun e => ~ is_lx e) l2 -> lx_times b m a c ->
    wsl_shown items [Stamp (86400000000 * 719163 + m); Stamp (86400000000 * 719163 + a); Stamp (86400000000 * 719163 + c)].

(** ** Rows of a file record *)

(** The row of the record in slot [k], with these cells for the path and the times of the
    name. *)
Inductive record_row (tag : option (list Z)) (k : Z) (fr : file_record) (items : list attr) : cell -> list cell -> row -> Prop :=
| rr : forall path fn source used dir si oid size ads wsl r,
    let d := frs_data (fr_base fr) in
    source_shown (txt "File record") tag source ->
    flag_shown (in_use (fr_base fr)) used ->
    flag_shown (is_directory fr) dir ->
    si_shown items si -> objid_shown items oid -> size_shown items size -> ads_shown items ads -> wsl_shown items wsl ->
    r = [source; Num (number_in k (fr_base fr) + 2 ^ 48 * fld 2 d 16); used; dir; Num (fld 8 d 8); path] ++ si ++ fn ++ [oid; size; ads] ++ wsl ->
    record_row tag k fr items path fn r.

(** The names of a record in the order of the report: long ones first, the last
    one leading. *)
Definition in_order (vs : list (list Z)) : list (list Z) :=
  rev (filter long_name vs) ++ filter (fun v => negb (long_name v)) vs.

Section Table.
  Variable t : list (Z * frs).
  Variable data : list Z.
  Variable size : Z.

  (** The paths of a record, with the name values they were built from. *)
  Definition paths_are (fr : file_record) (l : list (list Z * list Z)) : Prop :=
    exists vs, has_names fr vs /\ Forall2 (path_line t data size) (in_order vs) l.

  (** One row for each path; a record without name has a row without path. *)
  Definition record_part (tag : option (list Z)) (k : Z) (fr : file_record) (l : list (list Z * list Z)) (rows : list row) : Prop :=
    exists items, fr_attributes fr = (items, Done) /\
    ((l = [] /\ exists r, rows = [r] /\ record_row tag k fr items empty [empty; empty; empty; empty] r) \/
     (l <> [] /\ Forall2 (fun sv r => exists fn, fn_shown (snd sv) fn /\ record_row tag k fr items (Txt (fst sv)) fn r) l rows)).

  (** The path of a name in a directory: that of the root ("/.") is left out. *)
  Definition child_path (dir : option (list Z)) (name : list Z) : list Z :=
    match dir with
    | Some s => (if zlist_eqb s [47; 46] then [] else s) ++ [47] ++ name
    | None => txt "<Unknown>" ++ [47] ++ name
    end.
  Definition first_of (l : list (list Z * list Z)) : option (list Z) :=
    match l with [] => None | sv :: _ => Some (fst sv) end.

  (** The row of a name found in an index or in slack space. *)
  Inductive name_row_is (source ref : cell) (path : list Z) (v : list Z) : row -> Prop :=
  | nr : forall dir fn, 65 <= zlen v ->
      flag_shown (Z.testbit (fld 4 v 56) 28 = true) dir -> fn_shown v fn ->
      name_row_is source ref path v
        ([source; ref; question; dir; empty; Txt path; empty; empty; empty; empty; empty] ++ fn ++
         [empty; Num (to_signed 64 (fld 8 v 48)); empty; empty; empty; empty]).

  Definition name_in (v : list Z) : list Z := utf16le (slice v 66 (66 + 2 * fld 1 v 64)).

  (** The names in the first index root for file names of a directory. *)
  Definition is_name_index (a : attr) : Prop := exists nm v, a = Resident 0x90 nm v /\ fld 4 v 0 = 0x30.
  (** The name in the entry at [p], unless it is marked as the last one. *)
  Definition entry_row (tag : option (list Z)) (l : list (list Z * list Z)) (v : list Z) (p : Z) (rows : list row) : Prop :=
    let e := zdrop p v in
    let key := slice e 16 (16 + fld 2 e 10) in
    (Z.testbit (fld 2 e 12) 1 = true /\ rows = []) \/
    (Z.testbit (fld 2 e 12) 1 = false /\ exists source r, rows = [r] /\ source_shown (txt "Index record") tag source /\
       name_row_is source (Num (fld 8 e 0)) (child_path (first_of l) (name_in key)) key r).
  Definition index_part (tag : option (list Z)) (fr : file_record) (l : list (list Z * list Z)) (rows : list row) : Prop :=
    exists items, fr_attributes fr = (items, Done) /\
    (((~ is_directory fr \/ Forall (fun a => ~ is_name_index a) items) /\ rows = []) \/
     (is_directory fr /\ exists nm v ps parts, first_where is_name_index items (Resident 0x90 nm v) /\
        ix_walk v (16 + fld 4 v 20) false (16 + fld 4 v 16) ps Done /\
        Forall2 (entry_row tag l v) ps parts /\ rows = concat parts)).

  (** The record with this number and sequence number, or the base record of the
      child segment with them. *)
  Definition reached (n seq : Z) (fr : file_record) : Prop :=
    record_at t data size n (Some seq) fr \/
    exists f, segment_at data size n f /\ ~ is_base f /\ last_sequence f seq /\ In (n, f) t /\
      record_at t data size (base_reference f mod 2 ^ 48) (Some (base_reference f / 2 ^ 48)) fr.
  (** Its first path, if there is one. *)
  Definition located (ref : Z) (s : option (list Z)) : Prop :=
    let known s := exists fr v l, reached (ref mod 2 ^ 48) (ref / 2 ^ 48) fr /\ paths_are fr ((s, v) :: l) in
    match s with Some s => known s | None => forall s, ~ known s end.

  (** The bytes of a segment after its end marker. *)
  Definition slack_after (f : frs) (s : option (list Z)) : Prop :=
    let d := frs_data f in
    exists (items : list attr) e, attr_seq d (first_free_off d) shows (first_attr_off d) items e /\
      ((first_free_off d <= e /\ s = None) \/
       (e < first_free_off d /\ end_at d e /\ s = Some (zdrop (e + 4) d))).

  Definition carved_row (tag : option (list Z)) (item : carved) (r : row) : Prop :=
    exists source, source_shown (txt "Slack") tag source /\
    match item with
    | CName v => exists dir, located (fld 8 v 0) dir /\
        name_row_is source question (child_path dir (name_in v)) v r
    | CPartial n => r = [source; question; question; question; empty;
        Txt (txt "<Unknown, likely the same as above>/<Can be partially overwritten or start with a wrong character>" ++ n);
        empty; empty; empty; empty; empty; question; question; question; question; empty; question;
        empty; empty; empty; empty]
    end.
  Definition segment_slack (tag : option (list Z)) (f : frs) (rows : list row) : Prop :=
    exists s, slack_after f s /\
    match s with
    | None => rows = []
    | Some v => exists l, slack_items v true l /\ Forall2 (carved_row tag) l rows
    end.
  Definition slack_part (tag : option (list Z)) (fr : file_record) (rows : list row) : Prop :=
    exists parts, Forall2 (segment_slack tag) (fr_base fr :: fr_children fr) parts /\ rows = concat parts.

  (** All rows for the record in slot [k]; none if its paths cannot be built. *)
  Definition record_block (tag : option (list Z)) (k : Z) (fr : file_record) (rows : list row) : Prop :=
    ((forall l, ~ paths_are fr l) /\ rows = []) \/
    exists l a b c, paths_are fr l /\ record_part tag k fr l a /\ index_part tag fr l b /\ slack_part tag fr c /\
      rows = a ++ b ++ c.
End Table.

(** ** Undamaged records: every value read for the report is long enough, and
    the times of the Linux subsystem are not past the year 9999. *)
Definition sound_entry (v : list Z) (q : Z) : Prop :=
  q + 14 <= zlen v /\
  (Z.testbit (fld 2 v (q + 12)) 1 = false -> 65 <= fld 2 v (q + 10) /\ q + 16 + 65 <= zlen v).
Definition sound_index (v : list Z) : Prop :=
  4 <= zlen v /\
  (fld 4 v 0 = 0x30 -> 24 <= zlen v /\
     exists ps, ix_walk v (16 + fld 4 v 20) false (16 + fld 4 v 16) ps Done /\ Forall (sound_entry v) ps).
Definition sound_attr (dir : Prop) (a : attr) : Prop :=
  match a with
  | Resident ty _ v =>
    (ty = 0x10 -> 32 <= zlen v) /\ (ty = 0x30 -> 66 <= zlen v) /\ (ty = 0x90 -> dir -> sound_index v) /\
    (ty = 0xE0 -> forall l e, ea_walk v l -> In e l -> is_lx e -> exists m a c, lx_times (snd e) m a c) /\ ty <> 0xA0
  | _ => True
  end.
Definition sound_record (fr : file_record) : Prop :=
  exists items, fr_attributes fr = (items, Done) /\ Forall (sound_attr (is_directory fr)) items.
