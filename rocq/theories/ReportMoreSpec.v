(** Specification of the other reports: change journal, index buffers and
    hexadecimal dumps. *)
From Coq Require Import String.
From Verif Require Import Base FileRecord Frs FrsSpec MftSpec Filetime Usn UsnSpec UsnProofs Attributes AttributesSpec FragmentedFile Carve CarveSpec
  Report ReportSpec.
Local Open Scope Z_scope.

Section Table.
  Variable t : list (Z * frs).
  Variable data : list Z.
  Variable size : Z.

  (** ** Change journal: the row of a record with bytes [v] and version [k].
      References take 16 bytes since version 3; version 4 has neither time nor
      name.  The codes are shown without loss. *)
  Definition name_fits (v : list Z) (at_ : Z) : Prop :=
    fld 2 v at_ = 0 \/ fld 2 v (at_ + 2) + fld 2 v at_ <= zlen v.
  Inductive usn_shown (v : list Z) (k : Z) : usn_row -> Prop :=
  | us : forall source reason time name dir,
      let w := if k =? 2 then 8 else 16 in
      let fixed := 8 + 2 * w in
      let codes := fixed + (if k =? 4 then 8 else 16) in
      items_value reason_list reason = Some (fld 4 v codes) ->
      items_value source_list source = Some (fld 4 v (codes + 4)) ->
      (k = 4 -> time = empty /\ name = []) ->
      (k <> 4 -> filetime_shown (fld 8 v (fixed + 8)) time /\ name_fits v (fixed + 32) /\
                 name = utf16le (slice v (fld 2 v (fixed + 34)) (fld 2 v (fixed + 34) + fld 2 v (fixed + 32)))) ->
      located t data size (fld w v 8) dir ->
      usn_shown v k (mk_usn_row (fld 8 v fixed) source reason (fld w v 8) (fld w v (8 + w)) time name
                       (match dir with Some s => s | None => [] end)).
  Definition usn_sound (v : list Z) (k : Z) : Prop :=
    k <> 4 -> name_fits v (if k =? 2 then 56 else 72).

  (** ** Index buffers.  A name in a buffer of the directory with reference
      [own] and paths [l]. *)
  Inductive indx_row_is (own : Z) (l : list (list Z * list Z)) (source : list Z) (ref : cell) (v : list Z) : row -> Prop :=
  | ir : forall path isdir fn, 65 <= zlen v ->
      (fld 8 v 0 = own -> path = first_of l) ->
      (fld 8 v 0 <> own -> located t data size own path) ->
      flag_shown (Z.testbit (fld 4 v 56) 28 = true) isdir -> fn_shown v fn ->
      indx_row_is own l source ref v
        ([Txt source; ref; isdir; Txt (child_path path (name_in v))] ++ fn ++ [Num (to_signed 64 (fld 8 v 48))]).

  (** The entry at [q]; the last entry and values of up to 66 bytes have no row. *)
  Definition indx_entry (own : Z) (l : list (list Z * list Z)) (b : list Z) (q : Z) (rows : list row) : Prop :=
    let e := zdrop q b in
    let key := slice e 16 (16 + fld 2 e 10) in
    (((Z.testbit (fld 2 e 12) 1 = true \/ zlen key <= 66) /\ rows = []) \/
     (Z.testbit (fld 2 e 12) 1 = false /\ 66 < zlen key /\
      exists r, rows = [r] /\ indx_row_is own l (txt "Index record") (Num (fld 8 e 0)) key r)).
  Definition indx_buffer (own : Z) (l : list (list Z * list Z)) (b : list Z) (rows : list row) : Prop :=
    exists ps parts, ix_walk b (24 + fld 4 b 28) true (24 + fld 4 b 24) ps Done /\
      Forall2 (indx_entry own l b) ps parts /\ rows = concat parts.

  (** The names carved from the bytes after the entries. *)
  Definition indx_slack (own : Z) (l : list (list Z * list Z)) (b : list Z) (rows : list row) : Prop :=
    let s := zdrop (24 + fld 4 b 28) b in
    (zlen s <= 8 /\ rows = []) \/
    (8 < zlen s /\ exists items, slack_items s false items /\
       Forall2 (fun i r => exists v, i = CName v /\ indx_row_is own l (txt "Index slack") question v r) items rows).

  (** The buffers of a file are those of [ia_index_buffers] (C56). *)
  Definition indx_attr (vol : list Z) (voff cs : Z) (own : Z) (l : list (list Z * list Z)) (a : attr) (rows : list row) : Prop :=
    match a with
    | Nonresident 0xA0 (Some [36; 73; 51; 48]) _ runs _ _ n => exists bufs parts slack,
        ia_index_buffers (ff_open vol voff cs runs n) = (bufs, Done) /\
        Forall2 (indx_buffer own l) (map snd bufs) parts /\ Forall2 (indx_slack own l) (map snd bufs) slack /\
        rows = concat parts ++ concat slack
    | _ => rows = []
    end.
  Definition indx_block (vol : list Z) (voff cs : Z) (k : Z) (fr : file_record) (rows : list row) : Prop :=
    let own := number_in k (fr_base fr) + 2 ^ 48 * fld 2 (frs_data (fr_base fr)) 16 in
    ((forall l, ~ paths_are t data size fr l) /\ rows = []) \/
    exists l items parts, paths_are t data size fr l /\ fr_attributes_merged fr = (items, Done) /\
      Forall2 (indx_attr vol voff cs own l) items parts /\ rows = concat parts.

  (** Undamaged: the entries of each buffer end properly. *)
  Definition sound_buffer (b : list Z) : Prop :=
    exists ps, ix_walk b (24 + fld 4 b 28) true (24 + fld 4 b 24) ps Done.
  Definition sound_buffers (vol : list Z) (voff cs : Z) (a : attr) : Prop :=
    match a with
    | Nonresident 0xA0 (Some [36; 73; 51; 48]) _ runs _ _ n => exists bufs,
        ia_index_buffers (ff_open vol voff cs runs n) = (bufs, Done) /\ Forall sound_buffer (map snd bufs)
    | _ => True
    end.
  Definition sound_directory (vol : list Z) (voff cs : Z) (fr : file_record) : Prop :=
    exists items, fr_attributes_merged fr = (items, Done) /\ Forall (sound_buffers vol voff cs) items.
End Table.

(** ** Hexadecimal dumps *)

Definition digit (c : Z) : option Z :=
  if (48 <=? c) && (c <=? 57) then Some (c - 48) else if (65 <=? c) && (c <=? 70) then Some (c - 55) else None.
(** The number written in hexadecimal digits. *)
Fixpoint number (acc : Z) (s : list Z) : option Z :=
  match s with
  | [] => Some acc
  | c :: s => match digit c with Some d => number (16 * acc + d) s | None => None end
  end.

(** The columns of the bytes of a line: two digits for each byte, a space or (in
    the middle) a dash between them, spaces after the last byte. *)
Definition columns (l h : list Z) : Prop :=
  zlen h = 47 /\
  (forall j b, znth l j = Some b -> exists c1 c2, znth h (3 * j) = Some c1 /\ znth h (3 * j + 1) = Some c2 /\
     number 0 [c1; c2] = Some b) /\
  (forall j, 0 <= j -> j + 1 < zlen l -> znth h (3 * j + 2) = Some (if j =? 7 then 45 else 32)) /\
  (forall p, 3 * zlen l - 1 <= p < 47 -> znth h p = Some 32).
Definition shown_char (b : Z) : Z := if (32 <=? b) && (b <=? 126) then b else 46.
Definition line_of (i : Z) (l s : list Z) : Prop :=
  exists pos h, s = pos ++ [32; 32] ++ h ++ [32; 32] ++ map shown_char l /\
    8 <= zlen pos /\ (i < 2 ^ 32 -> zlen pos = 8) /\ number 0 pos = Some i /\ columns l h.
(** The lines from position [i] on. *)
Inductive dump_of (buf : list Z) (i : Z) : list Z -> Prop :=
| dump_last : forall s, i < zlen buf <= i + 16 -> line_of i (slice buf i (i + 16)) s -> dump_of buf i s
| dump_more : forall s rest, i + 16 < zlen buf -> line_of i (slice buf i (i + 16)) s ->
    dump_of buf (i + 16) rest -> dump_of buf i (s ++ 10 :: rest).

(** ** File control blocks *)

(** The row of the block at [p] of an image, its times at [p + d] and [p + a]. *)
Definition block_time (raw : Z) (c : cell) : Prop :=
  exists o, decode_filetime raw true = Ok o /\ c = match o with Some t => Stamp (86400000000 * 584389 + t) | None => Txt [] end.
Inductive block_shown (data : list Z) (d a p : Z) : row -> Prop :=
| bs : forall mt at_ ct et real, block_time (fld 8 data (p + d + 8)) mt -> block_time (fld 8 data (p + d + 24)) at_ ->
    block_time (fld 8 data (p + d)) ct -> block_time (fld 8 data (p + d + 16)) et -> block_time (fld 8 data (p + a)) real ->
    block_shown data d a p [Num (fld 8 data (p + 8)); mt; at_; ct; et; real].
