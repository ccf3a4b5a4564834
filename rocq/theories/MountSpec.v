(** Specification of the mounted file system: a directory with one file. *)
From Coq Require Import String.
From Verif Require Import Base Shadow ShadowSpec Filetime FatDir Report LogReport ReportTextSpec Mount.
Local Open Scope Z_scope.

(** A regular file (8) or a directory (4), with permissions. *)
Definition mode_of (kind user group other : Z) : Z := kind * 4096 + user * 64 + group * 8 + other.
Definition file_attr (size : Z) (a : attr) : Prop :=
  at_ino a = 2 /\ at_mode a = mode_of 8 6 4 4 /\ at_nlink a = 1 /\ at_size a = size /\
  512 * (at_blocks a - 1) < size <= 512 * at_blocks a.
Definition dir_attr (a : attr) : Prop := a = mk_attr 1 (mode_of 4 7 5 5) 1 0 0.

(** Some of the bits 0 (write only), 1 (read and write) and 10 (append). *)
Definition for_writing (flags : Z) : Prop := Z.testbit flags 0 = true \/ Z.testbit flags 1 = true \/ Z.testbit flags 10 = true.

(** The right answers to a request.  They depend on the shadow copy only, not
    on the requests before. *)
Inductive right (o : parser) (fill : bool) : request -> answer -> Prop :=
| r_access i m : right o fill (RAccess i m) ATrue
| r_attr_file a : file_attr (virtual_size o) a -> right o fill (RGetattr 2) (AAttr a)
| r_attr_dir a : dir_attr a -> right o fill (RGetattr 1) (AAttr a)
| r_attr_none i : i <> 1 -> i <> 2 -> right o fill (RGetattr i) (AError EBADF)
| r_open_write i f : for_writing f -> right o fill (ROpen i f) (AError EROFS)
| r_open f : ~ for_writing f -> right o fill (ROpen 2 f) (AHandle 2)
| r_open_none i f : ~ for_writing f -> i <> 2 -> right o fill (ROpen i f) (AError ENOENT)
| r_opendir : right o fill (ROpendir 1) (AHandle 1)
| r_opendir_none i : i <> 1 -> right o fill (ROpendir i) (AError ENOENT)
| r_lookup a : file_attr (virtual_size o) a -> right o fill (RLookup 1 (txt "image.raw")) (AAttr a)
| r_lookup_none i n : ~ (i = 1 /\ n = txt "image.raw") -> right o fill (RLookup i n) (AError ENOENT)
| r_read off size pos d : 0 <= off -> read_result o fill off (Some size) pos (Ok d) -> right o fill (RRead 2 off size) (AData d)
| r_read_err off size pos e : 0 <= off -> read_result o fill off (Some size) pos (Err e) -> right o fill (RRead 2 off size) (AExn e)
| r_read_neg off size : off < 0 -> right o fill (RRead 2 off size) (AExn ValueError)
| r_read_none h off size : h <> 2 -> right o fill (RRead h off size) (AError EBADF)
| r_list a : file_attr (virtual_size o) a -> right o fill (RReaddir 1 0) (AEntries [(txt "image.raw", a, 1)])
| r_list_end off : off <> 0 -> right o fill (RReaddir 1 off) (AEntries [])
| r_list_none h off : h <> 1 -> right o fill (RReaddir h off) (AError EBADF)
| r_release h : right o fill (RRelease h) ANone
| r_releasedir h : right o fill (RReleasedir h) ANone
| r_statfs : right o fill RStatfs (AStat 512 512 0 0 0 0 0 0)
| r_change c : right o fill (RChange c) (AError EROFS).

(** The store a mount shows: selected in an opened volume by its position. *)
Definition mounted (m : mount) : Prop :=
  selected_parser (mo_vss m) /\ sp_vsize (mo_vss m) = None /\
  0 <= v_off (sp_live (mo_vss m)) /\ 0 <= v_off (sp_store (mo_vss m)).

(** Every block up to the size can be read. *)
Definition readable (o : parser) (fill : bool) : Prop :=
  (sp_two o && fill = false) /\
  (forall x, 0 <= x < virtual_size o -> virtual_byte o fill x <> None) /\
  (forall x e, 0 <= x < virtual_size o -> ~ block_error o fill (x / 16384 * 16384) e).

(** The bytes of the volume from [off] on. *)
Definition volume_bytes (o : parser) (fill : bool) (off : Z) (d : list Z) : Prop :=
  forall j, 0 <= j < zlen d -> exists c, znth d j = Some c /\ virtual_byte o fill (off + j) = Some c.

(** ** The list *)

(** A time in tenths of a microsecond, as text: FILETIMEs of the year 10000
    and later cannot be shown. *)
Definition time_listed (t : Z) (s : list Z) : Prop :=
  (t < 2650467743999999840 /\ exists us, decode_filetime t true = Ok (Some us) /\ reads_time true s (ordinal_1601 * us_per_day + us)) \/
  (2650467743999999840 <= t /\ s = txt "None").
Definition shadow_listed (i : item2) (s : list Z) : Prop :=
  exists n t, integer_text n (i2_pos i) /\ time_listed (i2_time i) t /\
    s = txt "  Stack position: " ++ n ++ txt ", timestamp (UTC): " ++ t ++ [10].
Definition items2 (l : list item) : list item2 := flat_map (fun i => match i with I2 i => [i] | I3 _ => [] end) l.
