(** vsc_mount: a shadow copy shown as a file system with one file
    (vsc_mount:19-245), and the list of the shadow copies (vsc_mount:335-359).

    Left out: the user and group of the files (those of the process), the
    attributes that are constants without a meaning here (generation,
    timeouts, st_rdev, st_blksize, times 0), init and destroy, the context
    argument and the calls of the FUSE library.  The handling of the command
    line is in MountMain.v.  Constants are those of Linux. *)
From Coq Require Import String.
From Verif Require Import Base Shadow Filetime FatDir Report LogReport ReportText.
Local Open Scope Z_scope.

(** errno *)
Definition ENOENT : Z := 2.
Definition EBADF : Z := 9.
Definition EROFS : Z := 30.

(** vsc_mount:13-17; llfuse.ROOT_INODE is 1. *)
Definition ROOT_INODE : Z := 1.
Definition INODE_IMAGE_FILE : Z := 2.
Definition FILE_HANDLE_ROOT_DIR : Z := 1.
Definition FILE_HANDLE_IMAGE_FILE : Z := 2.
Definition FILE_NAME_IMAGE_FILE : list Z := txt "image.raw".

(** os.O_WRONLY | os.O_RDWR | os.O_APPEND *)
Definition write_flags : Z := Z.lor (Z.lor 1 2) 1024.

Record attr : Type := mk_attr { at_ino : Z; at_mode : Z; at_nlink : Z; at_size : Z; at_blocks : Z }.

(** A mount: the parser of the shadow copy and [_debug_fill]. *)
Record mount : Type := mk_mount { mo_vss : parser; mo_fill : bool }.

(** vsc_mount:22-36 VSCFS.__init__. *)
Definition mount_one (fuel depth : nat) (v : vol) (position : Z) (fill : bool) : result mount :=
  let! o := open_one fuel v None in
  let (o, r) := select_shadow fuel depth o (ByPos position) in
  let! _ := r in Ok (mk_mount o fill).

(** vsc_mount:210-230 VSCFS2.__init__. *)
Definition mount_two (fuel depth : nat) (v w : vol) (position : Z) : result mount :=
  let! o := open_two fuel v w None in
  let (o, r) := select_shadow fuel depth o (ByPos position) in
  let! _ := r in Ok (mk_mount o false).

(** vsc_mount:38-63; S_IFREG | 0o644. *)
Definition image_attr (m : mount) : attr :=
  let size := ps_size (sp_cur (mo_vss m)) in
  mk_attr INODE_IMAGE_FILE (Z.lor 0x8000 0x1A4) 1 size ((size + 512 - 1) / 512).
(** vsc_mount:65-90; S_IFDIR | 0o755. *)
Definition root_attr : attr := mk_attr ROOT_INODE (Z.lor 0x4000 0x1ED) 1 0 ((0 + 512 - 1) / 512).

(** The requests that would change something, without their arguments. *)
Inductive change := Create | Fsync | Fsyncdir | Link | Mkdir | Mknod | Rename | Rmdir | Setattr | Symlink | Unlink | Write.

Inductive request :=
| RAccess (inode mode : Z)
| RGetattr (inode : Z)
| ROpen (inode flags : Z)
| ROpendir (inode : Z)
| RLookup (parent : Z) (name : list Z)
| RRead (fh off size : Z)
| RReaddir (fh off : Z)
| RRelease (fh : Z)
| RReleasedir (fh : Z)
| RStatfs
| RChange (c : change).

Inductive answer :=
| AError (errno : Z)             (* FUSEError *)
| AExn (e : exn)                 (* another exception *)
| ATrue
| ANone
| AAttr (a : attr)
| AHandle (h : Z)
| AData (d : list Z)
| AEntries (l : list (list Z * attr * Z))
| AStat (bsize frsize blocks bfree bavail files ffree favail : Z).

(** vsc_mount:103-205. *)
Definition serve (m : mount) (q : request) : mount * answer :=
  match q with
  | RAccess _ _ => (m, ATrue)
  | RGetattr inode =>
    (m, if inode =? INODE_IMAGE_FILE then AAttr (image_attr m)
        else if inode =? ROOT_INODE then AAttr root_attr
        else AError EBADF)
  | ROpen inode flags =>
    (m, if 0 <? Z.land flags write_flags then AError EROFS
        else if inode =? INODE_IMAGE_FILE then AHandle FILE_HANDLE_IMAGE_FILE
        else AError ENOENT)
  | ROpendir inode => (m, if inode =? ROOT_INODE then AHandle FILE_HANDLE_ROOT_DIR else AError ENOENT)
  | RLookup parent name =>
    (m, if (parent =? ROOT_INODE) && zlist_eqb name FILE_NAME_IMAGE_FILE then AAttr (image_attr m) else AError ENOENT)
  | RRead fh off size =>
    if negb (fh =? FILE_HANDLE_IMAGE_FILE) then (m, AError EBADF) else
    let (o, s) := sp_seek (mo_vss m) off 0 in
    match s with
    | Err e => (mk_mount o (mo_fill m), AExn e)
    | Ok _ =>
      let (o, r) := sp_read o (Some size) (mo_fill m) in
      (mk_mount o (mo_fill m), match r with Ok d => AData d | Err e => AExn e end)
    end
  | RReaddir fh off =>
    (m, if negb (fh =? FILE_HANDLE_ROOT_DIR) then AError EBADF
        else AEntries (if off =? 0 then [(FILE_NAME_IMAGE_FILE, image_attr m, 1)] else []))
  | RRelease _ => (m, ANone)
  | RReleasedir _ => (m, ANone)
  | RStatfs => (m, AStat 512 512 0 0 0 0 0 0)
  | RChange _ => (m, AError EROFS)
  end.

(** Requests one after another (there is one worker, vsc_mount:281, 325). *)
Fixpoint serve_all (m : mount) (qs : list request) : mount * list answer :=
  match qs with
  | [] => (m, [])
  | q :: qs => let (m, a) := serve m q in let (m, l) := serve_all m qs in (m, a :: l)
  end.

(** vsc_mount:335-359: the lines printed for --list. *)
Definition shadow_line (s : shadow_info) : line :=
  ln "  Stack position: " [Num (si_pos s); Txt (txt ", timestamp (UTC): ");
    match si_time s with Some us => Stamp (ordinal_1601 * us_per_day + us) | None => Txt (txt "None") end].
Definition list_shadows (fuel : nat) (v : vol) : gen line :=
  match open_one fuel v None with
  | Err ShadowCopiesDisabledException => ([ln "Shadow copies are disabled" []], Done)
  | Err InvalidVolume => ([ln "Not a valid volume" []], Done)
  | Err e => ([], Raised e)
  | Ok o => let (l, st) := shadows (sp_cbs o) in (ln "Shadow copies are enabled" [] :: map shadow_line l, st)
  end.
(** The text: '{}'.format of a datetime is its str. *)
Definition list_text (fuel : nat) (v : vol) : list Z :=
  flat_map (fun l => flat_map (cell_text stamp_str) l ++ [10]) (fst (list_shadows fuel v)).
