(** Model of the class FileSystemParser of /repo/dfir_ntfs/addons/exFAT.py.
    Python's sets and dictionaries keep the order of insertion here (the order
    of a set is only used for the orphan directories). *)
From Verif Require Import Base FatBasic FatDir FatFs ExBasic ExBoot ExTable ExDir DirWalk ClusterRead.

(** exFAT.py:1053-1081: the boot region and whether it is a backup, the table,
    where the clusters are, the last cluster, the data of the bitmap. *)
Record x_fs := mk_x_fs { xv_boot : list Z; xv_backup : bool; xv_fat : xfat; xv_geo : geometry; xv_last : Z; xv_bitmap : list Z }.

(** exFAT.py:296-303, 1100-1101: exceptions after which another boot region is tried. *)
Definition br_caught (e : exn) : bool :=
  match e with BootRegionException | BootRegionChecksumException | NotImplementedError => true | _ => false end.

(** exFAT.py:1084-1103: the first boot region that is accepted, and its offset. *)
Fixpoint br_search (vol : list Z) (voff : Z) (offs : list Z) : result (option (Z * list Z)) :=
  match offs with
  | [] => Ok None
  | off :: r =>
    let! b := read_at vol (voff + off) (12 * 4096) in
    match br_open b with
    | Ok _ => Ok (Some (off, b))
    | Err e => if br_caught e then br_search vol voff r else Err e
    end
  end.

(** exFAT.py:1097-1107. *)
Definition br_find (vol : list Z) (voff : Z) : result (Z * list Z) :=
  let! r := br_search vol voff [0; 12 * 512; 12 * 4096] in
  match r with
  | None => Err BootRegionException
  | Some (off, b) =>
    let! bps := br_bytespersector b in
    if ((off =? 12 * 512) && negb (bps =? 512)) || ((off =? 12 * 4096) && negb (bps =? 4096)) then Err BootRegionException
    else Ok (off, b)
  end.

(** exFAT.py:1146-1165: clusters of a file without a chain; [rem] is the size that remains. *)
Fixpoint x_run_loop (fuel : nat) (last cs curr rem : Z) : list (option Z) :=
  match fuel with
  | O => []
  | S fuel => if rem <=? 0 then [] else if last <? curr then [] else Some curr :: x_run_loop fuel last cs (curr + 1) (rem - cs)
  end.
Definition x_run (last cs first size : Z) : list (option Z) :=
  if (0 <? size) && (2 <=? first) then x_run_loop (Z.to_nat (last + 1)) last cs first size else [].

(** exFAT.py:1138-1201. *)
Definition x_read (f : xfat) (g : geometry) (last first : Z) (size : option Z) (no_chain : bool) : result (list Z) :=
  let! cl := if negb no_chain then x_chain f first
             else match size with None => Err ValueError | Some n => Ok (x_run last (g_cs g) first n) end in
  read_clusters g size cl.
Definition x_read_chain (fs : x_fs) (first : Z) (size : option Z) (no_chain : bool) : result (list Z) :=
  x_read (xv_fat fs) (xv_geo fs) (xv_last fs) first size no_chain.

(** exFAT.py:1129-1133: the entry of the bitmap for the table in use. *)
Fixpoint x_find_bitmap (id : Z) (es : list x_item) : option Z :=
  match es with
  | [] => None
  | XBitmap i first _ :: r => if i =? id then Some first else x_find_bitmap id r
  | _ :: r => x_find_bitmap id r
  end.

(** exFAT.py:1083-1136.  An exception of the iteration counts only when the
    bitmap was not found before. *)
Definition x_fs_open (vol : list Z) (voff : Z) (vsize : option Z) : result x_fs :=
  if too_small vsize (1024 * 1024) then Err ValueError
  else
    let! (off, b) := br_find vol voff in
    let! bps := br_bytespersector b in
    let! spc := br_sectorspercluster b in
    let g := mk_geometry vol voff vsize (bps * spc) (br_heapoffset b * bps) in
    let fat_size := br_fatlength b * bps in
    let fat_off := br_fatoffset b * bps + (if br_active_fat b then fat_size else 0) in
    let last := br_clustercount b + 1 in
    let! f := xfat_open vol (voff + fat_off) fat_size last in
    let! root := x_read f g last (br_rootcluster b) None false in
    let '(es, fin) := x_entries true root in
    match x_find_bitmap (if br_active_fat b then 1 else 0) es with
    | Some c =>
      let! bm := x_read f g last c None false in
      Ok (mk_x_fs b (negb (off =? 0)) f g last bm)
    | None => match fin with Done => Err FileSystemException | Raised e => Err e end
    end.

(** Reallocated directories, what is known about them, visited directories. *)
Definition x_meta : Type := (x_time * Z * bool)%type.
Record x_state := mk_x_state { xt_realloc : list Z; xt_meta : list (Z * x_meta); xt_visited : list Z }.

Fixpoint meta_get (c : Z) (l : list (Z * x_meta)) : option x_meta :=
  match l with [] => None | (k, m) :: r => if k =? c then Some m else meta_get c r end.
Fixpoint meta_set (c : Z) (m : x_meta) (l : list (Z * x_meta)) : list (Z * x_meta) :=
  match l with [] => [(c, m)] | (k, n) :: r => if k =? c then (k, m) :: r else (k, n) :: meta_set c m r end.

(** [datetime > datetime]; comparing with None raises TypeError. *)
Definition stamp_list (t : fat_datetime * Z) : list Z :=
  let '((y, mo, d), (h, mi, s), ms) := t in [y; mo; d; h; mi; s; ms].
Fixpoint lex_gt (a b : list Z) : bool :=
  match a, b with
  | x :: a, y :: b => (y <? x) || ((x =? y) && lex_gt a b)
  | _, _ => false
  end.
Definition x_time_gt (a b : x_time) : result bool :=
  match a, b with Some a, Some b => Ok (lex_gt (stamp_list a) (stamp_list b)) | _, _ => Err TypeError end.

(** exFAT.py:1246-1251: the metadata of the most recent entry. *)
Definition x_note (e : xentry) (l : list (Z * x_meta)) : result (list (Z * x_meta)) :=
  let m := (xe_mtime e, xe_size e, xe_no_chain e) in
  match meta_get (xe_first e) l with
  | None => Ok (meta_set (xe_first e) m l)
  | Some (ts, _, _) => let! gt := x_time_gt (xe_mtime e) ts in Ok (if gt then meta_set (xe_first e) m l else l)
  end.

(** [except (FileSystemException, ValueError)]. *)
Definition x_caught (e : exn) : bool :=
  match e with
  | FileSystemException | BootRegionException | BootRegionChecksumException | FileAllocationTableException | DirectoryEntriesException | ValueError => true
  | _ => false
  end.

(** exFAT.py:1213-1269 with ExpandPath, exFAT.py:706-742. *)
Definition x_kind_of (i : x_item) : wkind :=
  match i with
  | XLabel _ | XOrphan _ => KOther
  | XBitmap _ _ _ => KSkip
  | XFile e => if xe_directory e && negb (xe_first e =? 0) then KDir (xe_first e) else KFile
  end.
Definition x_named (e : xentry) (name : list Z) : xentry :=
  mk_xentry (xe_deleted e) (xe_directory e) name (xe_atime e) (xe_atz e) (xe_mtime e) (xe_mtz e) (xe_ctime e) (xe_ctz e)
    (xe_size e) (xe_valid e) (xe_attributes e) (xe_first e) (xe_encrypted e) (xe_no_chain e).
Definition x_emit (path : list Z) (i : x_item) : result x_item :=
  match i with
  | XFile e => Ok (XFile (x_named e (x_expand path (xe_name e))))
  | XOrphan n => Ok (XOrphan (x_expand path n))
  | _ => Ok i
  end.

(** exFAT.py:1231-1266. *)
Definition x_enter (fs : x_fs) (scan : bool) (st : x_state) (path : list Z) (i : x_item) : result (x_state * option (list Z * list Z)) :=
  match i with
  | XFile e =>
    let c := xe_first e in
    let! al := x_is_allocated (xv_bitmap fs) (xv_last fs) c in
    match al with
    | None => Ok (st, None)
    | Some al =>
      if negb (xe_directory e) then Ok (st, None)
      else if negb scan && xe_deleted e && al then
        let! meta := x_note e (xt_meta st) in
        Ok (mk_x_state (set_add c (xt_realloc st)) meta (xt_visited st), None)
      else
        let st := mk_x_state (xt_realloc st) (xt_meta st) (set_add c (xt_visited st)) in
        match x_read_chain fs c (Some (xe_size e)) (xe_no_chain e) with
        | Err x => if x_caught x then Ok (st, None) else Err x
        | Ok [] => Ok (st, None)
        | Ok buf => Ok (st, Some (buf, path ++ [slash] ++ xe_name e))
        end
    end
  | _ => Ok (st, None)
  end.

(** exFAT.py:1286-1297. *)
Definition x_orphan_dir (fs : x_fs) (st : x_state) (c : Z) : result (option (list Z * list Z)) :=
  match meta_get c (xt_meta st) with
  | None => Err KeyError
  | Some (_, size, no_chain) =>
    match x_read_chain fs c (Some size) no_chain with
    | Err x => if x_caught x then Ok None else Err x
    | Ok buf =>
      if (zlen buf <? 512) || negb (byte_at buf 0 =? 0x05) || negb (byte_at buf 32 =? 0x40) || negb (byte_at buf 64 =? 0x41)
      then Ok None else Ok (Some (buf, orphan_path c))
    end
  end.

Definition x_walker (fs : x_fs) (scan : bool) : walker x_item x_item x_state :=
  mk_walker (fun path buf => x_entries (zlen path =? 0) buf) x_kind_of x_emit (x_enter fs scan)
    (fun st => filter (fun c => negb (zin c (xt_visited st))) (xt_realloc st)) (x_orphan_dir fs).

(** exFAT.py:1203-1298. *)
Definition x_walk (fs : x_fs) (scan : bool) : gen x_item :=
  let first := br_rootcluster (xv_boot fs) in
  match x_read_chain fs first None false with
  | Err e => ([], Raised e)
  | Ok buf => walk_from (x_walker fs scan) (S (S (Z.to_nat (xv_last fs + 1)))) (mk_x_state [] [] []) buf [first]
  end.
