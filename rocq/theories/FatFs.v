(** Model of the class FileSystemParser of /repo/dfir_ntfs/addons/FAT.py. *)
From Verif Require Import Base FatBasic FatBoot FatTable FatDir DirWalk ClusterRead.
From Coq Require Import DecimalN.

(** FAT.py:1478-1510: the boot sector, whether it is one of FAT32, the type, the table, and where the clusters are. *)
Record fat_fs := mk_fat_fs { fs_boot : list Z; fs_f32 : bool; fs_type : Z; fs_fat : fat; fs_geo : geometry }.

Definition too_small (vsize : option Z) (n : Z) : bool := match vsize with Some s => s <? n | None => false end.

(** FAT.py:1480-1510. *)
Definition fat_fs_open (vol : list Z) (voff : Z) (vsize : option Z) : result fat_fs :=
  if too_small vsize 4096 then Err ValueError
  else
    let! buf := read_at vol voff 512 in
    let! f32 := bsbpb_open buf false in
    let! type := fat_type_of f32 buf in
    let! bps := bytspersec buf in
    let! spc := secperclus buf in
    let! ((off, size), last) := fat_offset_and_size f32 buf in
    let! f := fat_open vol (voff + off) size last type in
    let! rsvd := rsvdseccnt buf in
    let! nf := numfats buf in
    if type =? 32 then
      let! sz := fatsz32 f32 buf in
      match sz with
      | None => Err TypeError
      | Some sz => Ok (mk_fat_fs buf f32 type f (mk_geometry vol voff vsize (bps * spc) ((rsvd + nf * sz) * bps)))
      end
    else
      let! re := rootentcnt f32 buf in
      let! sz := fatsz16 f32 buf in
      let root := (re * 32 + bps - 1) / bps in
      Ok (mk_fat_fs buf f32 type f (mk_geometry vol voff vsize (bps * spc) ((rsvd + nf * sz + root) * bps))).

(** FAT.py:1512-1553. *)
Definition fat_read_chain (fs : fat_fs) (first : Z) (size : option Z) : result (list Z) :=
  let! cl := fat_chain (fs_fat fs) first in
  read_clusters (fs_geo fs) size cl.

(** FAT.py:1107-1110. *)
Definition slash : Z := 47.
Definition with_slash (parent : list Z) : list Z :=
  match parent with
  | [] => [slash]
  | _ => if last parent 0 =? slash then parent else parent ++ [slash]
  end.

(** FAT.py:1106-1138.  An orphan entry without a name makes the concatenation raise TypeError. *)
Definition fat_expand (parent : list Z) (i : dir_item) : result dir_item :=
  let p := with_slash parent in
  match i with
  | FileE e =>
    Ok (FileE (mk_file_entry (fe_deleted e) (fe_directory e) (p ++ fe_short e) (fe_short_raw e)
      (match fe_long e with None => None | Some n => Some (p ++ n) end)
      (fe_atime e) (fe_mtime e) (fe_ctime e) (fe_size e) (fe_attributes e) (fe_ntbyte e) (fe_first_cluster e) (fe_encrypted e)))
  | OrphanE (Some n) => Ok (OrphanE (Some (p ++ n)))
  | OrphanE None => Err TypeError
  end.

(** Reallocated and visited directories, in the order of insertion. *)
Definition fat_state : Type := (list Z * list Z)%type.
Definition set_add (x : Z) (l : list Z) : list Z := if zin x l then l else l ++ [x].

Definition is_dot (n : list Z) : bool := list_eqb n [46] || list_eqb n [46; 46].

(** FAT.py:1580, 1594. *)
Definition fat_kind (i : dir_item) : wkind :=
  match i with
  | OrphanE _ => KOther
  | FileE e => if fe_directory e && negb (is_dot (fe_short e)) && negb (fe_first_cluster e =? 0) then KDir (fe_first_cluster e) else KFile
  end.

(** [except (FileSystemException, ValueError)]. *)
Definition fat_caught (x : exn) : bool :=
  match x with
  | FileSystemException | BootSectorException | FSINFOException | FileAllocationTableException | DirectoryEntriesException | ValueError => true
  | _ => false
  end.

(** [buf[-n]]. *)
Definition from_end (buf : list Z) (n : Z) : result Z :=
  match znth buf (zlen buf - n) with Some v => Ok v | None => Err IndexError end.

(** FAT.py:1560-1567. *)
Definition bufs_match (b1 b2 : list Z) : result bool :=
  let! a := from_end b1 96 in
  if a =? 0 then Ok false
  else
    let! b := from_end b1 64 in
    if b =? 0 then Ok false
    else
      let! c := from_end b1 32 in
      if c =? 0 then Ok false
      else
        match b2 with
        | [] => Err IndexError
        | d :: _ => if d =? 0 then Ok false else Ok (negb (list_eqb (slice b2 33 35) [46; 32]))
        end.

(** FAT.py:1619-1647: the next cluster of a deleted directory. *)
Definition fat_extra (fs : fat_fs) (first : Z) (buf : list Z) : result (list Z) :=
  let! cl := fat_chain (fs_fat fs) first in
  if negb (zlen cl =? 1) then Ok buf
  else
    let! al := is_allocated (fs_fat fs) (first + 1) in
    match al with
    | Some false =>
      match fat_read_chain fs (first + 1) None with
      | Err x => if fat_caught x then Ok buf else Err x
      | Ok extra => let! m := bufs_match buf extra in Ok (if m then buf ++ extra else buf)
      end
    | _ => Ok buf
    end.

Definition is_true (b : option bool) : bool := match b with Some true => true | _ => false end.

(** FAT.py:1594-1649. *)
Definition fat_enter (fs : fat_fs) (scan : bool) (st : fat_state) (path : list Z) (i : dir_item) : result (fat_state * option (list Z * list Z)) :=
  match i with
  | OrphanE _ => Ok (st, None)
  | FileE e =>
    if negb (fe_directory e && negb (is_dot (fe_short e))) then Ok (st, None)
    else
      let name := match fe_long e with Some n => n | None => fe_short e end in
      let c := fe_first_cluster e in
      let deleted := is_true (fe_deleted e) in
      let! al := is_allocated (fs_fat fs) c in
      match al with
      | None => Ok (st, None)
      | Some al =>
        if negb scan && deleted && al then Ok ((set_add c (fst st), snd st), None)
        else
          let st := (fst st, set_add c (snd st)) in
          match fat_read_chain fs c None with
          | Err x => if fat_caught x then Ok (st, None) else Err x
          | Ok [] => Ok (st, None)
          | Ok buf =>
            if negb scan && deleted && negb (list_eqb (slice buf 33 35) [46; 32]) then Ok (st, None)
            else
              let! buf := if deleted then fat_extra fs c buf else Ok buf in
              Ok (st, Some (buf, path ++ [slash] ++ name))
          end
      end
  end.

(** Decimal digits. *)
Fixpoint uint_digits (d : Decimal.uint) : list Z :=
  match d with
  | Decimal.Nil => []
  | Decimal.D0 d => 48 :: uint_digits d | Decimal.D1 d => 49 :: uint_digits d | Decimal.D2 d => 50 :: uint_digits d
  | Decimal.D3 d => 51 :: uint_digits d | Decimal.D4 d => 52 :: uint_digits d | Decimal.D5 d => 53 :: uint_digits d
  | Decimal.D6 d => 54 :: uint_digits d | Decimal.D7 d => 55 :: uint_digits d | Decimal.D8 d => 56 :: uint_digits d
  | Decimal.D9 d => 57 :: uint_digits d
  end.
Definition decimal (n : Z) : list Z := uint_digits (N.to_uint (Z.to_N n)).

(** FAT.py:1691 (['<Orphan directory {}>'.format]). *)
Definition orphan_path (c : Z) : list Z :=
  [60;79;114;112;104;97;110;32;100;105;114;101;99;116;111;114;121;32] ++ decimal c ++ [62].

(** FAT.py:1682-1691. *)
Definition fat_orphan (fs : fat_fs) (st : fat_state) (c : Z) : result (option (list Z * list Z)) :=
  match fat_read_chain fs c None with
  | Err x => if fat_caught x then Ok None else Err x
  | Ok buf =>
    if (zlen buf <? 512) || negb (list_eqb (slice buf 32 35) [46; 46; 32]) || negb (list_eqb (slice buf 0 2) [46; 32])
    then Ok None else Ok (Some (buf, orphan_path c))
  end.

(** The order of the iteration over a set is taken to be the order of insertion. *)
Definition fat_walker (dec lower : list Z -> list Z) (fs : fat_fs) (scan : bool) : walker dir_item dir_item fat_state :=
  mk_walker (fun _ buf => dir_entries dec lower (fs_type fs =? 32) false buf) fat_kind fat_expand (fat_enter fs scan)
    (fun st => filter (fun c => negb (zin c (snd st))) (fst st)) (fat_orphan fs).

(** FAT.py:1653-1676: the root directory, its stack and the visited directories. *)
Definition fat_root (fs : fat_fs) : result (list Z * list Z * list Z) :=
  if fs_type fs =? 32 then
    let! c := rootclus (fs_f32 fs) (fs_boot fs) in
    match c with
    | None => Err TypeError
    | Some c => let! buf := fat_read_chain fs c None in Ok (buf, [c], [c])
    end
  else
    let! rsvd := rsvdseccnt (fs_boot fs) in
    let! sz := fatsz16 (fs_f32 fs) (fs_boot fs) in
    let! nf := numfats (fs_boot fs) in
    let! bps := bytspersec (fs_boot fs) in
    let! re := rootentcnt (fs_f32 fs) (fs_boot fs) in
    let size := re * 32 in
    if size =? 0 then Err ValueError
    else
      let! buf := read_at (g_vol (fs_geo fs)) (g_voff (fs_geo fs) + (rsvd + sz * nf) * bps) size in
      if negb (zlen buf =? size) then Err ValueError else Ok (buf, [], []).

(** FAT.py:1555-1692. *)
Definition fat_walk (dec lower : list Z -> list Z) (fs : fat_fs) (scan : bool) : gen dir_item :=
  match fat_root fs with
  | Err x => ([], Raised x)
  | Ok (buf, stack, visited) =>
    walk_from (fat_walker dec lower fs scan) (S (S (Z.to_nat (f_size (fs_fat fs))))) ([], visited) buf stack
  end.
