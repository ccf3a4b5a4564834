(** Model of the BIOS parameter block of /repo/dfir_ntfs/addons/FAT.py (BSBPB,
    GetCountOfClusters, IsFileSystem32/16/12, FSINFO).

    [buf] is the 512-byte sector and [f32] the attribute [is_fat32].  The cached
    [total_sectors] only decides whether a warning is issued and is left out,
    as are the warnings. *)
From Verif Require Import Base.

(** FAT.py:555-562. *)
Definition bytspersec (buf : list Z) : result Z :=
  let v := fld 2 buf 11 in
  if zin v [512; 1024; 2048; 4096] then Ok v else Err BootSectorException.

(** FAT.py:564-584. *)
Definition secperclus (buf : list Z) : result Z :=
  let v := fld 1 buf 13 in
  let v := if v =? 0 then 256 else v in
  if zin v [1; 2; 4; 8; 16; 32; 64; 128; 256] then Ok v else Err BootSectorException.

(** FAT.py:586-593. *)
Definition rsvdseccnt (buf : list Z) : result Z :=
  let v := fld 2 buf 14 in if v =? 0 then Err BootSectorException else Ok v.

(** FAT.py:595-602. *)
Definition numfats (buf : list Z) : result Z :=
  let v := fld 1 buf 16 in if v =? 0 then Err BootSectorException else Ok v.

(** FAT.py:604-611. *)
Definition rootentcnt (f32 : bool) (buf : list Z) : result Z :=
  let v := fld 2 buf 17 in if (0 <? v) && f32 then Err BootSectorException else Ok v.

(** FAT.py:613-620 and 655-662. *)
Definition totsec16 (buf : list Z) : Z := fld 2 buf 19.
Definition totsec32 (buf : list Z) : Z := fld 4 buf 32.

(** FAT.py:622-629. *)
Definition bpb_media (buf : list Z) : result Z :=
  let v := fld 1 buf 21 in
  if zin v [0xF0; 0xF8; 0xF9; 0xFA; 0xFB; 0xFC; 0xFD; 0xFE; 0xFF] then Ok v else Err BootSectorException.

(** FAT.py:631-638. *)
Definition fatsz16 (f32 : bool) (buf : list Z) : result Z :=
  let v := fld 2 buf 22 in if (0 <? v) && f32 then Err BootSectorException else Ok v.

(** FAT.py:669-679: None outside FAT32. *)
Definition fatsz32 (f32 : bool) (buf : list Z) : result (option Z) :=
  if negb f32 then Ok None
  else let v := fld 4 buf 36 in if v =? 0 then Err BootSectorException else Ok (Some v).

(** FAT.py:681-692: (active FAT, mirroring disabled). *)
Definition extflags (f32 : bool) (buf : list Z) : option (Z * bool) :=
  if negb f32 then None
  else let v := fld 2 buf 40 in Some (Z.land v 0x0F, 0 <? Z.land v 0x80).

(** FAT.py:694-706. *)
Definition fsver (f32 : bool) (buf : list Z) : result unit :=
  if negb f32 then Ok tt
  else if fld 2 buf 42 =? 0 then Ok tt else Err NotImplementedError.

(** FAT.py:708-718. *)
Definition rootclus (f32 : bool) (buf : list Z) : result (option Z) :=
  if negb f32 then Ok None
  else let v := fld 4 buf 44 in if v <? 2 then Err BootSectorException else Ok (Some v).

(** FAT.py:780-786. *)
Definition bootsig (f32 : bool) (buf : list Z) : Z := if f32 then fld 1 buf 66 else fld 1 buf 38.

(** FAT.py:816-829. *)
Definition totsec64 (f32 : bool) (buf : list Z) : option Z :=
  if f32 && (bootsig f32 buf =? 0x29) && (totsec16 buf =? 0) && (totsec32 buf =? 0) then Some (fld 8 buf 82) else None.

(** FAT.py:129-133: the number of sectors; None makes the subtraction raise TypeError. *)
Definition totsec (f32 : bool) (buf : list Z) : option Z :=
  if negb (totsec16 buf =? 0) then Some (totsec16 buf)
  else if negb (totsec32 buf =? 0) then Some (totsec32 buf)
  else totsec64 f32 buf.

Definition sub_from (t : option Z) (v : Z) : result Z :=
  match t with None => Err TypeError | Some t => Ok (t - v) end.

(** FAT.py:126-145 GetCountOfClusters. *)
Definition count_of_clusters (f32 : bool) (buf : list Z) : result Z :=
  let t := totsec f32 buf in
  let! sz16 := fatsz16 f32 buf in
  if 0 <? sz16 then
    let! re := rootentcnt f32 buf in
    let! bps := bytspersec buf in
    let root := (re * 32 + bps - 1) / bps in
    let! rsvd := rsvdseccnt buf in
    let! nf := numfats buf in
    let! data := sub_from t (rsvd + nf * sz16 + root) in
    let! spc := secperclus buf in
    Ok (data / spc)
  else
    let! rsvd := rsvdseccnt buf in
    let! nf := numfats buf in
    let! sz32 := fatsz32 f32 buf in
    match sz32 with
    | None => Err TypeError
    | Some sz32 =>
      let! data := sub_from t (rsvd + nf * sz32) in
      let! spc := secperclus buf in
      Ok (data / spc)
    end.

(** FAT.py:147-164.  [None > 0] raises TypeError. *)
Definition is_fs32 (f32 : bool) (buf : list Z) : result bool :=
  let! n := count_of_clusters f32 buf in
  if 65525 <=? n then Ok true
  else
    let! sz16 := fatsz16 f32 buf in
    if negb (sz16 =? 0) then Ok false
    else
      let! sz32 := fatsz32 f32 buf in
      match sz32 with None => Err TypeError | Some v => Ok (0 <? v) end.

(** FAT.py:166-180. *)
Definition is_fs16 (f32 : bool) (buf : list Z) : result bool :=
  let! n := count_of_clusters f32 buf in Ok ((n <? 65525) && (4085 <=? n)).
Definition is_fs12 (f32 : bool) (buf : list Z) : result bool :=
  let! n := count_of_clusters f32 buf in Ok ((n <? 4085) && (0 <? n)).

(** FAT.py:518-543: the constructor; the result is [is_fat32]. *)
Definition bsbpb_open (buf : list Z) (relaxed : bool) : result bool :=
  if negb (zlen buf =? 512) then Err BootSectorException
  else if negb relaxed && negb (fld 2 buf 510 =? 0xAA55) && negb (fld 1 buf 0 =? 0xE9) && negb (fld 1 buf 0 =? 0xEB)
  then Err BootSectorException
  else
    match (let! b := is_fs32 true buf in if b then fsver true buf else Ok tt) with
    | Ok _ => Ok true
    | Err BootSectorException =>
      let! a := is_fs16 false buf in
      if a then Ok false
      else let! b := is_fs12 false buf in if b then Ok false else Err BootSectorException
    | Err e => Err e
    end.

(** FAT.py:831-857: (offset, size, last data cluster). *)
Definition fat_offset_and_size (f32 : bool) (buf : list Z) : result (Z * Z * Z) :=
  match extflags f32 buf with
  | None =>
    let! rsvd := rsvdseccnt buf in
    let! bps := bytspersec buf in
    let! sz := fatsz16 f32 buf in
    let! n := count_of_clusters f32 buf in
    Ok (rsvd * bps, sz * bps, n + 1)
  | Some (active, disabled) =>
    let! num := (if negb disabled then Ok 0
                 else let! nf := numfats buf in Ok (if nf <? active + 1 then 0 else active)) in
    let! rsvd := rsvdseccnt buf in
    let! sz := fatsz32 f32 buf in
    match sz with
    | None => Err TypeError
    | Some sz =>
      let! bps := bytspersec buf in
      let! n := count_of_clusters f32 buf in
      Ok ((rsvd + sz * num) * bps, sz * bps, n + 1)
    end
  end.

(** FAT.py:862-895 FSINFO: the constructor, the free count and the hint. *)
Definition fsinfo_open (buf : list Z) : result (Z * Z) :=
  let! lead := u32 buf 0 in
  let! struc := u32 buf 484 in
  let! trail := u32 buf 508 in
  if (lead =? 0x41615252) && (struc =? 0x61417272) && (trail =? 0xAA550000)
  then let! free := u32 buf 488 in let! next := u32 buf 492 in Ok (free, next)
  else Err FSINFOException.

(** FAT.py:1491-1498: the type chosen by FileSystemParser. *)
Definition fat_type_of (f32 : bool) (buf : list Z) : result Z :=
  let! a := is_fs32 f32 buf in
  if a then Ok 32
  else
    let! b := is_fs16 f32 buf in
    if b then Ok 16
    else let! c := is_fs12 f32 buf in if c then Ok 12 else Err ValueError.
