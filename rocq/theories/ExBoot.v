(** Model of the class BR of /repo/dfir_ntfs/addons/exFAT.py: the boot region. *)
From Verif Require Import Base FatBasic ExBasic.

(** exFAT.py:349-391: fields of the boot sector (the buffer has at least 12 * 512 bytes). *)
Definition br_volumelength (b : list Z) : Z := fld 8 b 72.
Definition br_fatoffset (b : list Z) : Z := fld 4 b 80.
Definition br_fatlength (b : list Z) : Z := fld 4 b 84.
Definition br_heapoffset (b : list Z) : Z := fld 4 b 88.
Definition br_clustercount (b : list Z) : Z := fld 4 b 92.
Definition br_rootcluster (b : list Z) : Z := fld 4 b 96.
Definition br_major (b : list Z) : Z := fld 1 b 105.
Definition br_minor (b : list Z) : Z := fld 1 b 104.
Definition br_numfats (b : list Z) : Z := fld 1 b 110.

(** exFAT.py:393-403: the first member of the tuple. *)
Definition br_active_fat (b : list Z) : bool := 0 <? Z.land (fld 2 b 106) 1.

(** exFAT.py:405-413. *)
Definition br_bytespersector (b : list Z) : result Z :=
  let shift := fld 1 b 108 in
  if (shift <? 9) || (12 <? shift) then Err BootRegionException else Ok (Z.shiftl 1 shift).

(** exFAT.py:415-424. *)
Definition br_sectorspercluster (b : list Z) : result Z :=
  if 25 - fld 1 b 108 <? fld 1 b 109 then Err BootRegionException else Ok (Z.shiftl 1 (fld 1 b 109)).

(** exFAT.py:483-496. *)
Definition br_checksum (b : list Z) : result Z :=
  let! bps := br_bytespersector b in
  let off := bps * 11 in
  let c1 := slice b off (off + 4) in
  let c2 := slice b (off + 4) (off + 8) in
  let c3 := slice b (off + 8) (off + 12) in
  if negb (list_eqb c1 c2) || negb (list_eqb c1 c3) then Err BootRegionException
  else if zlen c1 =? 4 then Ok (le_val c1) else Err StructError.

(** exFAT.py:498-514. *)
Definition br_calculate (b : list Z) : result Z :=
  let! bps := br_bytespersector b in
  if zlen b <? bps * 11 then Err IndexError
  else Ok (x_checksum_loop 32 [106; 107; 112] 0 0 (slice b 0 (bps * 11))).

Definition exfat_name : list Z := [69; 88; 70; 65; 84; 32; 32; 32].

(** exFAT.py:516-598 with relaxed checks. *)
Definition br_validate (b : list Z) : result unit :=
  if negb (list_eqb (slice b 3 11) exfat_name) then Err BootRegionException
  else if negb (list_eqb (slice b 510 512) [0x55; 0xAA]) then Err BootRegionException
  else if negb (list_eqb (slice b 11 64) (zeros 53)) then Err BootRegionException
  else
    let! c1 := br_checksum b in
    let! c2 := br_calculate b in
    if negb (c1 =? c2) then Err BootRegionChecksumException
    else
      let! bps := br_bytespersector b in
      let vlen := br_volumelength b in
      if vlen * bps <? 1024 * 1024 then Err BootRegionException
      else
        let nf := br_numfats b in
        let heap := br_heapoffset b in
        let fo := br_fatoffset b in
        if fo <? 24 then Err BootRegionException
        else if heap - br_fatlength b * nf <? fo then Err BootRegionException
        else
          let cc := br_clustercount b in
          let! spc := br_sectorspercluster b in
          let fl := br_fatlength b in
          if fl * bps <? (cc + 2) * 4 then Err BootRegionException
          else if heap - fo <? fl * nf then Err BootRegionException
          else if heap <? fo + fl * nf then Err BootRegionException
          else if cc * spc <? heap then Err BootRegionException
          else if 0xFFFFFFF5 <? cc then Err BootRegionException
          else if vlen - heap <? cc * spc then Err BootRegionException
          else
            let root := br_rootcluster b in
            if root <? 2 then Err BootRegionException
            else if cc + 1 <? root then Err BootRegionException
            else
              let major := br_major b in
              let minor := br_minor b in
              if (major =? 0) || (99 <? major) || (99 <? minor) then Err BootRegionException
              else if 1 <? major then Err NotImplementedError
              else if negb (nf =? 1) && negb (nf =? 2) then Err BootRegionException
              else if br_active_fat b && negb (nf =? 2) then Err BootRegionException
              else Ok tt.

(** exFAT.py:321-327: the constructor. *)
Definition br_open (b : list Z) : result unit :=
  if (zlen b <? 12 * 512) || negb (zlen b mod 512 =? 0) then Err BootRegionException
  else br_validate b.

(** exFAT.py:426-481: fields that the program only reports. *)
Definition br_percent (b : list Z) : option Z :=
  let p := fld 1 b 112 in if (100 <? p) || (p =? 0xFF) then None else Some p.
