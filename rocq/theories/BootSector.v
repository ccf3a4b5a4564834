(** Model of the NTFS boot sector (dfir_ntfs/BootSector.py). *)
From Verif Require Import Base.

Definition sig_NTFS : list Z := [78; 84; 70; 83; 32; 32; 32; 32].

(** BootSector.py:23-35. *)
Definition bs_open (b : list Z) : result (list Z) :=
  if (zlen b <? 512) || negb (zlen b mod 512 =? 0) then Err BootSectorException else
  if zlist_eqb (slice b 3 11) sig_NTFS then Ok b else Err BootSectorException.

(** BootSector.py:37-49. *)
Definition bs_bytes_per_sector (b : list Z) : result Z :=
  let! low := u8 b 11 in
  if negb (low =? 0) then Err BootSectorException else
  let! base := u8 b 12 in
  let real := base * 256 in
  if (real <? 512) || negb (real mod 512 =? 0) then Err BootSectorException else Ok real.

(** BootSector.py:51-64. *)
Definition bs_sectors_per_cluster (b : list Z) : result Z :=
  let! base := u8 b 13 in
  if base =? 0 then Err BootSectorException else
  if base <=? 0x80 then Ok base else
  let! s := unp_s 1 b 13 in Ok (Z.shiftl 1 (Z.abs s)).

Definition nonzero_at (b : list Z) (off : Z) : result Z :=
  let! n := u64 b off in if n =? 0 then Err BootSectorException else Ok n.
Definition bs_total_sectors (b : list Z) := nonzero_at b 40.   (* 66-73 *)
Definition bs_mft_cluster (b : list Z) := nonzero_at b 48.     (* 75-82 *)
Definition bs_mftmirr_cluster (b : list Z) := nonzero_at b 56. (* 84-91 *)

(** BootSector.py:93-105 and 107-119. *)
Definition record_size_at (b : list Z) (off : Z) : result Z :=
  let! base := unp_s 1 b off in
  let! real :=
    if 0 <=? base then
      let! spc := bs_sectors_per_cluster b in
      let! bps := bs_bytes_per_sector b in
      Ok (base * spc * bps)
    else Ok (Z.shiftl 1 (Z.abs base)) in
  if real =? 0 then Err BootSectorException else Ok real.
Definition bs_frs_size (b : list Z) := record_size_at b 64.
Definition bs_index_size (b : list Z) := record_size_at b 68.

Definition bs_serial (b : list Z) := u64 b 72. (* 121-124 *)

(** BootSector.py:126-129. *)
Definition bs_boot_code_present (b : list Z) : result bool :=
  let! a := u16 b 0 in
  if a =? 0 then Ok false else
  let! s := u16 b 510 in Ok (s =? 0xAA55).
