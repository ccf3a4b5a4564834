(** The move table (tracking.log): dfir_ntfs/MoveTable.py. *)
From Verif Require Import Base Filetime Attributes.

(** MoveTable.py:24-30 ValidateSectorSize. *)
Definition valid_sector_size (n : Z) : bool := (n =? 512) || (n =? 4096).

(** MoveTable.py:12 *)
Definition mt_signature : list Z :=
  [0xEC; 0xA7; 0x43; 0x66; 0xFE; 0xEF; 0xD1; 0x11; 0xB2; 0xAE; 0x00; 0xC0; 0x4F; 0xB9; 0x38; 0x6D].

(** Header: MoveTable.py:63-120.  The machine id is given as bytes; its
    text (DecodeString) is in MoveReport.v. *)
Definition mth_open (buf : list Z) : result (list Z) :=
  if negb (valid_sector_size (zlen buf)) then Err ValueError
  else if negb (zlist_eqb (slice buf 0 16) mt_signature) then Err ValueError
  else Ok buf.
Definition mth_flags (b : list Z) := u32 b 20.
Definition mth_is_flushed (b : list Z) : result bool :=
  let! f := mth_flags b in Ok (0 <? Z.land f 1).
Definition mth_expansion (b : list Z) : result (Z * Z * Z) :=
  let! x := u32 b 28 in let! y := u32 b 32 in let! z := u32 b 36 in Ok (x, y, z).

(** Bytes before the first zero byte: MoveTable.py:110-113, 217-220. *)
Fixpoint until_null (l : list Z) : list Z :=
  match l with [] => [] | x :: t => if x =? 0 then [] else x :: until_null t end.

Definition mth_machine_id (b : list Z) : list Z := until_null (slice b 40 56).
Definition mth_volume_id (b : list Z) : list Z := slice b 56 72.

(** LogSectorFooter: MoveTable.py:125-149; the sector size was validated. *)
Definition mtf_lowest (sector : list Z) := u32 (slice sector (zlen sector - 16) (zlen sector)) 0.
Definition mtf_next (sector : list Z) := u32 (slice sector (zlen sector - 16) (zlen sector)) 4.

(** LogEntry: MoveTable.py:154-282. *)
Definition mte_type (b : list Z) := u32 b 8.
Definition mte_open (b : list Z) : result (list Z) :=
  if negb (zlen b =? 124) then Err ValueError
  else let! t := mte_type b in
       if negb ((t =? 1) || (t =? 2)) then Err NotImplementedError else Ok b.
Definition mte_next (b : list Z) := u32 b 0.
Definition mte_previous (b : list Z) := u32 b 4.
Definition mte_index (b : list Z) := u32 b 12.
Definition mte_object_id (b : list Z) : list Z := slice b 20 36.
Definition mte_droid (b : list Z) : list Z * list Z := (slice b 36 52, slice b 52 68).
Definition mte_machine_id (b : list Z) : list Z := until_null (slice b 68 84).
Definition mte_birth_droid (b : list Z) : list Z * list Z := (slice b 84 100, slice b 100 116).
Definition mte_timestamp (b : list Z) : result (option Z * option Z) :=
  let! t := u32 b 116 in
  let lowest := Z.shiftl t 32 in
  let highest := Z.lor lowest 0xFFFFFFFF in
  let! a := decode_filetime lowest true in
  let! b := decode_filetime highest true in
  Ok (a, b).
(** The UUID accessors are those of [oid_timestamp] (Attributes.v). *)
Definition guid_timestamp (g : list Z) : result (option Z) :=
  if guid_rfc4122 g && (guid_version g =? 1) then decode_guid_time (guid_time g) true else Ok None.
Definition mte_guid_timestamps (b : list Z) : result (option Z * option Z * option Z) :=
  let! x := guid_timestamp (mte_object_id b) in
  let! y := guid_timestamp (snd (mte_droid b)) in
  let! z := guid_timestamp (snd (mte_birth_droid b)) in
  Ok (x, y, z).

(** LogSector.log_entries: MoveTable.py:304-315. *)
Fixpoint mts_loop (fuel : nat) (buf : list Z) (pos : Z) : gen (list Z) :=
  match fuel with
  | O => ([], Raised OutOfFuel)
  | S fuel =>
    if negb (pos + 124 <=? zlen buf - 16) then ([], Done)
    else
      let e := slice buf pos (pos + 124) in
      if negb (zlen e =? 124) then ([], Done)
      else match mte_open e with
           | Ok e => gcons e (mts_loop fuel buf (pos + 124))
           | Err x => ([], Raised x)
           end
  end.
Definition mts_entries (buf : list Z) : gen (list Z) := mts_loop (S (length buf)) buf 0.

(** MoveTableParser: MoveTable.py:320-343.  [given]: the sector size argument (not negative). *)
Definition mt_sector_size (data : list Z) (given : option Z) : Z :=
  match given with
  | Some s => s
  | None => if zlist_eqb (slice data 512 528) (zeros 16) then 4096 else 512
  end.
Definition mt_header (data : list Z) (s : Z) : result (list Z) := mth_open (slice data 0 s).

(** 345-360 log_sectors, consumed by 362-373 log_entries.  The ValueError of the
    LogSector constructor ends the loop; what the consumer raises escapes. *)
Fixpoint mt_loop (fuel : nat) (data : list Z) (s i : Z) : gen (list Z) :=
  match fuel with
  | O => ([], Raised OutOfFuel)
  | S fuel =>
    let sector := slice data (i * s) (i * s + s) in
    if negb (valid_sector_size (zlen sector)) then ([], Done)
    else
      let (es, st) := mts_entries sector in
      let used := filter (fun e => negb (fld 4 e 8 =? 1)) es in
      match st with
      | Done => gapp used (mt_loop fuel data s (i + 1))
      | Raised x => (used, Raised x)
      end
  end.
Definition mt_log_entries (data : list Z) (s : Z) : gen (list Z) := mt_loop (S (length data)) data s 1.
