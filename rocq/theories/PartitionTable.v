(** Model of /repo/dfir_ntfs/PartitionTable.py: GUID and DOS partition tables.

    The volume is a list of bytes.  [seek] raises ValueError for a negative
    offset and OverflowError for one above 2^63 - 1; [read(n)] raises
    OverflowError for such an [n] (an allocation failure for a smaller one is
    not modelled).  A successful seek returns its argument, so the branches
    guarded by [seek(x) != x] are dead.  A [uuid.UUID(bytes_le = raw)] is
    represented by [raw]. *)
From Verif Require Import Base Crc32.
From Verif Require Export FileObject.

(** PartitionTable.py:32. *)
Record gpt_header := mk_gpt_header {
  gh_location : Z; gh_first : Z; gh_last : Z; gh_guid : list Z;
  gh_array_lba : Z; gh_count : Z; gh_size : Z; gh_array_crc : Z }.

(** PartitionTable.py:33. *)
Record gpt_partition := mk_gpt_partition {
  gp_type : list Z; gp_unique : list Z; gp_start : Z; gp_end : Z; gp_attr : Z; gp_name : list Z }.

Definition efi_part : list Z := [69; 70; 73; 32; 80; 65; 82; 84].

Fixpoint beq (a b : list Z) : bool :=
  match a, b with
  | [], [] => true
  | x :: a, y :: b => (x =? y) && beq a b
  | _, _ => false
  end.

(** PartitionTable.py:56-69: the constructor. *)
Definition gpt_open (vol : list Z) (ss : Z) : result unit :=
  if (ss <? 512) || negb (ss mod 512 =? 0) then Err ValueError
  else if zlen vol <? 3 * ss + 2 * 16384 then Err ValueError
  else Ok tt.

(** The arguments of read_gpt_header_internal: (False, None), (True, None), (True, lba). *)
Inductive gpt_where := Primary | LastLba | AlternateLba (lba : Z).

(** PartitionTable.py:74-83. *)
Definition gpt_place (vol : list Z) (ss : Z) (w : gpt_where) : Z * Z :=
  match w with
  | Primary => (ss, 0)
  | LastLba => (zlen vol - ss, 1)
  | AlternateLba b => (b * ss, 2)
  end.

(** PartitionTable.py:106-110: [buf[16] = 0] ... [buf[19] = 0]. *)
Definition zero_crc (buf : list Z) : list Z := zset (zset (zset (zset buf 16 0) 17 0) 18 0) 19 0.

(** PartitionTable.py:94-148: the checks after the sector has been read. *)
Definition gpt_check (vol : list Z) (ss off location : Z) (buf : list Z) : result gpt_header :=
  let revision := fld 4 buf 8 in
  let hsize := fld 4 buf 12 in
  let hcrc := fld 4 buf 16 in
  let my_lba := fld 8 buf 24 in
  let alternate := fld 8 buf 32 in
  let first := fld 8 buf 40 in
  let last := fld 8 buf 48 in
  let guid := slice buf 56 72 in
  let plba := fld 8 buf 72 in
  let count := fld 4 buf 80 in
  let psize := fld 4 buf 84 in
  let pcrc := fld 4 buf 88 in
  if revision =? 0 then Err ValueError
  else if (hsize <? 92) || (ss <? hsize) then Err ValueError
  else if negb (crc32 (zero_crc (slice buf 0 hsize)) =? hcrc) then Err ValueError
  else if negb (my_lba * ss =? off) then Err ValueError
  else if (my_lba =? alternate) || (alternate =? 0) then Err ValueError
  else if first <? (2 * ss + 16384) / ss then Err ValueError
  else if (plba <=? 1) || (zlen vol - ss <=? plba * ss) then Err ValueError
  else if (psize <? 128) || negb (psize mod 128 =? 0) then Err ValueError
  else
    let! arr := seek_read vol (plba * ss) (count * psize) in
    if negb (zlen arr =? count * psize) then Err ValueError
    else if negb (crc32 arr =? pcrc) then Err ValueError
    else Ok (mk_gpt_header location first last guid plba count psize pcrc).

(** PartitionTable.py:71-148.  The second component is [self.backup_lba]
    afterwards, which is set as soon as the signature matches. *)
Definition gpt_header_internal (vol : list Z) (ss : Z) (w : gpt_where) (backup : option Z)
  : result gpt_header * option Z :=
  let (off, location) := gpt_place vol ss w in
  match seek_read vol off ss with
  | Err e => (Err e, backup)
  | Ok buf =>
    if negb (zlen buf =? ss) then (Err ValueError, backup)
    else if negb (beq (slice buf 0 8) efi_part) then (Err ValueError, backup)
    else (gpt_check vol ss off location buf, Some (fld 8 buf 32))
  end.

(** [except (ValueError, OverflowError)]. *)
Definition gpt_caught (e : exn) : bool := match e with ValueError | OverflowError => true | _ => false end.

(** PartitionTable.py:150-166, on the object state [backup]. *)
Definition read_gpt_header (vol : list Z) (ss : Z) (backup : option Z) : result gpt_header * option Z :=
  match gpt_header_internal vol ss Primary backup with
  | (Err e, backup) =>
    if gpt_caught e then
      match backup with
      | Some b =>
        match gpt_header_internal vol ss (AlternateLba b) backup with
        | (Err e, backup) => if gpt_caught e then gpt_header_internal vol ss LastLba backup else (Err e, backup)
        | r => r
        end
      | None => gpt_header_internal vol ss LastLba backup
      end
    else (Err e, backup)
  | r => r
  end.

(** [bytes.decode('utf-16le')] (strict): None where it raises UnicodeDecodeError. *)
Fixpoint utf16_strict (l : list Z) : option (list Z) :=
  match l with
  | [] => Some []
  | [_] => None
  | a :: b :: t =>
    let u := a + 256 * b in
    if (55296 <=? u) && (u <=? 56319) then
      match t with
      | c :: d :: t' =>
        let v := c + 256 * d in
        if (56320 <=? v) && (v <=? 57343)
        then option_map (cons (65536 + (u - 55296) * 1024 + (v - 56320))) (utf16_strict t')
        else None
      | _ => None
      end
    else if (56320 <=? u) && (u <=? 57343) then None
    else option_map (cons u) (utf16_strict t)
  end.

(** [s[ : s.find('\x00')]] when there is one. *)
Fixpoint cut_nul (s : list Z) : list Z :=
  match s with [] => [] | c :: t => if c =? 0 then [] else c :: cut_nul t end.

(** PartitionTable.py:205-214. *)
Definition gpt_name (raw : list Z) : list Z :=
  match utf16_strict raw with None => [] | Some s => cut_nul s end.

(** PartitionTable.py:190-219: the loop over the entries.  [struct.unpack]
    raises for an entry cut short. *)
Fixpoint gpt_entries (fuel : nat) (buf : list Z) (count size i : Z) : result (list gpt_partition) :=
  match fuel with
  | O => Err OutOfFuel
  | S fuel =>
    if negb (i <? count) then Ok []
    else
      let e := slice buf (i * size) (i * size + 128) in
      if negb (zlen e =? 128) then Err StructError
      else if beq (slice e 0 16) (zeros 16) then gpt_entries fuel buf count size (i + 1)
      else
        let p := mk_gpt_partition (slice e 0 16) (slice e 16 32) (fld 8 e 32) (fld 8 e 40) (fld 8 e 48)
                                  (gpt_name (slice e 56 128)) in
        let! rest := gpt_entries fuel buf count size (i + 1) in Ok (p :: rest)
  end.

(** PartitionTable.py:168-219. *)
Definition read_gpt_partitions (vol : list Z) (ss plba count psize pcrc : Z) : result (list gpt_partition) :=
  if count =? 0 then Ok []
  else if (plba <=? 1) || (zlen vol - ss <=? plba * ss) then Err ValueError
  else if (psize <? 128) || negb (psize mod 128 =? 0) then Err ValueError
  else
    let! arr := seek_read vol (plba * ss) (count * psize) in
    if negb (zlen arr =? count * psize) then Err ValueError
    else if negb (crc32 arr =? pcrc) then Err ValueError
    else gpt_entries (S (length arr)) arr count psize 0.

(** ** DOS partition tables *)

(** PartitionTable.py:36-37. *)
Record mbr_partition := mk_mbr_partition {
  mp_boot : Z; mp_start_chs : list Z; mp_type : Z; mp_end_chs : list Z; mp_start : Z; mp_size : Z }.
Record ebr_partition := mk_ebr_partition { ep_boot : Z; ep_type : Z; ep_start : Z; ep_size : Z }.

(** PartitionTable.py:233-246: the constructor. *)
Definition mbr_open (vol : list Z) (ss : Z) : result unit :=
  if (ss <? 512) || negb (ss mod 512 =? 0) then Err ValueError
  else if zlen vol <? 2 * ss then Err ValueError
  else Ok tt.

(** PartitionTable.py:248-263: (is_boot_code_present, disk_signature). *)
Definition read_mbr (vol : list Z) : result (bool * Z) :=
  let! buf := seek_read vol 0 512 in
  if negb (zlen buf =? 512) then Err ValueError
  else if negb (fld 2 buf 510 =? 0xAA55) then Err ValueError
  else Ok (negb (fld 1 buf 0 =? 0) && negb (fld 1 buf 1 =? 0), fld 4 buf 440).

(** PartitionTable.py:278-279: struct '<B3sB3sLL'. *)
Definition mbr_entry (buf : list Z) (off : Z) : mbr_partition :=
  mk_mbr_partition (fld 1 buf off) (slice buf (off + 1) (off + 4)) (fld 1 buf (off + 4))
                   (slice buf (off + 5) (off + 8)) (fld 4 buf (off + 8)) (fld 4 buf (off + 12)).

(** PartitionTable.py:276-290: the loop for i = 0..3. *)
Fixpoint mbr_loop (n : nat) (buf : list Z) (i : Z) : list mbr_partition :=
  match n with
  | O => []
  | S n =>
    let p := mbr_entry buf (446 + i * 16) in
    if mp_type p =? 0 then mbr_loop n buf (i + 1) else p :: mbr_loop n buf (i + 1)
  end.

(** PartitionTable.py:265-290. *)
Definition read_mbr_partitions (vol : list Z) : result (list mbr_partition) :=
  let! buf := seek_read vol 0 512 in
  if negb (zlen buf =? 512) then Err ValueError else Ok (mbr_loop 4 buf 0).

(** PartitionTable.py:295-316: read_ebr; None is (None, None). *)
Definition read_ebr (vol : list Z) (ss lba : Z) : result (option (ebr_partition * Z)) :=
  let! buf := seek_read vol (lba * ss) 512 in
  if negb (zlen buf =? 512) then Ok None
  else if negb (fld 2 buf 510 =? 0xAA55) then Ok None
  else
    let p := mbr_entry buf 446 in
    Ok (Some (mk_ebr_partition (mp_boot p) (mp_type p) (lba + mp_start p) (mp_size p), mp_start (mbr_entry buf 462))).

(** PartitionTable.py:331-344: [while True]; returns the partitions found and
    the updated [track]. *)
Fixpoint ebr_loop (fuel : nat) (vol : list Z) (ss first next : Z) (track : list Z)
  : result (list ebr_partition * list Z) :=
  match fuel with
  | O => Err OutOfFuel
  | S fuel =>
    let lba := first + next in
    if zin lba track then Ok ([], track)
    else
      let track := lba :: track in
      let! r := read_ebr vol ss lba in
      match r with
      | None => Ok ([], track)
      | Some (p, next) =>
        let found := if ep_type p =? 0 then [] else [p] in
        if next =? 0 then Ok (found, track)
        else let! t := ebr_loop fuel vol ss first next track in Ok (found ++ fst t, snd t)
      end
  end.

(** PartitionTable.py:26. *)
Definition is_extended (t : Z) : bool := (t =? 5) || (t =? 15) || (t =? 133).

(** PartitionTable.py:318-346: the loop over the MBR partitions. *)
Fixpoint ebr_parts (fuel : nat) (vol : list Z) (ss : Z) (parts : list mbr_partition)
    (results : list ebr_partition) (track : list Z) : result (list ebr_partition) :=
  match parts with
  | [] => Ok results
  | p :: parts =>
    if negb (is_extended (mp_type p)) then ebr_parts fuel vol ss parts results track
    else if mp_start p =? 0 then Ok []
    else
      let! r := ebr_loop fuel vol ss (mp_start p) 0 track in
      ebr_parts fuel vol ss parts (results ++ fst r) (snd r)
  end.

(** PartitionTable.py:292-346. *)
Definition read_ebr_partitions (vol : list Z) (ss : Z) : result (list ebr_partition) :=
  let! parts := read_mbr_partitions vol in
  ebr_parts (S (S (length vol))) vol ss parts [] [].
