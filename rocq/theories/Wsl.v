(** Model of the WSL metadata (dfir_ntfs/WSL.py). *)
From Verif Require Import Base Filetime.

(** WSL.py:21-36: validate_header of LXXATTR and __init__. *)
Definition lxx_open (v : list Z) : result (list Z) :=
  if zlen v <? 12 then Err ValueError else
  let! version := u16 v 2 in
  let! format := u16 v 0 in
  if negb (version =? 1) || negb (format =? 0) then Err ValueError else Ok v.

(** WSL.py:38-67 extended_attributes. *)
Fixpoint lxx_loop (fuel : nat) (v : list Z) (pos : Z) : gen (list Z * list Z) :=
  match fuel with
  | O => ([], Raised OutOfFuel)
  | S fuel =>
    if negb (pos <? zlen v) then ([], Done) else
    if negb (zlen (slice v pos (pos + 4)) =? 4) then ([], Done) else
    let next := fld 4 v pos in
    let block := if 0 <? next then slice v pos (pos + next) else zdrop pos v in
    if zlen block <? 9 then ([], Done) else
    let nlen := fld 1 block 6 in
    if nlen =? 0 then ([], Done) else
    let vlen := fld 2 block 4 in
    gcons (slice block 7 (7 + nlen), slice block (7 + nlen) (7 + nlen + vlen))
      (if 0 <? next then lxx_loop fuel v (pos + next) else ([], Done))
  end.

Definition lxx_attributes (v : list Z) : gen (list Z * list Z) := lxx_loop (S (length v)) v 4.

(** WSL.py:73-90: LXATTRB. *)
Definition lxb_open (v : list Z) : result (list Z) :=
  if negb (zlen v =? 56) then Err ValueError else
  let! version := u16 v 2 in
  let! format := u16 v 0 in
  if negb (version =? 1) || negb (format =? 0) then Err ValueError else Ok v.

Definition lxb_mode (v : list Z) := u32 v 4.
Definition lxb_uid (v : list Z) := u32 v 8.
Definition lxb_gid (v : list Z) := u32 v 12.
Definition lxb_rdev (v : list Z) := u32 v 16.

(** WSL.py:10-13 DecodeUnixtime: microseconds since 1970.  timedelta(seconds = n)
    raises OverflowError past 999999999 days, the sum past year 9999. *)
Definition ordinal_1970 : Z := 719163.
Definition decode_unixtime (s ns : Z) : result Z :=
  if (s / 86400) <=? 999999999 then
    let room := (ordinal_max + 1 - ordinal_1970) * us_per_day in
    if s * 1000000 <? room then
      let t := s * 1000000 + td_microseconds (py_div ns 1000) in
      if t <? room then Ok t else Err OverflowError
    else Err OverflowError
  else Err OverflowError.

Definition lxb_time (v : list Z) (ns_off s_off : Z) : result Z :=
  let! ns := u32 v ns_off in
  let! s := u64 v s_off in
  decode_unixtime s ns.
Definition lxb_atime (v : list Z) := lxb_time v 20 32. (* 111-117 *)
Definition lxb_mtime (v : list Z) := lxb_time v 24 40. (* 119-125 *)
Definition lxb_chtime (v : list Z) := lxb_time v 28 48. (* 127-133 *)
