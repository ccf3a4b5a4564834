(** Model of the name, date and flag helpers of /repo/dfir_ntfs/addons/FAT.py.

    Names are lists of bytes; decoded strings are lists of code points.
    [bytes.decode(encoding, errors = 'replace')] and [str.lower] are parameter
    functions [dec] and [lower]: the code pages of Python are not modelled.
    [WARN_FUNC] (warnings.warn) has no effect on the results and is left out. *)
From Verif Require Import Base.

(** FAT.py:82 FORBIDDEN_CHARACTERS. *)
Definition fat_forbidden (c : Z) : bool :=
  ((0 <=? c) && (c <=? 31)) || zin c [34; 42; 44; 46; 47; 58; 59; 60; 61; 62; 63; 91; 92; 93; 124].

(** FAT.py:85 FORBIDDEN_CHARACTERS_LABEL. *)
Definition label_forbidden (c : Z) : bool := zin c [0; 10; 13].

(** FAT.py:88 LOWERCASE. *)
Definition is_lower (c : Z) : bool := (97 <=? c) && (c <=? 122).

Fixpoint list_eqb (a b : list Z) : bool :=
  match a, b with
  | [], [] => true
  | x :: a, y :: b => (x =? y) && list_eqb a b
  | _, _ => false
  end.

Definition dot_entry : list Z := [46; 32; 32; 32; 32; 32; 32; 32; 32; 32; 32].
Definition dotdot_entry : list Z := [46; 46; 32; 32; 32; 32; 32; 32; 32; 32; 32].

(** FAT.py:233-249. *)
Definition validate_first (c : Z) : bool :=
  if c =? 0x20 then false
  else if is_lower c then false
  else if c =? 5 then true
  else if c =? 0 then true
  else if fat_forbidden c then false
  else true.

(** FAT.py:222-268. *)
Definition validate_short_name (n : list Z) : bool :=
  if negb (zlen n =? 11) then false
  else if list_eqb n dot_entry || list_eqb n dotdot_entry then true
  else
    match n with
    | [] => false
    | c :: t => validate_first c && forallb (fun c => negb (is_lower c) && negb (fat_forbidden c)) t
    end.

(** [bytes.rstrip(b' ')] *)
Fixpoint rstrip_space (l : list Z) : list Z :=
  match l with
  | [] => []
  | c :: t =>
    match rstrip_space t with
    | [] => if c =? 32 then [] else [c]
    | t' => c :: t'
    end
  end.

(** FAT.py:279-283: the first byte of deleted and KANJI names. *)
Definition fix_first (n : list Z) : list Z :=
  match n with
  | [] => []
  | c :: t => if (c =? 0) || (c =? 0xE5) then 95 :: t else if c =? 5 then 0xE5 :: t else n
  end.

(** FAT.py:270-304 with an encoding. *)
Definition parse_short_name (dec lower : list Z -> list Z) (lower_base lower_ext : bool) (n : list Z) : option (list Z) :=
  if negb (validate_short_name n) then None
  else
    let n := fix_first n in
    let base := dec (rstrip_space (slice n 0 8)) in
    let base := if lower_base then lower base else base in
    let ext := dec (rstrip_space (zdrop 8 n)) in
    let ext := if lower_ext then lower ext else ext in
    match ext with [] => Some base | _ => Some (base ++ [46] ++ ext) end.

(** FAT.py:270-304 with Encoding = None: raw bytes, no case change. *)
Definition parse_short_name_raw (n : list Z) : option (list Z) :=
  parse_short_name (fun l => l) (fun l => l) false false n.

(** FAT.py:317-325: everything from the first aligned pair of zero bytes on is cut. *)
Fixpoint cut_null (l : list Z) : list Z :=
  match l with
  | a :: b :: t => if (a =? 0) && (b =? 0) then [] else a :: b :: cut_null t
  | _ => l
  end.

(** FAT.py:306-360.  The argument is the stash in the order of appending. *)
Definition build_long_name (entities : list (list Z)) : option (list Z) :=
  match entities with
  | [] => None
  | _ =>
    let name := utf16le (cut_null (concat (rev entities))) in
    match name with
    | [] => None
    | _ => Some (if 255 <? zlen name then ztake 255 name else name)
    end
  end.

(** FAT.py:362-375: one step, and the loop over the eleven bytes. *)
Definition checksum_step (c b : Z) : Z :=
  Z.land ((if Z.land c 1 =? 0 then Z.shiftr c 1 else Z.lor (Z.shiftr c 1) 0x80) + b) 0xFF.
Definition build_checksum (n : list Z) : Z := fold_left checksum_step (slice n 0 11) 0.

(** [datetime.date(y, m, d)]: does it exist? *)
Definition is_leap (y : Z) : bool := (y mod 4 =? 0) && (negb (y mod 100 =? 0) || (y mod 400 =? 0)).
Definition days_in_month (y m : Z) : Z :=
  if m =? 2 then (if is_leap y then 29 else 28)
  else if zin m [4; 6; 9; 11] then 30 else 31.
Definition date_exists (y m d : Z) : bool :=
  (1 <=? y) && (y <=? 9999) && (1 <=? m) && (m <=? 12) && (1 <=? d) && (d <=? days_in_month y m).

(** FAT.py:377-397: (year, month, day). *)
Definition decode_fat_date (v : Z) : option (Z * Z * Z) :=
  let day := Z.land v 0x1F in
  if day =? 0 then None
  else
    let month := Z.land (Z.shiftr v 5) 0x0F in
    if (month =? 0) || (12 <? month) then None
    else
      let year := Z.land (Z.shiftr v 9) 0x7F in
      if 127 <? year then None
      else
        let year := year + 1980 in
        if date_exists year month day then Some (year, month, day) else None.

(** FAT.py:399-416: (hour, minute, second). *)
Definition decode_fat_time (v : Z) : option (Z * Z * Z) :=
  let second := Z.land v 0x1F in
  if 29 <? second then None
  else
    let second := second * 2 in
    let minute := Z.land (Z.shiftr v 5) 0x3F in
    if 59 <? minute then None
    else
      let hour := Z.land (Z.shiftr v 11) 0x1F in
      if 23 <? hour then None else Some (hour, minute, second).

(** FAT.py:418-435 NTBytePaddings; None is a KeyError. *)
Definition nt_paddings (k : Z) : option Z :=
  if k =? 0x00 then Some 0 else if k =? 0xE4 then Some 15 else if k =? 0xE0 then Some 14
  else if k =? 0xC4 then Some 13 else if k =? 0xC0 then Some 12 else if k =? 0xA4 then Some 11
  else if k =? 0xA0 then Some 10 else if k =? 0x84 then Some 9 else if k =? 0x80 then Some 8
  else if k =? 0x64 then Some 7 else if k =? 0x60 then Some 6 else if k =? 0x44 then Some 5
  else if k =? 0x40 then Some 4 else if k =? 0x24 then Some 3 else if k =? 0x20 then Some 2
  else if k =? 0x04 then Some 1 else None.

Record nt_byte := mk_nt_byte {
  nt_lower_base : bool; nt_lower_ext : bool; nt_encrypted : bool; nt_large_header : bool; nt_padding : option Z }.

(** FAT.py:437-479. *)
Definition parse_nt_byte (v : Z) : result nt_byte :=
  let lower_base := 0 <? Z.land v 0x08 in
  let lower_ext := 0 <? Z.land v 0x10 in
  let encrypted := 0 <? Z.land v 0x01 in
  let large := if encrypted then 0 <? Z.land v 0x02 else false in
  if encrypted then
    match nt_paddings (Z.land v 0xE4) with
    | None => Err KeyError
    | Some p => Ok (mk_nt_byte lower_base lower_ext encrypted large (Some p))
    end
  else Ok (mk_nt_byte lower_base lower_ext encrypted large None).

(** FAT.py:100-109. *)
Definition is_volume_label (attr : Z) : bool :=
  if Z.land attr 0x3F =? 0x0F then false
  else Z.land attr 0x18 =? 0x08.
