(** Model of the helpers of /repo/dfir_ntfs/addons/exFAT.py: names, labels,
    times, entry types and the checksum of entry sets.  Warnings and logging are
    left out; [bytes.decode('utf-16le', errors = 'replace')] is [utf16le]. *)
From Verif Require Import Base FatBasic FatDir.

(** exFAT.py:73 FORBIDDEN_CHARACTERS. *)
Definition x_forbidden (c : Z) : bool := ((0 <=? c) && (c <=? 31)) || zin c [0x22; 0x2A; 0x2F; 0x3A; 0x3C; 0x3E; 0x3F; 0x5C; 0x7C].

(** exFAT.py:118-156.  [entities] are the parts in order; [len] is None for orphan names. *)
Definition x_build_name (entities : list (list Z)) (len : option Z) : option (list Z) :=
  match entities with
  | [] => None
  | _ =>
    let name := utf16le (cut_null (concat entities)) in
    match name with
    | [] => None
    | _ =>
      match (match len with Some n => if n <? zlen name then Some (ztake n name) else None | None => None end) with
      | Some t => Some t
      | None =>
        if existsb x_forbidden name then None
        else if list_eqb name [46] || list_eqb name [46; 46] then None
        else Some name
      end
    end
  end.

(** exFAT.py:158-187. *)
Definition x_build_label (raw : list Z) (len : Z) : option (list Z) :=
  let name := utf16le (cut_null raw) in
  match name with
  | [] => None
  | _ => if len <? zlen name then Some (ztake len name) else if existsb x_forbidden name then None else Some name
  end.

(** exFAT.py:189-233.  The result is the date and time with the milliseconds. *)
Definition x_decode_timestamp (value ms10 : Z) : option (fat_datetime * Z) :=
  let time := Z.land value 0xFFFF in
  let date := Z.land (Z.shiftr value 16) 0xFFFFF in
  let ms10 := if 199 <? ms10 then 0 else ms10 in
  let second := Z.land time 0x1F in
  if 29 <? second then None
  else
    let second := second * 2 in
    let minute := Z.land (Z.shiftr time 5) 0x3F in
    if 59 <? minute then None
    else
      let hour := Z.land (Z.shiftr time 11) 0x1F in
      if 23 <? hour then None
      else
        let day := Z.land date 0x1F in
        if day =? 0 then None
        else
          let month := Z.land (Z.shiftr date 5) 0x0F in
          if (month =? 0) || (12 <? month) then None
          else
            let year := Z.land (Z.shiftr date 9) 0x7F in
            if 127 <? year then None
            else
              let year := year + 1980 in
              if date_exists year month day then Some (add_ms ((year, month, day), (hour, minute, second)) (ms10 * 10)) else None.

(** exFAT.py:235-249. *)
Definition x_decode_timezone (value : Z) : option Z :=
  if negb (0 <? Z.land value 0x80) then None
  else
    let offset := Z.land value 0x7F in
    if Z.land offset 0x40 =? 0 then Some offset else Some (to_signed 8 (Z.land (Z.lor offset 0x80) 0xFF)).

(** exFAT.py:251-257. *)
Definition x_pure (t : Z) : Z := if 0 <? Z.land t 0x80 then t - 0x80 else t.

(** exFAT.py:259-267: the category and the in-use bit; the other two results are not used by the program. *)
Definition x_code (t : Z) : Z := Z.land t 0x1F.
Definition x_importance (t : Z) : Z := Z.land (Z.shiftr t 5) 1.
Definition x_category (t : Z) : Z := Z.land (Z.shiftr t 6) 1.
Definition x_in_use (t : Z) : bool := 0 <? Z.land t 0x80.

(** exFAT.py:269-275: (allocation possible, no FAT chain). *)
Definition x_flags (f : Z) : bool * bool := (0 <? Z.land f 1, 0 <? Z.land (Z.shiftr f 1) 1).

(** exFAT.py:292-300, 504-512: the checksum of [k] bits; [skip] are the positions left out. *)
Definition x_checksum_step (k c b : Z) : Z :=
  Z.land ((if 0 <? Z.land c 1 then Z.lor (Z.shiftl 1 (k - 1)) (Z.shiftr c 1) else Z.shiftr c 1) + b) (2 ^ k - 1).
Fixpoint x_checksum_loop (k : Z) (skip : list Z) (idx c : Z) (l : list Z) : Z :=
  match l with
  | [] => c
  | b :: t => x_checksum_loop k skip (idx + 1) (if zin idx skip then c else x_checksum_step k c b) t
  end.

(** exFAT.py:277-302. *)
Definition x_set_checksum (l : list Z) : result Z :=
  if (zlen l <? 32) || negb (zlen l mod 32 =? 0) then Err ValueError
  else Ok (x_checksum_loop 16 [2; 3] 0 0 l).
