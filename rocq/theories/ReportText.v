(** The texts that the scripts /repo/ntfs_parser and /repo/fat_parser write:
    numbers, timestamps (ntfs_parser:10-14, fat_parser:31-38), byte strings, and
    the files made of them by csv.writer with dialect 'excel' (ntfs_parser:975,
    fat_parser:72) or by output_file.write (ntfs_parser:719-726).

    What Python does is written down here: str of an integer, datetime.strftime
    with '%Y-%m-%d %H:%M:%S.%f' (for years with four digits), str of a datetime,
    repr of bytes, and the quoting of the csv module (QUOTE_MINIMAL: a field with
    the delimiter, a quote or a character of the line terminator is quoted and its
    quotes are doubled).  A text is a list of code points. *)
From Coq Require Import String.
From Verif Require Import Base Filetime FatDir Report LogReport.

(** ** Numbers *)
Fixpoint dec_digits (fuel : nat) (n : Z) (acc : list Z) : list Z :=
  match fuel with
  | O => acc
  | S f => if n <? 10 then (48 + n) :: acc else dec_digits f (n / 10) ((48 + n mod 10) :: acc)
  end.
Definition digits_text (n : Z) : list Z := dec_digits (S (Z.to_nat (Z.log2 n))) n [].
Definition number_text (n : Z) : list Z := if n <? 0 then 45 :: digits_text (- n) else digits_text n.

(** The last [w] digits, with zeros in front. *)
Fixpoint fixed (w : nat) (n : Z) : list Z :=
  match w with O => [] | S w => fixed w (n / 10) ++ [48 + n mod 10] end.

(** ** Times *)

(** date.fromordinal (_ord2ymd of the datetime module). *)
Definition before_month (m : Z) : Z := nth (Z.to_nat m) [0; 0; 31; 59; 90; 120; 151; 181; 212; 243; 273; 304; 334] 0.
Definition month_days (leap : bool) (m : Z) : Z := if (m =? 2) && leap then 29 else nth (Z.to_nat m) [0; 31; 28; 31; 30; 31; 30; 31; 31; 30; 31; 30; 31] 0.
Definition civil_in_year (leap : bool) (n : Z) : Z * Z :=
  let m := (n + 50) / 32 in
  let p := before_month m + (if (2 <? m) && leap then 1 else 0) in
  if n <? p then (m - 1, n - (p - month_days leap (m - 1)) + 1) else (m, n - p + 1).
Definition civil (ordinal : Z) : Z * Z * Z :=
  let n := ordinal - 1 in
  let n400 := n / 146097 in let n := n mod 146097 in
  let n100 := n / 36524 in let n := n mod 36524 in
  let n4 := n / 1461 in let n := n mod 1461 in
  let n1 := n / 365 in let n := n mod 365 in
  let year := n400 * 400 + 1 + n100 * 100 + n4 * 4 + n1 in
  if (n1 =? 4) || (n100 =? 4) then (year - 1, 12, 31)
  else
    let leap := (n1 =? 3) && (negb (n4 =? 24) || (n100 =? 3)) in
    let (m, d) := civil_in_year leap n in (year, m, d).

Definition date_text (d : fat_date) : list Z :=
  let '(y, m, d) := d in fixed 4 y ++ [45] ++ fixed 2 m ++ [45] ++ fixed 2 d.
Definition clock_text (h mi s : Z) : list Z := fixed 2 h ++ [58] ++ fixed 2 mi ++ [58] ++ fixed 2 s.
(** With microseconds. *)
Definition datetime_text (d : fat_date) (h mi s us : Z) : list Z :=
  date_text d ++ [32] ++ clock_text h mi s ++ [46] ++ fixed 6 us.
(** strftime of a time given in microseconds since the day with ordinal 0. *)
Definition stamp_parts (us : Z) : fat_date * (Z * Z * Z * Z) :=
  let t := us mod us_per_day in
  (civil (us / us_per_day), (t / 3600000000, t / 60000000 mod 60, t / 1000000 mod 60, t mod 1000000)).
Definition stamp_text (us : Z) : list Z :=
  let '(d, (h, mi, s, f)) := stamp_parts us in datetime_text d h mi s f.
(** str of it: no fraction if that is zero. *)
Definition stamp_str (us : Z) : list Z :=
  let '(d, (h, mi, s, f)) := stamp_parts us in
  if f =? 0 then date_text d ++ [32] ++ clock_text h mi s else datetime_text d h mi s f.

(** ** repr of bytes *)
Definition byte_text (quote c : Z) : list Z :=
  if (c =? quote) || (c =? 92) then [92; c]
  else if c =? 9 then [92; 116] else if c =? 10 then [92; 110] else if c =? 13 then [92; 114]
  else if (c <? 32) || (127 <=? c) then [92; 120; lower (hex_digit (c / 16)); lower (hex_digit (c mod 16))]
  else [c].
Definition bytes_text (b : list Z) : list Z :=
  let quote := if zin 39 b && negb (zin 34 b) then 34 else 39 in
  98 :: quote :: flat_map (byte_text quote) b ++ [quote].

(** ** Files *)

(** The text of a cell; [time] is stamp_text or stamp_str. *)
Definition cell_text (time : Z -> list Z) (c : cell) : list Z :=
  match c with Txt s => s | Num n => number_text n | Stamp us => time us end.

Definition csv_special (c : Z) : bool := zin c [44; 34; 13; 10].
Definition csv_field (s : list Z) : list Z :=
  if existsb csv_special s then 34 :: flat_map (fun c => if c =? 34 then [34; 34] else [c]) s ++ [34] else s.
Definition csv_row (r : list (list Z)) : list Z :=
  match r with [[]] => [34; 34] | _ => joined [44] (map csv_field r) end ++ [13; 10].
Definition csv_text (rows : list (list (list Z))) : list Z := flat_map csv_row rows.

(** The blocks of the report on the log: '\n'.join of the lines, then
    '\n\n---\n\n'. *)
Definition separator : list Z := [10; 10] ++ txt "---" ++ [10; 10].
Definition line_text (l : line) : list Z := flat_map (cell_text stamp_text) l.
Definition block_text (b : block) : list Z := joined [10] (map line_text b) ++ separator.
Definition log_text (bs : list block) : list Z := flat_map block_text bs.
