(** What texts mean: numerals, days of the calendar, times, byte strings and
    files of comma-separated values.  Each is a relation between a text (a list of
    code points) and what a reader of the text gets. *)
From Verif Require Import Base FatSpec.

(** ** Numerals *)
Definition digit (c : Z) : Prop := 48 <= c <= 57.
(** Place value. *)
Fixpoint numeral_value (s : list Z) : Z :=
  match s with [] => 0 | c :: t => (c - 48) * 10 ^ zlen t + numeral_value t end.
Definition numeral (s : list Z) (n : Z) : Prop := s <> [] /\ Forall digit s /\ numeral_value s = n.
(** A numeral of [w] digits. *)
Definition wide (w : Z) (s : list Z) (n : Z) : Prop := zlen s = w /\ numeral s n.
(** No zeros in front; '-' for negative numbers. *)
Inductive integer_text : list Z -> Z -> Prop :=
| it_plain s n : numeral s n -> (zlen s = 1 \/ hd 0 s <> 48) -> integer_text s n
| it_negative s n : numeral s n -> hd 0 s <> 48 -> integer_text (45 :: s) (- n).

(** ** Days: the first day of the year 1 has the number 1. *)
Inductive next_day : Z * Z * Z -> Z * Z * Z -> Prop :=
| nd_month y m d n : month_length y m n -> 1 <= d < n -> next_day (y, m, d) (y, m, d + 1)
| nd_next y m n : month_length y m n -> m < 12 -> next_day (y, m, n) (y, m + 1, 1)
| nd_year y : next_day (y, 12, 31) (y + 1, 1, 1).
Inductive day_number : Z -> Z * Z * Z -> Prop :=
| dn_first : day_number 1 (1, 1, 1)
| dn_next n d d' : day_number n d -> next_day d d' -> day_number (n + 1) d'.

(** YYYY-MM-DD *)
Inductive date_written : list Z -> Z * Z * Z -> Prop :=
| dw sy sm sd y m d : wide 4 sy y -> wide 2 sm m -> wide 2 sd d ->
    date_written (sy ++ 45 :: sm ++ 45 :: sd) (y, m, d).
(** HH:MM:SS *)
Inductive clock_written : list Z -> Z * Z * Z -> Prop :=
| cw sh sm ss h m s : wide 2 sh h -> wide 2 sm m -> wide 2 ss s ->
    clock_written (sh ++ 58 :: sm ++ 58 :: ss) (h, m, s).
(** Date, clock and six digits of microseconds, or (if [short]) no fraction. *)
Inductive time_written : bool -> list Z -> (Z * Z * Z) * (Z * Z * Z) * Z -> Prop :=
| tw_full short sd sc sf d c f : date_written sd d -> clock_written sc c -> wide 6 sf f ->
    time_written short (sd ++ 32 :: sc ++ 46 :: sf) (d, c, f)
| tw_short sd sc d c : date_written sd d -> clock_written sc c -> time_written true (sd ++ 32 :: sc) (d, c, 0).

(** The moment: microseconds since the start of the day with number 0. *)
Definition moment (us : Z) (t : (Z * Z * Z) * (Z * Z * Z) * Z) : Prop :=
  exists n d h m s f, t = (d, (h, m, s), f) /\ day_number n d /\ 0 <= h < 24 /\ 0 <= m < 60 /\ 0 <= s < 60 /\ 0 <= f < 1000000 /\
  us = (((n * 24 + h) * 60 + m) * 60 + s) * 1000000 + f.
Definition reads_time (short : bool) (s : list Z) (us : Z) : Prop := exists t, time_written short s t /\ moment us t.

(** ** Byte strings: b'...' or b"..." with escapes *)
Definition hex_value (c v : Z) : Prop := (48 <= c <= 57 /\ v = c - 48) \/ (97 <= c <= 102 /\ v = c - 87).
Inductive literal_body (quote : Z) : list Z -> list Z -> Prop :=
| lb_end : literal_body quote [] []
| lb_plain c w b : 32 <= c < 127 -> c <> quote -> c <> 92 -> literal_body quote w b -> literal_body quote (c :: w) (c :: b)
| lb_escape c v w b : In (c, v) [(92, 92); (39, 39); (34, 34); (116, 9); (110, 10); (114, 13)] -> literal_body quote w b ->
    literal_body quote (92 :: c :: w) (v :: b)
| lb_hex c1 c2 v1 v2 w b : hex_value c1 v1 -> hex_value c2 v2 -> literal_body quote w b ->
    literal_body quote (92 :: 120 :: c1 :: c2 :: w) (16 * v1 + v2 :: b).
Inductive bytes_literal : list Z -> list Z -> Prop :=
| bl quote w b : quote = 39 \/ quote = 34 -> literal_body quote w b -> bytes_literal (98 :: quote :: w ++ [quote]) b.

(** ** Comma-separated values (RFC 4180; every record ends with CR LF) *)
Definition bare_char (c : Z) : Prop := c <> 44 /\ c <> 34 /\ c <> 13 /\ c <> 10.
Inductive quoted_reads : list Z -> list Z -> Prop :=
| q_end : quoted_reads [] []
| q_char c w s : c <> 34 -> quoted_reads w s -> quoted_reads (c :: w) (c :: s)
| q_quote w s : quoted_reads w s -> quoted_reads (34 :: 34 :: w) (34 :: s).
Inductive field_reads : list Z -> list Z -> Prop :=
| f_bare s : Forall bare_char s -> field_reads s s
| f_quoted w s : quoted_reads w s -> field_reads (34 :: w ++ [34]) s.
Inductive record_reads : list Z -> list (list Z) -> Prop :=
| r_last w f : field_reads w f -> record_reads w [f]
| r_more w f w' fs : field_reads w f -> record_reads w' fs -> record_reads (w ++ 44 :: w') (f :: fs).
Inductive file_reads : list Z -> list (list (list Z)) -> Prop :=
| file_end : file_reads [] []
| file_record w r w' rs : record_reads w r -> file_reads w' rs -> file_reads (w ++ 13 :: 10 :: w') (r :: rs).
