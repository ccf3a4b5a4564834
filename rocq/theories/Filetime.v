(** Model of the timestamp decoders (dfir_ntfs/Attributes.py:153-173).
    Python floats are IEEE doubles; int / int is correctly rounded (ties to
    even), timedelta rounds a float number of microseconds to the nearest
    integer (ties to even), and adding to a datetime raises OverflowError past
    year 9999.  A datetime is the number of microseconds since the epoch of the
    decoder; calendar fields are not modelled.  The numbers decoded are
    unsigned. *)
From Verif Require Import Base.

(** [n / d] rounded to the nearest integer, ties to even; 0 <= n, 0 < d. *)
Definition rhe (n d : Z) : Z :=
  let q := n / d in
  let r := n mod d in
  if 2 * r <? d then q else if d <? 2 * r then q + 1 else if Z.even q then q else q + 1.

(** A positive double is [m * 2^e] with [2^52 <= m <= 2^53]. *)
Definition float : Type := (Z * Z)%type.

Definition scaled_num (n e : Z) : Z := n * 2 ^ Z.max 0 (- e).
Definition scaled_den (d e : Z) : Z := d * 2 ^ Z.max 0 e.

(** Python [n / d] on integers, 0 <= n, 0 < d. *)
Definition py_div (n d : Z) : float :=
  if n =? 0 then (0, 0) else
  let e0 := Z.log2 n - Z.log2 d - 52 in
  let e := if scaled_num n e0 <? 2 ^ 52 * scaled_den d e0 then e0 - 1 else e0 in
  (rhe (scaled_num n e) (scaled_den d e), e).

(** [timedelta(microseconds = x)], as microseconds. *)
Definition td_microseconds (x : float) : Z :=
  let (m, e) := x in
  if 0 <=? e then m * 2 ^ e else rhe m (2 ^ (- e)).

Definition us_per_day : Z := 86400 * 1000000.

(** date.toordinal of 1601-01-01, 1582-10-15 and 9999-12-31. *)
Definition ordinal_1601 : Z := 584389.
Definition ordinal_1582 : Z := 577736.
Definition ordinal_max : Z := 3652059.

Definition decode_time (epoch t : Z) (do_not_raise : bool) : result (option Z) :=
  let us := td_microseconds (py_div t 10) in
  if us <? (ordinal_max + 1 - epoch) * us_per_day then Ok (Some us)
  else if do_not_raise then Ok None else Err OverflowError.

(** Attributes.py:153-162 DecodeFiletime. *)
Definition decode_filetime := decode_time ordinal_1601.
(** Attributes.py:164-173 DecodeGUIDTime. *)
Definition decode_guid_time := decode_time ordinal_1582.
