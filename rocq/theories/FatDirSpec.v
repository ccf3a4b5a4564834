(** What the slots of a FAT directory mean. *)
From Verif Require Import Base FatBasic FatDir FatSpec Utf16.

Definition s_order (s : list Z) : Z := fld 1 s 0.
Definition s_attr (s : list Z) : Z := fld 1 s 11 mod 64.
Definition s_type (s : list Z) : Z := fld 1 s 12.
Definition s_check (s : list Z) : Z := fld 1 s 13.

(** A slot of 32 bytes. *)
Definition slot_ok (s : list Z) : Prop := bytes_ok s /\ zlen s = 32.

(** A part of a long name, and a slot with the attributes of one but another type. *)
Definition name_slot (s : list Z) : bool := (s_attr s =? 15) && (s_type s =? 0).
Definition other_slot (s : list Z) : bool := (s_attr s =? 15) && negb (s_type s =? 0).

(** A descending run of parts: 0x40 + n, n - 1, ..., k, all with the checksum [ck]. *)
Inductive lfn_desc (ck n : Z) : Z -> list (list Z) -> Prop :=
| ld_first s : name_slot s = true -> s_order s = 0x40 + n -> 1 <= n <= 20 -> s_check s = ck -> lfn_desc ck n n [s]
| ld_next s k L : lfn_desc ck n (k + 1) L -> 1 <= k -> name_slot s = true -> s_order s = k -> s_check s = ck -> lfn_desc ck n k (L ++ [s]).

(** The bytes of a long name kept in parts: the last part comes first. *)
Definition part_bytes (s : list Z) : list Z := slice s 1 11 ++ slice s 14 26 ++ slice s 28 32.
Definition stored_bytes (L : list (list Z)) : list Z := concat (map part_bytes (rev L)).

(** The name stored in [b]: the characters before the first null, at most 255. *)
Inductive stored_name (b : list Z) : list Z -> Prop :=
| sn_intro u : (exists rest, b = flat_map utf16_unit u ++ rest /\ (rest = [] \/ exists r, rest = 0 :: 0 :: r)) ->
    Forall (fun x => 0 < x < 65536) u -> u <> [] ->
    stored_name b (ztake 255 (utf16le (flat_map utf16_unit u))).

(** A date and a time kept in words. *)
Definition date_of (w : Z) (d : option fat_date) : Prop :=
  forall y m k, d = Some (y, m, k) <-> calendar_date y m k /\ 1980 <= y <= 2107 /\ w = fat_date_word y m k.
Definition datetime_of (wd wt : Z) (t : option fat_datetime) : Prop :=
  forall y m k h mi s, t = Some ((y, m, k), (h, mi, s)) <->
    (calendar_date y m k /\ 1980 <= y <= 2107 /\ wd = fat_date_word y m k) /\
    (0 <= h <= 23 /\ 0 <= mi <= 59 /\ 0 <= s <= 59 /\ s mod 2 = 0 /\ wt = fat_time_word h mi s).

(** With hundredths of a second (0 to 199; other values count as 0). *)
Definition ctime_of (wd wt c : Z) (t : option (fat_datetime * Z)) : Prop :=
  exists t0, datetime_of wd wt t0 /\
    match t0, t with
    | None, None => True
    | Some (d, (h, mi, s)), Some ((d', (h', mi', s')), ms) =>
        d' = d /\ h' = h /\ mi' = mi /\ s' * 1000 + ms = s * 1000 + 10 * (if 199 <? c then 0 else c) /\ 0 <= ms < 1000 /\ 0 <= s' <= 59
    | _, _ => False
    end.

(** The entry [e] says what the slot [s] says (names and status aside). *)
Record describes (is_fat32 : bool) (s : list Z) (e : file_entry) : Prop := {
  d_directory : fe_directory e = true <-> (s_attr s / 16) mod 2 = 1;
  d_attributes : fe_attributes e = s_attr s;
  d_size : fe_size e = fld 4 s 28;
  d_cluster : fe_first_cluster e = fld 2 s 26 + 65536 * (if is_fat32 then fld 2 s 20 else 0);
  d_nt : fe_ntbyte e = fld 1 s 12;
  d_encrypted : fe_encrypted e = true <-> fld 1 s 12 mod 2 = 1;
  d_atime : date_of (fld 2 s 18) (fe_atime e);
  d_mtime : datetime_of (fld 2 s 24) (fld 2 s 22) (fe_mtime e);
  d_ctime : ctime_of (fld 2 s 16) (fld 2 s 14) (fld 1 s 13) (fe_ctime e) }.

(** A short entry of an existing file or directory. *)
Definition plain_short (dec lower : list Z -> list Z) (s : list Z) : Prop :=
  slot_ok s /\ (s_attr s / 8) mod 2 = 0 /\ s_order s <> 0 /\ s_order s <> 0xE5 /\ validate_short_name (slice s 0 11) = true.

(** A volume label. *)
Definition label_short (s : list Z) : Prop :=
  slot_ok s /\ (s_attr s / 8) mod 4 = 1 /\ s_attr s <> 15 /\ s_order s <> 0 /\ s_order s <> 0xE5 /\
  Forall (fun c => c <> 0 /\ c <> 10 /\ c <> 13) (slice s 0 11).

(** A file of a directory: the parts of its long name (perhaps none) and its short entry. *)
Definition file_slots (dec lower : list Z -> list Z) (f : list (list Z) * list Z) : Prop :=
  let '(L, s) := f in
  Forall slot_ok L /\
  ((plain_short dec lower s /\ (L = [] \/ exists n, lfn_desc (build_checksum (slice s 0 11)) n 1 L)) \/
   (label_short s /\ L = [])).

(** Writing a long name: [n] parts, each with thirteen units. *)
Definition lfn_part (order ck : Z) (units : list Z) : list Z :=
  let b := flat_map utf16_unit units in
  [order] ++ slice b 0 10 ++ [0x0F; 0; ck] ++ slice b 10 22 ++ [0; 0] ++ slice b 22 26.

(** The units with the terminator and the filler. *)
Definition padded (u : list Z) (n : Z) : list Z :=
  u ++ (if zlen u =? 13 * n then [] else 0 :: repeat 0xFFFF (Z.to_nat (13 * n - zlen u - 1))).

(** Parts [k], [k - 1], ..., 1 of [n]; [p] holds the padded units. *)
Fixpoint lfn_write (ck n : Z) (p : list Z) (k : nat) : list (list Z) :=
  match k with
  | O => []
  | S k' => lfn_part (if Z.of_nat k =? n then 0x40 + n else Z.of_nat k) ck (slice p (13 * Z.of_nat k') (13 * Z.of_nat k)) :: lfn_write ck n p k'
  end.
