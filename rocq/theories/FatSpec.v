(** What FAT structures mean, independently of how the program reads them. *)
From Verif Require Import Base.

(** ** Dates and times *)

(** The Gregorian calendar. *)
Definition leap (y : Z) : Prop := (y mod 4 = 0 /\ y mod 100 <> 0) \/ y mod 400 = 0.
Inductive month_length (y : Z) : Z -> Z -> Prop :=
| ml_31 m : In m [1; 3; 5; 7; 8; 10; 12] -> month_length y m 31
| ml_30 m : In m [4; 6; 9; 11] -> month_length y m 30
| ml_29 : leap y -> month_length y 2 29
| ml_28 : ~ leap y -> month_length y 2 28.
Definition calendar_date (y m d : Z) : Prop := exists n, month_length y m n /\ 1 <= d <= n.

(** The 16-bit encodings: seven bits of year from 1980, four of month, five of
    day; five bits of hour, six of minute, five of half seconds. *)
Definition fat_date_word (y m d : Z) : Z := (y - 1980) * 512 + m * 32 + d.
Definition fat_time_word (h mi s : Z) : Z := h * 2048 + mi * 32 + s / 2.

(** ** Short names *)

(** Characters that a short name may contain once decoded. *)
Definition name_safe (c : Z) : Prop := 32 <= c /\ ~ In c [34; 42; 44; 47; 58; 59; 60; 61; 62; 63; 91; 92; 93; 124].

(** ** The table *)

(** The value of entry [n] of a table of [w]-bit entries: bits [w * n] to
    [w * n + w - 1] of the table read as one little-endian number. *)
Definition packed_entry (w : Z) (table : list Z) (n : Z) : Z := (le_val table / 2 ^ (w * n)) mod 2 ^ w.

(** Entries of FAT32 have 28 bits; the upper four are reserved. *)
Definition table_entry (w : Z) (table : list Z) (n : Z) : Z :=
  if w =? 32 then packed_entry 32 table n mod 2 ^ 28 else packed_entry w table n.

(** Entry [n] exists in the table and describes a cluster of the volume. *)
Definition has_entry (w : Z) (table : list Z) (last n : Z) : Prop := 0 <= n <= last /\ w * (n + 1) <= 8 * zlen table.

Definition eoc (w : Z) : Z := if w =? 32 then 0x0FFFFFF8 else if w =? 16 then 0xFFF8 else 0xFF8.
Definition bad (w : Z) : Z := eoc w - 1.

(** What comes after cluster [c], when the clusters in [seen] came before. *)
Inductive after := Stop | Bad | Next (n : Z).
Inductive follows (w : Z) (table : list Z) (last : Z) (seen : list Z) (c : Z) : after -> Prop :=
| fo_next n : has_entry w table last c -> table_entry w table c = n -> ~ In n (c :: seen) -> 2 <= n < bad w ->
    follows w table last seen c (Next n)
| fo_bad : has_entry w table last c -> table_entry w table c = bad w -> ~ In (bad w) (c :: seen) ->
    follows w table last seen c Bad
| fo_stop n : has_entry w table last c -> table_entry w table c = n -> In n (c :: seen) \/ n < 2 \/ eoc w <= n ->
    follows w table last seen c Stop.

(** The chain from [c] on. *)
Inductive chain_from (w : Z) (table : list Z) (last : Z) : list Z -> Z -> list (option Z) -> Prop :=
| ch_stop seen c : follows w table last seen c Stop -> chain_from w table last seen c [Some c]
| ch_bad seen c : follows w table last seen c Bad -> chain_from w table last seen c [Some c; None]
| ch_next seen c n l : follows w table last seen c (Next n) -> chain_from w table last (c :: seen) n l ->
    chain_from w table last seen c (Some c :: l).

(** A table image for a list of entries of [w] bits. *)
Definition table_number (w : Z) (vals : list Z) : Z := fold_right (fun v acc => v mod 2 ^ w + 2 ^ w * acc) 0 vals.

(** ** The boot sector *)

Definition power_of_two_upto_256 (v : Z) : Prop := In v [1; 2; 4; 8; 16; 32; 64; 128; 256].
Definition bpb_bytes_per_sector (b : list Z) : Z := fld 2 b 11.
Definition bpb_sectors_per_cluster (b : list Z) : Z := if fld 1 b 13 =? 0 then 256 else fld 1 b 13.
Definition bpb_reserved (b : list Z) : Z := fld 2 b 14.
Definition bpb_fats (b : list Z) : Z := fld 1 b 16.
Definition bpb_root_entries (b : list Z) : Z := fld 2 b 17.
Definition bpb_fat_sectors_16 (b : list Z) : Z := fld 2 b 22.
Definition bpb_fat_sectors_32 (b : list Z) : Z := fld 4 b 36.

(** The number of sectors: the 16-bit field, else the 32-bit one, else (FAT32
    with an extended boot signature) the 64-bit one. *)
Inductive total_sectors (fat32 : bool) (b : list Z) : Z -> Prop :=
| ts_16 : fld 2 b 19 <> 0 -> total_sectors fat32 b (fld 2 b 19)
| ts_32 : fld 2 b 19 = 0 -> fld 4 b 32 <> 0 -> total_sectors fat32 b (fld 4 b 32)
| ts_64 : fld 2 b 19 = 0 -> fld 4 b 32 = 0 -> fat32 = true -> fld 1 b 66 = 0x29 -> total_sectors fat32 b (fld 8 b 82).

Definition root_sectors (b : list Z) : Z := (bpb_root_entries b * 32 + bpb_bytes_per_sector b - 1) / bpb_bytes_per_sector b.

Definition fat_sectors (fat32 : bool) (b : list Z) : Z := if fat32 then bpb_fat_sectors_32 b else bpb_fat_sectors_16 b.

(** The number of data clusters. *)
Inductive clusters (fat32 : bool) (b : list Z) : Z -> Prop :=
| cl t : total_sectors fat32 b t ->
    clusters fat32 b ((t - (bpb_reserved b + bpb_fats b * fat_sectors fat32 b + (if fat32 then 0 else root_sectors b)))
                      / bpb_sectors_per_cluster b).

(** The fields common to all types. *)
Definition bpb_common (b : list Z) : Prop :=
  bpb_reserved b <> 0 /\ bpb_fats b <> 0 /\ power_of_two_upto_256 (bpb_sectors_per_cluster b).

Definition boot_marked (b : list Z) : Prop := fld 2 b 510 = 0xAA55 \/ fld 1 b 0 = 0xE9 \/ fld 1 b 0 = 0xEB.
