(** What exFAT structures mean, independently of how the program reads them. *)
From Verif Require Import Base FatSpec.

(** ** Checksums *)

(** Rotate right by one bit and add, in [k] bits. *)
Definition rot (k c b : Z) : Z := (c / 2 + 2 ^ (k - 1) * (c mod 2) + b) mod 2 ^ k.
Definition rot_total (k : Z) (l : list Z) : Z := fold_left (rot k) l 0.

(** The entry set without the checksum field; the boot sectors without the
    volume flags and the percentage in use. *)
Definition set_bytes (l : list Z) : list Z := slice l 0 2 ++ slice l 4 (zlen l).
Definition boot_bytes (bps : Z) (b : list Z) : list Z := slice b 0 106 ++ slice b 108 112 ++ slice b 113 (11 * bps).

(** ** The boot region *)

Definition bps_of (b : list Z) : Z := 2 ^ fld 1 b 108.
Definition spc_of (b : list Z) : Z := 2 ^ fld 1 b 109.

(** The rules for the fields of the boot sector.  [heap_limit] is the upper
    bound for the offset of the cluster heap. *)
Record boot_fields (heap_limit : Z) (b : list Z) : Prop := {
  bf_name : slice b 3 11 = [69; 88; 70; 65; 84; 32; 32; 32];
  bf_zero : slice b 11 64 = repeat 0 53;
  bf_signature : slice b 510 512 = [0x55; 0xAA];
  bf_sector : 9 <= fld 1 b 108 <= 12;
  bf_cluster : fld 1 b 109 <= 25 - fld 1 b 108;
  bf_length : 2 ^ 20 <= fld 8 b 72 * bps_of b;
  bf_fat_offset : 24 <= fld 4 b 80;
  bf_fat_fits : fld 4 b 80 + fld 4 b 84 * fld 1 b 110 <= fld 4 b 88;
  bf_fat_length : (fld 4 b 92 + 2) * 4 <= fld 4 b 84 * bps_of b;
  bf_heap : fld 4 b 88 <= heap_limit;
  bf_count : fld 4 b 92 <= 0xFFFFFFF5;
  bf_heap_fits : fld 4 b 88 + fld 4 b 92 * spc_of b <= fld 8 b 72;
  bf_root : 2 <= fld 4 b 96 <= fld 4 b 92 + 1;
  bf_revision : fld 1 b 105 = 1 /\ fld 1 b 104 <= 99;
  bf_fats : fld 1 b 110 = 1 \/ fld 1 b 110 = 2;
  bf_active : fld 2 b 106 mod 2 = 1 -> fld 1 b 110 = 2 }.

(** The first three copies of the checksum. *)
Definition boot_checksum (b : list Z) : Prop :=
  let o := 11 * bps_of b in
  o + 12 <= zlen b /\ forall i, In i [0; 4; 8] -> fld 4 b (o + i) = rot_total 32 (boot_bytes (bps_of b) b).

(** ** Times *)

Definition stamp_word (y m d h mi s : Z) : Z := fat_date_word y m d * 65536 + fat_time_word h mi s.

(** ** Names *)

Definition x_bad_char (c : Z) : Prop := 0 <= c <= 31 \/ In c [34; 42; 47; 58; 60; 62; 63; 92; 124].
Definition x_good_name (n : list Z) : Prop :=
  n <> [] /\ (forall c, In c n -> ~ x_bad_char c) /\ n <> [46] /\ n <> [46; 46].

(** The text up to the first null character: [l] decodes to [n]. *)
Inductive text_of : list Z -> list Z -> Prop :=
| tx_end l : zlen l <= 1 -> text_of l l
| tx_null l : text_of (0 :: 0 :: l) []
| tx_unit a b l t : ~ (a = 0 /\ b = 0) -> text_of l t -> text_of (a :: b :: l) (a :: b :: t).
