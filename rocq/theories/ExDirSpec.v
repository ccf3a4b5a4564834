(** What the slots of an exFAT directory mean. *)
From Verif Require Import Base FatSpec FatDir FatDirSpec ExSpec ExDir.

(** The type of a slot: bit 7 tells whether it is in use, bit 6 whether it is a secondary entry. *)
Definition x_type (s : list Z) : Z := fld 1 s 0.
Definition x_kind (s : list Z) : Z := x_type s mod 128.
Definition x_used (s : list Z) : Prop := 128 <= x_type s.
Definition x_sub (s : list Z) : Prop := (x_type s / 64) mod 2 = 1.

(** A time word with hundredths of a second. *)
Definition xtime_of (w c : Z) (t : x_time) : Prop :=
  forall y m d h mi s ms, t = Some (((y, m, d), (h, mi, s)), ms) <->
    exists s0, calendar_date y m d /\ 1980 <= y <= 2107 /\ 0 <= h <= 23 /\ 0 <= mi <= 59 /\ 0 <= s0 <= 59 /\ s0 mod 2 = 0 /\
      w = stamp_word y m d h mi s0 /\ 0 <= ms < 1000 /\ s * 1000 + ms = s0 * 1000 + (if c <=? 199 then c * 10 else 0).

(** An offset from UTC in quarters of an hour: seven bits with a sign, valid when bit 7 is set. *)
Definition xzone_of (b : Z) (z : option Z) : Prop := forall q, z = Some q <-> -64 <= q <= 63 /\ b = 128 + q mod 128.

(** The name kept in [parts], with the declared length in [len] (none for orphans). *)
Definition x_name_of (parts : list (list Z)) (len : option Z) (n : list Z) : Prop :=
  exists t, text_of (concat parts) t /\
    let s := utf16le t in s <> [] /\
    ((exists k, len = Some k /\ k < zlen s /\ n = ztake k s) \/
     ((forall k, len = Some k -> zlen s <= k) /\ n = s /\ x_good_name s)).

Definition x_part (s : list Z) : list Z := slice s 2 32.
Definition is_name (s : list Z) : bool := x_kind s =? 0x41.
Definition is_vendor (s : list Z) : bool := (x_kind s =? 0x60) || (x_kind s =? 0x61).
Definition x_names (subs : list (list Z)) : list (list Z) := map x_part (filter is_name subs).

(** A valid entry set: the file entry [s], its secondary entries [subs] (stream,
    first name, further names and other entries, vendor entries at the end), and
    the entry [e] that it describes. *)
Record file_set (s : list Z) (subs : list (list Z)) (e : xentry) : Prop := {
  fs_kind : x_type s = if xe_deleted e then 0x05 else 0x85;
  fs_count : zlen subs = fld 1 s 1 /\ 2 <= fld 1 s 1 <= 64;
  fs_checksum : xe_deleted e = false -> fld 2 s 2 = rot_total 16 (set_bytes (concat (s :: subs)));
  fs_subs : Forall (fun x => x_sub x /\ (xe_deleted e = false -> x_used x)) subs;
  fs_layout : exists x nm mid vend, subs = x :: nm :: mid ++ vend /\ x_kind x = 0x40 /\ x_kind nm = 0x41 /\
    Forall (fun y => x_kind y <> 0x40 /\ is_vendor y = false) mid /\ Forall (fun y => is_vendor y = true) vend /\
    fld 1 x 1 mod 2 = 1 /\ fld 1 x 3 <> 0 /\ 15 * (zlen (x_names subs) - 1) < fld 1 x 3 /\
    x_name_of (x_names subs) (Some (fld 1 x 3)) (xe_name e) /\
    xe_size e = fld 8 x 24 /\ xe_valid e = fld 8 x 8 /\ xe_first e = fld 4 x 20 /\
    (xe_no_chain e = true <-> (fld 1 x 1 / 2) mod 2 = 1);
  fs_attributes : xe_attributes e = fld 2 s 4;
  fs_directory : xe_directory e = true <-> (fld 2 s 4 / 16) mod 2 = 1;
  fs_encrypted : xe_encrypted e = true <-> (fld 2 s 6 / 32768) mod 2 = 1;
  fs_ctime : xtime_of (fld 4 s 8) (fld 1 s 20) (xe_ctime e);
  fs_mtime : xtime_of (fld 4 s 12) (fld 1 s 21) (xe_mtime e);
  fs_atime : xtime_of (fld 4 s 16) 0 (xe_atime e);
  fs_ctz : xzone_of (fld 1 s 22) (xe_ctz e);
  fs_mtz : xzone_of (fld 1 s 23) (xe_mtz e);
  fs_atz : xzone_of (fld 1 s 24) (xe_atz e) }.

(** A volume label of at most fifteen characters. *)
Definition label_of (s : list Z) (l : list Z) : Prop :=
  exists t, text_of (slice s 2 (2 + fld 1 s 1 * 2)) t /\ l = utf16le t /\ l <> [] /\ forall c, In c l -> ~ x_bad_char c.

(** Name entries outside of a set: the longest run of up to 17 slots of the
    same type with no flags, ending with the part that ends with a null
    character, if there is one; [q] comes after it. *)
Definition null_end (p : list Z) : Prop := exists r, p = r ++ [0; 0].
Definition same_run (t : Z) (s : list Z) : Prop := x_type s = t /\ fld 1 s 1 = 0.
Record orphan_run (t : Z) (run q : list (list Z)) : Prop := {
  or_run : Forall (same_run t) run;
  or_count : 1 <= zlen run <= 17;
  or_inner : forall i x, i < zlen run - 1 -> znth run i = Some x -> ~ null_end (x_part x);
  or_end : zlen run = 17 \/ (exists x, znth run (zlen run - 1) = Some x /\ null_end (x_part x)) \/
           match q with [] => True | y :: _ => ~ same_run t y end }.

(** What a directory holds, slot after slot: [a] labels and [b] bitmaps were seen before. *)
Inductive listing (root : bool) : Z -> Z -> list (list Z) -> list x_item -> status -> Prop :=
| li_nil a b : listing root a b [] [] Done
| li_end a b s r : x_type s = 0 -> listing root a b (s :: r) [] Done
| li_invalid a b s r : x_type s = 128 -> listing root a b (s :: r) [] (if root then Raised DirectoryEntriesException else Done)
| li_foreign a b s r : root = false -> In (x_type s) [0x81; 0x82; 0x83] -> listing root a b (s :: r) [] Done
| li_file a b s subs r e l st : file_set s subs e -> listing root a b r l st -> listing root a b (s :: subs ++ r) (XFile e :: l) st
| li_broken a b s r l st : x_kind s = 5 -> (forall subs q e, r = subs ++ q -> ~ file_set s subs e) -> listing root a b r l st ->
    listing root a b (s :: r) l st
| li_label a b s r n l st : root = true -> x_type s = 0x83 -> a = 0 -> 1 <= fld 1 s 1 <= 15 -> label_of s n ->
    listing root 1 b r l st -> listing root a b (s :: r) (XLabel n :: l) st
| li_no_label a b s r l st : root = true -> x_type s = 0x83 -> a = 0 -> fld 1 s 1 = 0 ->
    listing root 1 b r l st -> listing root a b (s :: r) l st
| li_bad_label a b s r : root = true -> x_type s = 0x83 ->
    a <> 0 \/ 15 < fld 1 s 1 \/ (fld 1 s 1 <> 0 /\ forall n, ~ label_of s n) ->
    listing root a b (s :: r) [] (Raised DirectoryEntriesException)
| li_bitmap a b s r l st : root = true -> x_type s = 0x81 -> b < 2 -> listing root a (b + 1) r l st ->
    listing root a b (s :: r) (XBitmap (fld 1 s 1 mod 2) (fld 4 s 20) (fld 8 s 24) :: l) st
| li_bad_bitmap a b s r : root = true -> x_type s = 0x81 -> 2 <= b ->
    listing root a b (s :: r) [] (Raised DirectoryEntriesException)
| li_orphan a b s run q n l st : x_kind s = 0x41 -> orphan_run (x_type s) (s :: run) q -> x_name_of (map x_part (s :: run)) None n ->
    listing root a b q l st -> listing root a b (s :: run ++ q) (XOrphan n :: l) st
| li_no_orphan a b s r l st : x_kind s = 0x41 ->
    (forall run q n, r = run ++ q -> orphan_run (x_type s) (s :: run) q -> ~ x_name_of (map x_part (s :: run)) None n) ->
    listing root a b r l st -> listing root a b (s :: r) l st
| li_other a b s r l st : ~ In (x_type s) [0; 128; 0x81; 0x83; 5; 0x85; 0x41; 0xC1] -> (root = false -> x_type s <> 0x82) ->
    listing root a b r l st -> listing root a b (s :: r) l st.
