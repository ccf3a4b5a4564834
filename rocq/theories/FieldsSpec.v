(** The on-disk layouts of NTFS structures, field after field (as documented for
    NTFS; nothing here is taken from the accessors of the code). *)
From Verif Require Import Base Layout.

(** A GUID on disk: time_low, time_mid, the 12 high bits of the time with the
    version above them, the variant (with the clock sequence), seven more bytes. *)
Definition guid_parts (low mid hi version variant : Z) (node : list Z) : list part :=
  [Num 4 low; Num 2 mid; Num 2 (version * 4096 + hi); Num 1 variant; Raw 7 node].
Definition guid_time_of (low mid hi : Z) : Z := low + mid * 2 ^ 32 + hi * 2 ^ 48.

(** File record segment: [number] is 48 bits wide, its 16 high bits come first. *)
Definition frs_parts (sig : list Z) (usa_off usa_n lsn seq refs first flags free size base next number : Z) : list part :=
  [Raw 4 sig; Num 2 usa_off; Num 2 usa_n; Num 8 lsn; Num 2 seq; Num 2 refs; Num 2 first; Num 2 flags;
   Num 4 free; Num 4 size; Num 8 base; Num 2 next; Num 2 (number / 2 ^ 32); Num 4 (number mod 2 ^ 32)].

(** $STANDARD_INFORMATION: the extra flags are, from the lowest bit, the case
    sensitivity (1 bit), the known folder (3), the trust level (2), two unused bits,
    the storage reserve (4), the rest. *)
Definition extra_flags (case folder trust two reserve more : Z) : Z :=
  case + 2 * folder + 16 * trust + 64 * two + 256 * reserve + 4096 * more.
Definition si_short_parts (c m e a attrs maxv flags class : Z) : list part :=
  [Num 8 c; Num 8 m; Num 8 e; Num 8 a; Num 4 attrs; Num 4 maxv; Num 4 flags; Num 4 class].
Definition si_long_parts (c m e a attrs maxv flags class owner security quota usn : Z) : list part :=
  [Num 8 c; Num 8 m; Num 8 e; Num 8 a; Num 4 attrs; Num 4 maxv; Num 4 flags; Num 4 class;
   Num 4 owner; Num 4 security; Num 8 quota; Num 8 usn].

(** $FILE_NAME: the length of the name is in UTF-16 units. *)
Definition fn_parts (parent c m e a alloc size attrs packed unpacked flags : Z) (units : list Z) : list part :=
  [Num 8 parent; Num 8 c; Num 8 m; Num 8 e; Num 8 a; Int 8 alloc; Int 8 size; Num 4 attrs; Num 2 packed; Num 2 unpacked;
   Num 1 (zlen units / 2); Num 1 flags; Raw (zlen units) units].

Definition vi_parts (reserved : list Z) (major minor flags : Z) : list part :=
  [Raw 8 reserved; Num 1 major; Num 1 minor; Num 2 flags].

(** Indexes. *)
Definition ih_parts (first free avail flags : Z) (pad : list Z) : list part :=
  [Num 4 first; Num 4 free; Num 4 avail; Num 1 flags; Raw 3 pad].
Definition ir_parts (type collation bytes blocks : Z) : list part := [Num 4 type; Num 4 collation; Num 4 bytes; Num 4 blocks].
Definition ib_parts (sig : list Z) (usa_off usa_n lsn block : Z) : list part :=
  [Raw 4 sig; Num 2 usa_off; Num 2 usa_n; Num 8 lsn; Num 8 block].
Definition ie_parts (reference length attr_length flags : Z) (pad : list Z) : list part :=
  [Num 8 reference; Num 2 length; Num 2 attr_length; Num 2 flags; Raw 2 pad].

(** Reparse points: a tag with the high bit is Microsoft's, the others carry a GUID. *)
Definition rp_parts (tag length reserved : Z) : list part := [Num 4 tag; Num 2 length; Num 2 reserved].
Definition eai_parts (packed need unpacked : Z) : list part := [Num 2 packed; Num 2 need; Num 4 unpacked].

(** The boot sector of NTFS. *)
Definition ntfs_boot_parts (jump name bpb1 bpb2 : list Z) (bps spc total mft mirr frs : Z) (pad1 : list Z) (idx : Z)
  (pad2 : list Z) (serial : Z) : list part :=
  [Raw 3 jump; Raw 8 name; Num 2 bps; Num 1 spc; Raw 18 bpb1; Raw 8 bpb2; Num 8 total; Num 8 mft; Num 8 mirr;
   Int 1 frs; Raw 3 pad1; Int 1 idx; Raw 3 pad2; Num 8 serial].

(** The move table. *)
Definition mt_header_parts (sig : list Z) (u16 flags u24 lowest highest size : Z) (machine volume : list Z)
  (u32 t40 t48 f56 s60 i64 i68 i72 i76 i80 i84 i88 : Z) : list part :=
  [Raw 16 sig; Num 4 u16; Num 4 flags; Num 4 u24; Num 4 lowest; Num 4 highest; Num 4 size; Raw 16 machine; Raw 16 volume;
   Num 8 u32; Num 8 t40; Num 8 t48; Num 4 f56; Num 4 s60; Num 4 i64; Num 4 i68; Num 4 i72; Num 4 i76; Num 4 i80; Num 4 i84;
   Num 4 i88].
Definition mt_entry_parts (next previous type index u16 : Z) (object droid_volume droid_object machine birth_volume
  birth_object : list Z) (time u120 : Z) : list part :=
  [Num 4 next; Num 4 previous; Num 4 type; Num 4 index; Num 4 u16; Raw 16 object; Raw 16 droid_volume; Raw 16 droid_object;
   Raw 16 machine; Raw 16 birth_volume; Raw 16 birth_object; Num 4 time; Num 4 u120].

(** Shadow copy blocks and items. *)
Definition shadow_parts (guid : list Z) (version type o1 o2 o3 : Z) : list part :=
  [Raw 16 guid; Num 4 version; Num 4 type; Num 8 o1; Num 8 o2; Num 8 o3].
Definition start_parts (before guid : list Z) (version type o1 o2 o3 first max : Z) (volume storage : list Z)
  (app free hot days protection : Z) : list part :=
  Raw 7680 before :: shadow_parts guid version type o1 o2 o3 ++
  [Num 8 first; Num 8 max; Raw 16 volume; Raw 16 storage; Num 8 app; Num 8 free; Num 8 hot; Num 4 days; Num 4 protection].
Definition item2_parts (type priority : Z) (pad : list Z) (size : Z) (guid : list Z) (position flags time u56 : Z) : list part :=
  [Num 4 type; Num 1 priority; Raw 3 pad; Num 8 size; Raw 16 guid; Num 8 position; Num 8 flags; Num 8 time; Num 2 u56].
Definition item3_parts (type u4 diff : Z) (guid : list Z) (app loc bitmap reference alloc previous u80 : Z) : list part :=
  [Num 4 type; Num 4 u4; Num 8 diff; Raw 16 guid; Num 8 app; Num 8 loc; Num 8 bitmap; Num 8 reference; Num 8 alloc;
   Num 8 previous; Num 4 u80].

(** The boot sectors of FAT and of exFAT. *)
Definition bpb_parts (jump oem : list Z) (bps spc rsvd nf rootent tot16 media fatsz spt heads hidden tot32 : Z) : list part :=
  [Raw 3 jump; Raw 8 oem; Num 2 bps; Num 1 spc; Num 2 rsvd; Num 1 nf; Num 2 rootent; Num 2 tot16; Num 1 media; Num 2 fatsz;
   Num 2 spt; Num 2 heads; Num 4 hidden; Num 4 tot32].
Definition ext_parts (drive dirty bootsig id : Z) (label fstype : list Z) : list part :=
  [Num 1 drive; Num 1 dirty; Num 1 bootsig; Num 4 id; Raw 11 label; Raw 8 fstype].
Definition bpb32_parts (fatsz ext ver root fsinfo backup : Z) (reserved : list Z) : list part :=
  [Num 4 fatsz; Num 2 ext; Num 2 ver; Num 4 root; Num 2 fsinfo; Num 2 backup; Raw 12 reserved].
Definition exbr_parts (jump name zeros : list Z) (part_off length fat_off fat_len heap count root serial minor major flags
  bps_shift spc_shift fats drive percent : Z) : list part :=
  [Raw 3 jump; Raw 8 name; Raw 53 zeros; Num 8 part_off; Num 8 length; Num 4 fat_off; Num 4 fat_len; Num 4 heap; Num 4 count;
   Num 4 root; Num 4 serial; Num 1 minor; Num 1 major; Num 2 flags; Num 1 bps_shift; Num 1 spc_shift; Num 1 fats; Num 1 drive;
   Num 1 percent].
