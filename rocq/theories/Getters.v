(** Field accessors of /repo/dfir_ntfs that no other modelled function uses. *)
From Verif Require Import Base Filetime FatBoot FatTable MoveTable.

(** ** Attributes.py:620-626: VolumeName.get_name. *)
Definition vn_name (v : list Z) : list Z := utf16le v.

(** ** MoveTable.py:80-123: the rest of the header; the extended header is unpacked
    as '<16s16sQQQLLLLLLLLL' from the bytes 40 to 132. *)
Definition mth_unknown_16 (b : list Z) := u32 b 16.
Definition mth_unknown_24 (b : list Z) := u32 b 24.

Record ext_header : Type := mk_ext {
  xh_machine : list Z; xh_volume : list Z; xh_unknown_32 : Z; xh_time_40 : Z; xh_time_48 : Z;
  xh_flags_56 : Z; xh_state_60 : Z; xh_index_64 : Z; xh_index_68 : Z; xh_index_72 : Z; xh_index_76 : Z;
  xh_index_80 : Z; xh_index_84 : Z; xh_index_88 : Z }.

(** The machine id is given as bytes (DecodeString, 30-55, is not modelled). *)
Definition mth_extended (b : list Z) : result ext_header :=
  let x := slice b 40 132 in
  if negb (zlen x =? 92) then Err StructError else
  Ok (mk_ext (until_null (slice x 0 16)) (slice x 16 32) (fld 8 x 32) (fld 8 x 40) (fld 8 x 48)
        (fld 4 x 56) (fld 4 x 60) (fld 4 x 64) (fld 4 x 68) (fld 4 x 72) (fld 4 x 76) (fld 4 x 80) (fld 4 x 84) (fld 4 x 88)).

(** MoveTable.py:146-149, 197-200, 277-280. *)
Definition mtf_unused (sector : list Z) : list Z := zdrop 8 (slice sector (zlen sector - 16) (zlen sector)).
Definition mte_unknown_16 (b : list Z) := u32 b 16.
Definition mte_unknown_120 (b : list Z) := u32 b 120.

(** ** ShadowCopy.py:116-149 ShadowBlock: the accessors. *)
Definition sb_guid (b : list Z) : list Z := slice b 0 16.
Definition sb_version (b : list Z) := u32 b 16.
Definition sb_type (b : list Z) := u32 b 20.
Definition sb_offset_1 (b : list Z) := u64 b 24.
Definition sb_offset_2 (b : list Z) := u64 b 32.
Definition sb_offset_3 (b : list Z) := u64 b 40.
(** 472-475, 501-504: the payload of a block. *)
Definition sb_payload (b : list Z) : list Z := zdrop 0x80 b.

(** ** ShadowCopy.py:194-247 StartBlock, on the first 8192 bytes of the volume. *)
Definition st_max_size (b : list Z) := u64 b 7736.
Definition st_volume_guid (b : list Z) : list Z := slice b 7744 7760.
Definition st_storage_guid (b : list Z) : list Z := slice b 7760 7776.
Definition st_app_flags (b : list Z) := u64 b 7776.
Definition st_free_precopy (b : list Z) := u64 b 7784.
Definition st_hot_precopy (b : list Z) := u64 b 7792.
Definition st_hot_days (b : list Z) := u32 b 7800.
Definition st_protection (b : list Z) := u32 b 7804.

(** ** ShadowCopy.py:338-377, 399-451: the items of a control block. *)
Definition it_type (r : list Z) := u32 r 0.
Definition it_guid (r : list Z) : list Z := slice r 16 32.
Definition i2_get_priority (r : list Z) := u8 r 4.
Definition i2_get_size (r : list Z) := u64 r 8.
Definition i2_get_position (r : list Z) := u64 r 32.
Definition i2_get_flags (r : list Z) := u64 r 40.
Definition i2_get_time (r : list Z) : result (option Z) := let! t := u64 r 48 in decode_filetime t true.
Definition i2_get_unknown_56 (r : list Z) := u16 r 56.
Definition i3_get_diff_area (r : list Z) := u64 r 8.
Definition i3_get_app_info (r : list Z) := u64 r 32.
Definition i3_get_location (r : list Z) := u64 r 40.
Definition i3_get_bitmap (r : list Z) := u64 r 48.
Definition i3_get_file_reference (r : list Z) := u64 r 56.
Definition i3_get_allocation (r : list Z) := u64 r 64.
Definition i3_get_previous (r : list Z) := u64 r 72.
Definition i3_get_unknown_80 (r : list Z) := u32 r 80.

(** ** addons/FAT.py: BSBPB, the accessors not needed to open the file system. *)
Definition bs_jmpboot (b : list Z) : list Z := slice b 0 3.          (* 545-548 *)
Definition bs_oemname (b : list Z) : list Z := slice b 3 11.         (* 550-553 *)
Definition bpb_secpertrk (b : list Z) := u16 b 24.                   (* 640-643 *)
Definition bpb_numheads (b : list Z) := u16 b 26.                    (* 645-648 *)
Definition bpb_hiddsec (b : list Z) := u32 b 28.                     (* 650-653 *)
Definition bs_signature (b : list Z) : list Z := slice b 510 512.    (* 664-667 *)

(** FAT.py:720-742: a sector number that is present on FAT32 only, where it is not zero. *)
Definition fat32_sector (f32 : bool) (b : list Z) (off : Z) : result (option Z) :=
  if negb f32 then Ok None else
  let! v := u16 b off in
  if v =? 0 then Err BootSectorException else Ok (Some v).
Definition bpb_fsinfo (f32 : bool) (b : list Z) := fat32_sector f32 b 48.
Definition bpb_bkbootsec (f32 : bool) (b : list Z) := fat32_sector f32 b 50.
(** FAT.py:744-750. *)
Definition bpb_reserved (f32 : bool) (b : list Z) : option (list Z) := if f32 then Some (slice b 52 64) else None.
(** FAT.py:752-768. *)
Definition bs_drvnum (f32 : bool) (b : list Z) := u8 b (if f32 then 64 else 36).
Definition bs_dirty_flags (f32 : bool) (b : list Z) := u8 b (if f32 then 65 else 37).
(** FAT.py:770-778: (is_dirty, needs_surface_check). *)
Definition bs_is_dirty (f32 : bool) (b : list Z) : result (bool * bool) :=
  let! f := bs_dirty_flags f32 b in Ok (0 <? Z.land f 1, 0 <? Z.land f 2).

(** FAT.py:788-814: (volume_id, volume_label, fs_type), each of them possibly absent. *)
Definition bs_extfields (f32 : bool) (b : list Z) : result (option Z * option (list Z) * option (list Z)) :=
  let base := if f32 then 67 else 39 in
  if bootsig f32 b =? 0x29 then
    let! id := u32 b base in
    Ok (Some id, Some (slice b (base + 4) (base + 15)), Some (slice b (base + 15) (base + 23)))
  else if bootsig f32 b =? 0x28 then
    let! id := u32 b base in Ok (Some id, None, None)
  else Ok (None, None, None).

(** FAT.py:897-900. *)
Definition fsi_reserved2 (b : list Z) : list Z := slice b 496 508.

(** FAT.py:182-220 IsFileSystemUnusual12Or16, without the warning. *)
Definition unusual_12_or_16 (clusters : Z) : bool := (4079 <=? clusters) && (clusters <=? 4086).

(** FAT.py:1015-1039: the bits of the second element of the table (29-33). *)
Definition fat_bit_clear (f : fat) (mask32 mask16 : Z) : result (option bool) :=
  if f_type f =? 12 then Ok None else
  let! v := get_element f 1 in
  Ok (Some (Z.land v (if f_type f =? 32 then mask32 else mask16) =? 0)).
Definition fat_is_dirty (f : fat) := fat_bit_clear f 0x08000000 0x8000.
Definition fat_hard_errors (f : fat) := fat_bit_clear f 0x04000000 0x4000.

(** ** addons/exFAT.py:329-347 BR. *)
Definition br_jmpboot (b : list Z) : list Z := slice b 0 3.
Definition br_fsname (b : list Z) : list Z := slice b 3 11.
Definition br_mustbezero (b : list Z) : list Z := slice b 11 64.
Definition br_partitionoffset (b : list Z) := u64 b 64.
