(** Where the parts of a FAT volume are, and what the walk does with deleted,
    reallocated and lost directories. *)
From Verif Require Import Base FatBasic FatTable FatSpec FatProofs FatDir ClusterRead FatFs ExSpec ExTable ExTableSpec ExDir ExFs.

(** ** The parts of a volume, from the boot sector [b] *)

(** The table in use: the first one, unless a FAT32 volume does not mirror its
    tables and names another one that exists. *)
Definition table_in_use (fat32 : bool) (b : list Z) : Z :=
  if fat32 && Z.testbit (fld 2 b 40) 7 && (fld 2 b 40 mod 16 <? bpb_fats b) then fld 2 b 40 mod 16 else 0.

(** Sectors, from the beginning of the volume. *)
Definition table_sector (fat32 : bool) (b : list Z) : Z := bpb_reserved b + table_in_use fat32 b * fat_sectors fat32 b.
Definition root_sector (b : list Z) : Z := bpb_reserved b + bpb_fats b * bpb_fat_sectors_16 b.
Definition data_sector (fat32 : bool) (b : list Z) : Z :=
  if fat32 then bpb_reserved b + bpb_fats b * bpb_fat_sectors_32 b else root_sector b + root_sectors b.

(** ** FSINFO: three signatures, the number of free clusters, the next free cluster *)
Definition fsinfo_image (res1 res2 : list Z) (free next : Z) : list Z :=
  [0x52; 0x52; 0x61; 0x41] ++ res1 ++ [0x72; 0x72; 0x41; 0x61] ++ le_bytes 4 free ++ le_bytes 4 next ++ res2 ++ [0; 0; 0x55; 0xAA].

(** ** Directories *)

Section Dirs.
Variable fs : fat_fs.
Let f := fs_fat fs.
Let w := f_type f.

Definition in_table (c : Z) : Prop := has_entry w (table f) (f_last f) c.
Definition in_use (c : Z) : Prop := in_table c /\ table_entry w (table f) c <> 0.
Definition free (c : Z) : Prop := in_table c /\ table_entry w (table f) c = 0.

(** [names buf p s]: the bytes at [p] are [s]. *)
Definition names (buf : list Z) (p : Z) (s : list Z) : Prop := slice buf p (p + zlen s) = s.
Definition used_slot (buf : list Z) (p : Z) : Prop := exists v, znth buf p = Some v /\ v <> 0.

(** A deleted directory that had one cluster is taken to go on in the next
    cluster when that one is free, the last three entries of the first one are
    used, and the next one does not begin with a directory of its own. *)
Definition goes_on (c : Z) (buf more : list Z) : Prop :=
  fat_chain f c = Ok [Some c] /\ free (c + 1) /\ fat_read_chain fs (c + 1) None = Ok more /\
  used_slot buf (zlen buf - 96) /\ used_slot buf (zlen buf - 64) /\ used_slot buf (zlen buf - 32) /\
  used_slot more 0 /\ ~ names more 33 [46; 32].

(** Has the entry a directory behind it? *)
Definition a_directory (e : file_entry) : Prop := fe_directory e = true /\ fe_short e <> [46] /\ fe_short e <> [46; 46].
Definition shown_name (e : file_entry) : list Z := match fe_long e with Some n => n | None => fe_short e end.
Definition gone (e : file_entry) : Prop := fe_deleted e = Some true.

Definition noted (c : Z) (l : list Z) : list Z := if in_dec Z.eq_dec c l then l else l ++ [c].

(** [enters scan st path e st' sub]: what follows the report on the entry [e].
    [st] are the reallocated directories and the visited ones. *)
Inductive enters (scan : bool) (st : fat_state) (path : list Z) (e : file_entry) : fat_state -> option (list Z * list Z) -> Prop :=
| en_not : ~ a_directory e -> enters scan st path e st None
| en_outside : a_directory e -> ~ in_table (fe_first_cluster e) -> enters scan st path e st None
| en_realloc : a_directory e -> scan = false -> gone e -> in_use (fe_first_cluster e) ->
    enters scan st path e (noted (fe_first_cluster e) (fst st), snd st) None
| en_unread : a_directory e -> in_table (fe_first_cluster e) -> scan = true \/ ~ gone e \/ free (fe_first_cluster e) ->
    (forall buf, fat_read_chain fs (fe_first_cluster e) None = Ok buf -> buf = []) ->
    enters scan st path e (fst st, noted (fe_first_cluster e) (snd st)) None
| en_overwritten buf : a_directory e -> scan = false -> gone e -> free (fe_first_cluster e) ->
    fat_read_chain fs (fe_first_cluster e) None = Ok buf -> buf <> [] -> ~ names buf 33 [46; 32] ->
    enters scan st path e (fst st, noted (fe_first_cluster e) (snd st)) None
| en_dir buf : a_directory e -> ~ gone e -> in_table (fe_first_cluster e) ->
    fat_read_chain fs (fe_first_cluster e) None = Ok buf -> buf <> [] ->
    enters scan st path e (fst st, noted (fe_first_cluster e) (snd st)) (Some (buf, path ++ [47] ++ shown_name e))
| en_deleted buf more : a_directory e -> gone e -> in_table (fe_first_cluster e) ->
    scan = true \/ (free (fe_first_cluster e) /\ names buf 33 [46; 32]) ->
    fat_read_chain fs (fe_first_cluster e) None = Ok buf -> buf <> [] ->
    goes_on (fe_first_cluster e) buf more \/ (more = [] /\ forall m, ~ goes_on (fe_first_cluster e) buf m) ->
    enters scan st path e (fst st, noted (fe_first_cluster e) (snd st)) (Some (buf ++ more, path ++ [47] ++ shown_name e)).

(** A directory that was reallocated and never visited is read if it begins
    with the two entries of a directory. *)
Definition lost_directory (c : Z) (buf : list Z) : Prop :=
  fat_read_chain fs c None = Ok buf /\ 512 <= zlen buf /\ names buf 0 [46; 32] /\ names buf 32 [46; 46; 32].
End Dirs.

(** ** exFAT *)

Section XDirs.
Variable fs : x_fs.

Inductive x_enters (scan : bool) (st : x_state) (path : list Z) (e : xentry) : x_state -> option (list Z * list Z) -> Prop :=
| xn_not : xe_directory e = false \/ xe_first e < 2 \/ xv_last fs < xe_first e -> x_enters scan st path e st None
| xn_realloc meta : xe_directory e = true -> 2 <= xe_first e <= xv_last fs -> scan = false -> xe_deleted e = true ->
    bit_of_cluster (xv_bitmap fs) (xe_first e) = true -> x_note e (xt_meta st) = Ok meta ->
    x_enters scan st path e (mk_x_state (noted (xe_first e) (xt_realloc st)) meta (xt_visited st)) None
| xn_unread : xe_directory e = true -> 2 <= xe_first e <= xv_last fs ->
    scan = true \/ xe_deleted e = false \/ bit_of_cluster (xv_bitmap fs) (xe_first e) = false ->
    (forall buf, x_read_chain fs (xe_first e) (Some (xe_size e)) (xe_no_chain e) = Ok buf -> buf = []) ->
    x_enters scan st path e (mk_x_state (xt_realloc st) (xt_meta st) (noted (xe_first e) (xt_visited st))) None
| xn_dir buf : xe_directory e = true -> 2 <= xe_first e <= xv_last fs ->
    scan = true \/ xe_deleted e = false \/ bit_of_cluster (xv_bitmap fs) (xe_first e) = false ->
    x_read_chain fs (xe_first e) (Some (xe_size e)) (xe_no_chain e) = Ok buf -> buf <> [] ->
    x_enters scan st path e (mk_x_state (xt_realloc st) (xt_meta st) (noted (xe_first e) (xt_visited st))) (Some (buf, path ++ [47] ++ xe_name e)).

(** It must begin with the three entries of a deleted file: file, stream
    extension and name, each with its bit for use cleared. *)
Definition x_lost_directory (st : x_state) (c : Z) (buf : list Z) : Prop :=
  exists t size nc, meta_get c (xt_meta st) = Some (t, size, nc) /\ x_read_chain fs c (Some size) nc = Ok buf /\ 512 <= zlen buf /\
    znth buf 0 = Some (0x85 - 0x80) /\ znth buf 32 = Some (0xC0 - 0x80) /\ znth buf 64 = Some (0xC1 - 0x80).
End XDirs.
