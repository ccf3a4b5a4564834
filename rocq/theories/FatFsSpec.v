(** What a walk over an undamaged FAT volume reports. *)
From Verif Require Import Base FatBasic FatBoot FatTable FatDir DirWalk ClusterRead FatFs.

(** The entry with the names replaced by paths. *)
Definition at_path (path : list Z) (e : file_entry) : file_entry :=
  let join n := if (0 <? zlen path) && (last path 0 =? 47) then path ++ n else path ++ [47] ++ n in
  mk_file_entry (fe_deleted e) (fe_directory e) (join (fe_short e)) (fe_short_raw e)
    (match fe_long e with None => None | Some n => Some (join n) end)
    (fe_atime e) (fe_mtime e) (fe_ctime e) (fe_size e) (fe_attributes e) (fe_ntbyte e) (fe_first_cluster e) (fe_encrypted e).

Definition dot_name (n : list Z) : Prop := n = [46] \/ n = [46; 46].

Section Spec.
Variables dec lower : list Z -> list Z.
Variable fs : fat_fs.

(** [tree anc path buf out]: the directory [buf] without deleted entries and
    damaged names, and everything below it; [anc] are the clusters of the
    directories above and of [buf] itself. *)
Inductive tree : list Z -> list Z -> list Z -> list file_entry -> Prop :=
| tr_dir anc path buf es out : dir_entries dec lower (fs_type fs =? 32) false buf = (map FileE es, Done) ->
    branches anc path es out -> tree anc path buf out
with branches : list Z -> list Z -> list file_entry -> list file_entry -> Prop :=
| br_nil anc path : branches anc path [] []
| br_file anc path e es out : fe_deleted e <> Some true -> fe_directory e = false \/ dot_name (fe_short e) \/ fe_first_cluster e = 0 ->
    branches anc path es out -> branches anc path (e :: es) (at_path path e :: out)
| br_dir anc path e es out buf sub : fe_deleted e <> Some true -> fe_directory e = true -> ~ dot_name (fe_short e) ->
    2 <= fe_first_cluster e -> ~ In (fe_first_cluster e) anc ->
    fat_read_chain fs (fe_first_cluster e) None = Ok buf ->
    tree (fe_first_cluster e :: anc) (path ++ [47] ++ match fe_long e with Some n => n | None => fe_short e end) buf sub ->
    branches anc path es out -> branches anc path (e :: es) (at_path path e :: sub ++ out).

End Spec.

Scheme tree_mut := Induction for tree Sort Prop
with branches_mut := Induction for branches Sort Prop.
Combined Scheme tree_branches_ind from tree_mut, branches_mut.
