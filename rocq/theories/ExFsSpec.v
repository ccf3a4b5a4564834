(** What opening and walking an exFAT volume means. *)
From Verif Require Import Base ExSpec ExTable ExTableSpec ExDir DirWalk ClusterRead ClusterReadSpec ExFs.

(** A file without a chain: consecutive clusters, as many as needed, none behind the last one. *)
Definition consecutive (last cs first size : Z) : list (option Z) :=
  map (fun k => Some (first + Z.of_nat k)) (seq 0 (Z.to_nat (Z.min ((size + cs - 1) / cs) (last + 1 - first)))).

(** The clusters of a file. *)
Definition file_clusters (f : xfat) (last cs first : Z) (size : option Z) (no_chain : bool) (cl : list (option Z)) : Prop :=
  if no_chain then exists n, size = Some n /\ cl = if 2 <=? first then consecutive last cs first n else []
  else x_chain f first = Ok cl.

(** Milliseconds, for comparing valid times. *)
Definition stamp_number (t : (Z * Z * Z) * (Z * Z * Z) * Z) : Z :=
  let '((y, mo, d), (h, mi, s), ms) := t in (((((y * 13 + mo) * 32 + d) * 24 + h) * 60 + mi) * 60 + s) * 1000 + ms.
Definition stamp_ok (t : (Z * Z * Z) * (Z * Z * Z) * Z) : Prop :=
  let '((y, mo, d), (h, mi, s), ms) := t in
  0 <= mo < 13 /\ 0 <= d < 32 /\ 0 <= h < 24 /\ 0 <= mi < 60 /\ 0 <= s < 60 /\ 0 <= ms < 1000.

Definition x_path (path n : list Z) : list Z :=
  if (0 <? zlen path) && (last path 0 =? 47) then path ++ n else path ++ [47] ++ n.

(** ** Undamaged volumes *)
Section Spec.
Variable fs : x_fs.

(** [xtree anc path buf out]: everything in the directory [buf] and below it.
    Directories are entered when they are in use or their first cluster is free. *)
Inductive xtree : list Z -> list Z -> list Z -> list x_item -> Prop :=
| xt_dir anc path buf es out : x_entries (zlen path =? 0) buf = (es, Done) -> xbranches anc path es out -> xtree anc path buf out
with xbranches : list Z -> list Z -> list x_item -> list x_item -> Prop :=
| xb_nil anc path : xbranches anc path [] []
| xb_label anc path n es out : xbranches anc path es out -> xbranches anc path (XLabel n :: es) (XLabel n :: out)
| xb_orphan anc path n es out : xbranches anc path es out -> xbranches anc path (XOrphan n :: es) (XOrphan (x_path path n) :: out)
| xb_bitmap anc path a b c es out : xbranches anc path es out -> xbranches anc path (XBitmap a b c :: es) out
| xb_file anc path e es out : xe_directory e = false \/ xe_first e < 2 \/ xv_last fs < xe_first e ->
    (xe_directory e = true -> ~ In (xe_first e) anc \/ xe_first e = 0) -> 
    xbranches anc path es out -> xbranches anc path (XFile e :: es) (XFile (x_named e (x_path path (xe_name e))) :: out)
(** A link to a directory above is not reported. *)
| xb_loop anc path e es out : xe_directory e = true -> xe_first e <> 0 -> In (xe_first e) anc ->
    xbranches anc path es out -> xbranches anc path (XFile e :: es) out
| xb_empty anc path e es out : xe_directory e = true -> 2 <= xe_first e <= xv_last fs -> ~ In (xe_first e) anc ->
    xe_deleted e = false \/ bit_of_cluster (xv_bitmap fs) (xe_first e) = false -> 
    (x_read_chain fs (xe_first e) (Some (xe_size e)) (xe_no_chain e) = Ok [] \/
     exists x, x_read_chain fs (xe_first e) (Some (xe_size e)) (xe_no_chain e) = Err x) ->
    xbranches anc path es out -> xbranches anc path (XFile e :: es) (XFile (x_named e (x_path path (xe_name e))) :: out)
| xb_dir anc path e es out buf sub : xe_directory e = true -> 2 <= xe_first e <= xv_last fs -> ~ In (xe_first e) anc ->
    xe_deleted e = false \/ bit_of_cluster (xv_bitmap fs) (xe_first e) = false -> 
    x_read_chain fs (xe_first e) (Some (xe_size e)) (xe_no_chain e) = Ok buf -> buf <> [] ->
    xtree (xe_first e :: anc) (path ++ [47] ++ xe_name e) buf sub ->
    xbranches anc path es out -> xbranches anc path (XFile e :: es) (XFile (x_named e (x_path path (xe_name e))) :: sub ++ out).
End Spec.

Scheme xtree_mut := Induction for xtree Sort Prop
with xbranches_mut := Induction for xbranches Sort Prop.
Combined Scheme xtree_branches_ind from xtree_mut, xbranches_mut.
