(** Model of the part of [FileSystemParser.read_chain] that FAT.py and exFAT.py
    have in common: reading the clusters of a list. *)
From Verif Require Import Base.

(** The volume (the whole file it is in, the offset, the size if given), the
    cluster size and the offset of the data area. *)
Record geometry := mk_geometry { g_vol : list Z; g_voff : Z; g_vsize : option Z; g_cs : Z; g_data : Z }.

(** FAT.py:1535-1547, exFAT.py:1159-1171. *)
Definition read_cluster (g : geometry) (c : Z) : result (list Z) :=
  let off := g_data g + (c - 2) * g_cs g in
  if g_voff g + off <? 0 then Err ValueError
  else if match g_vsize g with Some n => n <? off + g_cs g | None => false end then Err ValueError
  else
    let! b := read_at (g_vol g) (g_voff g + off) (g_cs g) in
    if negb (zlen b =? g_cs g) then Err ValueError else Ok b.

(** FAT.py:1526-1550, exFAT.py:1150-1174: None stands for a bad cluster. *)
Fixpoint clusters_loop (g : geometry) (size : option Z) (read : Z) (cl : list (option Z)) : result (list Z) :=
  match cl with
  | [] => Ok []
  | c :: r =>
    if match size with Some n => n <=? read | None => false end then Ok []
    else
      let! b := match c with None => Ok (zeros (g_cs g)) | Some c => read_cluster g c end in
      let! rest := clusters_loop g size (read + g_cs g) r in
      Ok (b ++ rest)
  end.

(** FAT.py:1520-1553, exFAT.py:1144-1178. *)
Definition read_clusters (g : geometry) (size : option Z) (cl : list (option Z)) : result (list Z) :=
  match cl with
  | [] => Ok []
  | _ =>
    let! b := clusters_loop g size 0 cl in
    Ok (match size with None => b | Some n => slice b 0 n end)
  end.
