(** What reading a list of clusters gives. *)
From Verif Require Import Base ClusterRead.

(** Cluster [c] lies in the volume. *)
Definition readable (g : geometry) (c : Z) : Prop :=
  let off := g_data g + (c - 2) * g_cs g in
  0 <= g_voff g + off /\ g_voff g + off + g_cs g <= zlen (g_vol g) /\
  match g_vsize g with Some n => off + g_cs g <= n | None => True end.

Definition cluster_data (g : geometry) (c : option Z) : list Z :=
  match c with
  | None => zeros (g_cs g)
  | Some c => let off := g_voff g + g_data g + (c - 2) * g_cs g in slice (g_vol g) off (off + g_cs g)
  end.

(** The clusters needed for a size. *)
Definition needed (g : geometry) (size : option Z) (cl : list (option Z)) : list (option Z) :=
  match size with None => cl | Some n => ztake ((n + g_cs g - 1) / g_cs g) cl end.

(** [d] is what a list of clusters holds. *)
Definition holds (g : geometry) (size : option Z) (cl : list (option Z)) (d : list Z) : Prop :=
  (forall c, In (Some c) (needed g size cl) -> readable g c) /\
  d = match size with
      | None => concat (map (cluster_data g) cl)
      | Some n => ztake n (concat (map (cluster_data g) (needed g size cl)))
      end.
