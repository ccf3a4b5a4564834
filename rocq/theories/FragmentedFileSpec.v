(** Specification of a file scattered over a volume: its virtual content, and
    an abstract file with a position. *)
From Verif Require Import Base FragmentedFile.

(** Where the file is stored. *)
Record layout : Type := mk_layout {
  ly_volume : list Z;             (* bytes of the volume object *)
  ly_base : Z;                    (* offset of the volume in it *)
  ly_cluster : Z;                 (* bytes per cluster *)
  ly_runs : list (option Z * Z)   (* (first cluster | hole, number of clusters) *)
}.

(** [located runs k r]: cluster [k] of the file lies in a hole ([r = None]) or in
    cluster [c] of the volume ([r = Some c]). *)
Inductive located : list (option Z * Z) -> Z -> option Z -> Prop :=
| loc_hole : forall n t k, 0 <= k < n -> located ((None, n) :: t) k None
| loc_here : forall o n t k, 0 <= k < n -> located ((Some o, n) :: t) k (Some (o + k))
| loc_later : forall o n t k r, located t k r -> located ((o, n) :: t) (n + k) r.

(** [content ly p b]: byte [p] of the virtual content is [b].  A cluster that is
    not entirely inside the volume object has no content. *)
Inductive content (ly : layout) : Z -> Z -> Prop :=
| content_hole : forall p,
    located (ly_runs ly) (p / ly_cluster ly) None -> content ly p 0
| content_disk : forall p c start b,
    located (ly_runs ly) (p / ly_cluster ly) (Some c) ->
    start = ly_base ly + c * ly_cluster ly ->
    0 <= start -> start + ly_cluster ly <= zlen (ly_volume ly) ->
    znth (ly_volume ly) (start + p mod ly_cluster ly) = Some b ->
    content ly p b.

(** [bytes_at ly p l]: the virtual content from [p] on starts with [l]. *)
Definition bytes_at (ly : layout) (p : Z) (l : list Z) : Prop :=
  forall i, 0 <= i < zlen l -> exists b, znth l i = Some b /\ content ly (p + i) b.

(** [n] rounded up to whole clusters. *)
Definition whole_clusters (cs n : Z) : Z := (n + cs - 1) / cs * cs.

(** How many bytes a read returns when nothing goes wrong. *)
Definition read_length (cs fsize pos : Z) (size : option Z) : Z :=
  if fsize <=? pos then 0 else
  match size with
  | None => fsize - pos
  | Some s => if s <? 0 then fsize - pos else Z.min s (whole_clusters cs fsize - pos)
  end.

(** Operations of the file interface and their observations. *)
Inductive op : Type := Seek (offset whence : Z) | Tell | Read (size : option Z).
Inductive obs : Type := Pos (p : Z) | Data (l : list Z) | Exc.

(** One operation on the abstract file of size [fsize] at position [pos]. *)
Inductive file_step (ly : layout) (fsize : Z) : Z -> op -> obs -> Z -> Prop :=
| st_seek : forall pos o w t,
    ((w = 0 /\ t = o) \/ (w = 1 /\ t = pos + o) \/ (w = 2 /\ t = fsize + o)) -> 0 <= t ->
    file_step ly fsize pos (Seek o w) (Pos t) t
| st_seek_bad : forall pos o w,
    (forall t, ((w = 0 /\ t = o) \/ (w = 1 /\ t = pos + o) \/ (w = 2 /\ t = fsize + o)) -> t < 0) ->
    file_step ly fsize pos (Seek o w) Exc pos
| st_tell : forall pos, file_step ly fsize pos Tell (Pos pos) pos
| st_read : forall pos size l,
    bytes_at ly pos l -> zlen l = read_length (ly_cluster ly) fsize pos size ->
    file_step ly fsize pos (Read size) (Data l) (pos + zlen l)
| st_read_bad : forall pos size p,
    (* [p] is the first byte wanted that has no content *)
    pos <= p < pos + read_length (ly_cluster ly) fsize pos size ->
    (forall q, pos <= q < p -> exists b, content ly q b) -> (forall b, ~ content ly p b) ->
    file_step ly fsize pos (Read size) Exc p.

Inductive file_history (ly : layout) (fsize : Z) : Z -> list op -> list obs -> Prop :=
| hist_nil : forall pos, file_history ly fsize pos [] []
| hist_cons : forall pos o r pos' os rs,
    file_step ly fsize pos o r pos' -> file_history ly fsize pos' os rs ->
    file_history ly fsize pos (o :: os) (r :: rs).

(** Lengths of decoded runs are positive (C02_lengths_positive). *)
Definition runs_positive (runs : list (option Z * Z)) : Prop := Forall (fun r => 0 < snd r) runs.

(** Running the operations on the model object. *)
Definition perform (f : ffile) (o : op) : obs * ffile :=
  match o with
  | Seek off w => match ff_seek f off w with (Ok p, f') => (Pos p, f') | (Err _, f') => (Exc, f') end
  | Tell => (Pos (ff_tell f), f)
  | Read s => match ff_read f s with (Ok l, f') => (Data l, f') | (Err _, f') => (Exc, f') end
  end.

Fixpoint perform_all (f : ffile) (os : list op) : list obs :=
  match os with
  | [] => []
  | o :: t => let (r, f') := perform f o in r :: perform_all f' t
  end.
