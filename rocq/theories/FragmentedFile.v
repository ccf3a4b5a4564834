(** Model of FragmentedFile (dfir_ntfs/MFT.py:1369-1484). *)
From Verif Require Import Base FileObject MappingPairs.

(** MFT.py:1390-1400: the object; [ff_volume] is the content of the volume
    object (read only), [ff_pos] is current_offset_in_file. *)
Record ffile : Type := mk_ff {
  ff_volume : list Z;
  ff_voffset : Z;
  ff_csize : Z;
  ff_runs : list run;
  ff_size : Z;
  ff_pos : Z
}.

Definition ff_set_pos (f : ffile) (p : Z) : ffile :=
  mk_ff (ff_volume f) (ff_voffset f) (ff_csize f) (ff_runs f) (ff_size f) p.

(** MFT.py:1390-1400 __init__. *)
Definition ff_open (vol : list Z) (voff csize : Z) (runs : list run) (size : Z) : ffile :=
  mk_ff vol voff csize runs size 0.

(** MFT.py:1402-1421 seek; the state is unchanged when it raises. *)
Definition ff_seek (f : ffile) (offset whence : Z) : result Z * ffile :=
  let target :=
    if whence =? 0 then Ok offset
    else if whence =? 1 then Ok (ff_pos f + offset)
    else if whence =? 2 then Ok (ff_size f + offset)
    else Err ValueError in
  match target with
  | Err e => (Err e, f)
  | Ok t => if t <? 0 then (Err ValueError, f) else (Ok t, ff_set_pos f t)
  end.

(** MFT.py:1423-1426 tell. *)
Definition ff_tell (f : ffile) : Z := ff_pos f.

(** MFT.py:1431-1453, the loop of read_virtual_cluster; [skipped] is
    clusters_skipped. *)
Fixpoint read_cluster_loop (vol : list Z) (voff csize vcn : Z) (runs : list run) (skipped : Z)
  : result (list Z) :=
  match runs with
  | [] => Err MasterFileTableException
  | (offset, size) :: t =>
    if skipped + size <=? vcn then read_cluster_loop vol voff csize vcn t (skipped + size) else
    match offset with
    | None => Ok (zeros csize)
    | Some o =>
      let! data := seek_read vol (voff + (o + (vcn - skipped)) * csize) csize in
      if zlen data =? 0 then Err MasterFileTableException else
      if negb (zlen data =? csize) then Err MasterFileTableException else Ok data
    end
  end.

(** MFT.py:1428-1453 read_virtual_cluster. *)
Definition read_virtual_cluster (f : ffile) (vcn : Z) : result (list Z) :=
  read_cluster_loop (ff_volume f) (ff_voffset f) (ff_csize f) vcn (ff_runs f) 0.

(** MFT.py:1463-1466, 1474-1477: one piece, [want] bytes from [pos] cut at the
    end of the cluster. *)
Definition read_piece (f : ffile) (pos want : Z) : result (list Z) :=
  if ff_csize f =? 0 then Err ZeroDivisionError else
  let! c := read_virtual_cluster f (pos / ff_csize f) in
  let o := pos mod ff_csize f in
  Ok (slice c o (o + want)).

(** MFT.py:1469-1480, the loop; returns the outcome and the final position. *)
Fixpoint read_loop (fuel : nat) (f : ffile) (pos size : Z) (data : list Z) : result (list Z) * Z :=
  match fuel with
  | O => (Err OutOfFuel, pos)
  | S fuel =>
    let bytes_left := size - zlen data in
    if 0 <? bytes_left then
      if ff_size f <=? pos then (Ok data, pos) else
      match read_piece f pos bytes_left with
      | Err e => (Err e, pos)
      | Ok new => read_loop fuel f (pos + zlen new) size (data ++ new)
      end
    else (Ok data, pos)
  end.

(** MFT.py:1455-1482 read. *)
Definition ff_read (f : ffile) (size : option Z) : result (list Z) * ffile :=
  let pos := ff_pos f in
  let size := match size with
              | None => ff_size f - pos
              | Some s => if s <? 0 then ff_size f - pos else s
              end in
  if (size <=? 0) || (ff_size f <=? pos) then (Ok [], f) else
  match read_piece f pos size with
  | Err e => (Err e, f)
  | Ok data =>
    let pos := pos + zlen data in
    let (r, pos) := read_loop (S (Z.to_nat (Z.min size (ff_size f)))) f pos size data in
    (r, ff_set_pos f pos)
  end.
