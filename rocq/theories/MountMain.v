(** Model of the main program of /repo/vsc_mount (251-367).

    Files are those of Main.v; [is_dir] is os.path.isdir and [int_of] is int()
    of a text (None: ValueError).  The program opens files for reading only, so
    that no file changes.

    Simplifications.  A file that has been opened raises OSError for a negative
    position, which the parsers of Shadow.v show as ValueError (as BytesIO
    does); nothing else in the constructors of the file systems is a ValueError
    (C88_mount), so that ValueError stands for OSError here.  A mount is given
    with the mount point that the FUSE library gets; the library, its options
    and print_usage are left out. *)
From Coq Require Import String.
From Verif Require Import Base Shadow Report LogReport Mount.
From Verif Require Main.
Local Open Scope Z_scope.

Inductive run : Type :=
| Usage                                     (* print_usage(); sys.exit(0) *)
| NoPoint                                   (* the mount point is not a directory; sys.exit(255) *)
| NoVolume                                  (* 'Volume image does not exist'; sys.exit(255) *)
| Fails (e : exn)                           (* an exception that is not caught *)
| Mounts (fs : mount) (point : list Z)      (* llfuse.init, llfuse.main *)
| Lists (lines : gen line).                 (* what is printed *)

Inductive mode : Type := V_mount (altfill : bool) | V_two | V_list.
(** 255-258, 260, 264-266, 297, 336. *)
Definition vsc_mode (s : list Z) : option mode :=
  if zlist_eqb s (txt "--mount") then Some (V_mount false)
  else if zlist_eqb s (txt "--mount-altfill") then Some (V_mount true)
  else if zlist_eqb s (txt "--mount-two") then Some V_two
  else if zlist_eqb s (txt "--list") then Some V_list
  else None.

(** 282-296, 319-334. *)
Definition start (point : list Z) (r : result mount) : run :=
  match r with
  | Ok fs => Mounts fs point
  | Err ValueError => NoVolume
  | Err e => Fails e
  end.

Definition opened (m : Main.machine) (path : list Z) (k : list Z -> run) : run :=
  match Main.m_data m (Main.m_file m path) with
  | None => NoVolume
  | Some d => k d
  end.

Section Program.
Variable int_of : list Z -> option Z.
Variable is_dir : list Z -> bool.
Variables fuel depth : nat.

Definition number (s : list Z) (k : Z -> run) : run :=
  match int_of s with None => Usage | Some n => k n end.

Definition vsc_main (m : Main.machine) (argv : list (list Z)) : run :=
  if Nat.ltb (List.length argv) 2 then Usage
  else
    match vsc_mode (Main.arg argv 1) with
    | None => Usage
    | Some (V_mount altfill) =>
      if negb (Nat.eqb (List.length argv) 6) then Usage
      else number (Main.arg argv 3) (fun volume_offset => number (Main.arg argv 4) (fun stack_position =>
        if negb (is_dir (Main.arg argv 5)) then NoPoint
        else opened m (Main.arg argv 2) (fun d =>
          start (Main.arg argv 5) (mount_one fuel depth (mk_vol d volume_offset) stack_position altfill))))
    | Some V_two =>
      if negb (Nat.eqb (List.length argv) 8) then Usage
      else number (Main.arg argv 4) (fun volume_offset => number (Main.arg argv 5) (fun storage_offset => number (Main.arg argv 6) (fun stack_position =>
        if negb (is_dir (Main.arg argv 7)) then NoPoint
        else opened m (Main.arg argv 2) (fun d => opened m (Main.arg argv 3) (fun s =>
          start (Main.arg argv 7) (mount_two fuel depth (mk_vol d volume_offset) (mk_vol s storage_offset) stack_position))))))
    | Some V_list =>
      if negb (Nat.eqb (List.length argv) 4) then Usage
      else number (Main.arg argv 3) (fun volume_offset =>
        opened m (Main.arg argv 2) (fun d => Lists (list_shadows fuel (mk_vol d volume_offset))))
    end.
End Program.
