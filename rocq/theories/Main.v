(** Model of the main programs: /repo/ntfs_parser (957-1039) and /repo/fat_parser
    (60-125), what they do to the files of the machine.

    A path is a text; [m_file] gives the file that it names, so that two paths
    may name one file (links, other spellings).  [m_data] gives the content of
    every file that exists, [m_writable] the files that can be opened for
    writing.  The parameters: [int_of] is int() of a text (None: ValueError),
    [ord], [dec], [lower], [fuel] and [depth] are those of the reports.

    Simplifications.  Every file that exists can be opened for reading.  The
    reports are computed from the contents that the input files have after the
    output file has been opened (opening it for writing makes it empty), not
    from what they contain later: the two differ only if an input file is the
    output file and the output is written back before the input has been read,
    and for an empty input file no report is as long as the buffer of the
    output file.  Texts that were written before an exception are in the
    output file (it is flushed when the interpreter ends).  The line separator
    of the system is "\n".  What is printed (print_usage) is left out. *)
From Coq Require Import String.
From Verif Require Import Base FragmentedFile Attributes Volume Report LogReport ReportText ReportFiles MoveReport AllMft FatReport Utf8.
Local Open Scope Z_scope.

Record machine : Type := mk_machine {
  m_file : list Z -> Z;
  m_data : Z -> option (list Z);
  m_writable : Z -> bool
}.
Definition content (m : machine) (i : Z) : list Z := match m_data m i with Some d => d | None => [] end.
Definition put (m : machine) (i : Z) (d : list Z) : machine :=
  mk_machine (m_file m) (fun j => if j =? i then Some d else m_data m j) (m_writable m).

Inductive outcome : Type :=
| Usage                 (* print_usage(); sys.exit(0) *)
| NoInput               (* an input file cannot be opened *)
| NoOutput              (* the output file cannot be opened *)
| Ended (st : status)   (* the report has ended, with an exception or without one *)
| Unencodable.          (* UnicodeEncodeError *)

(** open(path, 'rb'). *)
Definition open_input (m : machine) (path : list Z) (k : Z -> machine * outcome) : machine * outcome :=
  match m_data m (m_file m path) with
  | None => (m, NoInput)
  | Some _ => k (m_file m path)
  end.

(** The texts that are written one after another: the bytes in the file, and
    whether all texts could be encoded. *)
Fixpoint encode_all (l : list (list Z)) : list Z * bool :=
  match l with
  | [] => ([], true)
  | t :: l => match utf8_text t with
              | None => ([], false)
              | Some b => let (r, ok) := encode_all l in (b ++ r, ok)
              end
  end.

(** open(path, 'w', encoding = 'utf-8') and the report. *)
Definition write_report (m : machine) (path : list Z) (report : machine -> gen (list Z)) : machine * outcome :=
  let i := m_file m path in
  if negb (m_writable m i) then (m, NoOutput)
  else
    let m := put m i [] in
    let (texts, st) := report m in
    let (b, ok) := encode_all texts in
    (put m i b, if ok then Ended st else Unencodable).

(** csv.writer, and the blocks of the other reports. *)
Definition csv_rows (g : gen (list (list Z))) : gen (list Z) := gmap csv_row g.
Definition log_blocks (g : gen block) : gen (list Z) := gmap block_text g.

(** ntfs_parser:732-735 with MFT.FileSystemParser.  (The table is read as a
    whole, as in AllMft.v.) *)
Definition indx_of (vol : list Z) (voff : Z) : gen (list (list Z)) :=
  grun (volume_open vol voff) (fun v =>
  grun (ff_pread (vo_file v) 0 (ff_size (vo_file v))) (fun t => indx_file vol voff (ff_csize (vo_file v)) t)).

Inductive mode : Type := M_mft | M_usn | M_log | M_indx | M_all | M_mem | M_move.
Definition mode_of (s : list Z) : option mode :=
  if zlist_eqb s (txt "--mft") then Some M_mft
  else if zlist_eqb s (txt "--usn") then Some M_usn
  else if zlist_eqb s (txt "--log") then Some M_log
  else if zlist_eqb s (txt "--indx") then Some M_indx
  else if zlist_eqb s (txt "--all-mft") then Some M_all
  else if zlist_eqb s (txt "--mem") then Some M_mem
  else if zlist_eqb s (txt "--move") then Some M_move
  else None.
(** 966, 970. *)
Definition arguments (k : mode) : nat := match k with M_mft | M_mem | M_move => 4 | _ => 5 end.
Definition arg (argv : list (list Z)) (n : nat) : list Z := nth n argv [].

Section Programs.
Variable int_of : list Z -> option Z.
Variable ord : nat -> list Z -> list Z.
Variables dec lower : list Z -> list Z.
Variables fuel depth : nat.

(** ntfs_parser:957-1039. *)
Definition ntfs_main (m : machine) (argv : list (list Z)) : machine * outcome :=
  if negb (Nat.eqb (List.length argv) 4) && negb (Nat.eqb (List.length argv) 5) then (m, Usage)
  else
    match mode_of (arg argv 1) with
    | None => (m, Usage)
    | Some k =>
      if negb (Nat.eqb (List.length argv) (arguments k)) then (m, Usage)
      else
        match k with
        | M_mft => open_input m (arg argv 2) (fun i =>
            write_report m (arg argv 3) (fun m => csv_rows (mft_file (content m i) true None)))
        | M_usn => open_input m (arg argv 2) (fun t => open_input m (arg argv 3) (fun i =>
            write_report m (arg argv 4) (fun m => csv_rows (usn_file (content m i) (content m t)))))
        | M_log => open_input m (arg argv 2) (fun t => open_input m (arg argv 3) (fun i =>
            write_report m (arg argv 4) (fun m => log_blocks (process_log ord (content m i) (content m t)))))
        | M_indx => open_input m (arg argv 2) (fun i =>
            match int_of (arg argv 3) with
            | None => (m, Usage)
            | Some o => write_report m (arg argv 4) (fun m => csv_rows (indx_of (content m i) o))
            end)
        | M_all => open_input m (arg argv 2) (fun i =>
            match int_of (arg argv 3) with
            | None => (m, Usage)
            | Some o => write_report m (arg argv 4) (fun m => csv_rows (gmap row_texts (process_all_mft fuel depth (content m i) o)))
            end)
        | M_mem => open_input m (arg argv 2) (fun i =>
            write_report m (arg argv 3) (fun m => csv_rows (mem_file (content m i))))
        | M_move => open_input m (arg argv 2) (fun i =>
            write_report m (arg argv 3) (fun m => log_blocks (move_report (content m i))))
        end
    end.

(** fat_parser:60-125. *)
Definition fat_main (m : machine) (argv : list (list Z)) : machine * outcome :=
  if negb (Nat.eqb (List.length argv) 4) then (m, Usage)
  else open_input m (arg argv 1) (fun i =>
    match int_of (arg argv 2) with
    | None => (m, Usage)
    | Some o => write_report m (arg argv 3) (fun m => csv_rows (fat_report dec lower (content m i) o))
    end).
End Programs.
