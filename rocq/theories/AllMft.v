(** Model of process_all_mft of the script /repo/ntfs_parser (863-881): the
    report on the file records of a volume and of its shadow copies.

    Simplification: a table and a shadow copy are read as a whole before they
    are reported on.  If some part of them cannot be read, the report ends
    before the rows of this table, while the code writes the rows for the
    segments before the unreadable part (or all rows, if the unreadable part
    of the shadow copy is not in its table). *)
From Coq Require Import String.
From Verif Require Import Base FragmentedFile Attributes Shadow FatDir Report LogReport ReportText Volume.
Local Open Scope Z_scope.

(** 866-870: MFT.FileSystemParser(volume, offset) and the bytes of the file it
    represents. *)
Definition table_of (vol : list Z) (voff : Z) : result (list Z) :=
  let! v := volume_open vol voff in
  ff_pread (vo_file v) 0 (ff_size (vo_file v)).

(** The volume shown by a parser: seek(0); read(). *)
Definition shadow_bytes (o : parser) : result (list Z) :=
  let (o, r) := sp_seek o 0 0 in
  let! _ := r in
  snd (sp_read o None false).

(** 871, 881: [header] is the global variable print_header, which is true for
    the first call only. *)
Definition table_rows (t : result (list Z)) (header : bool) (tag : list Z) : gen row :=
  grun t (fun t => process_mft t header (Some tag)).

Definition shadow_tag (position : Z) : list Z := txt "shadow copy " ++ number_text position.

(** 878-881; [st] is the outcome of the generator of shadow copies. *)
Fixpoint shadow_reports (fuel depth : nat) (o : parser) (l : list shadow_info) (st : status) : gen row :=
  match l with
  | [] => ([], st)
  | s :: t =>
    let (o, r) := select_shadow fuel depth o (ByGuid (si_guid s)) in
    match r with
    | Err e => ([], Raised e)
    | Ok _ =>
      gseq (table_rows (let! d := shadow_bytes o in table_of d 0) false (shadow_tag (si_pos s)))
        (shadow_reports fuel depth o t st)
    end
  end.

Definition process_all_mft (fuel depth : nat) (vol : list Z) (voff : Z) : gen row :=
  gseq (table_rows (table_of vol voff) true (txt "main volume"))
    (match open_one fuel (mk_vol vol voff) None with
     | Err ShadowCopiesDisabledException => ([], Done)
     | Err e => ([], Raised e)
     | Ok o => let (l, st) := shadows (sp_cbs o) in shadow_reports fuel depth o l st
     end).
