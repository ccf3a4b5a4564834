(** Specification of the main programs: what is asked for on the command line,
    and what a run leaves in the files. *)
From Coq Require Import String.
From Verif Require Import Base Report LogReport ReportText ReportFiles MoveReport AllMft FatReport Utf8Spec Main.
Local Open Scope Z_scope.

(** The files that are read, the file that is written, and the text of the
    report as a function of the contents of the files that are read. *)
Record job : Type := mk_job {
  j_inputs : list (list Z);
  j_output : list Z;
  j_report : list (list Z) -> list Z * status
}.
Definition table_text (g : gen (list (list Z))) : list Z * status := (csv_text (fst g), snd g).
Definition blocks_text (g : gen block) : list Z * status := (log_text (fst g), snd g).
Definition one {A} (f : list Z -> A) (l : list (list Z)) : A := f (hd [] l).
Definition two {A} (f : list Z -> list Z -> A) (l : list (list Z)) : A := f (hd [] l) (hd [] (tl l)).

Section Jobs.
Variable int_of : list Z -> option Z.
Variable ord : nat -> list Z -> list Z.
Variables dec lower : list Z -> list Z.
Variables fuel depth : nat.

Inductive ntfs_asks : list (list Z) -> job -> Prop :=
| a_mft p a z : ntfs_asks [p; txt "--mft"; a; z] (mk_job [a] z (one (fun d => table_text (mft_file d true None))))
| a_usn p a b z : ntfs_asks [p; txt "--usn"; a; b; z] (mk_job [a; b] z (two (fun mft journal => table_text (usn_file journal mft))))
| a_log p a b z : ntfs_asks [p; txt "--log"; a; b; z] (mk_job [a; b] z (two (fun mft log => blocks_text (process_log ord log mft))))
| a_indx p a o n z : int_of o = Some n ->
    ntfs_asks [p; txt "--indx"; a; o; z] (mk_job [a] z (one (fun vol => table_text (indx_of vol n))))
| a_all p a o n z : int_of o = Some n ->
    ntfs_asks [p; txt "--all-mft"; a; o; z] (mk_job [a] z (one (fun vol => table_text (gmap row_texts (process_all_mft fuel depth vol n)))))
| a_mem p a z : ntfs_asks [p; txt "--mem"; a; z] (mk_job [a] z (one (fun d => table_text (mem_file d))))
| a_move p a z : ntfs_asks [p; txt "--move"; a; z] (mk_job [a] z (one (fun d => blocks_text (move_report d)))).

Inductive fat_asks : list (list Z) -> job -> Prop :=
| a_fat p a o n z : int_of o = Some n ->
    fat_asks [p; a; o; z] (mk_job [a] z (one (fun vol => table_text (fat_report dec lower vol n)))).
End Jobs.

(** The inputs exist, with these contents. *)
Definition inputs_are (m : machine) (j : job) (ds : list (list Z)) : Prop :=
  Forall2 (fun p d => m_data m (m_file m p) = Some d) (j_inputs j) ds.
Definition output_file (m : machine) (j : job) : Z := m_file m (j_output j).
(** No input is the output file. *)
Definition apart (m : machine) (j : job) : Prop := Forall (fun p => m_file m p <> output_file m j) (j_inputs j).
Definition unchanged_but (m m' : machine) (i : Z) : Prop :=
  m_file m' = m_file m /\ m_writable m' = m_writable m /\ forall k, k <> i -> m_data m' k = m_data m k.

(** What a run does. *)
Definition does (m : machine) (j : job) (m' : machine) (o : outcome) : Prop :=
  (* an input is missing, or the output cannot be written: nothing happens *)
  ((exists p, In p (j_inputs j) /\ m_data m (m_file m p) = None) -> m' = m /\ o = NoInput) /\
  (forall ds, inputs_are m j ds -> m_writable m (output_file m j) = false -> m' = m /\ o = NoOutput) /\
  (* otherwise only the output file changes; it holds the report in UTF-8 *)
  (forall ds, inputs_are m j ds -> m_writable m (output_file m j) = true -> apart m j ->
     unchanged_but m m' (output_file m j) /\ o = Ended (snd (j_report j ds)) /\
     exists b, m_data m' (output_file m j) = Some b /\ holds_text b (fst (j_report j ds))).
