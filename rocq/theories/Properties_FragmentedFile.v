(** Properties C09, C10. *)
From Verif Require Import Base BaseLemmas MappingPairs FragmentedFile FragmentedFileSpec FragmentedFileProofs.

(** C09: any history of seek, tell and read calls observes exactly the abstract
    file of [FragmentedFileSpec]. *)
Theorem C09_history : forall vol voff cs runs fsize os rs,
  0 < cs -> runs_positive runs -> zlen vol < 2 ^ 63 ->
  file_history (mk_layout vol voff cs runs) fsize 0 os rs <->
  rs = perform_all (ff_open vol voff cs runs fsize) os.
Proof. exact history_iff. Qed.
Print Assumptions C09_history.

Theorem C09_read_all : forall vol voff cs runs fsize l f,
  0 < cs -> runs_positive runs -> zlen vol < 2 ^ 63 -> 0 <= fsize ->
  ff_read (ff_open vol voff cs runs fsize) None = (Ok l, f) ->
  zlen l = fsize /\ bytes_at (mk_layout vol voff cs runs) 0 l /\ ff_pos f = fsize.
Proof. exact read_all. Qed.
Print Assumptions C09_read_all.

Theorem C09_errors : forall vol voff cs runs fsize pos size e f,
  0 < cs -> runs_positive runs -> zlen vol < 2 ^ 63 -> 0 <= pos ->
  ff_read (mk_ff vol voff cs runs fsize pos) size = (Err e, f) ->
  e = MasterFileTableException \/ e = ValueError \/ e = OverflowError.
Proof. exact read_errors. Qed.
Print Assumptions C09_errors.

Example C09_case : runs_positive small_runs /\
  perform_all (ff_open small_volume 0 4 small_runs 14)
    [Read (Some 6); Tell; Seek (-2) 1; Read None; Seek 3 0; Read (Some 1); Seek (-1) 0; Seek 0 7; Seek (-1) 2; Tell]
  = [Data [30; 31; 32; 33; 0; 0]; Pos 6; Pos 4; Data [0; 0; 0; 0; 10; 11; 12; 13; 20; 21]; Pos 3;
     Data [33]; Exc; Exc; Pos 13; Pos 13] /\
  perform_all (ff_open small_volume 0 4 [(Some 3, 1); (Some 5, 1)] 8) [Read None; Tell] = [Exc; Pos 4].
Proof. split; [repeat constructor|]. split; reflexivity. Qed.

(** C10 is false: a sized read near the end returns slack bytes of the last
    cluster. *)
Theorem C10_read_past_end_refuted : exists vol runs cs fsize size l f,
  0 < cs /\ runs_positive runs /\
  ff_read (ff_open vol 0 cs runs fsize) (Some size) = (Ok l, f) /\ fsize < zlen l.
Proof. exact C10_read_past_end_refuted_lemma. Qed.
Print Assumptions C10_read_past_end_refuted.

(** What does hold: never more than asked, nothing from the end of the file on,
    never past the last cluster, and exact without a size. *)
Theorem C10_bounds_partial : forall vol voff cs runs fsize pos size l f,
  0 < cs -> runs_positive runs -> zlen vol < 2 ^ 63 -> 0 <= pos ->
  ff_read (mk_ff vol voff cs runs fsize pos) size = (Ok l, f) ->
  (forall s, size = Some s -> 0 <= s -> zlen l <= s) /\
  (l <> [] -> pos < fsize /\ pos + zlen l < fsize + cs) /\
  (match size with None => True | Some s => s < 0 end -> zlen l = Z.max 0 (fsize - pos)).
Proof. exact read_bounds. Qed.
Print Assumptions C10_bounds_partial.

Example C10_case : ff_read (mk_ff small_volume 0 4 small_runs 14 13) (Some 2) =
  (Ok [21; 22], mk_ff small_volume 0 4 small_runs 14 15).
Proof. reflexivity. Qed.
