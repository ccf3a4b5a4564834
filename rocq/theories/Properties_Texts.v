(** C85: every report can be written as UTF-8. *)
From Coq Require Import String.
From Verif Require Import Base BaseLemmas Utf16 Utf8 Utf8Spec Utf8Proofs Report LogReport ReportText ReportFiles MoveReport AllMft FatReport
  FatFs ExFs TextsMft TextsReport TextsLog TextsAll TextsFat Main.
Local Open Scope Z_scope.

(** The text can be encoded, and the bytes hold this text and no other one. *)
Definition writable (s : list Z) : Prop :=
  exists b, utf8_text s = Some b /\ forall t, holds_text b t <-> t = s.
Definition csv_writable (g : gen (list (list Z))) : Prop := writable (csv_text (fst g)).
Definition log_writable (g : gen block) : Prop := writable (log_text (fst g)).

Lemma sc_writable s : sc s -> writable s.
Proof.
  intros S. destruct (scalar_text s S) as [b E]. exists b. split; [exact E|]. pose proof (text_holds s S b E) as H.
  intros t. split; [|intros ->; exact H]. intros K. exact (holds_unique _ _ K _ H).
Qed.
Lemma csv_ok g : gall (Forall sc) g -> csv_writable g.
Proof. intros G. apply sc_writable, csv_fine, G. Qed.

(** The encoder: exactly the texts made of scalar values can be encoded, and it
    agrees with the table of the Unicode standard. *)
Theorem C85_encode : forall s b, utf8_text s = Some b -> Forall (fun c => 0 <= c <= 0x10FFFF) s -> holds_text b s.
Proof.
  intros s b E R. apply text_holds; [|exact E]. revert b E.
  induction R as [|c s C R IH]; intros b E; [constructor|]. cbn [utf8_text] in E.
  destruct (utf8_char c) as [q|] eqn:EC; [|discriminate]. destruct (utf8_text s) as [r|] eqn:ES; [|discriminate]. constructor; [|eapply IH; reflexivity].
  unfold utf8_char in EC. unfold scalar. destruct (c <? 0x80) eqn:C1; [lia|]. destruct (c <? 0x800) eqn:C2; [lia|].
  destruct ((0xD800 <=? c) && (c <=? 0xDFFF)) eqn:C3; [discriminate|]. lia.
Qed.
Theorem C85_encodable : forall s b, holds_text b s <-> utf8_text s = Some b /\ Forall scalar s.
Proof.
  intros s b. split.
  - intros H. split; [now apply holds_encoded|eapply holds_scalar; exact H].
  - intros [E S]. now apply text_holds.
Qed.

Theorem C85_mft : forall data header tag, bytes_ok data -> name_fine tag -> csv_writable (mft_file data header tag).
Proof. intros. apply csv_ok, mft_file_fine; assumption. Qed.
Theorem C85_usn : forall journal mft_data, bytes_ok journal -> bytes_ok mft_data -> csv_writable (usn_file journal mft_data).
Proof. intros. apply csv_ok, usn_file_fine; assumption. Qed.
Theorem C85_log : forall ord data mft_data, bytes_ok data -> bytes_ok mft_data -> log_writable (process_log ord data mft_data).
Proof. intros. apply sc_writable, log_text_fine, log_report_fine; assumption. Qed.
Theorem C85_indx : forall vol voff, bytes_ok vol -> csv_writable (indx_of vol voff).
Proof.
  intros vol voff B. apply csv_ok. unfold indx_of. apply gall_run. intros v O. apply gall_run. intros t E. apply indx_file_fine; [exact B|].
  apply (table_bytes vol voff); [exact B|]. unfold table_of. rewrite O. exact E.
Qed.
Theorem C85_all : forall fuel depth vol voff, bytes_ok vol -> csv_writable (gmap row_texts (process_all_mft fuel depth vol voff)).
Proof. intros. apply csv_ok, (gall_map row_fine); [now apply all_mft_fine|apply row_texts_fine]. Qed.
Theorem C85_mem : forall data, csv_writable (mem_file data).
Proof. intros. apply csv_ok, mem_file_fine. Qed.
Theorem C85_move : forall data, log_writable (move_report data).
Proof. intros. apply sc_writable, log_text_fine, move_fine. Qed.
(** For decoders that give Unicode texts. *)
Theorem C85_fat : forall dec lower vol voff, (forall b, bytes_ok b -> Forall scalar (dec b)) -> (forall s, Forall scalar s -> Forall scalar (lower s)) ->
  bytes_ok vol -> csv_writable (fat_report dec lower vol voff).
Proof.
  intros dec lower vol voff D L B. apply csv_ok. destruct (Z.lt_ge_cases voff 0) as [N|N]; [|now apply fat_report_fine].
  unfold fat_report, fat_fs_open. cbn [too_small]. unfold read_at. replace (voff <? 0) with true by lia. cbn [bind fs_exception]. constructor.
Qed.

Print Assumptions C85_encode.
Print Assumptions C85_encodable.
Print Assumptions C85_mft.
Print Assumptions C85_usn.
Print Assumptions C85_log.
Print Assumptions C85_indx.
Print Assumptions C85_all.
Print Assumptions C85_mem.
Print Assumptions C85_move.
Print Assumptions C85_fat.

(** A name with a surrogate that has no partner (0xD800), a letter and a
    character outside the basic plane; the surrogate has become U+FFFD when the
    name was decoded. *)
Example C85_name : let name := [0x00; 0xD8; 0x41; 0x00; 0x3D; 0xD8; 0x00; 0xDE] in
  utf16le name = [0xFFFD; 0x41; 0x1F600] /\ utf8_text (utf16le name) = Some [0xEF; 0xBF; 0xBD; 0x41; 0xF0; 0x9F; 0x98; 0x80].
Proof. split; reflexivity. Qed.
(** Without this, the text could not be written. *)
Example C85_surrogate : utf8_text [0x41; 0xD800] = None.
Proof. reflexivity. Qed.
