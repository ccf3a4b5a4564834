(** The blocks of the reports on the log and on the move table hold no surrogates. *)
From Coq Require Import String.
From Verif Require Import Base BaseLemmas MappingPairs Frs FrsSpec FrsProofs FileRecord FileRecordSpec FileRecordProofs FileObject FragmentedFile Filetime Attributes
  Usa Mft MftProofs Carve Wsl Usn Utf16 Report LogReport ReportText ReportFiles MoveTable MoveReport Utf8 Utf8Proofs TextsMft TextsReport
  LogPage LogFile LogRecord LogParse LogSpec LogFileProofs LogParseProofs LogParseTop.

(** ** What is read from the log *)
Section Log.
Variable lf : log_file.
Variable data : list Z.
Hypothesis B : bytes_ok data.

Lemma unprotect_fine raw out e : bytes_ok raw -> unprotect raw = Ok (out, e) -> bytes_ok out.
Proof.
  intros R H. unfold unprotect in H. destruct (_ || _); [discriminate|]. apply bind_ok in H as (uo & _ & H). apply bind_ok in H as (us & _ & H).
  destruct (_ || _); [discriminate|]. destruct (_ || _); [discriminate|]. destruct (_ <=? _); [discriminate|]. cbv zeta in H.
  assert (U : (let! r := usa_apply raw uo us in match r with None => Err UpdateSequenceArrayException | Some out => Ok (out, uo + us * 2) end) = Ok (out, e) -> bytes_ok out).
  { intros K. apply bind_ok in K as (r & E & K). destruct r as [x|]; [|discriminate]. assert (x = out) by congruence. subst x. eapply usa_loop_bytes; [|exact E]. exact R. }
  destruct (zlist_eqb _ _); [|auto]. apply bind_ok in H as (c & _ & H). destruct (_ =? _); [|auto]. assert (out = raw) by congruence. now subst.
Qed.
Lemma page_fine n p : page_by_number lf data n = Ok (Some p) -> bytes_ok (lp_buf p).
Proof.
  unfold page_by_number. intros H. apply bind_ok in H as (raw & R & H). destruct (negb _); [discriminate|].
  assert (BR : bytes_ok raw) by (unfold read_at in R; destruct (_ <? 0); [discriminate|]; injection R as <-; now apply bytes_ok_slice).
  destruct (log_record_page raw n (lf_doff lf)) as [q|x] eqn:E.
  - injection H as <-. unfold log_record_page in E. apply bind_ok in E as ([out e] & U & E). apply unprotect_fine in U; [|exact BR].
    destruct (negb _); [discriminate|]. destruct (_ || _); [discriminate|]. injection E as <-. exact U.
  - destruct x; cbn [log_exn] in H; discriminate.
Qed.
Lemma more_fine fuel : forall n left buf out, bytes_ok buf -> more_data lf data fuel n left buf = Ok out -> bytes_ok out.
Proof.
  induction fuel as [|fuel IH]; intros n left buf out Bb H; cbn [more_data] in H; [discriminate|].
  destruct (left <=? 0); [injection H as <-; exact Bb|]. apply bind_ok in H as (m & _ & H). apply bind_ok in H as (p & P & H).
  destruct p as [p|]; [|injection H as <-; exact Bb]. apply page_fine in P. cbv zeta in H. eapply IH; [|exact H]. apply bytes_ok_app. split; [exact Bb|].
  destruct (_ <=? left); [now apply bytes_ok_zdrop|now apply bytes_ok_slice].
Qed.
Lemma client_data_fine cs lsn cd : get_client_data lf data cs lsn = Ok cd -> bytes_ok (cd_buf cd).
Proof.
  unfold get_client_data. destruct (lsn_to_offset lf lsn) as [n off]. intros H. apply bind_ok in H as (p & P & H).
  destruct p as [p|]; [|discriminate]. apply page_fine in P. apply bind_ok in H as (h & E & H).
  assert (Bh : bytes_ok h).
  { unfold header_at in E. destruct (_ <? _); [discriminate|]. unfold record_header in E. destruct (_ <? 48); [discriminate|].
    destruct (_ || _); [discriminate|]. destruct (_ <? _); [discriminate|]. injection E as <-. now apply bytes_ok_zdrop. }
  apply bind_ok in H as (dl & _ & H). apply bind_ok in H as (buf & F & H). apply bind_ok in H as (ty & _ & H). apply bind_ok in H as (tid & _ & H).
  injection H as <-. cbn [cd_buf]. destruct (dl <=? _); [injection F as <-; now apply bytes_ok_slice|]. cbv zeta in F.
  eapply more_fine; [|exact F]. now apply bytes_ok_zdrop.
Qed.

Definition oat_fine (t : oat) : Prop := Forall (fun x => sc (snd (snd x))) t.
Definition dump_fine (d : option (list Z)) : Prop := match d with Some d => bytes_ok d | None => True end.
Definition item_fine (i : item) : Prop :=
  match i with Area _ _ => True | Rec b _ _ _ t _ ad => bytes_ok b /\ oat_fine t /\ dump_fine ad end.
Definition state_fine (s : loop_state) : Prop := oat_fine (ls_oat s) /\ dump_fine (ls_lan s) /\ dump_fine (ls_oan s).
Lemma redo_fine b d : bytes_ok b -> nr_redo_data b = Ok d -> bytes_ok d.
Proof.
  intros Bb H. unfold nr_redo_data in H. apply bind_ok in H as (n & _ & H). destruct (n =? 0); [injection H as <-; constructor|].
  apply bind_ok in H as (o & _ & H). injection H as <-. now apply bytes_ok_slice.
Qed.
Lemma undo_fine b d : bytes_ok b -> nr_undo_data b = Ok d -> bytes_ok d.
Proof.
  intros Bb H. unfold nr_undo_data in H. apply bind_ok in H as (n & _ & H). destruct (n =? 0); [injection H as <-; constructor|].
  apply bind_ok in H as (o & _ & H). injection H as <-. now apply bytes_ok_slice.
Qed.
Lemma effect_fine c b s s' : bytes_ok b -> state_fine s -> record_effect c b s = Ok s' -> state_fine s'.
Proof.
  intros Bb (F1 & F2 & F3) H. unfold record_effect in H. apply bind_ok in H as (op & _ & H). destruct (op =? _).
  - apply bind_ok in H as (name & N & H). apply bind_ok in H as (i & _ & H). apply bind_ok in H as (en & _ & H). apply undo_fine in N; [|exact Bb].
    destruct (entry_reference _ _) as [r|x].
    + injection H as <-. split; [|split; assumption]. constructor; [now apply utf16le_scalar|exact F1].
    + destruct x; try discriminate. injection H as <-. split; [constructor|split; assumption].
  - apply bind_ok in H as (d & _ & H). destruct (d && _).
    + apply bind_ok in H as (q & _ & H). injection H as <-. split; [exact F1|split; assumption].
    + destruct (d && _); [|injection H as <-; split; [exact F1|split; assumption]].
      apply bind_ok in H as (q & Q & H). apply redo_fine in Q; [|exact Bb]. injection H as <-. split; [exact F1|split; assumption].
Qed.
Lemma item_of_fine c cd s i : bytes_ok (cd_buf cd) -> state_fine s -> record_item c cd s = Ok i -> item_fine i.
Proof.
  intros Bb (F1 & F2 & F3) H. unfold record_item in H. apply bind_ok in H as (d & _ & H). cbv zeta in H.
  destruct (_ && _); [injection H as <-; split; [exact Bb|split; assumption]|].
  destruct (_ && _); injection H as <-; split; try exact Bb; split; try assumption. exact I.
Qed.
Lemma loop_fine c l : forall s, state_fine s -> gall item_fine (client_loop lf c data l s).
Proof.
  induction l as [|lsn t IH]; intros s S; cbn [client_loop]; [constructor|]. destruct (get_client_data _ _ _ _) as [cd|] eqn:G; [|constructor].
  apply client_data_fine in G. destruct (_ =? _).
  { destruct (ntfs_restart_area _); [|constructor]. apply gall_cons; [exact I|auto]. }
  destruct (_ =? _); [|auto]. match goal with |- gall _ (match ?r with Ok _ => _ | Err _ => _ end) => destruct r as [[i s']|] eqn:E end; [|constructor].
  apply bind_ok in E as (b & R & E). unfold log_record in R. destruct (_ <? 32); [discriminate|]. injection R as <-.
  apply bind_ok in E as (s1 & S1 & E). apply effect_fine in S1; [|exact G|exact S]. apply bind_ok in E as (i1 & I1 & E).
  assert (i1 = i /\ s1 = s') as [-> ->] by (split; congruence). apply gall_cons; [|auto]. eapply item_of_fine; eauto.
Qed.
Lemma clients_fine c d : gall item_fine (clients_parse lf c data d).
Proof.
  induction d as [|[k l] t IH]; cbn [clients_parse]; [constructor|].
  assert (S : state_fine loop_start) by (split; [constructor|split; exact I]). pose proof (loop_fine c l _ S) as F.
  destruct (client_loop lf c data l loop_start) as [is [|e]]; [apply gall_app; [exact F|exact IH]|exact F].
Qed.
End Log.
Lemma parse_fine lf ord r w is w' e : lf_ok lf -> files_ok w -> parse_ntfs_records lf ord r w = (is, w', e) -> Forall item_fine is.
Proof.
  intros K F. unfold parse_ntfs_records.
  assert (F1 : files_ok (fst (if r then recover lf w else (w, Done)))) by (destruct r; [apply files_recover; auto|auto]).
  destruct (if r then recover lf w else (w, Done)) as [w1 st1]. cbn [fst] in F1.
  destruct st1; [|intro E; injection E as <- _ _; constructor].
  destruct (collect_lsns lf (w_data w1) ord (w_cfg w1)) as [[lsns c]|x]; [|intro E; injection E as <- _ _; constructor]. cbv zeta.
  destruct (sort_lsns _ _ _) as [d|x]; [|intro E; injection E as <- _ _; constructor].
  pose proof (clients_fine lf (w_data (set_config w1 c)) (files_data _ F1) c d) as G.
  destruct (clients_parse _ _ _ _) as [is' [|x]]; intro E; injection E as <- _ _; exact G.
Qed.

(** ** The texts *)
Lemma hex_line_fine l : forall k n, sc (hex_line k n l).
Proof.
  induction l as [|b t IH]; intros k n; cbn [hex_line]; [constructor|]. apply sc_app; [apply hexes_sc, int2hex_fine|]. apply sc_app; [|apply IH].
  destruct (_ && _); [apply sc_one; unfold scalar; lia|]. destruct (negb _); [apply sc_one; unfold scalar; lia|constructor].
Qed.
Lemma dump_line_fine i l : sc (dump_line i l).
Proof.
  unfold dump_line. cbv zeta. assert (S : sc [32; 32]) by (apply sc_small; repeat (constructor; [lia|]); constructor).
  apply sc_app; [apply hexes_sc, zfill_fine, int2hex_fine|]. apply sc_app; [exact S|]. apply sc_app; [apply hex_line_fine|]. apply sc_app; [|apply sc_app; [exact S|]].
  - destruct (0 <? _); [|constructor]. apply Forall_forall. intros c I. apply repeat_spec in I. unfold scalar. lia.
  - apply Forall_map, Forall_forall. intros c _. unfold scalar. destruct (_ && _) eqn:E; lia.
Qed.
Lemma hexdump_fine b s : hexdump b = Ok s -> sc s.
Proof.
  unfold hexdump. destruct (_ =? 0); [intros H; injection H as <-; apply sc_one; unfold scalar; lia|].
  generalize 0. generalize (S (List.length b)) as fuel. intros fuel. revert s. induction fuel as [|fuel IH]; intros s i H; cbn [dump_loop] in H; [discriminate|].
  destruct (negb _); [injection H as <-; constructor|]. apply bind_ok in H as (r & R & H). apply IH in R. injection H as <-. apply sc_app; [apply dump_line_fine|].
  destruct (_ <? _); [constructor; [unfold scalar; lia|exact R]|exact R].
Qed.
Lemma operation_fine c : sc (resolve_operation c).
Proof. unfold resolve_operation. destruct (znth _ _); [apply sc_txt|apply py_hex_fine]. Qed.
Lemma file_attributes_fine n : sc (resolve_file_attributes n).
Proof. apply sc_joined; [apply sc_txt|]. apply Forall_map, Forall_forall. intros x _. apply sc_txt. Qed.
Lemma hex_bytes_fine l : sc (hex_bytes l).
Proof. apply lower_fine. induction l as [|b t IH]; cbn [map concat]; [constructor|]. apply Forall_app. split; [apply int2hex_fine|exact IH]. Qed.
Lemma guid_fine g : sc (guid_text g).
Proof.
  destruct g; [|apply sc_txt]. unfold guid_text. apply sc_joined; [apply sc_txt|]. repeat (constructor; [apply hex_bytes_fine|]). constructor.
Qed.

Definition line_fine (l : line) : Prop := Forall cell_fine l.
Definition block_fine (b : block) : Prop := Forall line_fine b.
Lemma ln_fine s c : Forall cell_fine c -> line_fine (ln s c).
Proof. intros C. constructor; [apply sc_txt|exact C]. Qed.
Lemma line_text_fine l : line_fine l -> sc (line_text l).
Proof. intros L. apply sc_flat. eapply Forall_impl; [|exact L]. intros c. apply cell_text_fine, stamp_fine. Qed.
Lemma block_text_fine b : block_fine b -> sc (block_text b).
Proof.
  intros F. apply sc_app.
  - apply sc_joined; [apply sc_one; unfold scalar; lia|]. apply Forall_map. eapply Forall_impl; [|exact F]. apply line_text_fine.
  - unfold separator. apply sc_app; [apply sc_small; repeat (constructor; [lia|]); constructor|]. apply sc_app; [apply sc_txt|apply sc_small; repeat (constructor; [lia|]); constructor].
Qed.
Lemma log_text_fine bs : Forall block_fine bs -> sc (log_text bs).
Proof. intros F. apply sc_flat. eapply Forall_impl; [|exact F]. apply block_text_fine. Qed.

#[local] Hint Resolve fine_stamp fine_num sc_txt file_attributes_fine operation_fine guid_fine codes_fine : texts.
Ltac lines := repeat first
  [ assumption
  | match goal with |- Forall _ (_ ++ _) => apply Forall_app; split end
  | match goal with |- Forall _ (_ :: _) => constructor; [first [apply ln_fine | idtac]|] end
  | match goal with |- Forall _ [] => constructor end
  | match goal with |- cell_fine (Txt _) => unfold cell_fine end
  | match goal with |- cell_fine (filetime_cell _) => apply fine_stamp end
  | solve [auto with texts] ].
Lemma end_fine : line_fine end_part.
Proof. constructor; [constructor|constructor]. Qed.
#[local] Hint Resolve end_fine : texts.
Lemma area_fine b lsn l : area_block b lsn = Ok l -> block_fine l.
Proof.
  unfold area_block. intros H. repeat apply bind_ok in H as (? & _ & H). injection H as <-. unfold block_fine. lines; try exact I; apply sc_one; unfold scalar; lia.
Qed.
Lemma times_fine m a c e l : times_of m a c e = Ok l -> Forall line_fine l.
Proof. unfold times_of. intros H. repeat apply bind_ok in H as (? & _ & H). injection H as <-. unfold time_lines. lines. Qed.
Lemma path_part_fine s o : name_fine o -> Forall line_fine (path_part s o).
Proof. destruct o as [t|]; cbn [path_part name_fine]; intros T; lines. Qed.

Section Table.
Variable p : mft.
Hypothesis B : bytes_ok (m_data p).

Lemma si_lines_fine v l : si_lines v = Ok l -> Forall line_fine l.
Proof.
  unfold si_lines. intros H. apply bind_ok in H as (ts & T & H). apply times_fine in T. apply bind_ok in H as (n & _ & H).
  assert (l = ln "$STANDARD_INFORMATION:" [] :: ts ++ [ln " * File attributes: " [Txt (resolve_file_attributes n)]; end_part]) by congruence. subst l. lines.
Qed.
Lemma parent_fine v l : parent_lines p v = Ok l -> Forall line_fine l.
Proof.
  unfold parent_lines. intros H. apply bind_ok in H as (r & _ & H). apply bind_ok in H as (s & S & H). apply lookup_fine in S; [|exact B].
  assert (l = ln " * Parent (file reference number): " [Num r] :: path_part " * Parent path (from $MFT): " s ++ [end_part]) by congruence. subst l.
  apply (path_part_fine " * Parent path (from $MFT): ") in S. lines; exact I.
Qed.
Lemma fn_lines_fine v l : bytes_ok v -> fn_lines p v = Ok l -> Forall line_fine l.
Proof.
  unfold fn_lines. intros Bv H. apply bind_ok in H as (ts & T & H). apply times_fine in T. apply bind_ok in H as (n & N & H). apply sc_fna_name in N; [|exact Bv].
  apply bind_ok in H as (par & P & H). apply parent_fine in P.
  assert (l = ln "$FILE_NAME:" [] :: ts ++ [ln " * File name: " [Txt n]] ++ par) by congruence. subst l. lines.
Qed.
Lemma oid_lines_fine v l : oid_lines v = Ok l -> Forall line_fine l.
Proof. unfold oid_lines. intros H. apply bind_ok in H as (t & _ & H). injection H as <-. lines. Qed.
Lemma value_lines_fine ty v l : bytes_ok v -> value_lines p ty v = Ok l -> Forall line_fine l.
Proof.
  unfold value_lines. intros Bv. destruct (ty =? _); [apply si_lines_fine|]. destruct (ty =? _); [now apply fn_lines_fine|].
  destruct (ty =? _); [apply oid_lines_fine|]. intros H. injection H as <-. constructor.
Qed.
Lemma init_fine as_ st l : Forall attr_fine as_ -> init_lines p as_ st = Ok l -> Forall line_fine l.
Proof.
  intros F. revert l. induction F as [|a t [_ A] _ IH]; intros l H; cbn [init_lines] in H.
  - destruct st as [|e]; [|destruct (is_mft_exn e)]; try discriminate; injection H as <-; constructor.
  - apply bind_ok in H as (x & X & H). apply bind_ok in H as (r & R & H). injection H as <-. apply Forall_app. split; [|auto].
    destruct a as [ty n v|]; cbn [init_attr_lines] in X; [|injection X as <-; constructor]. destruct (ty =? _); [discriminate|]. eapply value_lines_fine; eauto.
Qed.
Lemma new_record_fine b redo l : bytes_ok redo -> lr_new_record p b redo = Ok l -> Forall line_fine l.
Proof.
  intros Br H. unfold lr_new_record in H. apply bind_ok in H as (size & _ & H). cbv zeta in H.
  destruct (frs_open _ _ _) as [f|e] eqn:O; [|destruct (is_mft_exn e); [|discriminate]; injection H as <-; constructor].
  eapply init_fine; [|exact H]. apply (frs_gen_fine f). do 3 eexists. split; [|exact O]. apply bytes_ok_app. split; [exact Br|apply bytes_ok_zeros].
Qed.
Lemma lr_attribute_fine r u redo undo l : bytes_ok redo -> bytes_ok undo -> lr_attribute p r u redo undo = Ok l -> Forall line_fine l.
Proof.
  intros Br Bu H. unfold lr_attribute in H. destruct (_ || _); [|injection H as <-; constructor]. cbv zeta in H.
  match type of H with context [24 <=? zlen ?b] => set (buf := b) in *; assert (Bb : bytes_ok buf) end.
  { unfold buf. destruct (r =? _); [exact Br|]. destruct (u =? _); [exact Bu|]. destruct (_ <? _); assumption. }
  clearbody buf. destruct (24 <=? _); [|injection H as <-; constructor]. apply bind_ok in H as (ty & _ & H). apply bind_ok in H as (n & _ & H). apply bind_ok in H as (off & _ & H).
  destruct (_ && _); [|injection H as <-; constructor]. destruct (_ =? n); [|injection H as <-; constructor]. eapply value_lines_fine; [|exact H]. now apply bytes_ok_slice.
Qed.
Lemma partial_fine' t b o l : partial_si t b o = Ok l -> Forall line_fine l.
Proof.
  unfold partial_si. destruct (8 <=? _); [|intros H; injection H as <-; constructor]. cbv zeta. intros H. apply bind_ok in H as (ts & T & H). apply times_fine in T.
  assert (l = ln t [] :: ts ++ [end_part]) by congruence. subst l. lines.
Qed.
Lemma resident_fine b o r u redo undo l : lr_resident b o r u redo undo = Ok l -> Forall line_fine l.
Proof.
  unfold lr_resident. destruct o as [off|]; [|intros H; injection H as <-; constructor]. destruct (_ || _); [|intros H; injection H as <-; constructor].
  intros H. apply bind_ok in H as (size & _ & H). destruct (_ || _); [|injection H as <-; constructor]. cbv zeta in H. destruct (_ && _); [|injection H as <-; constructor].
  apply bind_ok in H as (x & X & H). apply bind_ok in H as (y & Y & H). injection H as <-. apply Forall_app. split; eapply partial_fine'; eauto.
Qed.
Lemma lr_index_fine r u redo undo l : bytes_ok redo -> bytes_ok undo -> lr_index p r u redo undo = Ok l -> Forall line_fine l.
Proof.
  intros Br Bu H. unfold lr_index in H. cbv zeta in H. destruct (_ || _); [|injection H as <-; constructor]. apply bind_ok in H as (v & V & H).
  destruct v as [v|]; [|injection H as <-; constructor]. apply attribute_fine in V; [|destruct (zin r _); assumption].
  destruct (66 <? _); [|injection H as <-; constructor]. apply bind_ok in H as (ts & T & H). apply times_fine in T. apply bind_ok in H as (n & N & H). apply sc_fna_name in N; [|exact V].
  apply bind_ok in H as (par & P & H). apply parent_fine in P.
  assert (l = ln "$FILE_NAME in index:" [] :: ts ++ [ln " * File name: " [Txt n]] ++ par) by congruence. subst l. lines.
Qed.
Lemma dup_fine t v l : dup_lines t v = Ok l -> Forall line_fine l.
Proof.
  unfold dup_lines. destruct (_ =? 56); [|intros H; injection H as <-; constructor]. intros H. apply bind_ok in H as (ts & T & H). apply times_fine in T.
  assert (l = ln t [] :: ts ++ [end_part]) by congruence. subst l. lines.
Qed.
Lemma lr_dup_fine r u redo undo l : lr_dup r u redo undo = Ok l -> Forall line_fine l.
Proof.
  unfold lr_dup. cbv zeta. intros H. apply bind_ok in H as (x & X & H). apply bind_ok in H as (y & Y & H). injection H as <-. apply Forall_app.
  split; [destruct (zin r _)|destruct (zin u _)]; try (eapply dup_fine; eassumption); [injection X as <-|injection Y as <-]; constructor.
Qed.
Lemma usn_lines_fine v l : bytes_ok v -> usn_lines v = Ok l -> Forall line_fine l.
Proof.
  intros Bv. unfold usn_lines. destruct (get_usn_record v) as [r|e] eqn:G; [|destruct e; intros H; try discriminate; injection H as <-; constructor].
  apply ur_bytes in G; [|exact Bv]. intros H.
  apply bind_ok in H as (a1 & _ & H). apply bind_ok in H as (a2 & _ & H). apply bind_ok in H as (a3 & _ & H). apply bind_ok in H as (a4 & _ & H). apply bind_ok in H as (a5 & _ & H).
  apply bind_ok in H as (last & L & H).
  assert (FL : Forall line_fine last).
  { destruct (ur_version r =? 4); [injection L as <-; constructor|]. apply bind_ok in L as (t & _ & L). apply bind_ok in L as (n & N & L). apply sc_ur_name in N; [|exact G].
    injection L as <-. lines. }
  injection H as <-. lines; exact I.
Qed.
Lemma lr_usn_fine n r u redo undo l : bytes_ok redo -> bytes_ok undo -> lr_usn n r u redo undo = Ok l -> Forall line_fine l.
Proof.
  intros Br Bu. unfold lr_usn. destruct n as [n|]; [|intros H; injection H as <-; constructor]. destruct (zlist_eqb _ _); [|intros H; injection H as <-; constructor].
  intros H. apply bind_ok in H as (x & X & H). apply bind_ok in H as (y & Y & H). injection H as <-. apply Forall_app. split; [destruct (r =? _)|destruct (u =? _)].
  - eapply usn_lines_fine; [exact Br|exact X].
  - injection X as <-; constructor.
  - eapply usn_lines_fine; [exact Bu|exact Y].
  - injection Y as <-; constructor.
Qed.
Lemma find_name_fine d i o : bytes_ok d -> find_name d i = Ok o -> name_fine o.
Proof.
  intros Bd. unfold find_name. generalize 0. generalize (S (List.length d)). induction n as [|n IH]; intros pos H; cbn [find_name_loop] in H; [discriminate|].
  destruct (_ <? _); [|injection H as <-; exact I]. destruct (name_entry _) as [e|x] eqn:E; [|destruct x; try discriminate; injection H as <-; exact I].
  unfold name_entry in E. destruct (_ <? 8); [discriminate|]. injection E as <-. apply bind_ok in H as (k & _ & H). destruct (k =? i).
  - apply bind_ok in H as (s & S & H). injection H as <-. unfold ne_name in S. apply bind_ok in S as (q & _ & S). injection S as <-.
    now apply utf16le_scalar, bytes_ok_slice, bytes_ok_zdrop.
  - apply bind_ok in H as (s & _ & H). eauto.
Qed.
Lemma target_reference_fine b t od ad r o : oat_fine t -> dump_fine ad -> target_reference b t od ad = Ok (Some (r, o)) -> name_fine o.
Proof.
  intros T A H. unfold target_reference in H. apply bind_ok in H as (y & _ & H). destruct y; [|discriminate]. apply bind_ok in H as (i & _ & H).
  unfold oat_get in H. destruct (find _ t) as [[k [r' n']]|] eqn:F; cbn [snd] in H.
  - injection H as _ <-. apply find_some in F as [F _]. eapply Forall_forall in T; [|exact F]. exact T.
  - destruct od as [[d v]|]; [|discriminate]. destruct ad as [names|]; [|discriminate]. destruct (find_reference _ _ _) as [q|x]; [|destruct x; discriminate].
    apply bind_ok in H as (n & N & H). injection H as _ <-. eapply find_name_fine; eauto.
Qed.
Lemma target_fine b n t od ad l o : oat_fine t -> dump_fine ad -> target_lines p b n t od ad = Ok (l, o) -> Forall line_fine l.
Proof.
  intros T A H. unfold target_lines in H. destruct n as [n|].
  - apply bind_ok in H as (s & S & H). apply lookup_fine in S; [|exact B].
    apply (path_part_fine "Target path (from $MFT, likely wrong if the file was deleted later): ") in S.
    assert (l = ln "Target (file number): " [Num n] :: path_part "Target path (from $MFT, likely wrong if the file was deleted later): " s) by congruence. subst l. lines; exact I.
  - apply bind_ok in H as (r & R & H). destruct r as [[ref name]|].
    + apply target_reference_fine in R; [|exact T|exact A]. cbv zeta in H. apply bind_ok in H as (s & S & H). apply lookup_fine in S; [|exact B].
      apply (path_part_fine "Target path (from $MFT): ") in S.
      assert (N : sc (match name with Some s => s | None => txt "-" end)) by (destruct name; [exact R|apply sc_txt]). set (nm := match name with Some s => s | None => txt "-" end) in *. clearbody nm.
      assert (l = [ln "Target (file reference number): " [Num ref]; ln "Target (attribute name): " [Txt nm]] ++ path_part "Target path (from $MFT): " s) by congruence. subst l. lines; exact I.
    + apply bind_ok in H as (k & _ & H). injection H as <- _. lines; exact I.
Qed.
Lemma spread_fine l : Forall cell_fine l -> line_fine (spread l).
Proof.
  induction 1 as [|x t X T IH]; cbn [spread]; [constructor|]. destruct t; [constructor; [exact X|constructor]|]. constructor; [exact X|]. constructor; [apply sc_one; unfold scalar; lia|exact IH].
Qed.
Lemma nums_fine l : Forall cell_fine (map Num l).
Proof. apply Forall_map, Forall_forall. intros. exact I. Qed.
Definition deleted_fine (o : option cell) : Prop := match o with Some c => cell_fine c | None => True end.
Lemma record_block_fine b lsn tid cl t od ad bl o : bytes_ok b -> oat_fine t -> dump_fine ad -> log_record_block p b lsn tid cl t od ad = Ok (bl, o) ->
  block_fine bl /\ deleted_fine o.
Proof.
  intros Bb T A H. unfold log_record_block in H. apply bind_ok in H as (ro & _ & H). apply bind_ok in H as (uo & _ & H).
  apply bind_ok in H as (redo & R & H). apply redo_fine in R; [|exact Bb]. apply bind_ok in H as (undo & U & H). apply undo_fine in U; [|exact Bb].
  apply bind_ok in H as (num & _ & H). apply bind_ok in H as ([tl nm] & TL & H). apply target_fine in TL; [|exact T|exact A]. apply bind_ok in H as (off & _ & H).
  cbv zeta in H. set (head := [ln "LSN: " [Num lsn]; _; _] ++ tl ++ [_]) in *.
  assert (HF : Forall line_fine head).
  { unfold head. lines; try exact I; try apply operation_fine. destruct off; apply ln_fine; lines. }
  clearbody head. destruct (nr_lcns_for_page b) as [lcns|x].
  - apply bind_ok in H as (rd & RD & H). apply hexdump_fine in RD. apply bind_ok in H as (ud & UD & H). apply hexdump_fine in UD.
    apply bind_ok in H as (x1 & X1 & H). apply bind_ok in H as (x2 & X2 & H). apply bind_ok in H as (x3 & X3 & H). apply bind_ok in H as (x4 & X4 & H).
    apply bind_ok in H as (x5 & X5 & H). apply bind_ok in H as (x6 & X6 & H).
    assert (F1 : Forall line_fine x1) by (destruct (ro =? _); [exact (new_record_fine _ _ _ R X1)|injection X1 as <-; constructor]).
    apply lr_attribute_fine in X2; [|exact R|exact U]. apply resident_fine in X3. apply lr_index_fine in X4; [|exact R|exact U]. apply lr_dup_fine in X5. apply lr_usn_fine in X6; [|exact R|exact U].
    assert (LC : Forall line_fine match lcns with [] => [] | _ => [ln "LCN(s): " (spread (map Num lcns))] end).
    { destruct lcns as [|z lcns]; [constructor|]. constructor; [|constructor]. apply ln_fine, spread_fine, nums_fine. }
    set (lc := match lcns with [] => [] | _ => [ln "LCN(s): " (spread (map Num lcns))] end) in *. clearbody lc.
    assert (D : Forall line_fine [ln "Redo data:" []; [Txt rd]; end_part; ln "Undo data:" []; [Txt ud]; end_part]).
    { constructor; [apply ln_fine; constructor|]. constructor; [constructor; [exact RD|constructor]|]. constructor; [apply end_fine|]. constructor; [apply ln_fine; constructor|].
      constructor; [constructor; [exact UD|constructor]|]. constructor; [apply end_fine|constructor]. }
    set (dm := [ln "Redo data:" []; [Txt rd]; end_part; ln "Undo data:" []; [Txt ud]; end_part]) in *. clearbody dm.
    assert (E1 : bl = head ++ (lc ++ dm) ++ x1 ++ x2 ++ x3 ++ x4 ++ x5 ++ x6) by congruence.
    assert (E2 : o = if ro =? DeallocateFileRecordSegment then Some (match num with Some n => Num n | None => Txt (txt "unknown") end) else None) by congruence.
    clear H. subst bl o. split; [unfold block_fine; lines|]. destruct (ro =? DeallocateFileRecordSegment); [|exact I]. destruct num; [exact I|apply sc_txt].
  - destruct x; try discriminate. assert (E1 : bl = head ++ [ln "Warning: truncated page" []]) by congruence. assert (E2 : o = None) by congruence. clear H. subst bl o.
    split; [|exact I]. unfold block_fine. lines.
Qed.
Lemma item_block_fine i bl o : item_fine i -> item_block p i = Ok (bl, o) -> block_fine bl /\ deleted_fine o.
Proof.
  destruct i as [b lsn|b lsn tid cl t od ad]; cbn [item_fine item_block].
  - intros _ H. apply bind_ok in H as (l & L & H). injection H as <- <-. split; [eapply area_fine; eauto|exact I].
  - intros (Bb & T & A). now apply record_block_fine.
Qed.
End Table.

Lemma log_report_fine ord data mft_data : bytes_ok data -> bytes_ok mft_data -> gall block_fine (process_log ord data mft_data).
Proof.
  intros Bd Bm. unfold process_log. apply gall_run. intros lf O. apply gall_run. intros p OP. apply opened_data in OP; [|exact Bm].
  assert (K : lf_ok lf) by (apply (opened_ok data); [exact Bd|]; now apply log_open_iff).
  destruct (parse_ntfs_records lf ord true (start_world data)) as [[is w'] [w'' st]] eqn:P.
  apply parse_fine in P; [|exact K|constructor; [exact Bd|constructor]].
  assert (G : gall (fun r : block * option cell => block_fine (fst r) /\ deleted_fine (snd r)) (grows (fun i => grun (item_block p i) (fun r => ([r], Done))) (is, st))).
  { apply (gall_rows item_fine); [exact P|]. intros i F. apply gall_run. intros [bl o] E. apply gall_one. eapply item_block_fine; [|exact F|exact E]. now rewrite OP. }
  destruct (grows _ _) as [l st']. unfold gall in G |- *. cbn [fst] in G |- *. apply Forall_app. split.
  - apply Forall_map. eapply Forall_impl; [|exact G]. intros x X. apply X.
  - destruct st'; [|constructor]. unfold deleted_block.
    assert (S : Forall cell_fine (somes (map snd l))).
    { clear - G. induction G as [|[bl o] t [_ D] _ IH]; cbn [map somes flat_map snd]; [constructor|]. apply Forall_app. split; [|exact IH]. destruct o; [constructor; [exact D|constructor]|constructor]. }
    destruct (somes (map snd l)) as [|c t]; [constructor|]. constructor; [|constructor]. unfold block_fine. constructor; [apply ln_fine; constructor|]. constructor; [now apply spread_fine|constructor].
Qed.

(** ** Move tables *)
Lemma page_text_fine high b s : Forall (fun c => c < 55296) high -> decode_page high b = Some s -> sc s.
Proof.
  intros F. unfold decode_page. cbv zeta. destruct (forallb _ _) eqn:E; [|discriminate]. intros H. injection H as <-.
  rewrite forallb_forall in E. apply Forall_forall. intros c C. specialize (E c C). apply in_map_iff in C as (x & <- & _). apply Z.leb_le in E.
  unfold scalar. left. split; [exact E|]. unfold in_page in *. destruct (x <? 128) eqn:X; [lia|].
  destruct (nth_in_or_default (Z.to_nat (x - 128)) high (-1)) as [I|D]; [|lia]. rewrite Forall_forall in F. now apply F.
Qed.
Lemma cp866_small : Forall (fun c => c < 55296) cp866_high.
Proof. apply Forall_forall. intros c I. assert (Z : forallb (fun c => c <? 55296) cp866_high = true) by reflexivity. rewrite forallb_forall in Z. specialize (Z c I). lia. Qed.
Lemma cp1252_small : Forall (fun c => c < 55296) cp1252_high.
Proof. apply Forall_forall. intros c I. assert (Z : forallb (fun c => c <? 55296) cp1252_high = true) by reflexivity. rewrite forallb_forall in Z. specialize (Z c I). lia. Qed.
Lemma decode_string_fine b : sc (decode_string b).
Proof.
  unfold decode_string. destruct (decode_page cp866_high b) as [s1|] eqn:E1; [apply page_text_fine in E1; [|apply cp866_small]|];
    (destruct (decode_page cp1252_high b) as [s2|] eqn:E2; [apply page_text_fine in E2; [|apply cp1252_small]|]); auto using sc_txt.
  destruct (zlist_eqb _ _); [exact E1|]. repeat match goal with |- sc (_ ++ _) => apply sc_app end; auto using sc_txt.
Qed.
#[local] Hint Resolve decode_string_fine : texts.
Lemma move_fine data : gall block_fine (move_report data).
Proof.
  unfold move_report. cbv zeta. destruct (mt_header _ _) as [h|]; [|constructor]. destruct (mt_log_entries _ _) as [es st]. apply gall_cons.
  - unfold block_fine, move_header_block, guid_str. lines.
  - induction es as [|e t IH]; cbn [move_blocks]; [constructor|]. destruct (move_entry_block e) as [b|] eqn:E; [|constructor]. apply gall_cons; [|exact IH].
    unfold move_entry_block in E. apply bind_ok in E as ([[t1 t2] t3] & _ & E). apply bind_ok in E as (r & _ & E). injection E as <-. unfold block_fine, guid_str. lines.
Qed.
