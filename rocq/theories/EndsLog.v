(** The report on a log file ends: none of its loops runs out of fuel. *)
From Coq Require Import String.
From Verif Require Import Base BaseLemmas Usa Crc32 Frs FrsSpec FrsProofs FileRecord FileRecordSpec Filetime Attributes Usn Mft MftSpec MftProofs MftPathProofs Properties_Frs Report LogPage LogFile LogSpec LogPageProofs LogFileProofs
  LogClientProofs LogCollectProofs LogRecord LogParse LogRecordProofs LogParseTop LogReport ReportText ReportFiles TextsMft TextsReport TextsLog EndsMft Properties_Log Properties_Report.
Local Open Scope Z_scope.

Lemma unprotect_page_ends b : ends (unprotect b).
Proof. unfold unprotect. plain; apply usa_ends. Qed.
Lemma or_none_ends {A} (x : result A) : ends x -> ends (or_none x).
Proof. intros E. unfold or_none. destruct x as [a|e]; [discriminate|]. destruct (log_exn e); [discriminate|]. intros H. apply E. now injection H as ->. Qed.
Lemma restart_page_ends b : ends (restart_page b).
Proof. unfold restart_page, rp_major, rp_minor, rp_system_size, rp_log_size, rp_offset. apply ends_bind; [apply unprotect_page_ends|]. plain. Qed.
Lemma log_open_ends data : ends (log_open data).
Proof.
  unfold log_open. cbv zeta. destruct (_ || _); [discriminate|]. destruct (_ && _); [discriminate|].
  apply ends_bind; [apply or_none_ends, restart_page_ends|]. intros r1 _. apply ends_bind; [apply or_none_ends, restart_page_ends|]. intros r2 _.
  apply ends_bind; [unfold choose_restart, page_version, page_area, rp_log_size, rp_major, rp_minor, rp_offset, rp_system_size, restart_area, ra_array_offset, ra_clients, ra_free_list, ra_in_use_list; plain|].
  unfold ra_header_length, ra_data_offset, ra_seq_bits. intros [[ps v] area] _. plain.
Qed.

Section Log.
Variable lf : log_file.
Hypothesis K : lf_ok lf.

Lemma page_ends data n : ends (page_by_number lf data n).
Proof.
  unfold page_by_number. apply ends_bind; [unfold read_at; plain|]. intros buf _. destruct (negb _); [discriminate|].
  assert (E : ends (log_record_page buf n (lf_doff lf))) by (unfold log_record_page; apply ends_bind; [apply unprotect_page_ends|plain]).
  destruct (log_record_page _ _ _) as [|e]; [discriminate|]. destruct e; try discriminate. now elim E.
Qed.
Lemma pages_end data n : forall i, gends (pages_loop lf data n i).
Proof.
  induction n as [|n IH]; intros i; cbn [pages_loop]; [discriminate|]. pose proof (page_ends data i) as E.
  destruct (page_by_number lf data i) as [[p|]|e]; [apply gends_cons, IH|apply IH|]. intros H. apply E. now injection H as ->.
Qed.
Lemma write_ends w off b : ends (write_at w off b).
Proof. unfold write_at. plain. Qed.
Lemma tail_ends w : ends (apply_tail_page lf w).
Proof.
  unfold apply_tail_page. destruct (negb _); [discriminate|]. apply ends_bind; [apply page_ends|]. intros p1 _. apply ends_bind; [apply page_ends|]. intros p2 _.
  apply ends_bind; [unfold lp_last_end_lsn; plain|]. intros [p|] _; [|discriminate]. apply ends_bind; [unfold lp_file_offset_11; plain|]. intros; apply write_ends.
Qed.
Lemma fast_ends w : snd (apply_fast_pages lf w) <> Raised OutOfFuel.
Proof.
  unfold apply_fast_pages. destruct (_ <? 2); [discriminate|].
  assert (E : ends (fast_pages lf (w_data w))).
  { unfold fast_pages, wrapped_page. apply ends_bind; [plain|]. intros s _. pose proof (pages_end (w_data w) (Z.to_nat (lf_size lf / lf_psize lf - s)) s) as G. unfold pages_from.
    destruct (pages_loop _ _ _ _) as [ps st]. unfold gends in G. cbn [snd] in G. apply ends_bind.
    - generalize 0. induction ps as [|p ps IH]; intros h; cbn [highest_lsn]; [discriminate|]. apply ends_bind; [unfold lp_last_lsn; plain|]. intros; apply IH.
    - intros h _. destruct st; [|congruence]. apply ends_bind; [|discriminate]. generalize 2. generalize 32%nat. induction n as [|n IH]; intros i; cbn [fast_loop]; [discriminate|].
      apply ends_bind; [apply page_ends|]. intros [p|] _; [|apply IH]. apply ends_bind; [unfold lp_last_lsn; plain|]. intros. apply ends_bind; [apply IH|discriminate]. }
  destruct (fast_pages _ _) as [ps|e]; [|intros H; apply E; now injection H as ->]. clear E. revert w. induction ps as [|p ps IH]; intros w; cbn [write_fast]; [discriminate|].
  assert (E : ends (lp_file_offset_2x p)) by (unfold lp_file_offset_2x; plain). destruct (lp_file_offset_2x p) as [[off|]|e]; [|discriminate|intros H; apply E; now injection H as ->].
  pose proof (write_ends w off (lp_raw p)) as W. destruct (write_at _ _ _) as [w'|e]; [apply IH|intros H; apply W; now injection H as ->].
Qed.
Lemma recover_ends w : snd (recover lf w) <> Raised OutOfFuel.
Proof.
  unfold recover. cbv zeta. destruct (_ && _); [|destruct (_ <=? _); [apply fast_ends|discriminate]].
  pose proof (tail_ends (prepare_for_writes w)) as E. destruct (apply_tail_page _ _); [discriminate|]. intros H. apply E. cbn [snd] in H. now injection H as ->.
Qed.
Lemma client_data_ends data c x : bytes_ok data -> ends (get_client_data lf data c x).
Proof.
  intros B. pose proof (get_client_data_any lf data c x K B) as G. destruct (get_client_data _ _ _ _) as [|e]; [discriminate|]. intros H. injection H as ->. destruct G as [G|G]; discriminate.
Qed.
Lemma sort_ends data l : ends (sort_lsns lf data l).
Proof.
  unfold sort_lsns. apply ends_bind; [|discriminate]. generalize (@nil (Z * list Z)). induction l as [|x l IH]; intros d; cbn [group_lsns]; [discriminate|].
  destruct (lsn_to_offset lf x) as [n off]. apply ends_bind; [apply page_ends|]. intros [p|] _; [|discriminate].
  apply ends_bind; [unfold header_at, record_header; plain|]. intros h _. apply ends_bind; [unfold lh_client_id; plain|]. intros; apply IH.
Qed.
Lemma redo_ends b : ends (nr_redo_data b).
Proof. unfold nr_redo_data, nr_redo_length, nr_redo_offset. plain. Qed.
Lemma undo_ends b : ends (nr_undo_data b).
Proof. unfold nr_undo_data, nr_undo_length, nr_undo_offset. plain. Qed.
Lemma entry_ends v b : ends (entry_reference v b).
Proof. unfold entry_reference. plain. Qed.
Lemma dumps_end c : ends (use_dumps c).
Proof. unfold use_dumps. plain. Qed.
Lemma effect_ends c b s : ends (record_effect c b s).
Proof.
  unfold record_effect. apply ends_bind; [unfold nr_redo_op; plain|]. intros op _. destruct (_ =? _).
  - apply ends_bind; [apply undo_ends|]. intros name _. apply ends_bind; [unfold nr_target; plain|]. intros i _. apply ends_bind; [apply redo_ends|]. intros e _.
    pose proof (entry_ends (cf_oat c) e) as E. destruct (entry_reference _ _) as [r|x]; [discriminate|]. destruct x; try discriminate. now elim E.
  - apply ends_bind; [apply dumps_end|]. intros d _. destruct (_ && _); [apply ends_bind; [apply redo_ends|discriminate]|]. destruct (_ && _); [apply ends_bind; [apply redo_ends|discriminate]|discriminate].
Qed.
Lemma client_loop_ends c data : bytes_ok data -> forall l s, gends (client_loop lf c data l s).
Proof.
  intros B. induction l as [|x l IH]; intros s; cbn [client_loop]; [discriminate|]. pose proof (client_data_ends data (cf_cluster c) x B) as E.
  destruct (get_client_data _ _ _ _) as [cd|e]; [|intros H; apply E; now injection H as ->]. destruct (_ =? _).
  - unfold ntfs_restart_area. destruct (_ <? _); [discriminate|]. apply gends_cons, IH.
  - destruct (_ =? _); [|apply IH]. set (r := bind _ _). assert (R : ends r).
    { unfold r. apply ends_bind; [unfold log_record; plain|]. intros b _. apply ends_bind; [apply effect_ends|]. intros s' _. apply ends_bind; [|discriminate].
      unfold record_item. apply ends_bind; [apply dumps_end|]. plain. }
    destruct r as [[i s']|e]; [apply gends_cons, IH|intros H; apply R; now injection H as ->].
Qed.
Lemma clients_parse_ends c data d : bytes_ok data -> gends (clients_parse lf c data d).
Proof.
  intros B. induction d as [|[k l] d IH]; cbn [clients_parse]; [discriminate|]. pose proof (client_loop_ends c data B l loop_start) as E.
  destruct (client_loop _ _ _ _ _) as [is [|e]]; [apply gends_app, IH|exact E].
Qed.
Lemma parse_ends ord data : bytes_ok data -> pages_kept lf -> gends (let '(is, _, (_, st)) := parse_ntfs_records lf ord true (start_world data) in (is, st)).
Proof.
  intros B P. unfold parse_ntfs_records. pose proof (recover_ends (start_world data)) as R.
  assert (F : files_ok (start_world data)) by (constructor; [exact B|constructor]). apply (files_recover lf K) in F.
  destruct (recover lf (start_world data)) as [w1 [|e]]; [|exact R]. cbn [fst] in F. clear R. apply files_data in F.
  pose proof (collect_any lf (w_data w1) ord (w_cfg w1) K F P) as C.
  destruct (collect_lsns _ _ _ _) as [[lsns c]|e]; [|intros H; cbn in H; injection H as ->; destruct C as [H|[H|[H|[H|H]]]]; discriminate].
  cbv zeta. change (w_data (set_config w1 c)) with (w_data w1). pose proof (sort_ends (w_data w1) lsns) as S.
  destruct (sort_lsns _ _ _) as [d|e]; [|intros H; apply S; now injection H as ->]. pose proof (clients_parse_ends c (w_data w1) d F) as E.
  destruct (clients_parse _ _ _ _) as [is [|e]]; [discriminate|exact E].
Qed.
End Log.

(** ** The blocks *)
Lemma dump_ends b : bytes_ok b -> ends (hexdump b).
Proof. intros B. destruct (list_eq_dec Z.eq_dec b []) as [->|N]; [discriminate|]. destruct (C74_dump b B N) as (s & -> & _). discriminate. Qed.
Lemma area_ends b lsn : ends (area_block b lsn).
Proof. unfold area_block. plain. Qed.
Lemma times_end m a c e : ends m -> ends a -> ends c -> ends e -> ends (times_of m a c e).
Proof. intros M A C E. unfold times_of. do 4 (apply ends_bind; [assumption|intros]). discriminate. Qed.
Lemma si_lines_end v : ends (si_lines v).
Proof.
  unfold si_lines, si_mtime, si_atime, si_ctime, si_etime, si_file_attributes. apply ends_bind; [apply times_end; plain|]. plain.
Qed.
Lemma oid_lines_end v : ends (oid_lines v).
Proof. unfold oid_lines, oid_timestamp. plain. Qed.

Section Table.
Variable data : list Z.
Variable p : mft.
Hypothesis B : bytes_ok data.
Hypothesis FI : fits data.
Hypothesis HP : mft_open data true = Ok p.

Lemma look n q : ends (lookup_path p n q).
Proof. exact (lookup_ends data p B FI HP n q). Qed.
Lemma parent_lines_end v : ends (parent_lines p v).
Proof. unfold parent_lines. apply ends_bind; [unfold fna_parent; plain|]. intros. apply ends_bind; [apply look|discriminate]. Qed.
Lemma fn_times_end v : ends (times_of (fna_mtime v) (fna_atime v) (fna_ctime v) (fna_etime v)).
Proof. apply times_end; unfold fna_mtime, fna_atime, fna_ctime, fna_etime; plain. Qed.
Lemma fn_lines_end v : ends (fn_lines p v).
Proof.
  unfold fn_lines. apply ends_bind; [apply fn_times_end|]. intros. apply ends_bind; [apply name_ends|]. intros. apply ends_bind; [apply parent_lines_end|discriminate].
Qed.
Lemma value_lines_end ty v : ends (value_lines p ty v).
Proof. unfold value_lines. destruct (_ =? _); [apply si_lines_end|]. destruct (_ =? _); [apply fn_lines_end|]. destruct (_ =? _); [apply oid_lines_end|discriminate]. Qed.
Lemma new_record_ends b redo : bytes_ok redo -> ends (lr_new_record p b redo).
Proof.
  intros R. unfold lr_new_record. apply ends_bind; [unfold lr_frs_size, nr_block_size; plain|]. intros size _. cbv zeta. set (buf := redo ++ _).
  assert (Bb : bytes_ok buf) by (apply bytes_ok_app; split; [exact R|apply bytes_ok_zeros]).
  destruct (frs_open buf false None) as [f|e] eqn:O.
  - assert (E : gends (frs_gen f)) by (apply frs_gen_ends; exists buf, false, None; auto).
    unfold frs_gen, gends in E. cbn [snd] in E. cbv zeta. clear O. induction (ar_items (frs_attributes f)) as [|a l IH]; cbn [init_lines].
    + destruct (ar_status _) as [|e]; [discriminate|]. destruct (is_mft_exn e); [discriminate|congruence].
    + apply ends_bind; [|intros; apply ends_bind; [exact IH|discriminate]]. destruct a as [ty nm v|]; cbn [init_attr_lines]; [|discriminate]. destruct (_ =? _); [discriminate|apply value_lines_end].
  - pose proof (C05_only_file_record_exceptions buf false None e Bb O) as [->| ->]; discriminate.
Qed.
Lemma lr_attribute_ends r u redo undo : ends (lr_attribute p r u redo undo).
Proof.
  unfold lr_attribute. destruct (_ || _); [|discriminate]. cbv zeta. generalize (if r =? CreateAttribute then redo else if u =? CreateAttribute then undo else if zlen undo <? zlen redo then redo else undo).
  intros buf. destruct (_ <=? _); [|discriminate]. do 3 (apply ends_bind; [plain|intros]).
  destruct (_ && _); [|discriminate]. destruct (_ =? _); [apply value_lines_end|discriminate].
Qed.
Lemma partial_ends t b o : ends (partial_si t b o).
Proof.
  unfold partial_si, sip_mtime, sip_atime, sip_ctime, sip_etime. destruct (_ <=? _); [|discriminate]. cbv zeta. apply ends_bind; [apply times_end; plain|discriminate].
Qed.
Lemma resident_ends b o r u redo undo : ends (lr_resident b o r u redo undo).
Proof.
  unfold lr_resident. destruct o; [|discriminate]. destruct (_ || _); [|discriminate]. apply ends_bind; [unfold lr_frs_size, nr_block_size; plain|]. intros size _.
  destruct (_ || _); [|discriminate]. cbv zeta. destruct (_ && _); [|discriminate]. apply ends_bind; [apply partial_ends|]. intros. apply ends_bind; [apply partial_ends|discriminate].
Qed.
Lemma lr_index_ends r u redo undo : ends (lr_index p r u redo undo).
Proof.
  unfold lr_index. cbv zeta. destruct (_ || _); [|discriminate]. apply ends_bind; [apply attribute_ends|]. intros [v|] _; [|discriminate]. destruct (_ <? _); [|discriminate].
  apply ends_bind; [apply fn_times_end|]. intros. apply ends_bind; [apply name_ends|]. intros. apply ends_bind; [apply parent_lines_end|discriminate].
Qed.
Lemma lr_dup_ends r u redo undo : ends (lr_dup r u redo undo).
Proof.
  assert (D : forall t v, ends (dup_lines t v)) by (intros t v; unfold dup_lines; destruct (_ =? _); [|discriminate]; apply ends_bind; [apply times_end; plain|discriminate]).
  unfold lr_dup. cbv zeta. apply ends_bind; [destruct (zin _ _); [apply D|discriminate]|]. intros x _. apply ends_bind; [destruct (zin _ _); [apply D|discriminate]|discriminate].
Qed.
Lemma usn_lines_end v : ends (usn_lines v).
Proof.
  unfold usn_lines. assert (E : ends (get_usn_record v)) by (unfold get_usn_record, usn_v23_open, usn_v4_open, ur_check, ur_record_length, ur_major; plain).
  destruct (get_usn_record v) as [r|e]; [|destruct e; try discriminate; now elim E]. clear E.
  unfold ur_usn, ur_source, ur_reason, ur_file_reference, ur_parent_reference, ur_timestamp, ur_file_name, ur_name_offset, ur_name_length, wide_ref. plain.
Qed.
Lemma lr_usn_ends n r u redo undo : ends (lr_usn n r u redo undo).
Proof.
  unfold lr_usn. destruct n; [|discriminate]. destruct (zlist_eqb _ _); [|discriminate].
  apply ends_bind; [destruct (_ =? _); [apply usn_lines_end|discriminate]|]. intros x _. apply ends_bind; [destruct (_ =? _); [apply usn_lines_end|discriminate]|discriminate].
Qed.
Lemma target_ends b n t od ad : dump_fine ad -> ends (target_lines p b n t od ad).
Proof.
  intros A. unfold target_lines. destruct n as [n|]; [apply ends_bind; [apply look|discriminate]|]. apply ends_bind.
  - unfold target_reference. apply ends_bind; [unfold nr_op_in, nr_redo_op, nr_undo_op; plain|]. intros y _. destruct y; [|discriminate]. apply ends_bind; [unfold nr_target; plain|]. intros i _.
    destruct (oat_get t i) as [[r nm]|]; [discriminate|]. destruct od as [[d v]|]; [|discriminate]. destruct ad as [names|]; [|discriminate].
    assert (E : ends (find_reference d v i)) by (unfold find_reference; destruct (_ <=? _); [discriminate|apply entry_ends]).
    destruct (find_reference d v i) as [r|e]; [|destruct e; try discriminate; now elim E]. apply ends_bind; [|discriminate].
    intros H. apply find_name_iff in H; [|exact A]. destruct H as [(x & H & _)|[H _]]; discriminate.
  - intros [[ref nm]|] _; [cbv zeta; apply ends_bind; [apply look|discriminate]|]. apply ends_bind; [unfold nr_target; plain|discriminate].
Qed.
Lemma block_ends b lsn tid cl t od ad : bytes_ok b -> dump_fine ad -> ends (log_record_block p b lsn tid cl t od ad).
Proof.
  intros Bb A. unfold log_record_block. apply ends_bind; [unfold nr_redo_op; plain|]. intros ro _. apply ends_bind; [unfold nr_undo_op; plain|]. intros uo _.
  apply ends_bind; [apply redo_ends|]. intros redo R. apply redo_fine in R; [|exact Bb]. apply ends_bind; [apply undo_ends|]. intros undo U. apply undo_fine in U; [|exact Bb].
  apply ends_bind; [unfold mft_target_number, nr_op_in, nr_redo_op, nr_undo_op, nr_vcn, nr_block, nr_block_size; plain|]. intros num _.
  apply ends_bind; [now apply target_ends|]. intros [tl nm] _.
  apply ends_bind; [unfold offset_in_target, nr_op_in, nr_redo_op, nr_undo_op, nr_vcn, nr_block, nr_attr_offset, nr_record_offset; plain|]. intros off _. cbv zeta.
  assert (L : ends (nr_lcns_for_page b)).
  { unfold nr_lcns_for_page, nr_lcns. apply ends_bind; [plain|]. intros n _. generalize 0. induction (Z.to_nat n) as [|k IH]; intros i; cbn [lcns_loop]; [discriminate|].
    cbv zeta. destruct (negb _); [discriminate|]. apply ends_bind; [plain|]. intros. apply ends_bind; [apply IH|discriminate]. }
  destruct (nr_lcns_for_page b) as [lcns|e]; [|destruct e; try discriminate; now elim L]. clear L.
  apply ends_bind; [now apply dump_ends|]. intros rd _. apply ends_bind; [now apply dump_ends|]. intros ud _.
  apply ends_bind; [destruct (_ =? _); [now apply new_record_ends|discriminate]|]. intros. apply ends_bind; [apply lr_attribute_ends|]. intros. apply ends_bind; [apply resident_ends|]. intros.
  apply ends_bind; [apply lr_index_ends|]. intros. apply ends_bind; [apply lr_dup_ends|]. intros. apply ends_bind; [apply lr_usn_ends|discriminate].
Qed.
End Table.

Lemma log_ends ord data mft_data : bytes_ok data -> bytes_ok mft_data -> fits mft_data -> gends (process_log ord data mft_data).
Proof.
  intros B Bm FI. unfold process_log. apply gends_run; [apply log_open_ends|]. intros lf O. apply gends_run; [now apply mft_open_ends|]. intros p OP.
  assert (K : lf_ok lf) by (apply (opened_ok data); [exact B|]; now apply log_open_iff).
  assert (PK : pages_kept lf) by (eapply opened_kept; [exact B|]; now apply log_open_iff).
  pose proof (parse_ends lf K ord data B PK) as E.
  destruct (parse_ntfs_records lf ord true (start_world data)) as [[is w'] [w'' st]] eqn:P.
  apply parse_fine in P; [|exact K|constructor; [exact B|constructor]].
  assert (G : gends (grows (fun i => grun (item_block p i) (fun r => ([r], Done))) (is, st))).
  { apply (gends_rows item_fine); [exact E|exact P|]. intros i F. apply gends_run; [|discriminate]. destruct i as [b lsn|b lsn tid cl t od ad]; cbn [item_fine item_block] in *.
    - apply ends_bind; [apply area_ends|discriminate].
    - destruct F as (Bb & _ & A). apply (block_ends mft_data); auto. }
  destruct (grows _ _) as [l st']. exact G.
Qed.
