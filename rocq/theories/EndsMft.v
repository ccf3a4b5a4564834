(** No report on metadata files runs out of fuel: every loop that they use ends. *)
From Coq Require Import String.
From Verif Require Import Base BaseLemmas MappingPairs Frs FrsSpec FrsProofs FileRecord FileRecordSpec FileRecordProofs FileObject FragmentedFile Filetime Attributes IndexProofs
  Usa Carve Wsl Usn UsnSpec UsnProofs Mft MftSpec MftProofs MftPathProofs Properties_Mft Properties_Attributes Properties_Usn Properties_Frs Properties_Carve Properties_FileRecord Report
  ReportSound LogReport ReportText ReportFiles TextsMft TextsReport.
Local Open Scope Z_scope.

Definition ends {A} (r : result A) : Prop := r <> Err OutOfFuel.
Definition gends {A} (g : gen A) : Prop := snd g <> Raised OutOfFuel.

Lemma ends_ok {A} (x : A) : ends (Ok x).
Proof. discriminate. Qed.
Lemma ends_bind {A B} (r : result A) (k : A -> result B) : ends r -> (forall x, r = Ok x -> ends (k x)) -> ends (bind r k).
Proof. intros R K. destruct r; cbn [bind]; [auto|]. intro E. apply R. now injection E as ->. Qed.
Lemma gends_done {A} (l : list A) : gends (l, Done).
Proof. discriminate. Qed.
Lemma gends_cons {A} (a : A) g : gends g -> gends (gcons a g).
Proof. auto. Qed.
Lemma gends_app {A} (l : list A) g : gends g -> gends (gapp l g).
Proof. auto. Qed.
Lemma gends_run {A B} (r : result A) (k : A -> gen B) : ends r -> (forall x, r = Ok x -> gends (k x)) -> gends (grun r k).
Proof. intros R K. destruct r; cbn [grun]; [auto|]. intro E. apply R. now injection E as ->. Qed.
Lemma gends_seq {B} (g h : gen B) : gends g -> gends h -> gends (gseq g h).
Proof. intros G H. destruct g as [r [|e]]; [apply gends_app; auto|exact G]. Qed.
Lemma gends_rows {A B} (Q : A -> Prop) (f : A -> gen B) g : gends g -> gall Q g -> (forall a, Q a -> gends (f a)) -> gends (grows f g).
Proof.
  intros G L F. unfold grows, gends, gall in *. destruct g as [l st]. cbn [fst snd] in *.
  induction L as [|a l H _ IH]; cbn [grows_in]; [exact G|].
  specialize (F a H). destruct (f a) as [r [|e]]; [|exact F]. destruct (grows_in f l st) as [r' st']. exact IH.
Qed.
Lemma gends_map {A B} (f : A -> B) g : gends g -> gends (gmap f g).
Proof. auto. Qed.
Lemma gall_any {A} (g : gen A) : gall (fun _ => True) g.
Proof. apply Forall_forall. auto. Qed.

Lemma ends_unp w b off : ends (unp w b off).
Proof. unfold unp. destruct (_ =? _); discriminate. Qed.
Lemma ends_time e n b : ends (decode_time e n b).
Proof. unfold decode_time. destruct (_ <? _); [discriminate|]. destruct b; discriminate. Qed.

Ltac plain := repeat (cbv zeta beta; match goal with
  | |- forall _, _ => intro
  | |- ends (Ok _) => apply ends_ok
  | |- ends (Err _) => discriminate
  | |- ends (bind _ _) => apply ends_bind; [|intros]
  | |- ends (unp _ _ _) => apply ends_unp
  | |- ends (u8 _ _) => apply ends_unp
  | |- ends (u16 _ _) => apply ends_unp
  | |- ends (u32 _ _) => apply ends_unp
  | |- ends (u64 _ _) => apply ends_unp
  | |- ends (unp_s _ _ _) => unfold unp_s
  | |- ends (decode_time _ _ _) => apply ends_time
  | |- ends (decode_filetime _ _) => apply ends_time
  | |- ends (decode_guid_time _ _) => apply ends_time
  | |- ends (time_at _ _) => unfold time_at
  | |- ends (if ?c then _ else _) => destruct c
  | |- ends (match ?c with _ => _ end) => destruct c
  end).

(** ** Attributes *)
Lemma exn_attr_ends e : exn_attr e -> e <> OutOfFuel.
Proof. unfold exn_attr. intuition congruence. Qed.
Lemma attributes_end fr : opened_record fr -> gends (fr_attributes fr).
Proof.
  intros O E. destruct (fr_attributes fr) as [items st] eqn:F. cbn [snd] in E. subst st.
  apply (exn_attr_ends _ (fr_attributes_exn fr items _ O F)). reflexivity.
Qed.
Lemma merged_end fr : opened_record fr -> gends (fr_attributes_merged fr).
Proof.
  intros O. pose proof (attributes_end fr O) as A. destruct (fr_attributes fr) as [items [|e]] eqn:F.
  - destruct (C08_merge fr items O F) as (ms & -> & _). discriminate.
  - now rewrite (C08_merge_error fr items e F).
Qed.
Lemma gconcat_ends {A} (l : list (gen A)) : Forall gends l -> gends (gconcat l).
Proof.
  induction 1 as [|g l G _ IH]; cbn [gconcat]; [discriminate|]. destruct g as [r [|e]]; [|exact G]. apply gends_app. exact IH.
Qed.
Lemma frs_gen_ends f : opened f -> gends (frs_gen f).
Proof.
  intros O. pose proof (attributes_end (mk_fr f []) (conj O (Forall_nil _))) as E.
  unfold fr_attributes in E. cbn [map fr_base fr_children gconcat] in E. destruct (frs_gen f) as [l [|e]]; [discriminate|exact E].
Qed.
Lemma slack_ends fr : opened_record fr -> gends (fr_slack fr).
Proof.
  intros [O C]. assert (G : forall f, opened f -> gends (slack_gen f)).
  { intros f Of. pose proof (frs_gen_ends f Of) as E. unfold slack_gen, frs_slack, frs_gen, gends in *. cbv zeta in *. cbn [snd] in E.
    destruct (ar_status _); [destruct (ar_real_size _); discriminate|exact E]. }
  apply gconcat_ends. constructor; [auto|]. apply Forall_map. eapply Forall_impl; [|exact C]. auto.
Qed.
Lemma first_in_ends {C} (Q : attr -> Prop) (f : attr -> result (option C)) g : gall Q g -> gends g -> (forall a, Q a -> ends (f a)) -> ends (gfirst f g).
Proof.
  intros L G F. unfold gfirst. destruct g as [l st]. unfold gall, gends in *. cbn [fst snd] in *.
  induction L as [|a l H _ IH]; cbn [first_in]; [destruct st; [discriminate|congruence]|].
  apply ends_bind; [auto|]. intros [c|] _; [discriminate|exact IH].
Qed.
Lemma value_ends ty a : ends (value_of_type ty a).
Proof. destruct a; cbn [value_of_type]; plain. Qed.

(** ** The rows *)
Lemma ea_ends v : bytes_ok v -> gends (ea_data v).
Proof. intros B. destruct (C22_total v B) as (l & ->). discriminate. Qed.
Lemma lxb_time_ends v a b : ends (lxb_time v a b).
Proof. unfold lxb_time, decode_unixtime. plain. Qed.
Lemma wsl_ends l st w : st <> Raised OutOfFuel -> ends (wsl_in l st w).
Proof.
  intros S. revert w. induction l as [|[[n f] v] l IH]; intros w; cbn [wsl_in]; [destruct st; [discriminate|congruence]|].
  destruct (zlist_eqb _ _); [|apply IH]. destruct (lxb_open v) as [b|e] eqn:O.
  - unfold lxb_atime, lxb_mtime, lxb_chtime. do 3 (apply ends_bind; [apply lxb_time_ends|intros]). apply IH.
  - assert (K : ends (lxb_open v)) by (unfold lxb_open; plain). rewrite O in K. destruct e; try discriminate; [apply IH|now elim K].
Qed.
Lemma facts_ends fr : opened_record fr -> ends (facts_of (fr_attributes fr)).
Proof.
  intros O. pose proof (attributes_end fr O) as G. pose proof (attributes_fine fr O) as F. unfold facts_of. revert G F.
  generalize (mk_facts None None [] None None). destruct (fr_attributes fr) as [l st]. unfold gends, gall. cbn [fst snd]. intros s G F. revert s.
  induction F as [|a l H _ IH]; intros s; cbn [facts_in]; [destruct st; [discriminate|congruence]|].
  apply ends_bind; [|intros s' _; apply IH]. destruct a as [ty n v|]; cbn [facts_step]; [|plain].
  destruct H as [_ B]. pose proof (ea_ends v B) as E. destruct (ea_data v) as [le ste]. unfold gends in E. cbn [snd] in E.
  destruct (_ =? _); [discriminate|]. cbv zeta. apply ends_bind; [unfold oid_timestamp; plain|]. intros oid _. apply ends_bind; [|plain].
  destruct (fa_wsl s); [plain|]. destruct (_ =? _); [now apply wsl_ends|plain].
Qed.
Lemma si_ends si : ends (si_cells si).
Proof. unfold si_cells, si_mtime, si_atime, si_ctime, si_etime, si_usn, opt_at. plain. Qed.
Lemma fn_ends v : ends (fn_cells v).
Proof. unfold fn_cells, fna_mtime, fna_atime, fna_ctime, fna_etime. plain. Qed.
Lemma name_ends v : ends (fna_name v).
Proof. unfold fna_name, fna_name_length. plain. Qed.
Lemma record_rows_end tag fr paths : opened_record fr -> gends (record_rows tag fr paths).
Proof.
  intros O. unfold record_rows. apply gends_run; [now apply facts_ends|]. intros fa _. apply gends_run; [apply si_ends|]. intros si _.
  apply gends_run; [unfold fr_reference; plain|]. intros ref _. cbv zeta. destruct paths as [|x paths]; [discriminate|].
  apply (gends_rows (fun _ => True)); [discriminate|apply gall_any|]. intros a _. apply gends_run; [apply fn_ends|]. intros; discriminate.
Qed.
Lemma name_row_ends src ref path v : ends path -> ends (name_row src ref path v).
Proof.
  intros P. unfold name_row, fn_directory, fna_file_attributes, fna_file_size. apply ends_bind; [exact P|]. intros. apply ends_bind; [plain|]. intros.
  apply ends_bind; [apply fn_ends|]. plain.
Qed.
Lemma attribute_ends e : ends (ie_attribute e).
Proof. unfold ie_attribute, ie_attribute_length, ie_flags. plain. Qed.
Lemma reference_ends e : ends (ie_reference e).
Proof. unfold ie_reference. plain. Qed.
Lemma entries_end hb stop v : 0 <= hb -> bytes_ok v -> gends (index_entries_at hb stop v).
Proof.
  intros H B. destruct (C21_entries hb stop v H B) as [C1 C2]. destruct (Z.lt_ge_cases (zlen v) (hb + 8)) as [L|L]; [now rewrite C2|].
  destruct (C1 L) as (ps & st & W & ->). destruct (C21_positions _ _ _ _ _ _ W) as (_ & _ & [->| ->]); discriminate.
Qed.
Lemma root_entry_ends tag paths e : gends (root_entry_rows tag paths e).
Proof.
  unfold root_entry_rows. apply gends_run; [apply attribute_ends|]. intros [v|] _; [|discriminate]. apply gends_run; [|discriminate].
  apply ends_bind; [apply name_ends|]. intros. apply ends_bind; [apply reference_ends|]. intros. apply name_row_ends. discriminate.
Qed.
Lemma name_index_ends fr : opened_record fr -> ends (name_index fr).
Proof.
  intros O. unfold name_index. apply (first_in_ends (fun _ => True)); [apply gall_any|now apply attributes_end|]. intros a _.
  apply ends_bind; [apply value_ends|]. intros [v|] _; [|discriminate]. unfold ir_type_code. plain.
Qed.
Lemma name_index_bytes fr v : opened_record fr -> name_index fr = Ok (Some v) -> bytes_ok v.
Proof.
  intros O. unfold name_index. apply (first_in_fine _ bytes_ok); [now apply attributes_fine|].
  intros a c F E. destruct a as [ty n w|]; cbn [value_of_type] in E; [|discriminate E].
  destruct (ty =? ATTR_TYPE_INDEX_ALLOCATION); [discriminate|]. cbn [bind] in E. destruct (ty =? ATTR_TYPE_INDEX_ROOT); [|discriminate].
  apply bind_ok in E as (k & _ & E). destruct (_ =? _); [|discriminate]. injection E as <-. apply F.
Qed.
Lemma index_rows_end tag fr paths : opened_record fr -> gends (index_rows tag fr paths).
Proof.
  intros O. unfold index_rows. destruct (fr_directory fr); [|discriminate]. apply gends_run; [now apply name_index_ends|]. intros [v|] E; [|discriminate].
  apply (gends_rows (fun _ => True)); [|apply gall_any|intros; apply root_entry_ends]. apply entries_end; [lia|]. eapply name_index_bytes; eauto.
Qed.

Section Table.
Variable data : list Z.
Variable p : mft.
Hypothesis B : bytes_ok data.
Hypothesis FI : fits data.
Hypothesis HP : mft_open data true = Ok p.

Lemma number_ends n seq allow : ends (by_number p n seq allow).
Proof.
  destruct (Z.lt_ge_cases n 0) as [N|N].
  { unfold by_number, frs_by_number. cbv zeta. destruct (_ <? _); [discriminate|]. destruct (mft_open_spec _ _ _ B HP) as [(_ & S & _ & -> & _) _]. assert (0 < fld 4 data 28) by (destruct S; lia). unfold read_at.
    replace (_ <? 0) with true by nia. discriminate. }
  intros E. destruct (C12_lookup_error data true p n seq allow _ B FI HP N E) as [H|[H|[H|[H|H]]]]; discriminate.
Qed.
Lemma paths_end fr : opened_record fr -> ends (build_full_paths p fr).
Proof.
  intros O E. destruct (mft_open_spec _ _ _ B HP) as [P _]. pose proof (build_full_paths_spec _ _ _ _ _ FI P O) as K. rewrite E in K.
  destruct K as [[K|[K|[K|K]]] _]; [discriminate..|]. exact (exn_attr_ends _ K eq_refl).
Qed.
Lemma lookup_ends n q : ends (lookup_path p n q).
Proof.
  unfold lookup_path.
  set (r := bind _ _). assert (E : ends r).
  { apply ends_bind; [apply number_ends|]. intros fr E. apply paths_end. apply record_opened in E; [exact E|]. now rewrite (opened_data data true p B HP). }
  destruct r as [|e]; [discriminate|]. destruct (is_mft_exn e); [discriminate|]. intros H. apply E. now injection H as ->.
Qed.
Lemma slack_item_ends tag item : gends (slack_item_rows p tag item).
Proof.
  unfold slack_item_rows. cbv zeta. destruct item as [v|n]; [|discriminate]. apply gends_run; [|discriminate]. apply name_row_ends.
  unfold fna_parent. apply ends_bind; [plain|]. intros. apply ends_bind; [apply lookup_ends|]. intros. apply ends_bind; [apply name_ends|discriminate].
Qed.
Lemma carve_ends l y : gends (carve l y).
Proof. destruct (C52_carve l y) as (ls & -> & _). discriminate. Qed.
Lemma slack_rows_end tag fr : opened_record fr -> gends (slack_rows p tag fr).
Proof.
  intros O. unfold slack_rows. apply (gends_rows (fun _ => True)); [now apply slack_ends|apply gall_any|]. intros s _.
  apply (gends_rows (fun _ => True)); [apply carve_ends|apply gall_any|]. intros; apply slack_item_ends.
Qed.
Lemma record_ends tag fr : opened_record fr -> gends (mft_record_rows p tag fr).
Proof.
  intros O. unfold mft_record_rows. pose proof (paths_end fr O) as E. destruct (build_full_paths p fr) as [paths|e].
  - apply gends_seq; [now apply record_rows_end|]. apply gends_seq; [now apply index_rows_end|now apply slack_rows_end].
  - destruct (is_mft_exn e); [discriminate|]. intros H. apply E. now injection H as ->.
Qed.
Lemma records_end u : gends (file_records p u).
Proof. destruct (C11_file_records data true p u B FI HP) as (items & ks & -> & _). discriminate. Qed.
Lemma records_opened' u : gall opened_record (file_records p u).
Proof. apply records_opened. now rewrite (opened_data data true p B HP). Qed.

Lemma usn_row_ends r : ends (usn_row_of p r).
Proof.
  unfold usn_row_of, usn_path, ur_usn, ur_source, ur_reason, ur_file_reference, ur_parent_reference, ur_timestamp, ur_file_name, ur_name_offset, ur_name_length, wide_ref.
  do 5 (apply ends_bind; [plain|intros]). apply ends_bind; [plain|]. intros []. intros _. apply ends_bind; [|plain].
  apply ends_bind; [apply lookup_ends|plain].
Qed.
End Table.

Lemma mft_open_ends data b : bytes_ok data -> ends (mft_open data b).
Proof.
  intros B. unfold mft_open. destruct (negb _); [discriminate|]. destruct (negb _); [discriminate|]. cbv zeta.
  destruct (zin _ _) eqn:Es; [|discriminate]. cbn [negb]. apply frs_sizes_ok in Es. assert (Hs : 0 < fld 4 data 28) by (destruct Es; lia).
  apply ends_bind.
  - unfold check_version. apply ends_bind.
    + unfold frs_by_number. cbv zeta. cbn [m_data m_frs_size]. destruct (_ <? _); [discriminate|]. apply ends_bind; [unfold read_at; plain|]. intros buf R E.
      apply C05_only_file_record_exceptions in E; [destruct E as [E|E]; discriminate|]. unfold read_at in R. destruct (_ <? _); [discriminate|]. injection R as <-. now apply bytes_ok_slice.
    + intros f F. apply ends_bind; [|plain]. apply (first_in_ends (fun _ => True)); [apply gall_any| |].
      * apply frs_gen_ends. eapply by_number_opened; [|exact F]. exact B.
      * intros a _. apply ends_bind; [apply value_ends|plain].
  - intros u _. destruct b; [|discriminate]. unfold first_pass. cbn [m_data m_frs_size m_cache].
    replace 0 with (0 * fld 4 data 28) at 1 by lia.
    rewrite (first_pass_loop_spec data (fld 4 data 28) (Z.to_nat (zlen data / fld 4 data 28 - 0)) B Hs
               (S (length data)) 0); [discriminate|lia|reflexivity|apply fuel_enough; auto].
Qed.

(** ** Fragmented files *)
Lemma seek_read_ends l a n : ends (seek_read l a n).
Proof. unfold seek_read, read_at. plain. Qed.
Lemma cluster_ends vol voff cs vcn runs k : ends (read_cluster_loop vol voff cs vcn runs k).
Proof.
  revert k. induction runs as [|[o n] runs IH]; intros k; cbn [read_cluster_loop]; [discriminate|]. destruct (_ <=? _); [apply IH|].
  destruct o; [|discriminate]. apply ends_bind; [apply seek_read_ends|plain].
Qed.
Lemma cluster_len vol voff cs vcn runs k c : 0 < cs -> read_cluster_loop vol voff cs vcn runs k = Ok c -> zlen c = cs.
Proof.
  intros C. revert k. induction runs as [|[o n] runs IH]; intros k; cbn [read_cluster_loop]; [discriminate|]. destruct (_ <=? _); [apply IH|].
  destruct o; [|intros E; injection E as <-; apply zlen_zeros; lia]. intros E. apply bind_ok in E as (d & _ & E). destruct (_ =? 0); [discriminate|].
  destruct (Z.eqb_spec (zlen d) cs); cbn [negb] in E; [congruence|discriminate].
Qed.
Lemma piece_ends f pos want : ends (read_piece f pos want).
Proof. unfold read_piece. destruct (_ =? _); [discriminate|]. apply ends_bind; [apply cluster_ends|plain]. Qed.
Lemma piece_some f pos want d : 0 < ff_csize f -> 0 < want -> 0 <= pos -> read_piece f pos want = Ok d -> 0 < zlen d.
Proof.
  intros C W P H. unfold read_piece in H. destruct (_ =? _); [discriminate|]. apply bind_ok in H as (c & R & H). injection H as <-.
  apply cluster_len in R; [|exact C]. pose proof (Z.mod_pos_bound pos (ff_csize f) C). rewrite zlen_slice by lia. lia.
Qed.
Lemma read_loop_ends fuel : forall f pos size data, 0 < ff_csize f -> 0 <= pos -> Z.max 0 (Z.min (size - zlen data) (ff_size f - pos)) < Z.of_nat fuel ->
  ends (fst (read_loop fuel f pos size data)).
Proof.
  induction fuel as [|n IH]; intros f pos size data C P L; [lia|]. cbn [read_loop]. cbv zeta.
  destruct (Z.ltb_spec 0 (size - zlen data)) as [W|W]; [|discriminate]. destruct (Z.leb_spec (ff_size f) pos) as [K|K]; [discriminate|].
  pose proof (piece_ends f pos (size - zlen data)) as E. destruct (read_piece f pos (size - zlen data)) as [d|e] eqn:R; [|exact E].
  pose proof (piece_some _ _ _ _ C W P R). apply IH; [exact C|lia|]. rewrite zlen_app. lia.
Qed.
Lemma read_ends f n : 0 < ff_csize f -> 0 <= ff_pos f -> ends (fst (ff_read f n)).
Proof.
  intros C P. unfold ff_read. cbv zeta. set (size := match n with None => _ | Some s => _ end). destruct (Z.leb_spec size 0) as [S|S]; [discriminate|].
  destruct (Z.leb_spec (ff_size f) (ff_pos f)); [discriminate|]. cbn [orb].
  pose proof (piece_ends f (ff_pos f) size) as E. destruct (read_piece f (ff_pos f) size) as [d|e] eqn:R; [|exact E].
  pose proof (piece_some _ _ _ _ C S P R) as D. pose proof (read_loop_ends (Datatypes.S (Z.to_nat (Z.min size (ff_size f)))) f (ff_pos f + zlen d) size d C ltac:(lia) ltac:(lia)) as L.
  destruct (read_loop _ f (ff_pos f + zlen d) size d) as [r q]. exact L.
Qed.
Lemma pread_ends f off n : 0 < ff_csize f -> 0 <= off -> ends (ff_pread f off n).
Proof. intros C P. unfold ff_pread. now apply read_ends. Qed.
Lemma usa_loop_ends fuel : forall n off size out i, Z.max 0 (size - i) < Z.of_nat fuel -> ends (usa_loop fuel n off size out i).
Proof.
  induction fuel as [|m IH]; intros n off size out i L; [lia|]. cbn [usa_loop]. destruct (Z.ltb_spec i size); [|discriminate]. cbv zeta.
  destruct (negb _); [discriminate|]. unfold index. apply ends_bind; [plain|]. intros b0 _. apply ends_bind; [plain|]. intros b1 _. apply IH. lia.
Qed.
Lemma usa_ends buf off size : ends (usa_apply buf off size).
Proof. unfold usa_apply. apply usa_loop_ends. lia. Qed.
Lemma unprotect_ends buf : ends (unprotect_index buf).
Proof. unfold unprotect_index. plain. apply usa_ends. Qed.
Lemma buffer_size_ends f : 0 < ff_csize f -> ends (ia_buffer_size f).
Proof.
  intros C. unfold ia_buffer_size. apply ends_bind; [apply pread_ends; lia|]. intros raw _. plain; [apply pread_ends; lia|apply unprotect_ends].
Qed.
Lemma ia_loop_ends f size : 0 < ff_csize f -> 0 < size -> forall fuel i, 0 <= i -> (Z.to_nat (ff_size f - i) < fuel)%nat -> gends (ia_loop fuel f size i).
Proof.
  intros C S. induction fuel as [|n IH]; intros i I L; [lia|]. cbn [ia_loop].
  pose proof (pread_ends f (i * size) size C ltac:(nia)) as P. destruct (ff_pread f (i * size) size) as [raw|e] eqn:E; [|intros H; apply P; now injection H as ->].
  destruct (Z.eqb_spec (zlen raw) size) as [K|K]; [|discriminate]. cbn [negb].
  assert (i * size < ff_size f).
  { destruct (Z.lt_ge_cases (i * size) (ff_size f)); auto. rewrite ff_pread_beyond in E by lia. injection E as <-. change (zlen (@nil Z)) with 0 in K. lia. }
  specialize (IH (i + 1) ltac:(lia) ltac:(nia)). pose proof (unprotect_ends raw) as U.
  destruct (unprotect_index raw) as [[b|]|e]; [now apply gends_cons|exact IH|intros H'; apply U; now injection H' as ->].
Qed.
Lemma buffers_end f : 0 < ff_csize f -> gends (ia_index_buffers f).
Proof.
  intros C. unfold ia_index_buffers. pose proof (buffer_size_ends f C) as E. destruct (ia_buffer_size f) as [[s|]|e] eqn:K;
    [|discriminate|intros H; apply E; now injection H as ->].
  apply ia_loop_ends; [exact C| |lia|lia]. unfold ia_buffer_size in K. apply bind_ok in K as (raw & _ & K). cbv zeta in K.
  destruct (negb _); [discriminate|]. destruct (_ <? 2); [discriminate|]. destruct (Z.ltb_spec 0 ((fld 2 raw 2 - 1) * UPDATE_SEQUENCE_STRIDE_INDEX)); [|discriminate].
  destruct (_ && _); [|discriminate]. apply bind_ok in K as (b & _ & K). destruct (negb _); [discriminate|]. apply bind_ok in K as ([o|] & _ & K); [congruence|discriminate].
Qed.
Lemma ia_slack_ends f : 0 < ff_csize f -> ends (ia_slack f).
Proof.
  intros C. unfold ia_slack. pose proof (buffers_end f C) as E. destruct (ia_index_buffers f) as [l st]. unfold gends in E. cbn [snd] in E. apply ends_bind.
  - induction l as [|[i b] l IH]; cbn [ia_slack_loop]; [discriminate|]. apply ends_bind; [unfold ib_slack, ih_first_free; plain|]. intros s _. apply ends_bind; [exact IH|plain].
  - intros r _. destruct st; [discriminate|congruence].
Qed.

(** ** The other reports on metadata files *)
Lemma mft_ends data header tag : bytes_ok data -> fits data -> gends (process_mft data header tag).
Proof.
  intros B FI. unfold process_mft. apply gends_run; [now apply mft_open_ends|]. intros p O. apply gends_seq; [discriminate|].
  apply (gends_rows opened_record); [eapply records_end; eauto|eapply records_opened'; eauto|]. intros fr F. eapply record_ends; eauto.
Qed.
Lemma usn_ends journal data : bytes_ok journal -> bytes_ok data -> fits data -> gends (process_usn journal data).
Proof.
  intros J B FI. unfold process_usn. apply gends_run; [now apply mft_open_ends|]. intros p O.
  apply (gends_rows (fun _ => True)); [|apply gall_any|].
  - destruct (C25_total journal J) as (l & -> & _). discriminate.
  - intros r _. apply gends_run; [eapply usn_row_ends; eauto|discriminate].
Qed.
Lemma indx_row_ends data p n seq paths src ref v : bytes_ok data -> fits data -> mft_open data true = Ok p -> ends ref -> ends (indx_row p n seq paths src ref v).
Proof.
  intros B FI O R. unfold indx_row, indx_path, fna_parent, fn_directory, fna_file_attributes, fna_file_size. apply ends_bind.
  - apply ends_bind; [plain|]. intros q _. apply ends_bind; [destruct (_ =? _); [discriminate|]|intros; apply ends_bind; [apply name_ends|discriminate]].
    eapply lookup_ends; eauto.
  - intros s _. apply ends_bind; [exact R|]. intros r _. apply ends_bind; [plain|]. intros d _. apply ends_bind; [apply fn_ends|]. plain.
Qed.
Lemma indx_ends vol voff cs data : bytes_ok vol -> bytes_ok data -> fits data -> 0 < cs -> gends (process_indx vol voff cs data).
Proof.
  intros Bv B FI C. unfold process_indx. apply gends_run; [now apply mft_open_ends|]. intros p O.
  apply (gends_rows opened_record); [eapply records_end; eauto|eapply records_opened'; eauto|]. intros fr F. unfold indx_record_rows.
  pose proof (paths_end data p B FI O fr F) as E. destruct (build_full_paths p fr) as [paths|e]; [|destruct (is_mft_exn e); [discriminate|intros H; apply E; now injection H as ->]].
  destruct (frs_mft_number _) as [n|]; [|discriminate]. apply (gends_rows (fun _ => True)); [now apply merged_end|apply gall_any|]. intros a _.
  destruct a as [ty nm v|ty nm mp runs lo hi size]; cbn [indx_attr_rows]; [discriminate|]. destruct (_ && _); [|discriminate]. cbv zeta. set (f := ff_open _ _ _ _ _).
  apply gends_seq.
  - apply (gends_rows (fun b => bytes_ok (snd b))); [now apply buffers_end| |].
    + apply buffers_bytes. exact Bv.
    + intros b K. apply (gends_rows (fun _ => True)); [apply entries_end; [lia|exact K]|apply gall_any|]. intros e _. unfold indx_entry_rows. apply gends_run; [apply attribute_ends|].
      intros [v|] _; [|discriminate]. destruct (_ <=? _); [discriminate|]. apply gends_run; [|discriminate]. apply (indx_row_ends data); auto. unfold ie_reference. plain.
  - apply gends_run; [now apply ia_slack_ends|]. intros l _. apply (gends_rows (fun _ => True)); [apply carve_ends|apply gall_any|]. intros [v|x] _; cbn [indx_slack_rows]; [|discriminate].
    apply gends_run; [|discriminate]. apply (indx_row_ends data); auto. discriminate.
Qed.
