(** C87: every report ends.  The loops of the program are loops of the model with
    a bound; the exception OutOfFuel stands for a loop that does not end within
    its bound. *)
From Coq Require Import String.
From Verif Require MftSamples.
From Verif Require Import Base BaseLemmas MftSpec FileObject Report LogReport ReportText ReportFiles MoveReport FatReport
  ShadowSpec ShadowChain ShadowImages Shadow ShadowSelect2 Properties_Shadow Volume AllMft AllMftSpec Properties_Volume Properties_AllMft Main Properties_Main
  EndsMft EndsLog EndsFat EndsAll.
Local Open Scope Z_scope.

Theorem C87_mft : forall data header tag, bytes_ok data -> fits data -> snd (process_mft data header tag) <> Raised OutOfFuel.
Proof. intros data header tag B F. now apply mft_ends. Qed.
Print Assumptions C87_mft.

Theorem C87_usn : forall journal data, bytes_ok journal -> bytes_ok data -> fits data -> snd (process_usn journal data) <> Raised OutOfFuel.
Proof. intros journal data Bj B F. now apply usn_ends. Qed.
Print Assumptions C87_usn.

Theorem C87_indx : forall vol voff cs data, bytes_ok vol -> bytes_ok data -> fits data -> 0 < cs -> snd (process_indx vol voff cs data) <> Raised OutOfFuel.
Proof. intros vol voff cs data Bv B F C. now apply indx_ends. Qed.
Print Assumptions C87_indx.

Theorem C87_log : forall ord log data, bytes_ok log -> bytes_ok data -> fits data -> snd (process_log ord log data) <> Raised OutOfFuel.
Proof. intros ord log data Bl B F. now apply log_ends. Qed.
Print Assumptions C87_log.

Theorem C87_fat : forall dec lower vol voff, bytes_ok vol -> snd (fat_report dec lower vol voff) <> Raised OutOfFuel.
Proof. intros dec lower vol voff B. now apply fat_report_ends. Qed.
Print Assumptions C87_fat.

Theorem C87_move : forall data, bytes_ok data -> snd (move_report data) <> Raised OutOfFuel.
Proof. intros data B. now apply move_ends. Qed.
Print Assumptions C87_move.

Theorem C87_mem : forall data, snd (process_mem data) <> Raised OutOfFuel.
Proof. intros data. apply mem_ends. Qed.
Print Assumptions C87_mem.

(** With shadow copies: if no chain of blocks leads back to itself. *)
Theorem C87_all : forall fuel depth vol voff, bytes_ok vol -> zlen vol < 2 ^ 63 -> sizes_ok fuel vol voff -> loop_free fuel vol voff ->
  enough fuel depth vol voff -> tables_fit fuel depth vol voff -> snd (process_all_mft fuel depth vol voff) <> Raised OutOfFuel.
Proof. intros fuel depth vol voff B L SZ LF EN TF. now apply all_ends. Qed.
Print Assumptions C87_all.

(** ** The programs *)

Definition files_fit (m : machine) : Prop := forall i d, m_data m i = Some d -> fits d.
Lemma content_fits m i : files_fit m -> fits (content m i).
Proof. intros F. unfold content. destruct (m_data m i) eqn:E; [eapply F; exact E|]. unfold fits. change (zlen []) with 0. lia. Qed.

Lemma write_ends m path report m' o : write_report m path report = (m', o) -> gends (report (put m (m_file m path) [])) -> o <> Ended (Raised OutOfFuel).
Proof.
  unfold write_report. cbv zeta. destruct (negb _); [intros H _; injection H as _ <-; discriminate|].
  destruct (report _) as [texts st]. destruct (encode_all texts) as [b ok]. intros H G. injection H as _ <-. destruct ok; [|discriminate].
  intro X. injection X as ->. now apply G.
Qed.
Lemma put_fits m i : files_fit m -> files_fit (put m i []).
Proof. intros F k d H. cbn [put m_data] in H. destruct (k =? i); [injection H as <-; unfold fits; change (zlen []) with 0; lia|eapply F; exact H]. Qed.

(** There is no table in an empty file. *)
Lemma empty_table voff t : table_of [] voff <> Ok t.
Proof.
  unfold table_of, volume_open, seek_read. destruct (voff <? 0); [discriminate|]. destruct (_ <=? voff); [discriminate|].
  change (2 ^ 63 <=? 512) with false. cbn [bind].
  pose proof (zlen_slice_le (@nil Z) voff (voff + 512)) as L. change (zlen (@nil Z)) with 0 in L.
  destruct (slice [] voff (voff + 512)) as [|x l]; [discriminate|]. unfold zlen in L. cbn [List.length] in L. lia.
Qed.

Lemma empty_all fuel depth voff : gends (process_all_mft fuel depth [] voff).
Proof.
  unfold process_all_mft, table_rows. pose proof (table_ends [] voff ltac:(constructor) ltac:(unfold zlen; cbn; lia)) as E. pose proof (empty_table voff) as N.
  destruct (table_of [] voff) as [t|e]; [now elim (N t)|]. cbn [grun gseq]. intro X. injection X as ->. now apply E.
Qed.

Section Programs.
Variable int_of : list Z -> option Z.
Variable ord : nat -> list Z -> list Z.
Variables dec lower : list Z -> list Z.
Variables fuel depth : nat.

(** What is asked of the volume in the modes that look for a table in it. *)
Definition volume_fine (mode : list Z) (d : list Z) (n : Z) : Prop :=
  (mode = txt "--indx" -> forall t, table_of d n = Ok t -> fits t) /\
  (mode = txt "--all-mft" -> sizes_ok fuel d n /\ loop_free fuel d n /\ enough fuel depth d n /\ tables_fit fuel depth d n).

Theorem C87_ntfs : forall m argv, machine_ok m -> files_fit m ->
  (forall n d, int_of (arg argv 3) = Some n -> m_data m (m_file m (arg argv 2)) = Some d -> volume_fine (arg argv 1) d n) ->
  snd (ntfs_main int_of ord fuel depth m argv) <> Ended (Raised OutOfFuel).
Proof.
  intros m argv M FF V. unfold ntfs_main. destruct (_ && _); [discriminate|]. destruct (mode_of (arg argv 1)) as [k|] eqn:MO; [|discriminate].
  apply mode_text in MO. destruct (negb _); [discriminate|].
  assert (W : forall path report, gends (report (put m (m_file m path) [])) -> snd (write_report m path report) <> Ended (Raised OutOfFuel)).
  { intros path report G. destruct (write_report m path report) as [m' o] eqn:E. eapply write_ends; eauto. }
  assert (CB : forall p i, bytes_ok (content (put m p []) i)) by (intros p i; apply content_bytes, put_ok; [exact M|constructor]).
  assert (CF : forall p i, fits (content (put m p []) i)) by (intros p i; now apply content_fits, put_fits).
  assert (CV : forall p d n, m_data m (m_file m (arg argv 2)) = Some d -> int_of (arg argv 3) = Some n ->
    content (put m p []) (m_file m (arg argv 2)) = [] \/ volume_fine (arg argv 1) (content (put m p []) (m_file m (arg argv 2))) n).
  { intros p d n D I. unfold content. cbn [put m_data]. destruct (_ =? _); [now left|]. rewrite D. right. now apply V. }
  assert (SM : forall d, fits d -> zlen d < 2 ^ 63) by (intros d H; unfold fits in H; lia).
  destruct k; unfold open_input; destruct (m_data m (m_file m (arg argv 2))) as [d2|] eqn:D2; try discriminate; try match goal with |- context [match m_data m (m_file m (arg argv 3)) with _ => _ end] => destruct (m_data m (m_file m (arg argv 3))) as [d3|] eqn:D3; try discriminate end.
  - apply W, gends_map, gends_map, mft_ends; auto.
  - apply W, gends_map. unfold usn_file. apply gends_run; [now apply mft_open_ends|]. intros p _. change (gends (process_usn (content (put m (m_file m (arg argv 4)) []) (m_file m (arg argv 3))) (content (put m (m_file m (arg argv 4)) []) (m_file m (arg argv 2))))). apply usn_ends; auto.
  - apply W, gends_map, log_ends; auto.
  - destruct (int_of (arg argv 3)) as [n|] eqn:I; [|discriminate]. apply W, gends_map, indx_of_ends; auto.
    intros t T. destruct (CV (m_file m (arg argv 4)) _ _ eq_refl eq_refl) as [E|[E _]]; [rewrite E in T; now elim (empty_table n t)|]. now apply E.
  - destruct (int_of (arg argv 3)) as [n|] eqn:I; [|discriminate]. apply W, gends_map, gends_map.
    destruct (CV (m_file m (arg argv 4)) _ _ eq_refl eq_refl) as [E|[_ E]]; [rewrite E; apply empty_all|].
    destruct (E MO) as (SZ & LF & EN & TF). apply all_ends; auto.
  - apply W. apply (mem_ends (content (put m (m_file m (arg argv 3)) []) (m_file m (arg argv 2)))).
  - apply W, gends_map, move_ends; auto.
Qed.

Theorem C87_fat_parser : forall m argv, machine_ok m -> snd (fat_main int_of dec lower m argv) <> Ended (Raised OutOfFuel).
Proof.
  intros m argv M. unfold fat_main. destruct (negb _); [discriminate|]. unfold open_input. destruct (m_data m _); [|discriminate].
  destruct (int_of _) as [n|]; [|discriminate].
  match goal with |- snd (write_report m ?p ?r) <> _ => destruct (write_report m p r) as [m' o] eqn:E end. eapply write_ends; [exact E|].
  apply gends_map, fat_report_ends, content_bytes, put_ok; [exact M|constructor].
Qed.
End Programs.
Print Assumptions C87_ntfs.
Print Assumptions C87_fat_parser.

(** ** Examples *)

(** Refuted: the report on a volume and its shadow copies always ends.  The
    first block of the catalog is followed by itself. *)
Definition circle : list Z :=
  lay 0
    [(0, small_table 97);
     (7680, vsp_guid ++ le_bytes 4 1 ++ le_bytes 4 1 ++ le_bytes 8 7680 ++ le_bytes 8 7680 ++ le_bytes 8 0 ++ le_bytes 8 (bk 1));
     (bk 1, sh_header 2 (bk 1) (bk 1))] (bk 2).
Theorem C87_all_refuted : exists vol, zlen vol = bk 2 /\ bytes_ok vol /\ forall fuel depth, snd (process_all_mft fuel depth vol 0) = Raised OutOfFuel.
Proof.
  exists circle. split; [vm_compute; reflexivity|]. split; [apply bytes_okb_ok; vm_compute; reflexivity|]. intros fuel depth. unfold process_all_mft.
  assert (T : snd (table_rows (table_of circle 0) true (txt "main volume")) = Done) by (vm_compute; reflexivity).
  assert (O : open_one fuel (mk_vol circle 0) None = Err OutOfFuel).
  { apply C47_open_one. split.
    - eexists. split; [vm_compute; reflexivity|vm_compute; reflexivity].
    - eexists. exists (bk 1). split; [vm_compute; reflexivity|]. split; [vm_compute; reflexivity|].
      exists (bk 1), (bk 1). split; [constructor|]. split; [|constructor].
      unfold link. split; [discriminate|]. split; [split; [discriminate|reflexivity]|]. cbv zeta.
      split; [vm_compute; reflexivity|]. split; [vm_compute; reflexivity|]. split; [eexists; reflexivity|].
      split; vm_compute; reflexivity. }
  rewrite O. destruct (table_rows _ _ _) as [r st]. cbn [snd] in T. subst st. reflexivity.
Qed.
Print Assumptions C87_all_refuted.

(** The volume of C84_example fulfils the conditions of C87_all, with any bounds
    that are large enough. *)
Lemma no_loops_stable v i : ~ ~ no_loops v i -> no_loops v i.
Proof. intros N. repeat split; intro L; apply N; intros (A & B & C & D); contradiction. Qed.
Lemma open_no_loop n v vs o : open_one n v vs = Ok o -> ~ cb_loop v.
Proof.
  intros O (start & a & E1 & E2 & L). apply cb_diverges with (fuel := n) in L. unfold open_one in O. rewrite E1 in O. cbn [bind] in O.
  apply bind_ok in O as (u & _ & O). rewrite (control_blocks_fuel _ _ _ _ E2), L in O. discriminate O.
Qed.
Lemma open_mono n m v vs o : (n <= m)%nat -> open_one n v vs = Ok o -> open_one m v vs = Ok o.
Proof.
  intros LE O. unfold open_one in *. destruct (seek_read _ _ _) as [start|]; cbn [bind] in *; [|discriminate]. destruct (start_or_disabled _); cbn [bind] in *; [|discriminate].
  unfold control_blocks in *. destruct (first_control_block start) as [a|]; cbn [bind] in *; [|discriminate].
  assert (C : chain n v control_block_ok (fun b => Ok b) a <> Err OutOfFuel) by (intro C; rewrite C in O; discriminate).
  assert (E : chain m v control_block_ok (fun b => Ok b) a = chain n v control_block_ok (fun b => Ok b) a) by (eapply chain_mono; eauto using control_block_ok_len, control_block_ok_fuel; discriminate).
  now rewrite E.
Qed.
Lemma select_more o g n d m e o1 : (n <= m)%nat -> (d <= e)%nat -> select_shadow n d o (ByGuid g) = (o1, Ok tt) -> select_shadow m e o (ByGuid g) = (o1, Ok tt).
Proof.
  intros L1 L2 S. unfold select_shadow in *. destruct (_ && _); [discriminate|]. rewrite (select_mono n m _ _ _ L1 d e _ _ L2); [exact S|].
  destruct (select n d _ _ _ _ _) as [st r]. cbn [snd]. injection S as _ ->. discriminate.
Qed.
Definition or_nothing {A} (r : result (list A)) : list A := match r with Ok d => d | Err _ => [] end.
Definition copy_bytes : list Z := or_nothing (shadow_bytes one_copy).
Definition only_parser : parser := opened (mk_vol two_tables 0) None.
Definition only_items : list Shadow.item := or_nothing (all_items (sp_cbs only_parser)).
Definition table_size (r : result (list Z)) : Z := match r with Ok t => zlen t | Err _ => 0 end.
Lemma table_size_fits r t : table_size r <= 2 ^ 58 -> r = Ok t -> fits t.
Proof. intros H ->. exact H. Qed.
Example C87_conditions : forall fuel depth, (List.length two_tables < fuel)%nat -> (4 < depth)%nat ->
  sizes_ok fuel two_tables 0 /\ loop_free fuel two_tables 0 /\ enough fuel depth two_tables 0 /\ tables_fit fuel depth two_tables 0.
Proof.
  intros fuel depth LF LD.
  assert (L5 : (5 <= fuel)%nat).
  { assert (100 <= zlen two_tables) by (vm_compute; discriminate). unfold zlen in *. lia. }
  assert (BB : bytes_ok two_tables) by (apply bytes_okb_ok; vm_compute; reflexivity).
  assert (O5 : open_one 5 (mk_vol two_tables 0) None = Ok only_parser) by (apply opened_ok; vm_compute; reflexivity).
  pose proof (open_no_loop _ _ _ _ O5) as CL. pose proof (open_mono _ _ _ _ _ L5 O5) as O.
  assert (AI : all_items (sp_cbs only_parser) = Ok only_items) by (vm_compute; reflexivity).
  assert (I2s : exists i j, only_items = [I2 i; I3 j] /\ i2_guid i = guid_a /\ i2_size i = bk 1) by (eexists _, _; split; vm_compute; auto).
  destruct I2s as (i & j & EI & GI & SI).
  assert (S5 : select_shadow 5 5 only_parser (ByGuid guid_a) = (one_copy, Ok tt)) by apply C84_readable_example.
  assert (F5 : exists i0, find_items (sp_cbs only_parser) (sp_cbs3 only_parser) (ByGuid guid_a) = Ok (i0, j)).
  { assert (X : match find_items (sp_cbs only_parser) (sp_cbs3 only_parser) (ByGuid guid_a) with Ok (_, y) => [I3 y] | Err _ => [] end = tl only_items) by (vm_compute; reflexivity).
    rewrite EI in X. cbn [tl] in X. destruct (find_items _ _ _) as [[x y]|]; [|discriminate X]. injection X as ->. now exists x. }
  assert (NL : no_loops (mk_vol two_tables 0) j).
  { destruct F5 as [i0 F5]. apply no_loops_stable. intro N. rewrite <- (opened_store (mk_vol two_tables 0) None) in N. apply (C46_loop _ _ _ _ 5 5 F5) in N.
    rewrite S5 in N. now apply N. }
  split; [|split; [|split]].
  - intros o items x E A I. rewrite O in E. assert (o = only_parser) by congruence. subst o. rewrite AI in A. assert (items = only_items) by congruence. subst items.
    rewrite EI in I. destruct I as [I|[I|[]]]; [injection I as <-; rewrite SI; reflexivity|discriminate I].
  - split; [exact CL|]. intros o items x E A I. rewrite O in E. assert (o = only_parser) by congruence. subst o. rewrite AI in A. assert (items = only_items) by congruence. subst items.
    rewrite EI in I. destruct I as [I|[I|[]]]; [discriminate I|injection I as <-; exact NL].
  - split; [exact LF|]. split; [lia|]. intros o items E A. rewrite O in E. assert (o = only_parser) by congruence. subst o. rewrite AI in A. assert (items = only_items) by congruence. subst items.
    rewrite EI. cbn [List.length]. lia.
  - split.
    + intros t. apply table_size_fits. vm_compute. discriminate.
    + intros o g o1 d t E S D T. rewrite O in E. assert (o = only_parser) by congruence. subst o.
      destruct (selected_shown _ _ (mk_vol two_tables 0) only_parser g o1 BB O S) as (_ & items & x & A & (GX & a & b & EX & _) & _).
      rewrite AI in A. assert (Q : items = only_items) by congruence. rewrite Q in EX. clear A Q.
      assert (QG : g = guid_a).
      { assert (I : In (I2 x) only_items) by (rewrite EX; apply in_or_app; right; now left). rewrite EI in I. destruct I as [I|[I|[]]]; [injection I as <-; congruence|discriminate I]. }
      rewrite QG, (select_more _ _ 5 5 fuel depth one_copy L5 ltac:(lia) S5) in S. assert (o1 = one_copy) by congruence. subst o1.
      revert T. apply table_size_fits. assert (d = copy_bytes) as -> by (unfold copy_bytes; now rewrite D). vm_compute. discriminate.
Qed.

(** Directory 4 is its own parent; its path and the path below it are cut. *)
Definition own_parent : list Z :=
  MftSamples.mk_record 1024 0 1 1 0 (MftSamples.mk_attr 0x30 (MftSamples.mk_name 5 5 3 [36; 77])) ++ zeros 1024 ++ zeros 1024 ++ MftSamples.mk_volume 1024 ++
  MftSamples.mk_record 1024 4 1 3 0 (MftSamples.mk_attr 0x30 (MftSamples.mk_name 4 1 3 [99])) ++ MftSamples.mk_record 1024 5 1 1 0 (MftSamples.mk_attr 0x30 (MftSamples.mk_name 4 1 3 [100])).
Example C87_example : (fun g => (map (fun r => nth 5 r blank) (skipn 3 (fst g)), snd g)) (process_mft own_parent true None) = ([Txt (txt "<Orphan>/c/c"); Txt (txt "<Orphan>/c/d")], Done).
Proof. vm_compute. reflexivity. Qed.
