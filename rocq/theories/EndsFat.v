(** The reports on FAT and exFAT volumes, on move tables and on images of memory
    do not run out of fuel. *)
From Verif Require Import Base BaseLemmas FatBoot FatTable FatDir FatFs FatProofs Properties_FatFs ClusterRead ClusterReadProofs
  ExBoot ExTable ExTableProofs ExDir ExFs ExFsProofs Properties_ExBoot Properties_ExTable Properties_ExFs
  MoveTable MoveReport Properties_MoveTable Properties_MoveReport Report ReportText ReportFiles FatReport Properties_Report EndsMft.
Local Open Scope Z_scope.

Lemma read_at_ends b off n : ends (read_at b off n).
Proof. unfold read_at. plain. Qed.

(** ** FAT *)

Lemma bytspersec_ends buf : ends (bytspersec buf). Proof. unfold bytspersec. plain. Qed.
Lemma secperclus_ends buf : ends (secperclus buf). Proof. unfold secperclus. plain. Qed.
Lemma rsvdseccnt_ends buf : ends (rsvdseccnt buf). Proof. unfold rsvdseccnt. plain. Qed.
Lemma numfats_ends buf : ends (numfats buf). Proof. unfold numfats. plain. Qed.
Lemma rootentcnt_ends f buf : ends (rootentcnt f buf). Proof. unfold rootentcnt. plain. Qed.
Lemma fatsz16_ends f buf : ends (fatsz16 f buf). Proof. unfold fatsz16. plain. Qed.
Lemma fatsz32_ends f buf : ends (fatsz32 f buf). Proof. unfold fatsz32. plain. Qed.
Lemma fsver_ends f buf : ends (fsver f buf). Proof. unfold fsver. plain. Qed.

Ltac boot := repeat first [apply bytspersec_ends | apply secperclus_ends | apply rsvdseccnt_ends | apply numfats_ends | apply rootentcnt_ends |
  apply fatsz16_ends | apply fatsz32_ends | apply fsver_ends | apply read_at_ends | progress plain].

Lemma count_ends f buf : ends (count_of_clusters f buf).
Proof. unfold count_of_clusters, sub_from. boot. Qed.
Lemma fs32_ends f buf : ends (is_fs32 f buf).
Proof. unfold is_fs32. apply ends_bind; [apply count_ends|]. boot. Qed.
Lemma fs16_ends f buf : ends (is_fs16 f buf).
Proof. unfold is_fs16. apply ends_bind; [apply count_ends|]. boot. Qed.
Lemma fs12_ends f buf : ends (is_fs12 f buf).
Proof. unfold is_fs12. apply ends_bind; [apply count_ends|]. boot. Qed.
Lemma bsbpb_ends buf r : ends (bsbpb_open buf r).
Proof.
  unfold bsbpb_open. destruct (negb _); [discriminate|]. destruct (_ && _); [discriminate|].
  assert (H : ends (let! b := is_fs32 true buf in if b then fsver true buf else Ok tt)).
  { apply ends_bind; [apply fs32_ends|]. boot. }
  assert (K : ends (let! a := is_fs16 false buf in if a then Ok false
      else let! b := is_fs12 false buf in if b then Ok false else Err BootSectorException)).
  { apply ends_bind; [apply fs16_ends|]. intros [|] _; [discriminate|]. apply ends_bind; [apply fs12_ends|]. boot. }
  destruct (let! b := is_fs32 true buf in _) as [|e]; [discriminate|]. destruct e; solve [discriminate | exact K | now elim H].
Qed.
Lemma type_ends f buf : ends (fat_type_of f buf).
Proof.
  unfold fat_type_of. apply ends_bind; [apply fs32_ends|]. intros [|] _; [discriminate|].
  apply ends_bind; [apply fs16_ends|]. intros [|] _; [discriminate|]. apply ends_bind; [apply fs12_ends|]. boot.
Qed.
Lemma place_ends f buf : ends (fat_offset_and_size f buf).
Proof. unfold fat_offset_and_size. boot; apply count_ends. Qed.
Lemma fat_open_ends d o s l t : ends (fat_open d o s l t).
Proof. unfold fat_open. plain. Qed.
Lemma fs_open_ends vol voff vsize : ends (fat_fs_open vol voff vsize).
Proof.
  unfold fat_fs_open. destruct (too_small _ _); [discriminate|]. apply ends_bind; [apply read_at_ends|]. intros buf _.
  apply ends_bind; [apply bsbpb_ends|]. intros f32 _. apply ends_bind; [apply type_ends|]. intros type _.
  apply ends_bind; [boot|]. intros bps _. apply ends_bind; [boot|]. intros spc _. apply ends_bind; [apply place_ends|]. intros [[off size] last] _.
  apply ends_bind; [apply fat_open_ends|]. boot.
Qed.

Lemma read_at_neg b off n : off < 0 -> read_at b off n = Err ValueError.
Proof. intro H. unfold read_at. now rewrite (proj2 (Z.ltb_lt _ _) H). Qed.
Lemma fs_open_nonneg vol voff vsize fs : fat_fs_open vol voff vsize = Ok fs -> 0 <= voff.
Proof.
  destruct (Z.ltb_spec voff 0) as [H|H]; [|auto]. unfold fat_fs_open. destruct (too_small _ _); [discriminate|].
  rewrite read_at_neg by auto. discriminate.
Qed.

(** ** exFAT *)

Lemma br_checksum_ends b : ends (br_checksum b).
Proof. unfold br_checksum, br_bytespersector. plain. Qed.
Lemma br_calculate_ends b : ends (br_calculate b).
Proof. unfold br_calculate, br_bytespersector. plain. Qed.
Lemma br_validate_ends b : ends (br_validate b).
Proof.
  unfold br_validate. do 3 (destruct (negb _); [discriminate|]). apply ends_bind; [apply br_checksum_ends|]. intros c1 _.
  apply ends_bind; [apply br_calculate_ends|]. intros c2 _. destruct (negb _); [discriminate|]. unfold br_bytespersector, br_sectorspercluster. plain.
Qed.
Lemma br_open_ends b : ends (br_open b).
Proof. unfold br_open. destruct (_ || _); [discriminate|]. apply br_validate_ends. Qed.
Lemma br_search_ends vol voff offs : ends (br_search vol voff offs).
Proof.
  induction offs as [|off r IH]; cbn [br_search]; [discriminate|]. apply ends_bind; [apply read_at_ends|]. intros b _.
  pose proof (br_open_ends b) as H. destruct (br_open b) as [|e]; [discriminate|]. destruct (br_caught e) eqn:C; [exact IH|]. intro X. injection X as ->. now apply H.
Qed.
Lemma br_find_ends vol voff : ends (br_find vol voff).
Proof. unfold br_find. apply ends_bind; [apply br_search_ends|]. unfold br_bytespersector. plain. Qed.
Lemma br_find_nonneg vol voff r : br_find vol voff = Ok r -> 0 <= voff.
Proof.
  destruct (Z.ltb_spec voff 0) as [H|H]; [|auto]. unfold br_find. cbn [br_search]. rewrite read_at_neg by lia. discriminate.
Qed.
Lemma xfat_open_ends d o s l : ends (xfat_open d o s l).
Proof. unfold xfat_open. plain. Qed.
Lemma read_clusters_ends g size cl : ends (read_clusters g size cl).
Proof.
  unfold read_clusters. destruct cl as [|c cl]; [discriminate|]. apply ends_bind; [|discriminate].
  intro H. apply clusters_loop_err in H. discriminate.
Qed.
Lemma x_read_ends f g last first size nc : xfat_ok f -> 0 <= first -> ends (x_read f g last first size nc).
Proof.
  intros F H. unfold x_read. apply ends_bind; [|intros; apply read_clusters_ends]. destruct nc; cbn [negb].
  - destruct size; discriminate.
  - destruct (C33_exfat_terminates f first F H) as [[l ->]| ->]; discriminate.
Qed.

Lemma x_dir_ends root slots : forall labels bitmaps skip, gends (x_dir_loop root labels bitmaps skip slots).
Proof.
  induction slots as [|s rest IH]; intros labels bitmaps skip; cbn [x_dir_loop]; [discriminate|]. cbv zeta.
  repeat match goal with
  | |- gends (x_dir_loop _ _ _ _ _) => apply IH
  | |- gends (gcons _ _) => apply gends_cons
  | |- gends (_, _) => discriminate
  | |- gends (if ?c then _ else _) => destruct c
  | |- gends (match ?c with _ => _ end) => destruct c
  end.
Qed.
Lemma x_entries_end root buf : gends (x_entries root buf).
Proof.
  unfold x_entries. repeat match goal with
  | |- gends (if ?c then _ else _) => destruct c
  | |- gends (_, _) => discriminate
  | |- gends (x_dir_loop _ _ _ _ _) => apply x_dir_ends
  end.
Qed.

Definition bitmap_nonneg (i : x_item) : Prop := match i with XBitmap _ c _ => 0 <= c | _ => True end.
Lemma x_dir_nonneg root slots : Forall bytes_ok slots -> forall labels bitmaps skip, Forall bitmap_nonneg (fst (x_dir_loop root labels bitmaps skip slots)).
Proof.
  induction 1 as [|s rest B _ IH]; intros labels bitmaps skip; cbn [x_dir_loop]; [constructor|]. cbv zeta.
  repeat match goal with
  | |- Forall _ (fst (x_dir_loop _ _ _ _ _)) => apply IH
  | |- Forall _ (fst (gcons _ _)) => constructor; [first [exact I | cbn; now apply fld_nonneg]|]
  | |- Forall _ (fst (_, _)) => constructor
  | |- Forall _ (fst (if ?c then _ else _)) => destruct c
  | |- Forall _ (fst (match ?c with _ => _ end)) => destruct c
  end.
Qed.
Lemma cut_bytes n : forall buf, bytes_ok buf -> Forall bytes_ok (cut_slots n buf).
Proof. induction n as [|n IH]; intros buf B; cbn [cut_slots]; constructor; [now apply bytes_ok_ztake|]. apply IH. now apply bytes_ok_zdrop. Qed.
Lemma x_entries_nonneg root buf : bytes_ok buf -> Forall bitmap_nonneg (fst (x_entries root buf)).
Proof. intro B. unfold x_entries. destruct (_ || _); [constructor|]. apply x_dir_nonneg. now apply cut_bytes. Qed.
Lemma find_nonneg id es c : Forall bitmap_nonneg es -> x_find_bitmap id es = Some c -> 0 <= c.
Proof.
  induction 1 as [|i es H _ IH]; cbn [x_find_bitmap]; [discriminate|]. destruct i; try exact IH.
  destruct (_ =? _); [|exact IH]. intro X. injection X as <-. exact H.
Qed.

Lemma x_open_ends vol voff vsize : bytes_ok vol -> ends (x_fs_open vol voff vsize).
Proof.
  intros B. unfold x_fs_open. destruct (too_small vsize _); [discriminate|].
  apply ends_bind; [apply br_find_ends|]. intros [off b] EF. pose proof (br_find_nonneg _ _ _ EF) as V.
  assert (BB : bytes_ok b).
  { unfold br_find in EF. destruct (br_search vol voff [0; 12 * 512; 12 * 4096]) as [[[o b']|]|] eqn:ES; cbn [bind] in EF; try discriminate.
    apply br_search_spec in ES as (p & q & _ & -> & _ & _); auto; [|repeat constructor; lia].
    destruct (br_bytespersector _); cbn [bind] in EF; [|discriminate]. destruct (_ || _); [discriminate|]. injection EF as <- <-. now apply bytes_ok_slice. }
  clear EF. apply ends_bind; [unfold br_bytespersector; plain|]. intros bps EB. apply bps_range in EB.
  apply ends_bind; [unfold br_sectorspercluster; plain|]. intros spc ES. apply spc_range in ES; [|now apply fld_nonneg]. cbv zeta.
  assert (H1 : 0 <= br_heapoffset b) by now apply fld_nonneg. assert (H2 : 0 <= br_fatlength b) by now apply fld_nonneg.
  assert (H3 : 0 <= br_fatoffset b) by now apply fld_nonneg. assert (H4 : 0 <= br_clustercount b) by now apply fld_nonneg.
  apply ends_bind; [apply xfat_open_ends|]. intros f EF.
  apply C33_exfat_open in EF; [|destruct (br_active_fat b); nia]. destruct EF as (-> & F1 & F2 & F3).
  set (f := mk_xfat _ _ _ _). set (g := mk_geometry _ _ _ _ _).
  assert (C : 0 < g_cs g) by (cbn; nia).
  assert (FO : xfat_ok f) by (split; [cbn; destruct (br_active_fat b); nia|split; [cbn; lia|exact B]]).
  apply ends_bind; [apply x_read_ends; [exact FO|now apply fld_nonneg]|]. intros root ER.
  assert (BR : bytes_ok root) by (eapply x_read_bytes; eauto).
  pose proof (x_entries_end true root) as XE. pose proof (x_entries_nonneg true root BR) as XN.
  destruct (x_entries true root) as [es fin]. cbn [fst] in XN. destruct (x_find_bitmap _ es) as [c|] eqn:EC.
  - apply ends_bind; [|discriminate]. apply x_read_ends; [exact FO|]. eapply find_nonneg; eauto.
  - destruct fin as [|e]; [discriminate|]. intro X. injection X as ->. now apply XE.
Qed.

(** ** The report on a FAT or exFAT volume *)

Lemma fat_rows_end items st : st <> Raised OutOfFuel -> forall found, gends (fat_rows found items st).
Proof.
  intro H. induction items as [|i items IH]; intro found; cbn [fat_rows]; [exact H|].
  destruct i as [e|[n|]]; [destruct (_ && _); apply gends_cons, IH|apply gends_cons, IH|discriminate].
Qed.
Lemma x_rows_end items st : st <> Raised OutOfFuel -> gends (x_rows items st).
Proof.
  intro H. induction items as [|i items IH]; cbn [x_rows]; [exact H|]. destruct i; try (apply gends_cons, IH). discriminate.
Qed.
Theorem fat_report_ends dec lower vol voff : bytes_ok vol -> gends (fat_report dec lower vol voff).
Proof.
  intro B. unfold fat_report. pose proof (fs_open_ends vol voff None) as H. destruct (fat_fs_open vol voff None) as [fs|e] eqn:E.
  - pose proof (fs_open_nonneg _ _ _ _ E) as V. destruct (fat_walk dec lower fs false) as [items st] eqn:W. apply gends_cons, fat_rows_end.
    destruct st as [|x]; [discriminate|]. destruct (C39_fat_errors dec lower vol voff None fs false items x B V E W) as [->|[_ I]]; [discriminate|].
    cbn [In] in I. destruct I as [<-|[<-|[<-|[<-|[]]]]]; discriminate.
  - destruct (fs_exception e).
    + pose proof (x_open_ends vol voff None B) as K. destruct (x_fs_open vol voff None) as [fs|y] eqn:X.
      * assert (V : 0 <= voff). { unfold x_fs_open in X. cbn [too_small] in X. apply bind_ok in X as (r & F & _). eapply br_find_nonneg; eauto. }
        destruct (x_walk fs false) as [items st] eqn:W. apply gends_cons, x_rows_end. destruct st as [|z]; [discriminate|].
        destruct (C39_exfat_errors vol voff None fs false items z B V X W) as [->|[[-> _]|[-> _]]]; discriminate.
      * intro Y. injection Y as ->. now apply K.
    + intro Y. injection Y as ->. now apply H.
Qed.

(** ** Move tables, images of memory *)

Lemma sector_size data : mt_sector_size data None = 512 \/ mt_sector_size data None = 4096.
Proof. unfold mt_sector_size. destruct (zlist_eqb _ _); auto. Qed.
Theorem move_ends data : bytes_ok data -> gends (move_report data).
Proof.
  intro B. pose proof (C82_report data B) as R. destruct (mt_header data (mt_sector_size data None)) as [h|x]; [|rewrite R; discriminate].
  pose proof (sector_size data) as S. destruct (C51_total data _ S) as [K|(a & e & b & E & K1 & K2)].
  - destruct (R _ _ (C51_entries data _ S K)) as (hb & bs & -> & _). discriminate.
  - destruct (R _ _ (C51_unknown_type data _ a e b S E K1 K2)) as (hb & bs & -> & _). discriminate.
Qed.
Theorem mem_ends data : gends (process_mem data).
Proof.
  destruct (process_mem data) as [rows st] eqn:E. pose proof (C75_memory_report _ _ _ E) as H. destruct st as [|e]; [discriminate|].
  destruct H as [-> _]. discriminate.
Qed.
