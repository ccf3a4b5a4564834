(** Properties of the report of fat_parser on a FAT or exFAT volume (C80, C81).

    The report is the file that csv.writer makes of the rows ([csv_text]);
    [file_reads] tells which rows such a file holds. *)
From Coq Require Import List String.
From Verif Require Import Base BaseLemmas FieldLemmas FatBasic FatSpec FatBoot FatDir FatFs ExBasic ExBoot ExDir ExDirWrite ExFs ExFsProofs Report ReportText ReportTextSpec
  ReportTextProofs CsvProofs FatReport FatReportSpec FatReportProofs Properties_Fat Properties_FatFs Properties_ExFs.

(** ** C80: one row for each file, directory, label and partial name, with what was found *)

Theorem C80_fat dec lower vol voff fs items st : bytes_ok vol -> 0 <= voff -> fat_fs_open vol voff None = Ok fs ->
  fat_walk dec lower fs false = (items, st) ->
  exists rows, fat_report dec lower vol voff = (fat_header :: rows, st) /\ fat_listing [] items rows.
Proof.
  intros B V O W. unfold fat_report. rewrite O, W.
  pose proof (fat_walk_ok dec lower _ _ _ _ false B V O) as N. rewrite W in N.
  destruct (fat_rows_ok items N [] false st) as (rows & -> & L); [|exists rows; auto].
  split; [discriminate|]. intros (e & [] & _).
Qed.
Print Assumptions C80_fat.

Theorem C80_exfat dec lower vol voff x fs items st : bytes_ok vol -> 0 <= voff -> fat_fs_open vol voff None = Err x -> fs_exception x = true ->
  x_fs_open vol voff None = Ok fs -> x_walk fs false = (items, st) ->
  exists rows, fat_report dec lower vol voff = (x_header :: rows, st) /\ Forall2 x_item_row items rows.
Proof.
  intros B V O FX XO W. unfold fat_report. rewrite O, FX, XO, W.
  pose proof (x_walk_ok _ _ _ _ false B V XO) as N. rewrite W in N.
  destruct (x_rows_ok items N st) as (rows & -> & L). exists rows; auto.
Qed.
Print Assumptions C80_exfat.

(** Nine fields in each row, and the file holds exactly these rows. *)
Lemma fat_listing_nine before items rows : fat_listing before items rows -> List.length rows = List.length items /\ Forall (fun r => List.length r = 9%nat) rows.
Proof.
  induction 1 as [|before i items r rows R L [IH1 IH2]]; [split; [reflexivity|constructor]|]. split; [cbn; congruence|]. constructor; [|exact IH2].
  destruct R as [n|e r _ _ R|e r path _ _ R]; [reflexivity|destruct R; reflexivity..].
Qed.
Lemma x_listing_nine items rows : Forall2 x_item_row items rows -> List.length rows = List.length items /\ Forall (fun r => List.length r = 9%nat) rows.
Proof.
  induction 1 as [|i r items rows R L [IH1 IH2]]; [split; [reflexivity|constructor]|]. split; [cbn; congruence|]. constructor; [|exact IH2]. destruct R; reflexivity.
Qed.
Theorem C80_columns dec lower vol voff : bytes_ok vol -> 0 <= voff -> Forall (fun r => List.length r = 9%nat) (fst (fat_report dec lower vol voff)).
Proof.
  intros B V. destruct (fat_fs_open vol voff None) as [fs|x] eqn:O.
  - destruct (fat_walk dec lower fs false) as [items st] eqn:W. destruct (C80_fat _ _ _ _ _ _ _ B V O W) as (rows & -> & L).
    constructor; [reflexivity|]. eapply fat_listing_nine; eauto.
  - destruct (fs_exception x) eqn:FX.
    + destruct (x_fs_open vol voff None) as [fs|y] eqn:XO.
      * destruct (x_walk fs false) as [items st] eqn:W. destruct (C80_exfat dec lower _ _ _ _ _ _ B V O FX XO W) as (rows & -> & L).
        constructor; [reflexivity|]. eapply x_listing_nine; eauto.
      * unfold fat_report. rewrite O, FX, XO. constructor.
    + unfold fat_report. rewrite O, FX. constructor.
Qed.
Print Assumptions C80_columns.
Theorem C80_file dec lower vol voff rows : bytes_ok vol -> 0 <= voff ->
  file_reads (csv_text (fst (fat_report dec lower vol voff))) rows <-> rows = fst (fat_report dec lower vol voff).
Proof.
  intros B V. pose proof (C80_columns dec lower vol voff B V) as C.
  assert (R : file_reads (csv_text (fst (fat_report dec lower vol voff))) (fst (fat_report dec lower vol voff))).
  { apply csv_text_ok. eapply Forall_impl; [|exact C]. intros r L ->. discriminate. }
  split; [intros F; exact (file_unique _ _ _ F R)|intros ->; exact R].
Qed.
Print Assumptions C80_file.

(** A row determines the fields of its entry. *)
Lemma flag_unique a b s : flag_text a s -> flag_text b s -> a = b.
Proof. unfold flag_text. intros -> E. destruct a as [[|]|], b as [[|]|]; try reflexivity; discriminate. Qed.
Lemma na_no_date d : ~ date_written na d.
Proof. intros D. apply date_written_len in D. discriminate. Qed.
Lemma na_no_time t : ~ time_written false na t.
Proof.
  intros T. remember na as s eqn:E. destruct T as [short sd sc sf d c f D _ _|sd sc d c D _]; apply date_written_len in D; apply (f_equal (@zlen Z)) in E;
    rewrite zlen_app in E; change (zlen na) with 3 in E; pose proof (zlen_nonneg (32 :: sc)); try pose proof (zlen_nonneg (32 :: sc ++ 46 :: sf)); lia.
Qed.
Lemma day_text_unique t t' s : day_text t s -> day_text t' s -> t = t'.
Proof.
  destruct t as [d|], t' as [d'|]; cbn [day_text]; intros H H'; [f_equal; exact (date_written_unique _ _ _ _ H H' eq_refl)| | |reflexivity].
  - subst s. elim (na_no_date _ H).
  - subst s. elim (na_no_date _ H').
Qed.
Lemma time_text_unique t t' s : time_text t s -> time_text t' s -> t = t'.
Proof.
  destruct t as [[[d c] ms]|], t' as [[[d' c'] ms']|]; cbn [time_text]; intros H H'; [| | |reflexivity].
  - pose proof (time_written_unique _ _ _ _ H H') as E.
    assert (d = d' /\ c = c' /\ 1000 * ms = 1000 * ms') as (-> & -> & M) by (repeat split; congruence). do 2 f_equal. lia.
  - subst s. elim (na_no_time _ H).
  - subst s. elim (na_no_time _ H').
Qed.
Theorem C80_row_exact e e' path path' r : entry_row e path r -> entry_row e' path' r ->
  path = path' /\ fe_deleted e = fe_deleted e' /\ fe_directory e = fe_directory e' /\ fe_mtime e = fe_mtime e' /\ fe_atime e = fe_atime e' /\
  fe_ctime e = fe_ctime e' /\ fe_size e = fe_size e' /\ fe_encrypted e = fe_encrypted e' /\ fe_short_raw e = fe_short_raw e'.
Proof.
  intros R R'. destruct R as [del dir m a c size enc raw D1 D2 D3 D4 D5 D6 D7 D8].
  inversion R' as [del' dir' m' a' c' size' enc' raw' E1 E2 E3 E4 E5 E6 E7 E8]; subst.
  pose proof (time_text_unique _ _ _ D3 E3) as M. pose proof (flag_unique _ _ _ D2 E2) as DI. pose proof (flag_unique _ _ _ D7 E7) as EN.
  split; [reflexivity|]. split; [exact (flag_unique _ _ _ D1 E1)|]. split; [congruence|].
  split; [destruct (fe_mtime e), (fe_mtime e'); congruence|]. split; [exact (day_text_unique _ _ _ D4 E4)|].
  split; [exact (time_text_unique _ _ _ D5 E5)|]. split; [exact (integer_text_unique _ _ _ D6 E6)|]. split; [congruence|].
  exact (bytes_literal_unique _ _ _ D8 E8).
Qed.
Print Assumptions C80_row_exact.

(** Offsets hold no slash, so three of them can be told apart. *)
Lemma digit_noslash s : Forall digit s -> Forall (fun c => c <> 47) s.
Proof. apply Forall_impl. unfold digit. intros; lia. Qed.
Lemma integer_noslash s n : integer_text s n -> Forall (fun c => c <> 47) s.
Proof. intros [t m (_ & D & _) _|t m (_ & D & _) _]; [|constructor; [lia|]]; apply digit_noslash, D. Qed.
Lemma offset_noslash t s : offset_text t s -> Forall (fun c => c <> 47) s.
Proof.
  destruct t as [k|]; cbn [offset_text]; [|intros ->; repeat constructor; lia].
  intros [(_ & u & -> & I)|(_ & I)]; [constructor; [lia|]|]; exact (integer_noslash _ _ I).
Qed.
Lemma integer_head s n : integer_text s n -> hd 0 s = 45 \/ digit (hd 0 s).
Proof.
  intros [t m (N & D & _) _|t m _ _]; [right|left; reflexivity]. destruct D as [|c t C D]; [contradiction|exact C].
Qed.
Lemma offset_unique t t' s : offset_text t s -> offset_text t' s -> t = t'.
Proof.
  assert (Q : forall k, ~ offset_text (Some k) unknown).
  { intros k [(_ & u & E & _)|(_ & I)]; [discriminate|]. apply integer_head in I. unfold digit in I. cbn in I. lia. }
  assert (P : forall u n, ~ integer_text (43 :: u) n).
  { intros u n I. apply integer_head in I. unfold digit in I. cbn in I. lia. }
  destruct t as [k|], t' as [k'|]; intros H H'; [| | |reflexivity].
  - destruct H as [(_ & u & -> & I)|(_ & I)], H' as [(_ & u' & E & I')|(_ & I')].
    + injection E as <-. pose proof (integer_text_unique _ _ _ I I'). f_equal. lia.
    + elim (P _ _ I').
    + subst s. elim (P _ _ I).
    + pose proof (integer_text_unique _ _ _ I I'). f_equal. lia.
  - cbn [offset_text] in H'. subst s. elim (Q _ H).
  - cbn [offset_text] in H. subst s. elim (Q _ H').
Qed.
Lemma noslash_split a b c d : Forall (fun c => c <> 47) a -> Forall (fun c => c <> 47) c -> a ++ 47 :: b = c ++ 47 :: d -> a = c /\ b = d.
Proof.
  intros A. revert c. induction A as [|x a X A IH]; intros c C E; destruct C as [|y c Y C]; cbn [app] in E.
  - injection E as <-. auto.
  - injection E as E _. congruence.
  - injection E as E _. congruence.
  - injection E as -> E. destruct (IH c C E) as [-> ->]. auto.
Qed.
(** Labels and partial names end in a way that files cannot be told from; a row of a file determines its fields. *)
Theorem C80_exfat_row_exact e e' r : x_item_row (XFile e) r -> x_item_row (XFile e') r ->
  xe_name e = xe_name e' /\ xe_deleted e = xe_deleted e' /\ xe_directory e = xe_directory e' /\ xe_mtime e = xe_mtime e' /\ xe_atime e = xe_atime e' /\
  xe_ctime e = xe_ctime e' /\ xe_mtz e = xe_mtz e' /\ xe_atz e = xe_atz e' /\ xe_ctz e = xe_ctz e' /\ xe_size e = xe_size e' /\ xe_encrypted e = xe_encrypted e'.
Proof.
  intros R R'.
  inversion R as [| |? del dir m a c zm za zc size enc D1 D2 D3 D4 D5 Z1 Z2 Z3 D6 D7 EQ]; subst.
  inversion R' as [| |? del' dir' m' a' c' zm' za' zc' size' enc' E1 E2 E3 E4 E5 Y1 Y2 Y3 E6 E7]; subst.
  match goal with EE : _ ++ 47 :: _ = _ ++ 47 :: _ |- _ => rename EE into K end.
  apply noslash_split in K as [KM K]; [|eauto using offset_noslash..]. apply noslash_split in K as [KA KC]; [|eauto using offset_noslash..]. subst.
  pose proof (flag_unique _ _ _ D1 E1). pose proof (flag_unique _ _ _ D2 E2). pose proof (flag_unique _ _ _ D7 E7).
  repeat (split; [first [congruence|eauto using time_text_unique, offset_unique, integer_text_unique]|]). congruence.
Qed.
Print Assumptions C80_exfat_row_exact.

(** ** C81: an exFAT volume is reported as such *)
Lemma le_val_zeros n : le_val (zeros n) = 0.
Proof. unfold zeros. induction (Z.to_nat n) as [|k IH]; [reflexivity|]. cbn [repeat le_val]. lia. Qed.
Lemma repeat_skipn {A} (x : A) n k : skipn k (repeat x n) = repeat x (n - k).
Proof. revert k. induction n as [|n IH]; intros [|k]; try reflexivity. cbn [repeat skipn Nat.sub]. apply IH. Qed.
Lemma repeat_firstn {A} (x : A) n k : firstn k (repeat x n) = repeat x (Nat.min k n).
Proof. revert k. induction n as [|n IH]; intros [|k]; try reflexivity. cbn [repeat firstn Nat.min]. f_equal. apply IH. Qed.
Lemma zeros_fld w b off : 0 <= w -> 11 <= off -> off + w <= 64 -> slice b 11 64 = zeros 53 -> fld w b off = 0.
Proof.
  intros W O E S. unfold fld. replace (slice b off (off + w)) with (slice (slice b 11 64) (off - 11) (off - 11 + w)).
  2:{ rewrite slice_slice by lia. f_equal; lia. }
  rewrite S. unfold slice, zeros. rewrite zdrop_skipn, ztake_firstn, repeat_skipn, repeat_firstn.
  match goal with |- le_val (repeat 0 ?n) = 0 => rewrite <- (Nat2Z.id n); exact (le_val_zeros (Z.of_nat n)) end.
Qed.
(** What follows the name in an exFAT boot sector is zero, which no FAT boot sector has. *)
Theorem C81_not_fat vol voff : 0 <= voff -> br_open (slice vol voff (voff + 49152)) = Ok tt -> fat_fs_open vol voff None = Err BootSectorException.
Proof.
  intros V H. unfold br_open in H. destruct (_ || _) eqn:L; [discriminate|]. apply orb_false_iff in L as [L _]. apply Z.ltb_ge in L.
  unfold br_validate in H. destruct (negb (list_eqb (slice _ 3 11) _)); [discriminate|]. destruct (negb (list_eqb (slice _ 510 512) _)); [discriminate|].
  destruct (list_eqb (slice _ 11 64) (zeros 53)) eqn:Z53; [|discriminate]. clear H. apply FatProofs.fat_list_eqb_eq in Z53.
  rewrite zlen_slice in L by lia. rewrite slice_slice in Z53 by lia.
  unfold fat_fs_open. change (too_small None 4096) with false. unfold read_at. replace (voff <? 0) with false by lia. cbn [bind].
  set (b := slice vol voff (voff + 512)).
  assert (B53 : slice b 11 64 = zeros 53) by (unfold b; rewrite slice_slice by lia; rewrite <- Z53; f_equal; lia).
  assert (LB : zlen b = 512) by (unfold b; rewrite zlen_slice by lia; lia). clearbody b.
  assert (F16 : forall f32, fatsz16 f32 b = Ok 0) by (intros f32; unfold fatsz16; rewrite (zeros_fld 2 b 22 ltac:(lia) ltac:(lia) ltac:(lia) B53); reflexivity).
  assert (RS : rsvdseccnt b = Err BootSectorException) by (unfold rsvdseccnt; rewrite (zeros_fld 2 b 14 ltac:(lia) ltac:(lia) ltac:(lia) B53); reflexivity).
  assert (CC : forall f32, count_of_clusters f32 b = Err BootSectorException) by (intros f32; unfold count_of_clusters; rewrite F16; cbn [bind]; change (0 <? 0) with false; rewrite RS; reflexivity).
  assert (BO : bsbpb_open b false = Err BootSectorException).
  { unfold bsbpb_open. rewrite LB. change (negb (512 =? 512)) with false. destruct (_ && _); [reflexivity|].
    unfold is_fs32, is_fs16. rewrite !CC. reflexivity. }
  rewrite BO. reflexivity.
Qed.
Print Assumptions C81_not_fat.

Theorem C81_exfat dec lower vol voff fs items st : bytes_ok vol -> 0 <= voff -> x_fs_open vol voff None = Ok fs -> xv_backup fs = false ->
  x_walk fs false = (items, st) ->
  exists rows, fat_report dec lower vol voff = (x_header :: rows, st) /\ Forall2 x_item_row items rows.
Proof.
  intros B V XO BK W. destruct (C59_volume _ _ _ _ B V XO) as (off & F & BI & _). assert (off = 0) as -> by (destruct (Z.eq_dec off 0); [assumption|apply BI in n; congruence]).
  apply C59_find in F as (E & OK & _); [|exact V]. rewrite E, Z.add_0_r in OK.
  exact (C80_exfat dec lower _ _ _ _ _ _ B V (C81_not_fat _ _ V OK) eq_refl XO W).
Qed.
Print Assumptions C81_exfat.

(** When the main boot region is damaged and its backup is used, the sector in
    front may make the FAT parser raise an exception that is not handled. *)
Definition exv_overwritten : list Z := exv_volume (boot_sample 512 1 1 2 512 5000 0 0 0 ++ zeros (11 * 512)) exv_root exv_sub.
Theorem C81_backup_refuted : exists vol fs, bytes_ok vol /\ x_fs_open vol 0 None = Ok fs /\ xv_backup fs = true /\ snd (x_walk fs false) = Done /\
  fst (x_walk fs false) <> [] /\ forall dec lower, fat_report dec lower vol 0 = ([], Raised TypeError).
Proof.
  exists exv_overwritten.
  assert (B : bytes_okb exv_overwritten = true) by (vm_compute; reflexivity).
  assert (F : fat_fs_open exv_overwritten 0 None = Err TypeError) by (vm_compute; reflexivity).
  assert (H : match x_fs_open exv_overwritten 0 None with Ok fs => xv_backup fs && match x_walk fs false with (_ :: _, Done) => true | _ => false end | Err _ => false end = true)
    by (vm_compute; reflexivity).
  destruct (x_fs_open exv_overwritten 0 None) as [fs|]; [|discriminate H]. exists fs. apply andb_true_iff in H as [H1 H2].
  destruct (x_walk fs false) as [[|i l] [|x]]; try discriminate H2.
  split; [apply bytes_okb_ok; exact B|]. split; [reflexivity|]. split; [exact H1|]. split; [reflexivity|]. split; [discriminate|].
  intros dec lower. unfold fat_report. rewrite F. reflexivity.
Qed.
Print Assumptions C81_backup_refuted.

(** ** Examples *)

(** The directory S, what it contains, and the file A of three bytes. *)
Example C80_fat_example : fat_report (fun x => x) (fun x => x) ex_volume 0 =
  (fat_header :: [
    map txt ["N"; "Y"; "/S"; "N/A"; "N/A"; "N/A"; "0"; "N"; "b'S'"];
    map txt ["N"; "Y"; "/S/."; "N/A"; "N/A"; "N/A"; "0"; "N"; "b'.'"];
    map txt ["N"; "Y"; "/S/.."; "N/A"; "N/A"; "N/A"; "0"; "N"; "b'..'"];
    map txt ["N"; "N"; "/S/T"; "N/A"; "N/A"; "N/A"; "5"; "N"; "b'T'"];
    map txt ["N"; "N"; "/A"; "N/A"; "N/A"; "N/A"; "3"; "N"; "b'A'"]]%string, Done).
Proof. vm_compute. reflexivity. Qed.
(** A label and a file with times and offsets from UTC. *)
Definition exv_zoned : list Z := exv_volume exv_region
  ([exv_bitmap_entry 3; exv_label] ++ exv_set (mk_xmeta 0x20 0 1431655765 1431655765 1431655765 0 150 0x80 0x94 0xF0 false 0 600 5 600) [102]) [].
Example C80_exfat_example : fat_report (fun x => x) (fun x => x) exv_zoned 0 =
  (x_header :: [
    map txt ["N"; "N"; "L (Volume Label)"; "?"; "?"; "?"; "?/?/?"; "0"; "N"];
    map txt ["N"; "N"; "/f"; "2022-10-21 10:42:43.500000"; "2022-10-21 10:42:42.000000"; "2022-10-21 10:42:42.000000"; "+300/-240/0"; "600"; "N"]]%string, Done).
Proof. vm_compute. reflexivity. Qed.
(** The main region is found, so this volume is not taken for a FAT volume. *)
Example C81_example : fat_fs_open exv_zoned 0 None = Err BootSectorException /\
  match x_fs_open exv_zoned 0 None with Ok fs => xv_backup fs = false | Err _ => False end.
Proof. split; vm_compute; reflexivity. Qed.
