(** C39, C40: walking a FAT volume and reading its chains.  The theorems are
    about every volume content that the constructor of the parser accepts. *)
From Verif Require Import Base BaseLemmas FatBasic FatBoot FatTable FatSpec FatDir FatProofs.
From Verif Require Import DirWalk DirWalkSpec DirWalkProofs ClusterRead ClusterReadSpec ClusterReadProofs FatFs FatFsSpec FatFsProofs Properties_FatDir.

(** ** C40: reading a chain *)

(** A read gives exactly what the clusters of the chain hold, or fails. *)
Theorem C40_fat_read vol voff vsize fs first size d : bytes_ok vol -> fat_fs_open vol voff vsize = Ok fs -> 0 <= voff -> 0 <= first ->
  (fat_read_chain fs first size = Ok d <-> exists cl, fat_chain (fs_fat fs) first = Ok cl /\ holds (fs_geo fs) size cl d).
Proof. intros B E V F. apply (read_chain_iff vol voff vsize fs (open_ok _ _ _ _ B V E)); auto. Qed.

(** It fails in two ways only. *)
Theorem C40_fat_errors vol voff vsize fs first size x : bytes_ok vol -> fat_fs_open vol voff vsize = Ok fs -> 0 <= voff -> 0 <= first ->
  fat_read_chain fs first size = Err x -> x = FileAllocationTableException \/ x = ValueError.
Proof. intros B E V F. apply (read_chain_err vol voff vsize fs (open_ok _ _ _ _ B V E)); auto. Qed.

(** The number of bytes: never more than asked for, and exactly that many when the chain is long enough. *)
Theorem C40_fat_length vol voff vsize fs first size d cl : bytes_ok vol -> fat_fs_open vol voff vsize = Ok fs -> 0 <= voff -> 0 <= first ->
  fat_read_chain fs first size = Ok d -> fat_chain (fs_fat fs) first = Ok cl ->
  zlen d = match size with None => g_cs (fs_geo fs) * zlen cl | Some n => Z.max 0 (Z.min n (g_cs (fs_geo fs) * zlen cl)) end.
Proof.
  intros B E V F R C. pose proof (open_ok _ _ _ _ B V E) as FO. pose proof (fo_cs _ _ _ _ FO). apply (read_chain_iff vol voff vsize fs FO) in R as (cl' & C' & R); auto.
  rewrite C in C'. injection C' as <-. apply holds_length; auto. lia.
Qed.

(** Every byte is the byte of the volume at its place in its cluster (zero in a bad cluster). *)
Theorem C40_fat_byte vol voff vsize fs first size d cl p : bytes_ok vol -> fat_fs_open vol voff vsize = Ok fs -> 0 <= voff -> 0 <= first ->
  fat_read_chain fs first size = Ok d -> fat_chain (fs_fat fs) first = Ok cl -> 0 <= p < zlen d ->
  let cs := g_cs (fs_geo fs) in
  exists c, znth cl (p / cs) = Some c /\
    match c with
    | None => znth d p = Some 0
    | Some c => znth d p = znth vol (voff + g_data (fs_geo fs) + (c - 2) * cs + p mod cs)
    end.
Proof.
  intros B E V F R C P cs. pose proof (open_ok _ _ _ _ B V E) as FO. pose proof (fo_cs _ _ _ _ FO) as C512.
  pose proof (C40_fat_length _ _ _ _ _ _ _ _ B E V F R C) as L. apply (read_chain_iff vol voff vsize fs FO) in R as (cl' & C' & R); auto.
  rewrite C in C'. injection C' as <-. fold cs in C512, L.
  assert (Q : 0 <= p / cs < zlen cl).
  { pose proof (zlen_nonneg cl). assert (p < cs * zlen cl) by (destruct size; lia). split; [apply Z.div_pos; lia|apply Z.div_lt_upper_bound; lia]. }
  destruct (znth_some cl (p / cs) Q) as [c N]. exists c. split; auto.
  pose proof (holds_byte (fs_geo fs) size cl d p c ltac:(fold cs; lia) R P N) as HB. fold cs in HB.
  pose proof (Z.mod_pos_bound p cs ltac:(lia)) as M. destruct c as [c|].
  - rewrite HB. cbn [cluster_data]. fold cs. rewrite (fo_vol _ _ _ _ FO), (fo_voff _ _ _ _ FO).
    assert (RD : readable (fs_geo fs) c).
    { destruct R as [R _]. apply R. unfold needed. destruct size as [n|].
      - assert (p < n) by lia. assert (p / cs < (n + cs - 1) / cs).
        { pose proof (Z.div_mod p cs ltac:(lia)). apply Z.lt_le_trans with (p / cs + 1); [lia|]. replace (n + cs - 1) with (n - 1 + 1 * cs) by lia.
          rewrite Z.div_add by lia. pose proof (Z.div_le_mono p (n - 1) cs ltac:(lia) ltac:(lia)). lia. }
        fold cs. apply (znth_In _ (p / cs)). rewrite znth_ztake by lia. exact N.
      - exact (znth_In _ _ _ N). }
    unfold readable in RD. fold cs in RD. rewrite (fo_vol _ _ _ _ FO), (fo_voff _ _ _ _ FO) in RD. destruct RD as (R1 & R2 & _).
    rewrite znth_slice by lia. reflexivity.
  - rewrite HB. cbn [cluster_data]. fold cs. destruct (znth_some (zeros cs) (p mod cs)) as [v Hv]; [rewrite zlen_zeros by lia; lia|]. rewrite Hv.
    apply znth_In in Hv. unfold zeros in Hv. apply repeat_spec in Hv. now rewrite Hv.
Qed.
Print Assumptions C40_fat_read.
Print Assumptions C40_fat_errors.
Print Assumptions C40_fat_length.
Print Assumptions C40_fat_byte.

(** ** C39: the walk *)

(** What a walk reports: an error of the root directory, or the relation
    [full_walk] that recurses over the directories with nothing but the clusters
    of the directories above.  The recursion of the code always ends. *)
Definition walk_result (dec lower : list Z -> list Z) (fs : fat_fs) (scan : bool) (g : gen dir_item) : Prop :=
  match fat_root fs with
  | Err x => g = ([], Raised x)
  | Ok (buf, stack, visited) =>
    if zlen buf mod 512 =? 0 then full_walk (fat_walker dec lower fs scan) ([], visited) buf stack g
    else g = ([], Raised DirectoryEntriesException)
  end.

Theorem C39_fat_walk dec lower vol voff vsize fs scan g : bytes_ok vol -> 0 <= voff -> fat_fs_open vol voff vsize = Ok fs ->
  (fat_walk dec lower fs scan = g <-> walk_result dec lower fs scan g).
Proof.
  intros B V E. pose proof (open_ok _ _ _ _ B V E) as FO. unfold fat_walk, walk_result.
  destruct (fat_root fs) as [[[buf stack] visited]|x] eqn:ER; [|split; congruence].
  destruct (root_ok vol voff vsize fs B FO _ _ _ ER) as (R1 & R2 & R3). destruct (Z.eqb_spec (zlen buf mod 512) 0) as [M|M].
  - apply (fat_walk_iff vol voff vsize fs B FO); [lia| |exact R2]. split; auto. split; auto.
    pose proof (Z.div_mod (zlen buf) 512 ltac:(lia)). lia.
  - unfold walk_from. cbn [process fat_walker w_entries]. rewrite C36_sizes by tauto. cbn [items_loop]. split; congruence.
Qed.

(** The number of nested calls given to the model is no restriction. *)
Theorem C39_fat_fuel dec lower vol voff vsize fs scan buf stack visited fuel : bytes_ok vol -> 0 <= voff -> fat_fs_open vol voff vsize = Ok fs ->
  fat_root fs = Ok (buf, stack, visited) -> (S (Z.to_nat (f_size (fs_fat fs))) < fuel)%nat ->
  walk_from (fat_walker dec lower fs scan) fuel ([], visited) buf stack = fat_walk dec lower fs scan.
Proof.
  intros B V E ER F. pose proof (open_ok _ _ _ _ B V E) as FO. unfold fat_walk. rewrite ER.
  destruct (root_ok vol voff vsize fs B FO _ _ _ ER) as (R1 & R2 & R3). destruct (Z.eq_dec (zlen buf mod 512) 0) as [M|M].
  - assert (OB : okb buf) by (split; auto; split; auto; pose proof (Z.div_mod (zlen buf) 512 ltac:(lia)); lia).
    apply (fat_walk_iff vol voff vsize fs B FO); auto; [lia|]. apply (fat_walk_iff vol voff vsize fs B FO) with (fuel := S (S (Z.to_nat (f_size (fs_fat fs))))); auto.
  - destruct fuel as [|fuel]; [lia|]. unfold walk_from. cbn [process fat_walker w_entries]. rewrite C36_sizes by tauto. reflexivity.
Qed.

Lemma open_type vol voff vsize fs : fat_fs_open vol voff vsize = Ok fs -> fs_type fs = 32 -> fs_f32 fs = true.
Proof.
  unfold fat_fs_open. destruct (too_small _ _); [discriminate|]. destruct (read_at _ _ _) as [buf|]; cbn [bind]; [|discriminate].
  destruct (bsbpb_open buf false) as [f32|]; cbn [bind]; [|discriminate]. destruct (fat_type_of f32 buf) as [ty|]; cbn [bind]; [|discriminate].
  destruct (bytspersec buf); cbn [bind]; [|discriminate]. destruct (secperclus buf); cbn [bind]; [|discriminate].
  destruct (fat_offset_and_size f32 buf) as [[[? ?] ?]|]; cbn [bind]; [|discriminate]. destruct (fat_open _ _ _ _ _); cbn [bind]; [|discriminate].
  destruct (rsvdseccnt buf); cbn [bind]; [|discriminate]. destruct (numfats buf); cbn [bind]; [|discriminate].
  destruct (Z.eqb_spec ty 32) as [->|N].
  - unfold fatsz32. destruct f32; cbn [negb].
    + destruct (_ =? 0); cbn [bind]; [discriminate|]. intro X. injection X as <-. reflexivity.
    + cbn [bind]. discriminate.
  - destruct (rootentcnt f32 buf); cbn [bind]; [|discriminate]. destruct (fatsz16 f32 buf); cbn [bind]; [|discriminate].
    intro X. injection X as <-. cbn. congruence.
Qed.

(** The errors that end a walk early.  They come from the root directory, but
    for the TypeError of a long name without characters. *)
Theorem C39_fat_errors dec lower vol voff vsize fs scan l x : bytes_ok vol -> 0 <= voff -> fat_fs_open vol voff vsize = Ok fs ->
  fat_walk dec lower fs scan = (l, Raised x) ->
  x = TypeError \/ (l = [] /\ In x [BootSectorException; FileAllocationTableException; DirectoryEntriesException; ValueError]).
Proof.
  intros B V E H. pose proof (open_ok _ _ _ _ B V E) as FO. apply (C39_fat_walk dec lower vol voff vsize fs scan _ B V E) in H. unfold walk_result in H.
  destruct (fat_root fs) as [[[buf stack] visited]|y] eqn:ER.
  - destruct (root_ok vol voff vsize fs B FO _ _ _ ER) as (R1 & R2 & R3). destruct (Z.eqb_spec (zlen buf mod 512) 0) as [M|M].
    + left. refine (fat_walk_origin vol voff vsize fs B FO _ _ _ _ _ _ _ _ _ R2 H). split; auto. split; auto. pose proof (Z.div_mod (zlen buf) 512 ltac:(lia)). lia.
    + injection H as -> ->. right. cbn. auto.
  - injection H as -> ->. right. split; auto. revert ER. unfold fat_root. destruct (Z.eqb_spec (fs_type fs) 32) as [T|T].
    + rewrite (open_type _ _ _ _ E T). unfold rootclus. cbn [negb]. cbv zeta. destruct (Z.ltb_spec (fld 4 (fs_boot fs) 44) 2); cbn [bind].
      { intro X. injection X as <-. cbn. auto. }
      destruct (fat_read_chain fs (fld 4 (fs_boot fs) 44) None) as [b|z] eqn:RC; cbn [bind]; [discriminate|]. intro X. injection X as ->.
      apply (read_chain_err vol voff vsize fs FO) in RC; [|lia]. cbn. intuition.
    + unfold rsvdseccnt, fatsz16, numfats, bytspersec, rootentcnt, read_at. cbv zeta.
      repeat match goal with |- (let! _ := (if ?c then _ else _) in _) = _ -> _ => destruct c; cbn [bind]; [|] end;
        try discriminate; try (intro X; injection X as <-; cbn; tauto).
      all: repeat match goal with |- (if ?c then _ else _) = _ -> _ => destruct c | |- (let! _ := (if ?c then _ else _) in _) = _ -> _ => destruct c; cbn [bind] end;
        try discriminate; try (intro X; injection X as <-; cbn; tauto).
Qed.

(** On a volume without deleted entries, damaged names and directory loops the
    walk is the recursive listing. *)
Theorem C39_fat_tree dec lower vol voff vsize fs scan buf stack visited out : bytes_ok vol -> 0 <= voff -> fat_fs_open vol voff vsize = Ok fs ->
  fat_root fs = Ok (buf, stack, visited) -> tree dec lower fs stack [] buf out ->
  fat_walk dec lower fs scan = (map FileE out, Done).
Proof.
  intros B V E ER T. pose proof (open_ok _ _ _ _ B V E) as FO. apply (C39_fat_walk dec lower vol voff vsize fs scan _ B V E). unfold walk_result. rewrite ER.
  destruct (root_ok vol voff vsize fs B FO _ _ _ ER) as (R1 & R2 & R3).
  destruct (Z.eqb_spec (zlen buf mod 512) 0) as [M|M].
  - assert (OB : okb buf) by (split; auto; split; auto; pose proof (Z.div_mod (zlen buf) 512 ltac:(lia)); lia).
    destruct (proj1 (tree_walks vol voff vsize fs B FO dec lower scan) _ _ _ _ T OB ([], visited)) as [v H]. cbn [fst] in H.
    rewrite <- (app_nil_r (map FileE out)). eapply fw_ok; [exact H|]. constructor.
  - inversion T as [? ? ? es ? D]; subst. rewrite C36_sizes in D by tauto. discriminate.
Qed.
Print Assumptions C39_fat_walk.
Print Assumptions C39_fat_fuel.
Print Assumptions C39_fat_errors.
Print Assumptions C39_fat_tree.

(** ** Examples *)

Definition ex_boot (total : Z) : list Z :=
  [0xEB; 0x3C; 0x90] ++ zeros 8 ++ [0; 2; 1; 1; 0; 1; 16; 0; total; 0; 0xF8; 1; 0] ++ zeros 486 ++ [0x55; 0xAA].
Definition ex_entry (name : list Z) (attr cluster size : Z) : list Z :=
  name ++ [attr] ++ zeros 14 ++ [cluster; 0; size; 0; 0; 0].
Definition ex_name (a : Z) : list Z := a :: repeat 32 10.
Definition ex_sector (slots : list (list Z)) : list Z := let d := concat slots in d ++ zeros (512 - zlen d).
(** FAT12: cluster 2 is a directory, cluster 3 a file. *)
Definition ex_fat : list Z := [0xF8; 0xFF; 0xFF; 0xFF; 0xFF; 0xFF] ++ zeros 506.

(** The directory S contains a file T and a link to itself. *)
Definition ex_volume : list Z :=
  ex_boot 7 ++ ex_fat ++
  ex_sector [ex_entry (ex_name 83) 0x10 2 0; ex_entry (ex_name 65) 0x20 3 3] ++
  ex_sector [ex_entry (ex_name 46) 0x10 2 0; ex_entry (46 :: 46 :: repeat 32 9) 0x10 0 0; ex_entry (ex_name 84) 0x20 3 5; ex_entry (ex_name 83) 0x10 2 0] ++
  ex_sector [[72; 101; 108; 108; 111]] ++ zeros 1024.

Example C39_example :
  match fat_fs_open ex_volume 0 None with
  | Ok fs => map (fun i => match i with FileE e => fe_short e | OrphanE _ => [] end) (fst (fat_walk (fun x => x) (fun x => x) fs false)) =
      [[47; 83]; [47; 83; 47; 46]; [47; 83; 47; 46; 46]; [47; 83; 47; 84]; [47; 65]] /\
      snd (fat_walk (fun x => x) (fun x => x) fs false) = Done
  | Err _ => False
  end.
Proof. vm_compute. split; reflexivity. Qed.

Example C40_example :
  match fat_fs_open ex_volume 0 None with
  | Ok fs => fat_read_chain fs 3 (Some 5) = Ok [72; 101; 108; 108; 111]
  | Err _ => False
  end.
Proof. vm_compute. reflexivity. Qed.

(** A long name without characters before a file: the walk ends with TypeError
    and the file is not reported. *)
Definition ex_nameless : list Z :=
  ex_boot 7 ++ ex_fat ++ ex_sector [0x41 :: zeros 10 ++ [15] ++ zeros 20; ex_entry (ex_name 65) 0x20 3 3] ++ zeros 2048.

Theorem C39_later_files_lost_refuted : exists vol fs, bytes_ok vol /\ fat_fs_open vol 0 None = Ok fs /\
  fat_walk (fun x => x) (fun x => x) fs false = ([], Raised TypeError).
Proof.
  exists ex_nameless. destruct (fat_fs_open ex_nameless 0 None) as [fs|] eqn:E; [|vm_compute in E; discriminate]. exists fs. split; [|split; [reflexivity|]].
  - apply bytes_okb_ok. vm_compute. reflexivity.
  - vm_compute in E. injection E as <-. vm_compute. reflexivity.
Qed.
Print Assumptions C39_later_files_lost_refuted.
