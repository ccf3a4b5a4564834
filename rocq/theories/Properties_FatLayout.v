(** C34, C39, C40: where the parts of a FAT volume are and what the walk does
    with deleted, reallocated and lost directories; likewise for exFAT. *)
From Verif Require Import Base BaseLemmas FieldLemmas FatBasic FatBoot FatTable FatSpec FatDir FatDirSpec FatProofs FatDirProofs.
From Verif Require Import DirWalk DirWalkSpec ClusterRead ClusterReadSpec ClusterReadProofs FatFs FatFsSpec FatFsProofs Properties_FatFs.
From Verif Require Import ExSpec ExTable ExTableSpec ExTableProofs ExDir ExFs ExFsSpec ExFsProofs FatLayoutSpec.

(** ** C34: a cluster is allocated iff its entry is not zero *)

Theorem C34_allocated f c r : fat_ok f -> 0 <= c ->
  (is_allocated f c = Ok r <->
   (~ has_entry (f_type f) (table f) (f_last f) c /\ r = None) \/
   (has_entry (f_type f) (table f) (f_last f) c /\ table_entry (f_type f) (table f) c <> 0 /\ r = Some true) \/
   (has_entry (f_type f) (table f) (f_last f) c /\ table_entry (f_type f) (table f) c = 0 /\ r = Some false)).
Proof.
  intros F Hc. unfold is_allocated. pose proof (fun v => get_element_iff f c v F Hc) as G.
  destruct (get_element f c) as [v|x] eqn:E.
  - destruct (proj1 (G v) eq_refl) as [H1 H2]. subst v. destruct (Z.eqb_spec (table_entry (f_type f) (table f) c) 0); cbn [negb].
    + split; [intro X; injection X as <-; tauto|]. intros [[? ?]|[[? [? ?]]|[? [? ->]]]]; tauto.
    + split; [intro X; injection X as <-; tauto|]. intros [[? ?]|[[? [? ->]]|[? [? ?]]]]; tauto.
  - assert (N : ~ has_entry (f_type f) (table f) (f_last f) c).
    { intro H. pose proof (proj2 (G _) (conj H eq_refl)). discriminate. }
    rewrite get_element_spec in E by auto. destruct (entryb f c); [discriminate|]. injection E as <-.
    split; [intro X; injection X as <-; tauto|]. intros [[? ->]|[[? [? ?]]|[? [? ?]]]]; tauto.
Qed.
Print Assumptions C34_allocated.

(** ** C40: where the table and the clusters are *)

Lemma flags_bit v : 0 <= v -> (0 <? Z.land v 0x80) = Z.testbit v 7.
Proof.
  intro H. destruct (Z.testbit v 7) eqn:T.
  - apply Z.ltb_lt. assert (N : 0 <= Z.land v 0x80) by (apply Z.land_nonneg; lia).
    assert (X : Z.testbit (Z.land v 0x80) 7 = true) by (rewrite Z.land_spec, T; reflexivity).
    destruct (Z.eq_dec (Z.land v 0x80) 0) as [Q|Q]; [rewrite Q in X; discriminate|lia].
  - apply Z.ltb_ge. assert (X : Z.land v 0x80 = 0); [|lia]. apply Z.bits_inj_0. intro i. rewrite Z.land_spec.
    destruct (Z.eq_dec i 7) as [->|N]; [now rewrite T|]. change 0x80 with (2 ^ 7). rewrite Z.pow2_bits_false by lia. apply andb_false_r.
Qed.

Lemma low_nibble v : Z.land v 0x0F = v mod 16.
Proof. change 0x0F with (Z.ones 4). rewrite Z.land_ones by lia. reflexivity. Qed.

Theorem C40_fat_layout vol voff vsize fs : bytes_ok vol -> 0 <= voff -> fat_fs_open vol voff vsize = Ok fs ->
  let b := slice vol voff (voff + 512) in
  let fat32 := fs_f32 fs in
  let bps := bpb_bytes_per_sector b in
  exists n, clusters fat32 b n /\ (fat32 = true -> fs_type fs = 32) /\ (fat32 = false -> 0 < n < 65525 /\ fs_type fs = if n <? 4085 then 12 else 16) /\
  fs_boot fs = b /\
  f_off (fs_fat fs) = voff + table_sector fat32 b * bps /\ f_size (fs_fat fs) = fat_sectors fat32 b * bps /\ f_last (fs_fat fs) = n + 1 /\
  g_data (fs_geo fs) = data_sector fat32 b * bps /\ g_cs (fs_geo fs) = bps * bpb_sectors_per_cluster b /\
  In bps [512; 1024; 2048; 4096] /\ In (bpb_sectors_per_cluster b) [1; 2; 4; 8; 16; 32; 64; 128; 256].
Proof.
  intros B V. unfold fat_fs_open, read_at. destruct (too_small vsize 4096); [discriminate|].
  destruct (Z.ltb_spec voff 0); [lia|]. cbn [bind].
  assert (BB : bytes_ok (slice vol voff (voff + 512))) by (now apply bytes_ok_slice).
  set (buf := slice vol voff (voff + 512)) in *. clearbody buf.
  destruct (bsbpb_open buf false) as [f32|] eqn:EB; cbn [bind]; [|discriminate].
  destruct (fat_type_of_spec buf false f32 BB EB) as (n & CL & TY). rewrite TY. cbn [bind].
  pose proof (bsbpb_open_spec buf false BB) as SP. rewrite EB in SP.
  assert (CN : count_of_clusters f32 buf = Ok n).
  { destruct f32.
    - pose proof (count32_spec buf BB) as C. destruct (count_of_clusters true buf) as [m|e].
      + destruct C as [_ C]. now rewrite (clusters_fun _ _ _ _ C CL).
      + exfalso. apply C. destruct SP as (_ & _ & L & _). eauto.
    - destruct SP as (_ & _ & L & _). pose proof L as (L1 & _). pose proof (count16_spec buf BB L1) as C. destruct (count_of_clusters false buf) as [m|e].
      + destruct C as [_ C]. now rewrite (clusters_fun _ _ _ _ C CL).
      + exfalso. apply C. eauto. }
  destruct (bytspersec buf) as [bps|] eqn:EP; cbn [bind]; [|discriminate].
  assert (EP' : bps = bpb_bytes_per_sector buf /\ In (bpb_bytes_per_sector buf) [512; 1024; 2048; 4096]).
  { revert EP. unfold bytspersec, bpb_bytes_per_sector. cbv zeta. destruct (zin (fld 2 buf 11) _) eqn:I; [|discriminate]. intro X. injection X as <-. split; auto. now apply zin_In. }
  destruct (secperclus buf) as [spc|] eqn:ES; cbn [bind]; [|discriminate].
  assert (ES' : spc = bpb_sectors_per_cluster buf /\ In (bpb_sectors_per_cluster buf) [1; 2; 4; 8; 16; 32; 64; 128; 256]).
  { revert ES. unfold secperclus, bpb_sectors_per_cluster. cbv zeta. destruct (zin _ _) eqn:I; [|discriminate]. intro X. injection X as <-. split; auto. now apply zin_In. }
  unfold fat_offset_and_size. rewrite CN, EP. cbn [bind].
  destruct (rsvdseccnt buf) as [r|] eqn:ER; [|destruct (extflags f32 buf) as [[a d]|]; cbn [bind]; [destruct (negb d); cbn [bind]; [|destruct (numfats buf); cbn [bind]]|]; discriminate].
  assert (ER' : r = bpb_reserved buf). { revert ER. unfold rsvdseccnt, bpb_reserved. cbv zeta. destruct (_ =? 0); congruence. }
  destruct (numfats buf) as [nf|] eqn:EN.
  2:{ intro X. exfalso. unfold numfats in EN. cbv zeta in EN. destruct (fld 1 buf 16 =? 0) eqn:Z0; [|discriminate].
      assert (Y : bpb_fats buf <> 0) by (destruct f32; destruct SP as (_ & _ & (_ & (_ & Y & _) & _) & _); exact Y). unfold bpb_fats in Y. lia. }
  assert (EN' : nf = bpb_fats buf). { revert EN. unfold numfats, bpb_fats. cbv zeta. destruct (_ =? 0); congruence. }
  destruct EP' as [-> IP]. destruct ES' as [-> IS]. subst r nf.
  pose proof (fld_nonneg 2 buf 40 BB) as N40.
  destruct f32; cbn [extflags negb bind].
  - unfold fatsz32. cbn [negb]. cbv zeta. destruct (fld 4 buf 36 =? 0) eqn:Z36; cbn [bind]; [destruct (0 <? _); cbn [negb bind]; discriminate|].
    rewrite flags_bit, low_nibble by lia.
    assert (NUM : (if negb (Z.testbit (fld 2 buf 40) 7) then Ok 0 else Ok (if bpb_fats buf <? fld 2 buf 40 mod 16 + 1 then 0 else fld 2 buf 40 mod 16)) = Ok (table_in_use true buf)).
    { unfold table_in_use. cbn [andb]. destruct (Z.testbit (fld 2 buf 40) 7); cbn [negb andb]; [|reflexivity].
      destruct (Z.ltb_spec (bpb_fats buf) (fld 2 buf 40 mod 16 + 1)), (Z.ltb_spec (fld 2 buf 40 mod 16) (bpb_fats buf)); try lia; reflexivity. }
    rewrite NUM. cbn [bind]. unfold fat_open.
    destruct (negb (zin 32 _)); cbn [bind]; [discriminate|]. destruct ((0 <? _) && _); cbn [bind]; [discriminate|]. destruct (_ || _); cbn [bind]; [discriminate|].
    cbn [Z.eqb Pos.eqb]. intro X. injection X as <-. cbn. exists n.
    unfold table_sector, fat_sectors, data_sector, bpb_fat_sectors_32. repeat (split; [auto; try discriminate; try lia|]); auto.
  - destruct SP as (_ & _ & L & m & C & Hm). rewrite (clusters_fun _ _ _ _ C CL) in Hm.
    unfold fatsz16, rootentcnt. rewrite !andb_false_r. cbn [bind]. unfold fat_open.
    destruct (negb (zin _ _)); cbn [bind]; [discriminate|]. destruct ((0 <? _) && _); cbn [bind]; [discriminate|]. destruct (_ || _); cbn [bind]; [discriminate|].
    replace ((if 4085 <=? n then 16 else 12) =? 32) with false by (destruct (4085 <=? n); reflexivity).
    intro X. injection X as <-. cbn. exists n. unfold table_sector, table_in_use, fat_sectors, data_sector, root_sector, root_sectors, bpb_fat_sectors_16. cbn [andb].
    split; [exact CL|]. split; [discriminate|]. split; [intros _; split; [lia|]; destruct (Z.leb_spec 4085 n), (Z.ltb_spec n 4085); lia|].
    repeat (split; [auto; try lia|]); auto.
Qed.
Print Assumptions C40_fat_layout.

(** The parts do not overlap: the tables lie between the boot sector and the
    root directory or the clusters. *)
Theorem C40_fat_areas vol voff vsize fs : bytes_ok vol -> 0 <= voff -> fat_fs_open vol voff vsize = Ok fs ->
  let b := slice vol voff (voff + 512) in
  voff + 512 <= f_off (fs_fat fs) /\
  f_off (fs_fat fs) + f_size (fs_fat fs) <= voff + (if fs_f32 fs then data_sector true b else root_sector b) * bpb_bytes_per_sector b /\
  (fs_f32 fs = false -> root_sector b * bpb_bytes_per_sector b + 32 * bpb_root_entries b <= g_data (fs_geo fs)).
Proof.
  intros B V E b. destruct (C40_fat_layout vol voff vsize fs B V E) as (n & C & T32 & T16 & BT & O & S & L & D & CS & IP & IS). fold b in C, O, S, D, CS, IP, IS, BT.
  assert (BB : bytes_ok b) by (now apply bytes_ok_slice).
  assert (R : 1 <= bpb_reserved b /\ 1 <= bpb_fats b).
  { revert E. unfold fat_fs_open, read_at. destruct (too_small vsize 4096); [discriminate|]. destruct (Z.ltb_spec voff 0); [lia|]. cbn [bind]. fold b.
    pose proof (bsbpb_open_spec b false BB) as SP. destruct (bsbpb_open b false) as [f|]; cbn [bind]; [|discriminate]. intros _.
    assert (Y : bpb_common b) by (destruct f; destruct SP as (_ & _ & (_ & Y & _) & _); exact Y). destruct Y as (Y1 & Y2 & _).
    pose proof (fld_nonneg 2 b 14 BB). pose proof (fld_nonneg 1 b 16 BB). unfold bpb_reserved, bpb_fats in *. lia. }
  assert (P : 512 <= bpb_bytes_per_sector b) by (cbn [In] in IP; lia).
  assert (FS : 0 <= fat_sectors (fs_f32 fs) b) by (unfold fat_sectors; destruct (fs_f32 fs); apply fld_nonneg; auto).
  assert (U : 0 <= table_in_use (fs_f32 fs) b < bpb_fats b).
  { unfold table_in_use. destruct (fs_f32 fs && Z.testbit (fld 2 b 40) 7 && (fld 2 b 40 mod 16 <? bpb_fats b)) eqn:Q; [|lia].
    apply andb_true_iff in Q as [_ Q]. apply Z.ltb_lt in Q. pose proof (Z.mod_pos_bound (fld 2 b 40) 16 ltac:(lia)). lia. }
  rewrite O, S, D. unfold table_sector. split; [|split].
  - nia.
  - assert (X : (if fs_f32 fs then data_sector true b else root_sector b) = bpb_reserved b + bpb_fats b * fat_sectors (fs_f32 fs) b).
    { unfold data_sector, root_sector, fat_sectors. destruct (fs_f32 fs); reflexivity. }
    rewrite X. revert U FS R P. generalize (table_in_use (fs_f32 fs) b) (fat_sectors (fs_f32 fs) b) (bpb_fats b) (bpb_reserved b) (bpb_bytes_per_sector b). intros. nia.
  - intros ->. unfold data_sector. unfold root_sectors.
    pose proof (Z.div_mod (bpb_root_entries b * 32 + bpb_bytes_per_sector b - 1) (bpb_bytes_per_sector b) ltac:(lia)) as M.
    pose proof (Z.mod_pos_bound (bpb_root_entries b * 32 + bpb_bytes_per_sector b - 1) (bpb_bytes_per_sector b) ltac:(lia)). nia.
Qed.
Print Assumptions C40_fat_areas.

(** ** C39: the root directory *)

Theorem C39_fat_root vol voff vsize fs buf stack visited : bytes_ok vol -> 0 <= voff -> fat_fs_open vol voff vsize = Ok fs ->
  let b := slice vol voff (voff + 512) in
  (fat_root fs = Ok (buf, stack, visited) <->
   if fs_f32 fs then 2 <= fld 4 b 44 /\ fat_read_chain fs (fld 4 b 44) None = Ok buf /\ stack = [fld 4 b 44] /\ visited = [fld 4 b 44]
   else bpb_root_entries b <> 0 /\ zlen buf = 32 * bpb_root_entries b /\
        names vol (voff + root_sector b * bpb_bytes_per_sector b) buf /\ stack = [] /\ visited = []).
Proof.
  intros B V E b. destruct (C40_fat_layout vol voff vsize fs B V E) as (n & C & T32 & T16 & BT & O & S & L & D & CS & IP & IS). fold b in C, O, S, D, CS, IP, IS, BT.
  destruct (C40_fat_areas vol voff vsize fs B V E) as (A1 & A2 & _). fold b in A2.
  assert (BB : bytes_ok b) by (now apply bytes_ok_slice).
  pose proof (open_ok _ _ _ _ B V E) as FO.
  unfold fat_root. rewrite BT. destruct (fs_f32 fs) eqn:F.
  - rewrite T32 by reflexivity. cbn [Z.eqb Pos.eqb]. unfold rootclus. cbn [negb]. cbv zeta.
    destruct (Z.ltb_spec (fld 4 b 44) 2); cbn [bind]; [split; [discriminate|lia]|].
    destruct (fat_read_chain fs (fld 4 b 44) None) as [d|x]; cbn [bind]; [|split; [discriminate|intros (_ & X & _); discriminate]].
    split; [intro X; injection X as <- <- <-; auto|]. intros (_ & X & -> & ->). now injection X as ->.
  - destruct (T16 eq_refl) as [Hn ->]. replace ((if n <? 4085 then 12 else 16) =? 32) with false by (destruct (n <? 4085); reflexivity).
    assert (R : bpb_reserved b <> 0 /\ bpb_fats b <> 0).
    { revert E. unfold fat_fs_open, read_at. destruct (too_small vsize 4096); [discriminate|]. destruct (Z.ltb_spec voff 0); [lia|]. cbn [bind]. fold b.
      pose proof (bsbpb_open_spec b false BB) as SP. destruct (bsbpb_open b false) as [f|]; cbn [bind]; [|discriminate]. intros _.
      assert (Y : bpb_common b) by (destruct f; destruct SP as (_ & _ & (_ & Y & _) & _); exact Y). destruct Y as (Y1 & Y2 & _). auto. }
    destruct R as [R1 R2]. pose proof (fld_nonneg 2 b 14 BB) as P1. pose proof (fld_nonneg 1 b 16 BB) as P2. pose proof (fld_nonneg 2 b 22 BB) as P3.
    pose proof (fld_nonneg 2 b 17 BB) as P4.
    unfold rsvdseccnt, numfats, fatsz16, rootentcnt, bytspersec. cbv zeta. fold (bpb_reserved b) (bpb_fats b) (bpb_fat_sectors_16 b) (bpb_bytes_per_sector b) (bpb_root_entries b) in *.
    replace (bpb_reserved b =? 0) with false by lia. replace (bpb_fats b =? 0) with false by lia. rewrite !andb_false_r. cbn [bind].
    assert (I : zin (bpb_bytes_per_sector b) [512; 1024; 2048; 4096] = true) by (now apply zin_In). rewrite I. cbn [bind].
    destruct (Z.eqb_spec (bpb_root_entries b * 32) 0); [split; [discriminate|lia]|].
    rewrite (fo_vol _ _ _ _ FO), (fo_voff _ _ _ _ FO). unfold read_at.
    replace ((bpb_reserved b + bpb_fat_sectors_16 b * bpb_fats b) * bpb_bytes_per_sector b) with (root_sector b * bpb_bytes_per_sector b) by (unfold root_sector; lia).
    assert (P : 512 <= bpb_bytes_per_sector b) by (cbn [In] in IP; lia).
    assert (Q : 0 <= root_sector b * bpb_bytes_per_sector b) by (unfold root_sector; nia).
    destruct (Z.ltb_spec (voff + root_sector b * bpb_bytes_per_sector b) 0); [lia|]. cbn [bind]. unfold names.
    set (p := voff + root_sector b * bpb_bytes_per_sector b) in *. clearbody p.
    destruct (Z.eqb_spec (zlen (slice vol p (p + bpb_root_entries b * 32))) (bpb_root_entries b * 32)) as [LE|LE]; cbn [negb].
    + split.
      * intro X. injection X as <- <- <-. split; [lia|]. split; [lia|]. split; auto. now rewrite LE.
      * intros (_ & LB & X & -> & ->). rewrite <- X at 1. rewrite LB. now rewrite (Z.mul_comm 32).
    + split; [discriminate|]. intros (_ & LB & X & _). exfalso. apply LE. rewrite LB in X. rewrite (Z.mul_comm (bpb_root_entries b)). rewrite X. exact LB.
Qed.
Print Assumptions C39_fat_root.

(** ** C39: entering directories *)

Lemma noted_set_add c l : set_add c l = noted c l.
Proof.
  unfold set_add, noted. destruct (in_dec Z.eq_dec c l) as [I|I].
  - apply zin_In in I. now rewrite I.
  - destruct (zin c l) eqn:Q; [|reflexivity]. apply zin_In in Q. contradiction.
Qed.

Lemma names_eqb buf p s : list_eqb (slice buf p (p + zlen s)) s = true <-> names buf p s.
Proof. unfold names. apply fat_list_eqb_eq. Qed.

Lemma directory_iff e : fe_directory e && negb (is_dot (fe_short e)) = true <-> a_directory e.
Proof.
  unfold a_directory. rewrite andb_true_iff, negb_true_iff. unfold is_dot. rewrite orb_false_iff.
  assert (X : forall s, list_eqb (fe_short e) s = false <-> fe_short e <> s).
  { intro s. pose proof (fat_list_eqb_eq (fe_short e) s). destruct (list_eqb _ _); intuition (congruence || lia). }
  rewrite !X. tauto.
Qed.

Lemma slot_from_end buf n : from_end buf n = match znth buf (zlen buf - n) with Some v => Ok v | None => Err IndexError end.
Proof. reflexivity. Qed.

Lemma gone_iff e : is_true (fe_deleted e) = true <-> gone e.
Proof. unfold gone, is_true. destruct (fe_deleted e) as [[|]|]; intuition (congruence || lia). Qed.

Section Enter.
Variables (vol : list Z) (voff : Z) (vsize : option Z) (fs : fat_fs).
Hypothesis B : bytes_ok vol.
Hypothesis FO : fs_ok vol voff vsize fs.

Lemma allocated_cases c : 0 <= c -> exists r, is_allocated (fs_fat fs) c = Ok r /\
  match r with None => ~ in_table fs c | Some true => in_use fs c | Some false => free fs c end.
Proof.
  intro H. destruct (allocated_total vol voff vsize fs FO c H) as [r E]. exists r. split; auto.
  apply C34_allocated in E; auto; [|apply FO]. unfold in_use, free, in_table. destruct E as [[? ->]|[[? [? ->]]|[? [? ->]]]]; auto.
Qed.

Lemma extra_spec c buf b : 2 <= c -> okb buf -> fat_read_chain fs c None = Ok buf -> fat_extra fs c buf = Ok b ->
  exists more, b = buf ++ more /\ (goes_on fs c buf more \/ (more = [] /\ forall m, ~ goes_on fs c buf m)).
Proof.
  intros H OB E. unfold fat_extra.
  assert (NO : (forall m, ~ goes_on fs c buf m) -> exists more, buf = buf ++ more /\ (goes_on fs c buf more \/ (more = [] /\ forall m, ~ goes_on fs c buf m))).
  { intro N. exists []. rewrite app_nil_r. auto. }
  pose proof E as E0. apply (read_chain_iff vol voff vsize fs FO) in E as (cl & E & _); [|lia]. rewrite E. cbn [bind].
  assert (CL : zlen cl = 1 <-> cl = [Some c]).
  { split; [|intros ->; reflexivity]. intro L.
    assert (NB : c <> fat_bad (fs_fat fs)).
    { intros ->. unfold fat_chain in E. replace (fat_bad (fs_fat fs) =? 0) with false in E by lia. replace (fat_bad (fs_fat fs) =? 1) with false in E by lia. rewrite Z.eqb_refl in E. discriminate. }
    apply fat_chain_iff in E; auto; [|apply FO]. inversion E; subst; auto; rewrite zlen_cons in L.
    - cbn in L. lia.
    - exfalso. match goal with X : chain_from _ _ _ _ _ ?l |- _ => assert (NE : l <> []) by (inversion X; discriminate); destruct l as [|y t]; [congruence|] end.
      rewrite zlen_cons in L. pose proof (zlen_nonneg t). lia. }
  destruct (Z.eqb_spec (zlen cl) 1) as [L|L]; cbn [negb].
  2:{ intro X. injection X as <-. apply NO. intros m (G & _). rewrite E in G. injection G as ->. apply L. reflexivity. }
  apply CL in L. subst cl.
  destruct (allocated_cases (c + 1) ltac:(lia)) as (al & -> & AL). cbn [bind].
  destruct al as [[|]|]; try (intro X; injection X as <-; apply NO; intros m (_ & [G1 G2] & _); unfold in_use in AL; tauto).
  destruct (fat_read_chain fs (c + 1) None) as [e|x] eqn:EX.
  2:{ rewrite (caught_fat _ (read_chain_err vol voff vsize fs FO (c + 1) _ _ ltac:(lia) EX)). intro X. injection X as <-. apply NO. intros m (_ & _ & G & _). congruence. }
  pose proof (read_all_nonempty vol voff vsize fs B FO (c + 1) _ ltac:(lia) EX) as (_ & OE & _). destruct OB as (_ & OB & _).
  unfold bufs_match. rewrite !slot_from_end.
  destruct (znth_some buf (zlen buf - 96) ltac:(lia)) as [v1 Z1]. rewrite Z1. cbn [bind].
  destruct (znth_some buf (zlen buf - 64) ltac:(lia)) as [v2 Z2]. rewrite Z2. cbn [bind].
  destruct (znth_some buf (zlen buf - 32) ltac:(lia)) as [v3 Z3]. rewrite Z3. cbn [bind].
  assert (USED : forall l p v, znth l p = Some v -> (used_slot l p <-> v <> 0)).
  { intros l p v Q. unfold used_slot. split; [intros (u & Q2 & N); congruence|eauto]. }
  assert (GO : forall m, goes_on fs c buf m -> m = e /\ v1 <> 0 /\ v2 <> 0 /\ v3 <> 0 /\ used_slot e 0 /\ ~ names e 33 [46; 32]).
  { intros m (_ & _ & G & G1 & G2 & G3 & G4 & G5). rewrite EX in G. injection G as <-.
    apply (USED _ _ _ Z1) in G1. apply (USED _ _ _ Z2) in G2. apply (USED _ _ _ Z3) in G3. auto 10. }
  destruct (Z.eqb_spec v1 0); cbn [bind]; [intro X; injection X as <-; apply NO; intros m G; apply GO in G; tauto|].
  destruct (Z.eqb_spec v2 0); cbn [bind]; [intro X; injection X as <-; apply NO; intros m G; apply GO in G; tauto|].
  destruct (Z.eqb_spec v3 0); cbn [bind]; [intro X; injection X as <-; apply NO; intros m G; apply GO in G; tauto|].
  destruct e as [|d t] eqn:EE; [cbn in OE; lia|]. rewrite <- EE in *.
  assert (Z4 : znth e 0 = Some d) by (rewrite EE; reflexivity). clear EE.
  destruct (Z.eqb_spec d 0); cbn [bind]; [intro X; injection X as <-; apply NO; intros m G; apply GO in G as (-> & _ & _ & _ & G & _); apply (USED _ _ _ Z4) in G; tauto|].
  pose proof (names_eqb e 33 [46; 32]) as NM. change (33 + zlen [46; 32]) with 35 in NM.
  destruct (list_eqb (slice e 33 35) [46; 32]) eqn:Q; cbn [negb].
  - intro X. injection X as <-. apply NO. intros m G. apply GO in G. tauto.
  - intro X. injection X as <-. exists e. split; [reflexivity|]. left. split; [auto|]. split; [auto|]. split; [auto|].
    split; [now apply (USED _ _ _ Z1)|]. split; [now apply (USED _ _ _ Z2)|]. split; [now apply (USED _ _ _ Z3)|]. split; [now apply (USED _ _ _ Z4)|].
    intro N. apply NM in N. congruence.
Qed.

Lemma enter_spec scan st path e st' sub : 0 <= fe_first_cluster e -> fat_enter fs scan st path (FileE e) = Ok (st', sub) ->
  enters fs scan st path e st' sub.
Proof.
  intro Hc. unfold fat_enter. pose proof (directory_iff e) as DI.
  destruct (fe_directory e && negb (is_dot (fe_short e))); cbn [negb].
  2:{ intro X. injection X as <- <-. apply en_not. intro A. apply DI in A. discriminate. }
  assert (AD : a_directory e) by (apply DI; reflexivity). clear DI.
  destruct (allocated_cases _ Hc) as (al & -> & AL). cbn [bind].
  destruct al as [al|]; [|intro X; injection X as <- <-; now apply en_outside].
  assert (IT : in_table fs (fe_first_cluster e)) by (destruct al; apply AL).
  pose proof (gone_iff e) as GI. rewrite !noted_set_add.
  destruct (negb scan && is_true (fe_deleted e) && al) eqn:C.
  { apply andb_true_iff in C as [C ->]. apply andb_true_iff in C as [C1 C2]. apply negb_true_iff in C1.
    intro X. injection X as <- <-. apply en_realloc; auto. now apply GI. }
  assert (OKS : scan = true \/ ~ gone e \/ free fs (fe_first_cluster e)).
  { destruct scan; [auto|]. cbn [negb andb] in C. destruct (is_true (fe_deleted e)) eqn:G; [|right; left; intro Y; apply GI in Y; discriminate].
    cbn [andb] in C. subst al. auto. }
  destruct (fat_read_chain fs (fe_first_cluster e) None) as [buf|x] eqn:ER.
  2:{ rewrite (caught_fat _ (read_chain_err vol voff vsize fs FO _ _ _ Hc ER)). intro X. injection X as <- <-. apply en_unread; auto. intros buf Y. congruence. }
  destruct buf as [|b0 r] eqn:EBUF.
  { intro X. injection X as <- <-. apply en_unread; auto. intros ? Y. congruence. }
  rewrite <- EBUF in *. assert (NE : buf <> []) by (rewrite EBUF; discriminate). clear EBUF b0 r.
  pose proof (names_eqb buf 33 [46; 32]) as NM. change (33 + zlen [46; 32]) with 35 in NM.
  destruct (is_true (fe_deleted e)) eqn:G.
  - assert (GO : gone e) by (now apply GI). rewrite andb_true_r in *.
    destruct (negb scan && negb (list_eqb (slice buf 33 35) [46; 32])) eqn:Q.
    { apply andb_true_iff in Q as [Q1 Q2]. apply negb_true_iff in Q1, Q2. intro X. injection X as <- <-.
      apply en_overwritten with buf; auto; [destruct OKS as [Y|[Y|Y]]; [congruence|contradiction|exact Y]|]. intro Y. apply NM in Y. congruence. }
    assert (OB : okb buf).
    { destruct (read_all_ok vol voff vsize fs B FO _ _ Hc ER) as [Y|Y]; [contradiction|exact Y]. }
    assert (C2 : 2 <= fe_first_cluster e).
    { destruct (Z.lt_ge_cases (fe_first_cluster e) 2) as [L|L]; [|lia]. exfalso. assert (Y : fe_first_cluster e = 0 \/ fe_first_cluster e = 1) by lia.
      apply (read_chain_iff vol voff vsize fs FO) in ER as (cl & EC & HD); auto.
      assert (cl = []) as -> by (destruct Y as [Y|Y]; rewrite Y in EC; cbn in EC; congruence). apply NE. apply HD. }
    destruct (fat_extra fs (fe_first_cluster e) buf) as [b|] eqn:EX; cbn [bind]; [|discriminate]. intro X. injection X as <- <-.
    destruct (extra_spec _ _ _ C2 OB ER EX) as (more & -> & GM). apply en_deleted; auto.
    destruct scan; [auto|]. right. split; [destruct OKS as [Y|[Y|Y]]; [discriminate|contradiction|exact Y]|]. cbn [negb andb] in Q. apply negb_false_iff in Q. now apply NM.
  - rewrite andb_false_r in *. cbn [andb bind]. intro X. injection X as <- <-. apply en_dir; auto. intro Y. apply GI in Y. discriminate.
Qed.

Lemma goes_on_fun c buf m m' : goes_on fs c buf m -> goes_on fs c buf m' -> m = m'.
Proof. intros (_ & _ & G & _) (_ & _ & G' & _). congruence. Qed.

Lemma enters_fun scan st path e st1 sub1 st2 sub2 : enters fs scan st path e st1 sub1 -> enters fs scan st path e st2 sub2 -> st1 = st2 /\ sub1 = sub2.
Proof.
  assert (UF : forall c, in_use fs c -> free fs c -> False) by (intros c [_ X] [_ Y]; auto).
  assert (UT : forall c, in_use fs c -> in_table fs c) by (intros c [X _]; auto).
  assert (FT : forall c, free fs c -> in_table fs c) by (intros c [X _]; auto).
  intros H1 H2. destruct H1, H2; auto; try contradiction; try (exfalso; intuition eauto; congruence).
  all: try (match goal with
    | X : fat_read_chain fs _ None = Ok ?b, Y : forall b, fat_read_chain fs _ None = Ok b -> b = [] |- _ => exfalso; apply Y in X; contradiction end).
  all: try match goal with X : fat_read_chain fs ?c None = Ok ?b, Y : fat_read_chain fs ?c None = Ok ?b' |- _ => assert (b = b') by congruence; subst end; auto.
  all: try (exfalso; intuition eauto; congruence).
  - split; auto. assert (more = more0); [|congruence].
    match goal with X : goes_on _ _ _ more \/ _, Y : goes_on _ _ _ more0 \/ _ |- _ => destruct X as [G1|[-> G1]], Y as [G2|[-> G2]]; auto end.
    + eapply goes_on_fun; eauto.
    + exfalso. eapply G2; eauto.
    + exfalso. eapply G1; eauto.
Qed.
End Enter.

Theorem C39_fat_enter vol voff vsize fs scan st path e st' sub : bytes_ok vol -> 0 <= voff -> fat_fs_open vol voff vsize = Ok fs ->
  0 <= fe_first_cluster e ->
  (fat_enter fs scan st path (FileE e) = Ok (st', sub) <-> enters fs scan st path e st' sub).
Proof.
  intros B V E Hc. pose proof (open_ok _ _ _ _ B V E) as FO. split.
  - now apply (enter_spec vol voff vsize fs B FO).
  - intro H. destruct (enter_total vol voff vsize fs B FO scan st path (FileE e) Hc) as (st2 & sub2 & E2 & _).
    pose proof (enter_spec vol voff vsize fs B FO _ _ _ _ _ _ Hc E2) as H2. destruct (enters_fun fs _ _ _ _ _ _ _ _ H H2) as [-> ->]. exact E2.
Qed.
Print Assumptions C39_fat_enter.

(** Directories that were reallocated and never visited. *)
Theorem C39_fat_orphan vol voff vsize fs st c sub : bytes_ok vol -> 0 <= voff -> fat_fs_open vol voff vsize = Ok fs -> 0 <= c ->
  (fat_orphan fs st c = Ok sub <->
   (exists buf, lost_directory fs c buf /\ sub = Some (buf, orphan_path c)) \/ ((forall buf, ~ lost_directory fs c buf) /\ sub = None)).
Proof.
  intros B V E Hc. pose proof (open_ok _ _ _ _ B V E) as FO. unfold fat_orphan, lost_directory.
  destruct (fat_read_chain fs c None) as [buf|x] eqn:ER.
  - pose proof (names_eqb buf 0 [46; 32]) as N1. change (0 + zlen [46; 32]) with 2 in N1.
    pose proof (names_eqb buf 32 [46; 46; 32]) as N2. change (32 + zlen [46; 46; 32]) with 35 in N2.
    destruct (Z.ltb_spec (zlen buf) 512); cbn [orb].
    { split; [intro X; injection X as <-; right; split; auto; intros b (Q & L & _); injection Q as <-; lia|].
      intros [(b & (Q & L & _) & _)|[_ ->]]; [injection Q as <-; lia|reflexivity]. }
    destruct (list_eqb (slice buf 32 35) [46; 46; 32]); cbn [negb orb].
    2:{ assert (~ names buf 32 [46; 46; 32]) by (intro Y; apply N2 in Y; discriminate).
        split; [intro X; injection X as <-; right; split; auto; intros b (Q & _ & _ & Y); injection Q as <-; auto|].
        intros [(b & (Q & _ & _ & Y) & _)|[_ ->]]; [injection Q as <-; contradiction|reflexivity]. }
    destruct (list_eqb (slice buf 0 2) [46; 32]); cbn [negb orb].
    2:{ assert (~ names buf 0 [46; 32]) by (intro Y; apply N1 in Y; discriminate).
        split; [intro X; injection X as <-; right; split; auto; intros b (Q & _ & Y & _); injection Q as <-; auto|].
        intros [(b & (Q & _ & Y & _) & _)|[_ ->]]; [injection Q as <-; contradiction|reflexivity]. }
    assert (LD : Ok buf = Ok buf /\ 512 <= zlen buf /\ names buf 0 [46; 32] /\ names buf 32 [46; 46; 32]) by (split; [reflexivity|split; [auto|tauto]]).
    split; [intro X; injection X as <-; left; eauto|]. intros [(b & (Q & _) & ->)|[N ->]]; [now injection Q as <-|]. exfalso. eapply N; eauto.
  - rewrite (caught_fat _ (read_chain_err vol voff vsize fs FO _ _ _ Hc ER)).
    split; [intro X; injection X as <-; right; split; auto; intros b (Q & _); discriminate|]. intros [(b & (Q & _) & _)|[_ ->]]; [discriminate|reflexivity].
Qed.
Print Assumptions C39_fat_orphan.

(** ** exFAT *)

Lemma byte_znth s i v : 0 <= i < zlen s -> (byte_at s i = v <-> znth s i = Some v).
Proof.
  intro H. destruct (znth_some s i H) as [u U]. rewrite U. unfold byte_at, fld.
  assert (S : slice s i (i + 1) = [u]); [|rewrite S; cbn [le_val]; split; intro X; [f_equal|injection X as <-]; lia].
  assert (L : zlen (slice s i (i + 1)) = 1) by (rewrite zlen_slice by lia; lia).
  assert (Z0 : znth (slice s i (i + 1)) 0 = Some u) by (rewrite znth_slice by lia; now rewrite Z.add_0_r).
  destruct (slice s i (i + 1)) as [|x [|y t]]; [discriminate| |rewrite !zlen_cons in L; pose proof (zlen_nonneg t); lia].
  cbn in Z0. congruence.
Qed.

Theorem C39_exfat_enter vol voff vsize fs scan st path e st' sub : bytes_ok vol -> 0 <= voff -> x_fs_open vol voff vsize = Ok fs ->
  0 <= xe_first e -> xe_first e - 2 < 8 * zlen (xv_bitmap fs) \/ xv_last fs < xe_first e ->
  (x_enter fs scan st path (XFile e) = Ok (st', sub) <-> x_enters fs scan st path e st' sub).
Proof.
  intros B V E Hc HB. pose proof (x_open_ok _ _ _ _ B V E) as FO. unfold x_enter.
  assert (AL : x_is_allocated (xv_bitmap fs) (xv_last fs) (xe_first e) =
    if (2 <=? xe_first e) && (xe_first e <=? xv_last fs) then Ok (Some (bit_of_cluster (xv_bitmap fs) (xe_first e))) else Ok None).
  { rewrite x_is_allocated_spec by apply FO. destruct ((2 <=? xe_first e) && (xe_first e <=? xv_last fs)) eqn:Q; [|reflexivity].
    apply andb_true_iff in Q as [Q1 Q2]. replace (xe_first e - 2 <? 8 * zlen (xv_bitmap fs)) with true by lia. reflexivity. }
  rewrite AL. destruct ((2 <=? xe_first e) && (xe_first e <=? xv_last fs)) eqn:Q; cbn [bind].
  2:{ assert (N : ~ 2 <= xe_first e <= xv_last fs) by lia. split; [intro X; injection X as <- <-; apply xn_not; lia|]. intro X. destruct X; try lia. reflexivity. }
  assert (R : 2 <= xe_first e <= xv_last fs) by lia. clear AL Q.
  destruct (xe_directory e) eqn:D; cbn [negb].
  2:{ split; [intro X; injection X as <- <-; apply xn_not; auto|]. intro X. destruct X; try congruence. }
  rewrite !noted_set_add.
  destruct (negb scan && xe_deleted e && bit_of_cluster (xv_bitmap fs) (xe_first e)) eqn:C.
  { apply andb_true_iff in C as [C C3]. apply andb_true_iff in C as [C1 C2]. apply negb_true_iff in C1. split.
    - destruct (x_note e (xt_meta st)) as [m|] eqn:N; cbn [bind]; [|discriminate]. intro X. injection X as <- <-. now apply xn_realloc.
    - intro X. destruct X; try lia; try (exfalso; intuition (congruence || lia)). match goal with N : x_note _ _ = Ok _ |- _ => now rewrite N end. }
  assert (OKS : scan = true \/ xe_deleted e = false \/ bit_of_cluster (xv_bitmap fs) (xe_first e) = false).
  { destruct scan; [auto|]. cbn [negb andb] in C. destruct (xe_deleted e); [|auto]. cbn [andb] in C. auto. }
  destruct (x_read_chain fs (xe_first e) (Some (xe_size e)) (xe_no_chain e)) as [buf|x] eqn:ER.
  - destruct buf as [|b0 r] eqn:EBUF.
    + split; [intro X; injection X as <- <-; apply xn_unread; auto; intros ? Y; congruence|].
      intro X. destruct X; try lia; try (exfalso; intuition (congruence || lia)). reflexivity.
    + rewrite <- EBUF in *. assert (NE : buf <> []) by (rewrite EBUF; discriminate). clear EBUF b0 r. split.
      * intro X. injection X as <- <-. now apply xn_dir.
      * intro X. destruct X; try lia; try (exfalso; intuition (congruence || lia)).
        all: first [unfold slash; congruence|exfalso; apply NE; match goal with Y : forall b, _ = Ok b -> b = [] |- _ => now apply Y end].
  - rewrite (chain_err vol voff vsize fs FO _ _ _ _ Hc ER). split; [intro X; injection X as <- <-; apply xn_unread; auto; intros ? Y; congruence|].
    intro X. destruct X; try lia; try (exfalso; intuition (congruence || lia)). reflexivity.
Qed.
Print Assumptions C39_exfat_enter.

Theorem C39_exfat_orphan vol voff vsize fs st c sub : bytes_ok vol -> 0 <= voff -> x_fs_open vol voff vsize = Ok fs ->
  0 <= c -> meta_get c (xt_meta st) <> None ->
  (x_orphan_dir fs st c = Ok sub <->
   (exists buf, x_lost_directory fs st c buf /\ sub = Some (buf, orphan_path c)) \/ ((forall buf, ~ x_lost_directory fs st c buf) /\ sub = None)).
Proof.
  intros B V E Hc HM. pose proof (x_open_ok _ _ _ _ B V E) as FO. unfold x_orphan_dir, x_lost_directory.
  destruct (meta_get c (xt_meta st)) as [[[t size] nc]|] eqn:M; [|congruence]. clear HM.
  destruct (x_read_chain fs c (Some size) nc) as [buf|x] eqn:ER.
  2:{ rewrite (chain_err vol voff vsize fs FO _ _ _ _ Hc ER).
      split; [intro X; injection X as <-; right; split; auto; intros b (? & ? & ? & Q & Q2 & _); congruence|].
      intros [(b & (? & ? & ? & Q & Q2 & _) & _)|[_ ->]]; [congruence|reflexivity]. }
  assert (LD : forall b, (exists t' size' nc', Some (t, size, nc) = Some (t', size', nc') /\ x_read_chain fs c (Some size') nc' = Ok b /\ 512 <= zlen b /\
    znth b 0 = Some (0x85 - 0x80) /\ znth b 32 = Some (0xC0 - 0x80) /\ znth b 64 = Some (0xC1 - 0x80)) <->
    b = buf /\ (zlen buf <? 512) || negb (byte_at buf 0 =? 5) || negb (byte_at buf 32 =? 64) || negb (byte_at buf 64 =? 65) = false).
  { intro b. split.
    - intros (t' & size' & nc' & Q & R & L & Z0 & Z1 & Z2). injection Q as <- <- <-. rewrite ER in R. injection R as <-. split; auto.
      replace (zlen buf <? 512) with false by lia.
      apply byte_znth in Z0, Z1, Z2; lia.
    - intros [-> Q]. repeat (apply orb_false_iff in Q as [Q ?]). bools.
      exists t, size, nc. split; auto. split; auto. split; [lia|]. split; [|split]; (apply byte_znth; [lia|]; lia). }
  destruct ((zlen buf <? 512) || negb (byte_at buf 0 =? 5) || negb (byte_at buf 32 =? 64) || negb (byte_at buf 64 =? 65)) eqn:Q.
  - split; [intro X; injection X as <-; right; split; auto; intros b Y; apply LD in Y as [_ Y]; discriminate|].
    intros [(b & Y & _)|[_ ->]]; [apply LD in Y as [_ Y]; discriminate|reflexivity].
  - split; [intro X; injection X as <-; left; exists buf; split; auto; apply LD; auto|].
    intros [(b & Y & ->)|[Y ->]]; [apply LD in Y as [-> _]; reflexivity|exfalso; apply (Y buf), LD; auto].
Qed.
Print Assumptions C39_exfat_orphan.

(** ** C68: FSINFO *)

Theorem C68_fsinfo res1 res2 free next : zlen res1 = 480 -> zlen res2 = 12 -> 0 <= free < 2 ^ 32 -> 0 <= next < 2 ^ 32 ->
  fsinfo_open (fsinfo_image res1 res2 free next) = Ok (free, next).
Proof.
  intros L1 L2 HF HN. unfold fsinfo_image.
  set (img := [0x52; 0x52; 0x61; 0x41] ++ _).
  assert (A0 : slice img 0 4 = [0x52; 0x52; 0x61; 0x41]) by (apply (slice_app_mid [] [0x52; 0x52; 0x61; 0x41]); reflexivity).
  assert (A1 : slice img 484 488 = [0x72; 0x72; 0x41; 0x61]).
  { unfold img. rewrite app_assoc. apply slice_app_mid; rewrite ?zlen_app, ?L1; reflexivity. }
  assert (A2 : slice img 488 492 = le_bytes 4 free).
  { unfold img. rewrite 2 app_assoc. apply slice_app_mid; rewrite ?zlen_app, ?L1; reflexivity. }
  assert (A3 : slice img 492 496 = le_bytes 4 next).
  { unfold img. rewrite 3 app_assoc. apply slice_app_mid; rewrite ?zlen_app, ?L1; reflexivity. }
  assert (A4 : slice img 508 512 = [0; 0; 0x55; 0xAA]).
  { unfold img. rewrite 5 app_assoc. rewrite <- (app_nil_r [0; 0; 85; 170]) at 1. apply slice_app_mid; rewrite ?zlen_app, ?L1, ?L2; reflexivity. }
  assert (LEN : zlen img = 512) by (unfold img; rewrite ?zlen_app, L1, L2; reflexivity). clearbody img.
  unfold fsinfo_open, u32. rewrite !unp_ok by (rewrite ?LEN; lia). cbn [bind]. unfold fld. rewrite ?A0, ?A1, ?A2, ?A3, ?A4.
  change (0 + 4) with 4. change (484 + 4) with 488. change (508 + 4) with 512. change (488 + 4) with 492. change (492 + 4) with 496. rewrite A0, A1, A2, A3, A4.
  change ((le_val [82; 82; 97; 65] =? 1096897106) && (le_val [114; 114; 65; 97] =? 1631679090) && (le_val [0; 0; 85; 170] =? 2857697280)) with true.
  cbn [bind]. rewrite !le_val_le_bytes by (cbn; lia). reflexivity.
Qed.
Print Assumptions C68_fsinfo.

Theorem C68_fsinfo_only : forall b free next, bytes_ok b -> fsinfo_open b = Ok (free, next) ->
  512 <= zlen b /\ fld 4 b 0 = 0x41615252 /\ fld 4 b 484 = 0x61417272 /\ fld 4 b 508 = 0xAA550000 /\ free = fld 4 b 488 /\ next = fld 4 b 492.
Proof.
  intros b free next B E. unfold fsinfo_open in E.
  apply bind_ok in E as (s1 & S1 & E). apply bind_ok in E as (s2 & S2 & E). apply bind_ok in E as (s3 & S3 & E).
  apply unp_inv in S1 as [? S1]; [|lia|lia]. apply unp_inv in S2 as [? S2]; [|lia|lia]. apply unp_inv in S3 as [? S3]; [|lia|lia].
  destruct (_ && _) eqn:C in E; [|discriminate]. cbn [negb] in E. bools.
  apply bind_ok in E as (x & X & E). apply bind_ok in E as (y & Y & E). apply unp_inv in X as [? X]; [|lia|lia]. apply unp_inv in Y as [? Y]; [|lia|lia].
  injection E as <- <-. repeat split; congruence || lia.
Qed.
Print Assumptions C68_fsinfo_only.

(** ** Examples *)

Example C40_layout_example :
  match fat_fs_open ex_volume 0 None with
  | Ok fs => f_off (fs_fat fs) = 512 /\ f_size (fs_fat fs) = 512 /\ f_last (fs_fat fs) = 5 /\ g_data (fs_geo fs) = 1536 /\ g_cs (fs_geo fs) = 512 /\
      is_allocated (fs_fat fs) 3 = Ok (Some true) /\ is_allocated (fs_fat fs) 4 = Ok (Some false) /\ is_allocated (fs_fat fs) 6 = Ok None
  | Err _ => False
  end.
Proof. vm_compute. repeat split; reflexivity. Qed.

(** A FAT32 volume with three tables that uses the third one. *)
Definition ex_boot32 (flags : Z) : list Z :=
  [0xEB; 0x58; 0x90] ++ zeros 8 ++ [0; 2; 1; 2; 0; 3; 0; 0; 20; 0; 0xF8; 0; 0] ++ zeros 8 ++ [0; 0; 0; 0; 1; 0; 0; 0; flags; 0; 0; 0; 2; 0; 0; 0] ++
  zeros 462 ++ [0x55; 0xAA].
Example C40_layout_example32 :
  table_in_use true (ex_boot32 0x82) = 2 /\ table_in_use true (ex_boot32 0x02) = 0 /\ table_in_use true (ex_boot32 0x83) = 0 /\
  fat_offset_and_size true (ex_boot32 0x82) = Ok (2048, 512, 16) /\ fat_offset_and_size true (ex_boot32 0x83) = Ok (1024, 512, 16) /\
  data_sector true (ex_boot32 0x82) = 5.
Proof. vm_compute. repeat split; reflexivity. Qed.

(** A deleted directory in cluster 2 that goes on in cluster 3.  Its first
    entry in the table is [link]: with 0 the directory is read with the next
    cluster; with another value it is reallocated and only found as a lost one. *)
Definition ex_deleted (link : Z) : list Z :=
  ex_boot 7 ++ ([0xF8; 0xFF; 0xFF; link; 0; 0] ++ zeros 506) ++
  ex_sector [ex_entry (ex_name 0xE5) 0x10 2 0; ex_entry (ex_name 65) 0x20 4 3] ++
  ex_sector ([ex_entry (ex_name 46) 0x10 2 0; ex_entry (46 :: 46 :: repeat 32 9) 0x10 0 0] ++ repeat (ex_entry (ex_name 0xE5) 0x20 0 0) 13 ++ [ex_entry (ex_name 84) 0x20 4 5]) ++
  ex_sector [ex_entry (ex_name 85) 0x20 4 5] ++ zeros 1024.
Definition ex_shorts (link : Z) : list (list Z) :=
  match fat_fs_open (ex_deleted link) 0 None with
  | Ok fs => filter (fun n => negb ((last n 0 =? 95) && (zlen n =? 4))) (map (fun i => match i with FileE e => fe_short e | OrphanE _ => [] end) (fst (fat_walk (fun x => x) (fun x => x) fs false)))
  | Err _ => []
  end.
Example C39_enter_example :
  ex_shorts 0 = [[47; 95]; [47; 95; 47; 46]; [47; 95; 47; 46; 46]; [47; 95; 47; 84]; [47; 95; 47; 85]; [47; 65]].
Proof. vm_compute. reflexivity. Qed.
Example C39_orphan_example :
  map (fun n => (zlen n, last n 0)) (ex_shorts 1) = [(2, 95); (2, 65); (22, 46); (23, 46)] ++ repeat (22, 95) 13 ++ [(22, 84)].
Proof. vm_compute. reflexivity. Qed.

Example C68_fsinfo_example : fsinfo_open (fsinfo_image (zeros 480) (zeros 12) 0x11223344 0x55667788) = Ok (0x11223344, 0x55667788) /\
  fsinfo_open (zeros 512) = Err FSINFOException.
Proof. vm_compute. split; reflexivity. Qed.
