(** Proofs for the FAT file system parser. *)
From Verif Require Import Base BaseLemmas FieldLemmas FatBasic FatBoot FatTable FatDir FatSpec FatDirSpec FatProofs FatDirProofs.
From Verif Require Import DirWalk DirWalkSpec DirWalkProofs ClusterRead ClusterReadSpec ClusterReadProofs FatFs FatFsSpec Properties_FatDir.

(** ** Opening *)

Record fs_ok (vol : list Z) (voff : Z) (vsize : option Z) (fs : fat_fs) : Prop := {
  fo_fat : fat_ok (fs_fat fs);
  fo_type : f_type (fs_fat fs) = fs_type fs;
  fo_table : f_data (fs_fat fs) = vol;
  fo_vol : g_vol (fs_geo fs) = vol;
  fo_voff : g_voff (fs_geo fs) = voff;
  fo_vsize : g_vsize (fs_geo fs) = vsize;
  fo_cs : 512 <= g_cs (fs_geo fs);
  fo_cs512 : g_cs (fs_geo fs) mod 512 = 0;
  fo_data : 0 <= g_data (fs_geo fs) }.

Lemma bps_vals buf v : bytspersec buf = Ok v -> v = 512 \/ v = 1024 \/ v = 2048 \/ v = 4096.
Proof. unfold bytspersec. destruct (zin _ _) eqn:E; [|discriminate]. intro X. injection X as <-. apply zin_In in E. cbn [In] in E. intuition. Qed.

Lemma spc_vals buf v : secperclus buf = Ok v -> 1 <= v <= 256.
Proof. unfold secperclus. cbv zeta. destruct (zin _ _) eqn:E; [|discriminate]. intro X. injection X as <-. apply zin_In in E. cbn [In] in E. lia. Qed.

Lemma fat_open_ok data off size last type f : bytes_ok data -> 0 <= off -> fat_open data off size last type = Ok f ->
  f = mk_fat data off size last type /\ fat_ok f.
Proof.
  intros B O. unfold fat_open. destruct (zin type [12; 16; 32]) eqn:T; cbn [negb]; [|discriminate].
  destruct ((0 <? off) && _); [discriminate|]. destruct (size <? 512) eqn:S; cbn [orb]; [discriminate|]. destruct (negb _); [discriminate|].
  intro X. injection X as <-. split; auto. apply zin_In in T. repeat split; cbn [f_type f_off f_size f_data]; auto. lia.
Qed.

Lemma fos_nonneg f32 buf o s l : bytes_ok buf -> fat_offset_and_size f32 buf = Ok (o, s, l) -> 0 <= o.
Proof.
  intros B. unfold fat_offset_and_size. 
  assert (R : forall v, rsvdseccnt buf = Ok v -> 0 <= v).
  { unfold rsvdseccnt. cbv zeta. intro v. destruct (_ =? 0); [discriminate|]. intro X. injection X as <-. now apply fld_nonneg. }
  destruct (extflags f32 buf) as [[a d]|] eqn:EX.
  - assert (A : 0 <= a). { unfold extflags in EX. destruct (negb f32); [discriminate|]. injection EX as <- _. apply Z.land_nonneg. right. lia. }
    match goal with |- (let! num := ?t in _) = _ -> _ => destruct t as [num|] eqn:EN; cbn [bind]; [|discriminate] end.
    assert (N : 0 <= num).
    { destruct (negb d); [injection EN as <-; lia|]. destruct (numfats buf); cbn [bind] in EN; [|discriminate]. injection EN as <-. destruct (_ <? _); lia. }
    destruct (rsvdseccnt buf) as [r|] eqn:ER; cbn [bind]; [|discriminate].
    destruct (fatsz32 f32 buf) as [[sz|]|] eqn:ES; cbn [bind]; try discriminate.
    destruct (bytspersec buf) as [b|] eqn:EB; cbn [bind]; [|discriminate]. destruct (count_of_clusters f32 buf); cbn [bind]; [|discriminate].
    intro X. injection X as <- _ _. specialize (R _ eq_refl). apply bps_vals in EB.
    assert (0 <= sz). { unfold fatsz32 in ES. destruct (negb f32); [discriminate|]. destruct (_ =? 0); [discriminate|]. injection ES as <-. now apply fld_nonneg. }
    nia.
  - destruct (rsvdseccnt buf) as [r|] eqn:ER; cbn [bind]; [|discriminate].
    destruct (bytspersec buf) as [b|] eqn:EB; cbn [bind]; [|discriminate].
    destruct (fatsz16 f32 buf); cbn [bind]; [|discriminate]. destruct (count_of_clusters f32 buf); cbn [bind]; [|discriminate].
    intro X. injection X as <- _ _. specialize (R _ eq_refl). apply bps_vals in EB. nia.
Qed.

Theorem open_ok vol voff vsize fs : bytes_ok vol -> 0 <= voff -> fat_fs_open vol voff vsize = Ok fs -> fs_ok vol voff vsize fs.
Proof.
  intros B V. unfold fat_fs_open, read_at. destruct (too_small vsize 4096); [discriminate|].
  destruct (Z.ltb_spec voff 0); [lia|]. cbn [bind]. 
  assert (BB : bytes_ok (slice vol voff (voff + 512))) by (now apply bytes_ok_slice).
  set (buf := slice vol voff (voff + 512)) in *. clearbody buf.
  destruct (bsbpb_open buf false) as [f32|]; cbn [bind]; [|discriminate].
  destruct (fat_type_of f32 buf) as [type|]; cbn [bind]; [|discriminate].
  destruct (bytspersec buf) as [bps|] eqn:EB; cbn [bind]; [|discriminate]. apply bps_vals in EB.
  destruct (secperclus buf) as [spc|] eqn:ES; cbn [bind]; [|discriminate]. apply spc_vals in ES.
  destruct (fat_offset_and_size f32 buf) as [[[off size] last]|] eqn:EO; cbn [bind]; [|discriminate]. apply fos_nonneg in EO; auto.
  destruct (fat_open vol (voff + off) size last type) as [f|] eqn:EF; cbn [bind]; [|discriminate].
  apply fat_open_ok in EF as [EF FO]; auto; [|lia].
  destruct (rsvdseccnt buf) as [r|] eqn:ER; cbn [bind]; [|discriminate].
  destruct (numfats buf) as [nf|] eqn:EN; cbn [bind]; [|discriminate].
  assert (R : 0 <= r). { unfold rsvdseccnt in ER. cbv zeta in ER. destruct (_ =? 0); [discriminate|]. injection ER as <-. now apply fld_nonneg. }
  assert (N : 0 <= nf). { unfold numfats in EN. cbv zeta in EN. destruct (_ =? 0); [discriminate|]. injection EN as <-. now apply fld_nonneg. }
  destruct (type =? 32).
  - destruct (fatsz32 f32 buf) as [[sz|]|] eqn:EZ; cbn [bind]; try discriminate. intro X. injection X as <-.
    assert (0 <= sz). { unfold fatsz32 in EZ. destruct (negb f32); [discriminate|]. destruct (_ =? 0); [discriminate|]. injection EZ as <-. now apply fld_nonneg. }
    constructor; cbn; auto; try (rewrite EF; reflexivity); destruct EB as [->|[->|[->| ->]]]; try lia; nia.
  - destruct (rootentcnt f32 buf) as [re|] eqn:EE; cbn [bind]; [|discriminate].
    destruct (fatsz16 f32 buf) as [sz|] eqn:EZ; cbn [bind]; [|discriminate]. intro X. injection X as <-.
    assert (0 <= sz). { unfold fatsz16 in EZ. cbv zeta in EZ. destruct (_ && _); [discriminate|]. injection EZ as <-. now apply fld_nonneg. }
    assert (0 <= re). { unfold rootentcnt in EE. cbv zeta in EE. destruct (_ && _); [discriminate|]. injection EE as <-. now apply fld_nonneg. }
    assert (0 <= (re * 32 + bps - 1) / bps) by (apply Z.div_pos; lia).
    constructor; cbn; auto; try (rewrite EF; reflexivity); destruct EB as [->|[->|[->| ->]]]; try lia; nia.
Qed.

(** ** Reading *)

Section Fs.
Variables (vol : list Z) (voff : Z) (vsize : option Z) (fs : fat_fs).
Hypothesis B : bytes_ok vol.
Hypothesis V : 0 <= voff.
Hypothesis FO : fs_ok vol voff vsize fs.

Lemma read_chain_iff first size d : 0 <= first ->
  (fat_read_chain fs first size = Ok d <-> exists cl, fat_chain (fs_fat fs) first = Ok cl /\ holds (fs_geo fs) size cl d).
Proof.
  intro H. unfold fat_read_chain. pose proof (fo_cs _ _ _ _ FO) as C. destruct (fat_chain (fs_fat fs) first) as [cl|e]; cbn [bind].
  - rewrite read_clusters_iff by lia. split; [eauto|]. intros (cl' & E & X). congruence.
  - split; [discriminate|]. intros (cl' & E & X). congruence.
Qed.

Lemma read_chain_err first size e : 0 <= first -> fat_read_chain fs first size = Err e -> e = FileAllocationTableException \/ e = ValueError.
Proof.
  intro H. unfold fat_read_chain. destruct (fat_chain (fs_fat fs) first) as [cl|x] eqn:E; cbn [bind].
  - intro X. right. eauto using read_clusters_err.
  - intro X. injection X as ->. left. pose proof (fat_chain_total (fs_fat fs) first (fo_fat _ _ _ _ FO) H) as T. rewrite E in T. congruence.
Qed.

(** Directory data: whole clusters. *)
Definition okb (b : list Z) : Prop := bytes_ok b /\ 512 <= zlen b /\ zlen b mod 512 = 0.

Lemma cluster_bytes_ok c : bytes_ok (cluster_data (fs_geo fs) c).
Proof. destruct c as [c|]; cbn [cluster_data]; [apply bytes_ok_slice; rewrite (fo_vol _ _ _ _ FO); auto|apply bytes_ok_zeros]. Qed.

Lemma read_all_ok first d : 0 <= first -> fat_read_chain fs first None = Ok d -> d = [] \/ okb d.
Proof.
  intros H E. apply read_chain_iff in E as (cl & E & X); auto. pose proof (fo_cs _ _ _ _ FO) as C. pose proof (fo_cs512 _ _ _ _ FO) as C5.
  pose proof (holds_length (fs_geo fs) _ _ _ ltac:(lia) X) as L. destruct X as [_ ->]. destruct cl as [|c r]; [left; reflexivity|]. right.
  rewrite zlen_cons in L. pose proof (zlen_nonneg r). split; [|split].
  - clear -FO B. induction (c :: r) as [|x l IH]; [constructor|]. cbn [map concat]. apply bytes_ok_app. split; auto. apply cluster_bytes_ok.
  - nia.
  - rewrite L. rewrite Z.mul_mod, C5 by lia. reflexivity.
Qed.

Lemma read_all_nonempty first d : 2 <= first -> fat_read_chain fs first None = Ok d -> okb d.
Proof.
  intros H E. destruct (read_all_ok first d) as [->|X]; auto; [lia|]. exfalso.
  apply read_chain_iff in E as (cl & E & X); [|lia]. pose proof (fo_cs _ _ _ _ FO) as C.
  pose proof (holds_length (fs_geo fs) _ _ _ ltac:(lia) X) as L.
  assert (NB : first <> fat_bad (fs_fat fs)).
  { intros ->. unfold fat_chain in E. replace (fat_bad (fs_fat fs) =? 0) with false in E by lia. replace (fat_bad (fs_fat fs) =? 1) with false in E by lia. rewrite Z.eqb_refl in E. discriminate. }
  apply fat_chain_iff in E; auto; [|apply FO]. 
  assert (NE : cl <> []) by (inversion E; discriminate). destruct cl as [|c r]; [congruence|]. rewrite zlen_cons in L. pose proof (zlen_nonneg r). change (zlen []) with 0 in L. nia.
Qed.

Lemma allocated_range c al : 0 <= c -> is_allocated (fs_fat fs) c = Ok (Some al) -> c < f_size (fs_fat fs).
Proof.
  intros H. unfold is_allocated. destruct (get_element (fs_fat fs) c) as [v|x] eqn:E; [|destruct x; discriminate]. intros _.
  apply get_element_iff in E as [[E1 E2] _]; auto; [|apply FO]. pose proof (fo_fat _ _ _ _ FO) as (T & O & S & _). cbn [In] in T.
  unfold table in E2. rewrite zlen_slice in E2 by lia. nia.
Qed.

Lemma allocated_total c : 0 <= c -> exists al, is_allocated (fs_fat fs) c = Ok al.
Proof.
  intro H. unfold is_allocated. rewrite get_element_spec; auto; [|apply FO]. destruct (entryb _ _); eauto.
Qed.

Definition oke (i : dir_item) : Prop := match i with FileE e => 0 <= fe_first_cluster e | OrphanE _ => True end.

Lemma entries_oke dec lower is32 buf es fin : bytes_ok buf -> dir_entries dec lower is32 false buf = (es, fin) -> Forall oke es.
Proof.
  intros BB E. destruct (Z.lt_ge_cases (zlen buf) 512); [rewrite C36_sizes in E by lia; injection E as <- <-; constructor|].
  destruct (Z.eq_dec (zlen buf mod 512) 0) as [M|M]; [|rewrite C36_sizes in E by lia; injection E as <- <-; constructor].
  destruct (C36_entries dec lower is32 buf BB ltac:(lia) M) as [_ D]. rewrite E in D. cbn [fst] in D. apply Forall_forall. intros [e|o] X; cbn [oke]; auto.
  destruct (D e X) as (p & s & q & _ & F & _ & DE & _). rewrite (d_cluster _ _ _ DE).
  apply Forall_app in F as [_ F]. inversion F as [|? ? [BS _] _]; subst. pose proof (fld_nonneg 2 s 26 BS). pose proof (fld_nonneg 2 s 20 BS).
  destruct is32; lia.
Qed.

Lemma caught_fat e : e = FileAllocationTableException \/ e = ValueError -> fat_caught e = true.
Proof. intros [->| ->]; reflexivity. Qed.

Lemma from_end_ok buf n : 1 <= n <= zlen buf -> exists v, from_end buf n = Ok v.
Proof. intro H. unfold from_end. destruct (znth_some buf (zlen buf - n) ltac:(lia)) as [v ->]. eauto. Qed.

Lemma bufs_match_ok b1 b2 : okb b1 -> okb b2 -> exists m, bufs_match b1 b2 = Ok m.
Proof.
  intros (_ & L1 & _) (_ & L2 & _). unfold bufs_match.
  destruct (from_end_ok b1 96 ltac:(lia)) as [v1 ->]. cbn [bind]. destruct (_ =? 0); [eauto|].
  destruct (from_end_ok b1 64 ltac:(lia)) as [v2 ->]. cbn [bind]. destruct (_ =? 0); [eauto|].
  destruct (from_end_ok b1 32 ltac:(lia)) as [v3 ->]. cbn [bind]. destruct (_ =? 0); [eauto|].
  destruct b2 as [|x b2]; [cbn in L2; lia|]. destruct (x =? 0); eauto.
Qed.

Lemma extra_ok c buf : 2 <= c -> okb buf -> fat_read_chain fs c None = Ok buf ->
  exists b, fat_extra fs c buf = Ok b /\ okb b /\ (b = buf \/ exists e, fat_read_chain fs (c + 1) None = Ok e /\ b = buf ++ e).
Proof.
  intros H OB E. unfold fat_extra. apply read_chain_iff in E as (cl & E & _); [|lia]. rewrite E. cbn [bind].
  destruct (negb _); [exists buf; auto|]. destruct (allocated_total (c + 1) ltac:(lia)) as [al ->]. cbn [bind].
  destruct al as [[|]|]; [exists buf; auto| |exists buf; auto].
  destruct (fat_read_chain fs (c + 1) None) as [e|x] eqn:EX.
  - pose proof (read_all_nonempty (c + 1) _ ltac:(lia) EX) as OE. destruct (bufs_match_ok _ _ OB OE) as [m ->]. cbn [bind].
    destruct m; [|exists buf; auto]. exists (buf ++ e). split; auto. split; [|right; eauto].
    destruct OB as (X1 & X2 & X3), OE as (Y1 & Y2 & Y3). split; [apply bytes_ok_app; auto|]. rewrite zlen_app. lia.
  - rewrite (caught_fat _ (read_chain_err (c + 1) _ _ ltac:(lia) EX)). exists buf. auto.
Qed.

Definition oks (st : fat_state) : Prop := Forall (fun c => 0 <= c) (fst st).
Definition okc (st : fat_state) (c : Z) : Prop := 0 <= c.

Lemma set_add_ok x l : 0 <= x -> Forall (fun c => 0 <= c) l -> Forall (fun c => 0 <= c) (set_add x l).
Proof. intros H F. unfold set_add. destruct (zin x l); auto. apply Forall_app. auto. Qed.

(** Entering a directory never fails. *)
Lemma enter_total scan st path i : oke i ->
  exists st' sub, fat_enter fs scan st path i = Ok (st', sub) /\ (oks st -> oks st') /\
    match sub with
    | None => True
    | Some (buf, p) => okb buf /\ exists c, fat_kind i = KDir c /\ 2 <= c < f_size (fs_fat fs)
    end.
Proof.
  intros OE. unfold fat_enter. destruct i as [e|o]; [|eauto 10].
  cbn [oke] in OE. unfold fat_kind. destruct (fe_directory e && negb (is_dot (fe_short e))) eqn:D; cbn [negb andb]; [|eauto 10].
  set (c := fe_first_cluster e) in *. destruct (allocated_total c OE) as [al EA]. rewrite EA. cbn [bind].
  destruct al as [al|]; [|eauto 10].
  destruct (negb scan && is_true (fe_deleted e) && al).
  { eexists _, None. split; [reflexivity|]. split; auto. unfold oks. cbn [fst]. intro. now apply set_add_ok. }
  destruct (fat_read_chain fs c None) as [buf|x] eqn:ER.
  2:{ rewrite (caught_fat _ (read_chain_err _ _ _ OE ER)). eexists _, None. split; [reflexivity|]. split; auto. }
  destruct (read_all_ok _ _ OE ER) as [->|OB]; [eexists _, None; split; [reflexivity|]; split; auto|].
  assert (C2 : 2 <= c).
  { destruct (Z.lt_ge_cases c 2); [|auto]. exfalso. assert (E : c = 0 \/ c = 1) by lia. apply read_chain_iff in ER as (cl & EC & X); auto.
    assert (cl = []) as -> by (destruct E as [E|E]; rewrite E in EC; cbn in EC; congruence).
    destruct X as [_ ->]. destruct OB as (_ & L & _). cbn in L. lia. }
  pose proof (allocated_range _ _ OE EA) as CR.
  destruct buf as [|b0 buf0] eqn:EBUF; [destruct OB as (_ & L & _); cbn in L; lia|]. rewrite <- EBUF in *. clear EBUF b0 buf0.
  destruct (negb scan && is_true (fe_deleted e) && negb (list_eqb (slice buf 33 35) [46; 32])); [eexists _, None; split; [reflexivity|]; split; auto|].
  assert (K : exists c', (if negb (c =? 0) then KDir c else KFile) = KDir c' /\ 2 <= c' < f_size (fs_fat fs)).
  { exists c. replace (c =? 0) with false by lia. cbn [negb]. auto. }
  destruct (is_true (fe_deleted e)).
  - destruct (extra_ok c buf C2 OB ER) as (b & -> & OB' & _). cbn [bind]. eexists _, (Some _). split; [reflexivity|]. split; auto.
  - cbn [bind]. eexists _, (Some _). split; [reflexivity|]. split; auto.
Qed.

Lemma orphan_total st c : 0 <= c -> exists r, fat_orphan fs st c = Ok r /\ match r with None => True | Some (b, _) => okb b end.
Proof.
  intro H. unfold fat_orphan. destruct (fat_read_chain fs c None) as [buf|x] eqn:ER.
  - assert (X : zlen buf < 512 \/ okb buf) by (destruct (read_all_ok _ _ H ER) as [->|OB]; [left; cbn; lia|auto]).
    destruct (Z.ltb_spec (zlen buf) 512); [exists None; auto|]. cbn [orb]. destruct (_ || _); [exists None; auto|].
    exists (Some (buf, orphan_path c)). split; auto. destruct X; [lia|auto].
  - rewrite (caught_fat _ (read_chain_err _ _ _ H ER)). exists None. auto.
Qed.

Variables (dec lower : list Z -> list Z) (scan : bool).
Let W := fat_walker dec lower fs scan.
Let n := f_size (fs_fat fs).

Lemma W_entries path buf es fin : okb buf -> w_entries W path buf = (es, fin) -> Forall oke es.
Proof. intros (OB & _) E. exact (entries_oke _ _ _ _ _ _ OB E). Qed.

Lemma W_enter st path e st' buf path' : oke e -> w_enter W st path e = Ok (st', Some (buf, path')) ->
  okb buf /\ exists c, w_kind W e = KDir c /\ 0 <= c < n.
Proof.
  intros OE E. destruct (enter_total scan st path e OE) as (st2 & sub & E2 & _ & X). cbn [W fat_walker w_enter] in E. rewrite E in E2. injection E2 as <- <-.
  destruct X as (OB & c & K & R). split; auto. exists c. split; auto. unfold n. lia.
Qed.

Lemma W_state st path e st' sub : oks st -> oke e -> w_enter W st path e = Ok (st', sub) -> oks st' /\ forall c, okc st c -> okc st' c.
Proof.
  intros OS OE E. destruct (enter_total scan st path e OE) as (st2 & sub2 & E2 & X & _). cbn [W fat_walker w_enter] in E. rewrite E in E2. injection E2 as <- <-. auto.
Qed.

Lemma W_orphans st : oks st -> Forall (okc st) (w_orphans W st).
Proof. intro OS. cbn [W fat_walker w_orphans]. apply Forall_forall. intros x X. apply filter_In in X as [X _]. unfold oks in OS. rewrite Forall_forall in OS. now apply OS. Qed.

Lemma W_orphan st c buf path : oks st -> okc st c -> w_orphan W st c = Ok (Some (buf, path)) -> okb buf.
Proof. intros OS OC E. destruct (orphan_total st c OC) as (r & E2 & X). cbn [W fat_walker w_orphan] in E. rewrite E in E2. injection E2 as <-. auto. Qed.

Theorem fat_walk_iff fuel st buf stack g : (Z.to_nat n < fuel)%nat -> okb buf -> oks st ->
  (walk_from W fuel st buf stack = g <-> full_walk W st buf stack g).
Proof. intros. apply (walk_iff W n okb oke W_entries W_enter oks okc W_state W_orphans W_orphan); auto. Qed.

Theorem fat_walk_origin st buf stack l x : okb buf -> oks st -> full_walk W st buf stack (l, Raised x) -> x = TypeError.
Proof.
  intros OB OS H. pose proof (walk_origin W n okb oke W_entries W_enter oks okc W_state W_orphans W_orphan _ _ _ _ _ OB OS H) as O.
  destruct O as [path b es Ob E|path e Oe E|st0 path e Os Oe E|st0 c Os Oc E]; cbn [W fat_walker w_entries w_emit w_enter w_orphan] in E.
  - destruct Ob as (O1 & O2 & O3). destruct (C36_entries dec lower (fs_type fs =? 32) b O1 O2 O3) as [D _]. rewrite E in D. discriminate.
  - destruct e as [e|[nm|]]; cbn in E; congruence.
  - destruct (enter_total scan st0 path e Oe) as (st2 & sub2 & E2 & _). congruence.
  - destruct (orphan_total st0 c Oc) as (r & E2 & _). congruence.
Qed.

Lemma root_ok buf stack visited : fat_root fs = Ok (buf, stack, visited) -> bytes_ok buf /\ oks ([], visited) /\ 0 < zlen buf.
Proof.
  unfold fat_root. destruct (fs_type fs =? 32).
  - destruct (rootclus (fs_f32 fs) (fs_boot fs)) as [[c|]|] eqn:ER; cbn [bind]; try discriminate.
    assert (2 <= c). { unfold rootclus in ER. destruct (negb _); [discriminate|]. cbv zeta in ER. destruct (_ <? 2) eqn:L; [discriminate|]. injection ER as <-. lia. }
    destruct (fat_read_chain fs c None) as [b|] eqn:EC; cbn [bind]; [|discriminate]. intro X. injection X as <- <- <-.
    destruct (read_all_nonempty _ _ H EC) as (X1 & X2 & _). split; auto. split; [constructor|lia].
  - destruct (rsvdseccnt _) as [r|]; cbn [bind]; [|discriminate]. destruct (fatsz16 _ _) as [sz|]; cbn [bind]; [|discriminate]. destruct (numfats _) as [nf|]; cbn [bind]; [|discriminate].
    destruct (bytspersec _) as [bps|]; cbn [bind]; [|discriminate]. destruct (rootentcnt _ _) as [re|] eqn:ERE; cbn [bind]; [|discriminate].
    destruct (Z.eqb_spec (re * 32) 0); [discriminate|]. destruct (read_at _ _ _) as [b|] eqn:ERD; cbn [bind]; [|discriminate].
    destruct (Z.eqb_spec (zlen b) (re * 32)) as [E|E]; cbn [negb]; [|discriminate].
    intro X. injection X as <- <- <-. pose proof (zlen_nonneg b). split; [|split; [constructor|lia]].
    unfold read_at in ERD. destruct (_ <? 0); [discriminate|]. injection ERD as <-. apply bytes_ok_slice. rewrite (fo_vol _ _ _ _ FO). auto.
Qed.

(** ** Undamaged volumes *)

Lemma with_slash_join path nm : with_slash path ++ nm = if (0 <? zlen path) && (last path 0 =? 47) then path ++ nm else path ++ [47] ++ nm.
Proof.
  unfold with_slash, slash. destruct path as [|x p]; [reflexivity|]. set (path := x :: p).
  replace (0 <? zlen path) with true by (unfold path; rewrite zlen_cons; pose proof (zlen_nonneg p); lia). cbn [andb].
  destruct (last path 0 =? 47); [reflexivity|]. now rewrite <- app_assoc.
Qed.

Lemma expand_at path e : fat_expand path (FileE e) = Ok (FileE (at_path path e)).
Proof. unfold fat_expand, at_path. cbv zeta. rewrite <- !with_slash_join. destruct (fe_long e); rewrite <- ?with_slash_join; reflexivity. Qed.

Lemma is_dot_iff nm : is_dot nm = true <-> dot_name nm.
Proof. unfold is_dot, dot_name. rewrite orb_true_iff, !fat_list_eqb_eq. tauto. Qed.

Lemma tree_walks : 
  (forall anc path buf out, tree dec lower fs anc path buf out -> okb buf -> forall st, exists v, walks W anc st path buf (fst st, v) (map FileE out, Done)) /\
  (forall anc path es out, branches dec lower fs anc path es out -> Forall oke (map FileE es) -> forall st, exists v, lists W anc st path (map FileE es) Done (fst st, v) (map FileE out, Done)).
Proof.
  apply (tree_branches_ind dec lower fs
    (fun anc path buf out _ => okb buf -> forall st, exists v, walks W anc st path buf (fst st, v) (map FileE out, Done))
    (fun anc path es out _ => Forall oke (map FileE es) -> forall st, exists v, lists W anc st path (map FileE es) Done (fst st, v) (map FileE out, Done))).
  - intros anc path buf es out E _ IH OB st. assert (OE : Forall oke (map FileE es)) by (eapply W_entries with (path := path); eauto).
    destruct (IH OE st) as [v H]. exists v. econstructor; eauto.
  - intros anc path _ st. exists (snd st). destruct st. constructor.
  - intros anc path e es out ND KI _ IH OE st. cbn [map] in *. inversion OE as [|? ? OE1 OE2]; subst.
    assert (ID : is_true (fe_deleted e) = false) by (destruct (fe_deleted e) as [[|]|]; cbn; congruence).
    assert (K : fat_kind (FileE e) = KFile).
    { unfold fat_kind. destruct KI as [->|[KI|KI]]; cbn [andb]; auto.
      - apply is_dot_iff in KI. rewrite KI. cbn [negb]. now rewrite andb_false_r.
      - rewrite KI. cbn [negb Z.eqb]. now rewrite andb_false_r. }
    assert (EN : exists v, fat_enter fs scan st path (FileE e) = Ok ((fst st, v), None)).
    { unfold fat_enter. rewrite ID. destruct (fe_directory e && negb (is_dot (fe_short e))) eqn:D; cbn [negb]; [|exists (snd st); destruct st; reflexivity].
      destruct KI as [KI|[KI|KI]]; [rewrite KI in D; discriminate|apply is_dot_iff in KI; rewrite KI, andb_false_r in D; discriminate|].
      rewrite KI. destruct (allocated_total 0 ltac:(lia)) as [al ->]. cbn [bind]. destruct al as [al|]; [|exists (snd st); destruct st; reflexivity].
      rewrite andb_false_r. cbn [andb]. change (fat_read_chain fs 0 None) with (Ok (@nil Z)). eauto. }
    destruct EN as [v EN]. destruct (IH OE2 (fst st, v)) as [v' H]. exists v'. cbn [fst] in H.
    eapply ls_file with (it := FileE (at_path path e)); [left; exact K|apply expand_at|exact EN|exact H].
  - intros anc path e es out buf sub ND DI NDOT C2 NI ER _ IHT _ IH OE st. cbn [map] in *. inversion OE as [|? ? OE1 OE2]; subst.
    pose proof (read_all_nonempty _ _ C2 ER) as OB.
    assert (ID : is_true (fe_deleted e) = false) by (destruct (fe_deleted e) as [[|]|]; cbn; congruence).
    assert (DOT : is_dot (fe_short e) = false). { destruct (is_dot (fe_short e)) eqn:X; auto. apply is_dot_iff in X. contradiction. }
    assert (K : fat_kind (FileE e) = KDir (fe_first_cluster e)).
    { unfold fat_kind. rewrite DI, DOT. replace (fe_first_cluster e =? 0) with false by lia. reflexivity. }
    assert (AL : exists al, is_allocated (fs_fat fs) (fe_first_cluster e) = Ok (Some al)).
    { apply read_chain_iff in ER as (cl & EC & _); [|lia]. unfold is_allocated.
      destruct (get_element (fs_fat fs) (fe_first_cluster e)) as [v|x] eqn:G; [eauto|]. exfalso.
      unfold fat_chain in EC. replace (fe_first_cluster e =? 0) with false in EC by lia. replace (fe_first_cluster e =? 1) with false in EC by lia.
      destruct (fe_first_cluster e =? fat_bad (fs_fat fs)); [discriminate|]. cbn [chain_loop] in EC. rewrite G in EC. discriminate. }
    destruct AL as [al AL].
    set (name := match fe_long e with Some m => m | None => fe_short e end) in *.
    assert (EN : fat_enter fs scan st path (FileE e) = Ok ((fst st, set_add (fe_first_cluster e) (snd st)), Some (buf, path ++ [slash] ++ name))).
    { unfold fat_enter. rewrite DI, DOT, ID, AL. cbn [negb andb bind]. rewrite ER. rewrite andb_false_r. cbn [andb].
      destruct buf as [|b0 b]; [destruct OB as (_ & L & _); cbn in L; lia|]. reflexivity. }
    destruct (IHT OB (fst st, set_add (fe_first_cluster e) (snd st))) as [v1 H1]. cbn [fst] in H1.
    destruct (IH OE2 (fst st, v1)) as [v2 H2]. cbn [fst] in H2. exists v2. rewrite map_app.
    eapply ls_dir with (it := FileE (at_path path e)); [exact K|auto|apply expand_at|exact EN|exact H1|exact H2].
Qed.

End Fs.
