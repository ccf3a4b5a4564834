(** Proofs for the exFAT file system parser. *)
From Verif Require Import Base BaseLemmas FieldLemmas FatBasic FatDir FatSpec FatDirSpec FatProofs FatDirProofs.
From Verif Require Import DirWalk DirWalkSpec DirWalkProofs ClusterRead ClusterReadSpec ClusterReadProofs FatFs ExBasic ExBoot ExSpec ExTable ExTableSpec ExTableProofs
  ExDir ExDirSpec ExDirProofs ExFs ExFsSpec Properties_ExBoot Properties_ExTable Properties_ExDir.

(** ** Opening *)

Record xfs_ok (vol : list Z) (voff : Z) (vsize : option Z) (fs : x_fs) : Prop := {
  xo_fat : xfat_ok (xv_fat fs);
  xo_table : xf_data (xv_fat fs) = vol;
  xo_flast : xf_last (xv_fat fs) = xv_last fs;
  xo_vol : g_vol (xv_geo fs) = vol;
  xo_voff : g_voff (xv_geo fs) = voff;
  xo_vsize : g_vsize (xv_geo fs) = vsize;
  xo_cs : 512 <= g_cs (xv_geo fs);
  xo_cs512 : g_cs (xv_geo fs) mod 512 = 0;
  xo_data : 0 <= g_data (xv_geo fs);
  xo_last : 0 < xv_last fs;
  xo_bitmap : bytes_ok (xv_bitmap fs);
  xo_root : exists buf, x_read_chain fs (br_rootcluster (xv_boot fs)) None false = Ok buf /\ bytes_ok buf }.

Lemma bps_range b v : br_bytespersector b = Ok v -> v = 512 \/ v = 1024 \/ v = 2048 \/ v = 4096.
Proof.
  unfold br_bytespersector. cbv zeta. destruct (_ || _) eqn:E; [discriminate|]. apply orb_false_iff in E as [E1 E2]. intro X. injection X as <-.
  rewrite Z.shiftl_mul_pow2 by lia. assert (H : fld 1 b 108 = 9 \/ fld 1 b 108 = 10 \/ fld 1 b 108 = 11 \/ fld 1 b 108 = 12) by lia.
  destruct H as [->|[->|[->| ->]]]; cbn; auto.
Qed.

Lemma spc_range b v : 0 <= fld 1 b 109 -> br_sectorspercluster b = Ok v -> 1 <= v.
Proof.
  unfold br_sectorspercluster. destruct (_ <? _); [discriminate|]. intros H X. injection X as <-. rewrite Z.shiftl_mul_pow2 by lia.
  pose proof (Z.pow_pos_nonneg 2 (fld 1 b 109)). lia.
Qed.

Lemma br_search_spec vol voff offs : 0 <= voff -> Forall (fun o => 0 <= o) offs ->
  forall off b, br_search vol voff offs = Ok (Some (off, b)) <->
    exists p q, offs = p ++ off :: q /\ b = slice vol (voff + off) (voff + off + 49152) /\ br_open b = Ok tt /\
      forall o, In o p -> exists e, br_open (slice vol (voff + o) (voff + o + 49152)) = Err e /\ br_caught e = true.
Proof.
  intros V. induction offs as [|o r IH]; intros F off b; cbn [br_search].
  - split; [discriminate|]. intros ([|] & q & E & _); discriminate.
  - inversion F as [|? ? F1 F2]; subst. unfold read_at at 1. destruct (Z.ltb_spec (voff + o) 0); [lia|]. cbn [bind].
    change (12 * 4096) with 49152. set (s := slice vol (voff + o) (voff + o + 49152)).
    destruct (br_open s) as [[]|e] eqn:E.
    + split.
      * intro X. injection X as <- <-. exists [], r. repeat split; auto. intros ? [].
      * intros (p & q & E1 & -> & E2 & E3). destruct p as [|x p]; [injection E1 as -> ->; reflexivity|]. exfalso.
        injection E1 as <- _. destruct (E3 o ltac:(now left)) as (e & Y & _). fold s in Y. congruence.
    + destruct (br_caught e) eqn:C.
      * rewrite IH by auto. split; intros (p & q & E1 & -> & E2 & E3).
        -- exists (o :: p), q. subst r. repeat split; auto. intros o' [<-|I]; [exists e; fold s; auto|auto].
        -- destruct p as [|x p]; [injection E1 as -> ->; fold s in E2; congruence|]. injection E1 as <- ->. exists p, q. repeat split; auto. intros o' I. apply E3. now right.
      * split; [discriminate|]. intros (p & q & E1 & -> & E2 & E3). exfalso. destruct p as [|x p]; [injection E1 as <- _; fold s in E2; congruence|].
        injection E1 as <- _. destruct (E3 o ltac:(now left)) as (e' & Y & Z). fold s in Y. congruence.
Qed.

Lemma x_read_err f g last first size nc e : xfat_ok f -> 0 <= first -> x_read f g last first size nc = Err e -> e = FileAllocationTableException \/ e = ValueError.
Proof.
  intros F H. unfold x_read. destruct nc; cbn [negb].
  - destruct size as [n|]; cbn [bind]; [|intro X; injection X as <-; auto]. intro X. right. eauto using read_clusters_err.
  - pose proof (x_chain_total f first F H) as T. destruct (x_chain f first) as [cl|x]; cbn [bind].
    + intro X. right. eauto using read_clusters_err.
    + intro X. injection X as ->. auto.
Qed.

(** ** Files without a chain *)

Lemma run_loop_spec last cs : 0 < cs -> forall fuel curr rem, 0 <= curr -> (Z.to_nat (last + 1 - curr) <= fuel)%nat ->
  x_run_loop fuel last cs curr rem = consecutive last cs curr rem.
Proof.
  intro C. induction fuel as [|fuel IH]; intros curr rem HC HF; cbn [x_run_loop]; unfold consecutive.
  - replace (Z.to_nat (Z.min ((rem + cs - 1) / cs) (last + 1 - curr))) with O by lia. reflexivity.
  - destruct (Z.leb_spec rem 0) as [R|R].
    { assert ((rem + cs - 1) / cs < 1) by (apply Z.div_lt_upper_bound; lia). replace (Z.to_nat (Z.min _ _)) with O by lia. reflexivity. }
    destruct (Z.ltb_spec last curr) as [L|L].
    { replace (Z.to_nat (Z.min _ _)) with O by lia. reflexivity. }
    rewrite IH by lia. unfold consecutive.
    assert (D : (rem + cs - 1) / cs = (rem - cs + cs - 1) / cs + 1).
    { replace (rem + cs - 1) with ((rem - cs + cs - 1) + 1 * cs) by lia. now rewrite Z.div_add by lia. }
    assert (0 <= (rem - cs + cs - 1) / cs) by (apply Z.div_pos; lia).
    rewrite D. replace (Z.to_nat (Z.min ((rem - cs + cs - 1) / cs + 1) (last + 1 - curr))) with (S (Z.to_nat (Z.min ((rem - cs + cs - 1) / cs) (last + 1 - (curr + 1))))) by lia.
    cbn [seq map]. f_equal; [f_equal; lia|]. rewrite <- seq_shift, map_map. apply map_ext. intro a. f_equal. lia.
Qed.

Lemma x_run_spec last cs first size : 0 < cs -> x_run last cs first size = if 2 <=? first then consecutive last cs first size else [].
Proof.
  intro C. unfold x_run. destruct (Z.leb_spec 2 first); [|now rewrite andb_false_r]. rewrite andb_true_r.
  destruct (Z.ltb_spec 0 size).
  - apply run_loop_spec; auto; lia.
  - unfold consecutive. assert ((size + cs - 1) / cs < 1) by (apply Z.div_lt_upper_bound; lia). replace (Z.to_nat (Z.min _ _)) with O by lia. reflexivity.
Qed.

Lemma consecutive_len last cs first size : zlen (consecutive last cs first size) = Z.max 0 (Z.min ((size + cs - 1) / cs) (last + 1 - first)).
Proof. unfold consecutive, zlen. rewrite map_length, seq_length. lia. Qed.

Lemma x_read_iff f g last first size nc d : 0 < g_cs g ->
  (x_read f g last first size nc = Ok d <-> exists cl, file_clusters f last (g_cs g) first size nc cl /\ holds g size cl d).
Proof.
  intro C. unfold x_read, file_clusters. destruct nc; cbn [negb].
  - destruct size as [n|]; cbn [bind].
    + rewrite read_clusters_iff by auto. rewrite x_run_spec by auto. split; [intro H; eexists; split; [eexists; split; reflexivity|auto]|].
      intros (cl & (m & E & ->) & H). injection E as <-. exact H.
    + split; [discriminate|]. intros (cl & (m & E & _) & _). discriminate.
  - destruct (x_chain f first) as [cl|e]; cbn [bind].
    + rewrite read_clusters_iff by auto. split; [eauto|]. intros (cl' & E & X). congruence.
    + split; [discriminate|]. intros (cl' & E & X). congruence.
Qed.

Lemma holds_bytes g size cl d : bytes_ok (g_vol g) -> holds g size cl d -> bytes_ok d.
Proof.
  intros B [_ ->]. assert (H : forall l, bytes_ok (concat (map (cluster_data g) l))).
  { induction l as [|c l IH]; [constructor|]. cbn [map concat]. apply bytes_ok_app. split; auto.
    destruct c; cbn [cluster_data]; [now apply bytes_ok_slice|apply bytes_ok_zeros]. }
  destruct size; auto. apply bytes_ok_ztake. auto.
Qed.

Lemma x_read_bytes f g last first size nc d : 0 < g_cs g -> bytes_ok (g_vol g) -> x_read f g last first size nc = Ok d -> bytes_ok d.
Proof. intros C B E. apply x_read_iff in E as (cl & _ & H); auto. eapply holds_bytes; eauto. Qed.

Theorem x_open_ok vol voff vsize fs : bytes_ok vol -> 0 <= voff -> x_fs_open vol voff vsize = Ok fs -> xfs_ok vol voff vsize fs.
Proof.
  intros B V. unfold x_fs_open. destruct (too_small vsize _); [discriminate|].
  destruct (br_find vol voff) as [[off b]|] eqn:EF; cbn [bind]; [|discriminate].
  assert (BB : bytes_ok b).
  { unfold br_find in EF. destruct (br_search vol voff [0; 12 * 512; 12 * 4096]) as [[[o b']|]|] eqn:ES; cbn [bind] in EF; try discriminate.
    apply br_search_spec in ES as (p & q & _ & -> & _ & _); auto; [|repeat constructor; lia].
    destruct (br_bytespersector _); cbn [bind] in EF; [|discriminate]. destruct (_ || _); [discriminate|]. injection EF as <- <-. now apply bytes_ok_slice. }
  clear EF. destruct (br_bytespersector b) as [bps|] eqn:EB; cbn [bind]; [|discriminate]. apply bps_range in EB.
  destruct (br_sectorspercluster b) as [spc|] eqn:ES; cbn [bind]; [|discriminate]. apply spc_range in ES; [|now apply fld_nonneg].
  assert (H1 : 0 <= br_heapoffset b) by now apply fld_nonneg. assert (H2 : 0 <= br_fatlength b) by now apply fld_nonneg.
  assert (H3 : 0 <= br_fatoffset b) by now apply fld_nonneg. assert (H4 : 0 <= br_clustercount b) by now apply fld_nonneg.
  match goal with |- context [xfat_open vol ?o ?s ?l] => destruct (xfat_open vol o s l) as [f|] eqn:EF; cbn [bind]; [|discriminate]; apply C33_exfat_open in EF; [|destruct (br_active_fat b); nia] end.
  destruct EF as (-> & F1 & F2 & F3).
  set (f := mk_xfat _ _ _ _). set (g := mk_geometry _ _ _ _ _).
  assert (C : 0 < g_cs g) by (cbn; nia).
  assert (FO : xfat_ok f) by (split; [cbn; destruct (br_active_fat b); nia|split; [cbn; lia|exact B]]).
  destruct (x_read f g (br_clustercount b + 1) (br_rootcluster b) None false) as [root|] eqn:ER; cbn [bind]; [|discriminate].
  destruct (x_entries true root) as [es fin]. destruct (x_find_bitmap _ es) as [c|]; [|destruct fin; discriminate].
  destruct (x_read f g (br_clustercount b + 1) c None false) as [bm|] eqn:EM; cbn [bind]; [|discriminate].
  intro X. injection X as <-. constructor; cbn [xv_fat xv_geo xv_last xv_bitmap xv_boot]; auto; try reflexivity.
  - cbn. nia.
  - cbn [g g_cs]. rewrite Z.mul_mod by lia. assert (bps mod 512 = 0) as -> by (destruct EB as [->|[->|[->| ->]]]; reflexivity). reflexivity.
  - cbn. nia.
  - lia.
  - eapply x_read_bytes; eauto.
  - exists root. split; [exact ER|]. eapply x_read_bytes; eauto.
Qed.

(** ** Entries *)

Definition xoke (i : x_item) : Prop := match i with XFile e => 0 <= xe_first e /\ 0 <= xe_size e | _ => True end.

Lemma buf_slots buf : bytes_ok buf -> 512 <= zlen buf -> zlen buf mod 512 = 0 ->
  exists slots, buf = concat slots /\ Forall slot_ok slots /\ 16 <= zlen slots /\ zlen slots mod 16 = 0.
Proof.
  intros B L M. exists (cut_slots (Z.to_nat (zlen buf / 32)) buf).
  destruct (cut_slots_spec (Z.to_nat (zlen buf / 32)) buf B ltac:(lia)) as [O E].
  pose proof (concat_len _ O) as CL. rewrite E in CL. split; [auto|]. split; [auto|]. lia.
Qed.

Lemma x_entries_ok root buf es fin : bytes_ok buf -> x_entries root buf = (es, fin) -> Forall xoke es /\
  (fin = Done \/ (fin = Raised DirectoryEntriesException /\ (root = true \/ zlen buf < 512 \/ zlen buf mod 512 <> 0))).
Proof.
  intros B E. destruct (Z.lt_ge_cases (zlen buf) 512) as [L|L]; [rewrite C54_sizes in E by lia; injection E as <- <-; split; [constructor|auto]|].
  destruct (Z.eq_dec (zlen buf mod 512) 0) as [M|M]; [|rewrite C54_sizes in E by lia; injection E as <- <-; split; [constructor|auto]].
  destruct (buf_slots buf B ltac:(lia) M) as (slots & -> & O & S1 & S2). split.
  - apply Forall_forall. intros [e| | |] X; cbn [xoke]; auto.
    destruct (C54_sound _ _ _ _ _ O S1 S2 E X) as (p & s & subs & q & -> & FS). destruct (fs_layout _ _ _ FS) as (x & nm & mid & vend & -> & D).
    assert (BX : bytes_ok x). { apply Forall_app in O as [_ O]. inversion O as [|? ? _ O2]; subst. cbn [app] in O2. inversion O2 as [|? ? O3 _]; subst. apply O3. }
    destruct D as (_ & _ & _ & _ & _ & _ & _ & _ & -> & _ & -> & _). split; now apply fld_nonneg.
  - destruct (C54_failures _ _ _ _ O S1 S2 E) as [->|[-> ->]]; auto.
Qed.

(** ** The walk *)

Section Fs.
Variables (vol : list Z) (voff : Z) (vsize : option Z) (fs : x_fs).
Hypothesis B : bytes_ok vol.
Hypothesis FO : xfs_ok vol voff vsize fs.

Lemma xcaught e : e = FileAllocationTableException \/ e = ValueError -> x_caught e = true.
Proof. intros [->| ->]; reflexivity. Qed.

Lemma chain_err first size nc e : 0 <= first -> x_read_chain fs first size nc = Err e -> x_caught e = true.
Proof. intros H E. apply xcaught. eapply x_read_err; eauto. apply FO. Qed.

Lemma chain_bytes first size nc d : x_read_chain fs first size nc = Ok d -> bytes_ok d.
Proof. apply x_read_bytes; [pose proof (xo_cs _ _ _ _ FO); lia|]. now rewrite (xo_vol _ _ _ _ FO). Qed.

Lemma meta_get_set c m l c' : meta_get c' (meta_set c m l) = if c' =? c then Some m else meta_get c' l.
Proof.
  induction l as [|[k n] r IH]; cbn [meta_set meta_get].
  - destruct (Z.eqb_spec c c'), (Z.eqb_spec c' c); congruence.
  - destruct (Z.eqb_spec k c) as [->|N]; cbn [meta_get].
    + destruct (Z.eqb_spec c c'), (Z.eqb_spec c' c); congruence.
    + destruct (Z.eqb_spec k c') as [->|N2]; [destruct (Z.eqb_spec c' c); congruence|exact IH].
Qed.

Lemma note_spec e l l' : x_note e l = Ok l' -> (meta_get (xe_first e) l' <> None) /\ forall c, meta_get c l <> None -> meta_get c l' <> None.
Proof.
  unfold x_note. destruct (meta_get (xe_first e) l) as [[[ts sz] nc]|] eqn:G.
  - destruct (x_time_gt _ _) as [[|]|]; cbn [bind]; try discriminate; intro X; injection X as <-; [|split; congruence].
    split; [rewrite meta_get_set, Z.eqb_refl; discriminate|]. intros c H. rewrite meta_get_set. destruct (c =? _); congruence.
  - intro X. injection X as <-. split; [rewrite meta_get_set, Z.eqb_refl; discriminate|]. intros c H. rewrite meta_get_set. destruct (c =? _); congruence.
Qed.

Definition xoks (st : x_state) : Prop := Forall (fun c => 0 <= c /\ meta_get c (xt_meta st) <> None) (xt_realloc st).
Definition xokc (st : x_state) (c : Z) : Prop := 0 <= c /\ meta_get c (xt_meta st) <> None.

Lemma xalloc_range c al : x_is_allocated (xv_bitmap fs) (xv_last fs) c = Ok (Some al) -> 2 <= c <= xv_last fs /\ al = bit_of_cluster (xv_bitmap fs) c.
Proof.
  rewrite x_is_allocated_spec by apply FO. destruct ((2 <=? c) && (c <=? xv_last fs)) eqn:E; [|discriminate].
  destruct (_ <? _); [|discriminate]. intro X. injection X as <-. split; [lia|reflexivity].
Qed.

Lemma xenter_ok scan st path i st' sub : xoke i -> x_enter fs scan st path i = Ok (st', sub) ->
  (xoks st -> xoks st') /\ (forall c, xokc st c -> xokc st' c) /\
    match sub with
    | None => True
    | Some (buf, p) => bytes_ok buf /\ exists c, x_kind_of i = KDir c /\ 2 <= c < xv_last fs + 1
    end.
Proof.
  intros OE E. unfold x_enter in E. destruct i as [e| | |]; try (injection E as <- <-; auto).
  cbn [xoke] in OE. destruct OE as [O1 O2]. destruct (x_is_allocated _ _ _) as [[al|]|] eqn:EA; cbn [bind] in E; [|injection E as <- <-; auto|discriminate].
  apply xalloc_range in EA as [R _]. destruct (xe_directory e) eqn:D; cbn [negb] in E; [|injection E as <- <-; auto].
  destruct (negb scan && xe_deleted e && al).
  - destruct (x_note e (xt_meta st)) as [l|] eqn:N; cbn [bind] in E; [|discriminate]. injection E as <- <-. apply note_spec in N as [N1 N2].
    split; [|split; [|exact I]].
    + unfold xoks. cbn [xt_realloc xt_meta]. intro F. 
      assert (F' : Forall (fun c => 0 <= c /\ meta_get c l <> None) (xt_realloc st)) by (eapply Forall_impl; [|exact F]; intros a [A1 A2]; auto).
      unfold set_add. destruct (zin _ _); auto. apply Forall_app. split; auto.
    + intros c [C1 C2]. split; [exact C1|exact (N2 c C2)].
  - destruct (x_read_chain fs (xe_first e) (Some (xe_size e)) (xe_no_chain e)) as [buf|x] eqn:ER.
    + pose proof (chain_bytes _ _ _ _ ER) as BB. destruct buf as [|b0 r]; injection E as <- <-; (split; [auto|]); (split; [auto|]); [exact I|].
      split; auto. exists (xe_first e). cbn [x_kind_of]. rewrite D. replace (xe_first e =? 0) with false by lia. split; [reflexivity|lia].
    + destruct (x_caught x); [|discriminate]. injection E as <- <-. auto.
Qed.

Lemma xorphan_ok st c buf path : x_orphan_dir fs st c = Ok (Some (buf, path)) -> bytes_ok buf.
Proof.
  unfold x_orphan_dir. destruct (meta_get c _) as [[[ts sz] nc]|]; [|discriminate].
  destruct (x_read_chain fs c (Some sz) nc) as [b|x] eqn:ER; [|destruct (x_caught x); discriminate].
  destruct (_ || _); [discriminate|]. intro X. injection X as <- <-. eapply chain_bytes; eauto.
Qed.

Lemma xenter_err scan st path i x : xoke i -> x_enter fs scan st path i = Err x ->
  exists e, i = XFile e /\ ((x = IndexError /\ 8 * zlen (xv_bitmap fs) <= xe_first e - 2 /\ xe_first e <= xv_last fs) \/
    (x = TypeError /\ scan = false /\ xe_directory e = true /\ xe_deleted e = true /\ bit_of_cluster (xv_bitmap fs) (xe_first e) = true /\
     exists ts sz nc, meta_get (xe_first e) (xt_meta st) = Some (ts, sz, nc) /\ (ts = None \/ xe_mtime e = None))).
Proof.
  intros OE E. unfold x_enter in E. destruct i as [e| | |]; try discriminate. exists e. split; auto.
  cbn [xoke] in OE. destruct OE as [O1 O2]. destruct (x_is_allocated _ _ _) as [[al|]|y] eqn:EA; cbn [bind] in E; [|discriminate|].
  - apply xalloc_range in EA as [R ->]. destruct (xe_directory e) eqn:D; cbn [negb] in E; [|discriminate].
    destruct (negb scan && xe_deleted e && bit_of_cluster (xv_bitmap fs) (xe_first e)) eqn:C.
    + apply andb_true_iff in C as [C C3]. apply andb_true_iff in C as [C1 C2]. apply negb_true_iff in C1. right.
      unfold x_note in E. destruct (meta_get (xe_first e) (xt_meta st)) as [[[ts sz] nc]|] eqn:G; cbn [bind] in E; [|discriminate].
      unfold x_time_gt in E. destruct (xe_mtime e) as [t1|]; [destruct ts as [t2|]; [discriminate|]|]; cbn [bind] in E; injection E as <-;
        (do 5 (split; [auto|])); eauto 6.
    + destruct (x_read_chain fs (xe_first e) _ _) as [[|b0 r]|z] eqn:ER; try discriminate. rewrite (chain_err _ _ _ _ O1 ER) in E. discriminate.
  - injection E as <-. left. rewrite x_is_allocated_spec in EA by apply FO. destruct ((2 <=? xe_first e) && (xe_first e <=? xv_last fs)) eqn:R; [|discriminate].
    destruct (Z.ltb_spec (xe_first e - 2) (8 * zlen (xv_bitmap fs))); [discriminate|]. injection EA as <-. split; [auto|lia].
Qed.

Lemma xorphan_total st c : xokc st c -> exists r, x_orphan_dir fs st c = Ok r.
Proof.
  intros [C1 C2]. unfold x_orphan_dir. destruct (meta_get c _) as [[[ts sz] nc]|]; [|congruence].
  destruct (x_read_chain fs c (Some sz) nc) as [b|x] eqn:ER; [|rewrite (chain_err _ _ _ _ C1 ER); eauto]. destruct (_ || _); eauto.
Qed.

Variable scan : bool.
Let W := x_walker fs scan.
Let n := xv_last fs + 1.

Lemma XW_entries path buf es fin : bytes_ok buf -> w_entries W path buf = (es, fin) -> Forall xoke es.
Proof. intros OB E. exact (proj1 (x_entries_ok _ _ _ _ OB E)). Qed.

Lemma XW_enter st path e st' buf path' : xoke e -> w_enter W st path e = Ok (st', Some (buf, path')) ->
  bytes_ok buf /\ exists c, w_kind W e = KDir c /\ 0 <= c < n.
Proof.
  intros OE E. destruct (xenter_ok _ _ _ _ _ _ OE E) as (_ & _ & OB & c & K & R). split; auto. exists c. split; auto. unfold n. lia.
Qed.

Lemma XW_state st path e st' sub : xoks st -> xoke e -> w_enter W st path e = Ok (st', sub) -> xoks st' /\ forall c, xokc st c -> xokc st' c.
Proof. intros OS OE E. destruct (xenter_ok _ _ _ _ _ _ OE E) as (H1 & H2 & _). auto. Qed.

Lemma XW_orphans st : xoks st -> Forall (xokc st) (w_orphans W st).
Proof. intro OS. cbn [W x_walker w_orphans]. apply Forall_forall. intros x X. apply filter_In in X as [X _]. unfold xoks in OS. rewrite Forall_forall in OS. now apply OS. Qed.

Lemma XW_orphan st c buf path : xoks st -> xokc st c -> w_orphan W st c = Ok (Some (buf, path)) -> bytes_ok buf.
Proof. intros _ _. apply xorphan_ok. Qed.

Theorem x_walk_iff fuel st buf stack g : (Z.to_nat n < fuel)%nat -> bytes_ok buf -> xoks st ->
  (walk_from W fuel st buf stack = g <-> full_walk W st buf stack g).
Proof. intros. apply (walk_iff W n bytes_ok xoke XW_entries XW_enter xoks xokc XW_state XW_orphans XW_orphan); auto. Qed.

Theorem x_walk_origin st buf stack l x : bytes_ok buf -> xoks st -> full_walk W st buf stack (l, Raised x) ->
  x = DirectoryEntriesException \/ (x = IndexError /\ 8 * zlen (xv_bitmap fs) < xv_last fs - 1) \/ (x = TypeError /\ scan = false).
Proof.
  intros OB OS H. pose proof (walk_origin W n bytes_ok xoke XW_entries XW_enter xoks xokc XW_state XW_orphans XW_orphan _ _ _ _ _ OB OS H) as O.
  destruct O as [path b es Ob E|path e Oe E|st0 path e Os Oe E|st0 c Os Oc E]; cbn [W x_walker w_entries w_emit w_enter w_orphan] in E.
  - destruct (x_entries_ok _ _ _ _ Ob E) as [_ [D|[D _]]]; [discriminate|]. injection D as ->. auto.
  - destruct e; discriminate.
  - destruct (xenter_err _ _ _ _ _ Oe E) as (e0 & -> & [(-> & H1 & H2)|(-> & H1 & _)]); right; [left; split; auto; lia|auto].
  - destruct (xorphan_total st0 c Oc) as (r & E2). congruence.
Qed.

Lemma expand_path path nm : x_expand path nm = x_path path nm.
Proof.
  unfold x_expand, x_path. destruct path as [|x p]; [reflexivity|]. set (path := x :: p).
  replace (0 <? zlen path) with true by (unfold path; rewrite zlen_cons; pose proof (zlen_nonneg p); lia). cbn [andb].
  destruct (last path 0 =? 47); [reflexivity|]. now rewrite <- app_assoc.
Qed.

Lemma emit_file path e : x_emit path (XFile e) = Ok (XFile (x_named e (x_path path (xe_name e)))).
Proof. unfold x_emit. now rewrite expand_path. Qed.

(** The bitmap covers the volume. *)
Hypothesis BM : xv_last fs - 1 <= 8 * zlen (xv_bitmap fs).

Lemma alloc_in c : 2 <= c <= xv_last fs -> x_is_allocated (xv_bitmap fs) (xv_last fs) c = Ok (Some (bit_of_cluster (xv_bitmap fs) c)).
Proof.
  intro H. rewrite x_is_allocated_spec by apply FO. replace ((2 <=? c) && (c <=? xv_last fs)) with true by lia. now replace (c - 2 <? _) with true by lia.
Qed.

Lemma xtree_walks : 
  (forall anc path buf out, xtree fs anc path buf out -> bytes_ok buf -> forall st, xt_realloc st = [] -> exists st', xt_realloc st' = [] /\ walks W anc st path buf st' (out, Done)) /\
  (forall anc path es out, xbranches fs anc path es out -> Forall xoke es -> forall st, xt_realloc st = [] -> exists st', xt_realloc st' = [] /\ lists W anc st path es Done st' (out, Done)).
Proof.
  apply (xtree_branches_ind fs
    (fun anc path buf out _ => bytes_ok buf -> forall st, xt_realloc st = [] -> exists st', xt_realloc st' = [] /\ walks W anc st path buf st' (out, Done))
    (fun anc path es out _ => Forall xoke es -> forall st, xt_realloc st = [] -> exists st', xt_realloc st' = [] /\ lists W anc st path es Done st' (out, Done))).
  - intros anc path buf es out E _ IH OB st R. assert (OE : Forall xoke es) by (eapply XW_entries with (path := path); eauto).
    destruct (IH OE st R) as (st' & R' & H). exists st'. split; auto. econstructor; eauto.
  - intros anc path _ st R. exists st. split; auto. constructor.
  - intros anc path nm es out _ IH OE st R. inversion OE as [|? ? _ OE2]; subst. destruct (IH OE2 st R) as (st' & R' & H). exists st'. split; auto.
    eapply ls_other; [reflexivity|reflexivity|exact H].
  - intros anc path nm es out _ IH OE st R. inversion OE as [|? ? _ OE2]; subst. destruct (IH OE2 st R) as (st' & R' & H). exists st'. split; auto.
    eapply ls_other; [reflexivity| |exact H]. cbn [W x_walker w_emit x_emit]. now rewrite expand_path.
  - intros anc path a b c es out _ IH OE st R. inversion OE as [|? ? _ OE2]; subst. destruct (IH OE2 st R) as (st' & R' & H). exists st'. split; auto.
    eapply ls_skip; [left; reflexivity|exact H].
  - intros anc path e es out KI NI _ IH OE st R. inversion OE as [|? ? OE1 OE2]; subst. cbn [xoke] in OE1. destruct OE1 as [O1 O2]. destruct (IH OE2 st R) as (st' & R' & H). exists st'. split; auto.
    assert (EN : x_enter fs scan st path (XFile e) = Ok (st, None)).
    { unfold x_enter. destruct (C60_total (xv_bitmap fs) (xv_last fs) (xe_first e) (xo_bitmap _ _ _ _ FO) BM) as [r Er]. rewrite Er. cbn [bind].
      destruct r as [al|]; [|reflexivity]. apply xalloc_range in Er as [Er _]. destruct KI as [->|KI]; [reflexivity|lia]. }
    assert (K : x_kind_of (XFile e) = KFile \/ (exists c, x_kind_of (XFile e) = KDir c /\ ~ In c anc)).
    { cbn [x_kind_of]. destruct (xe_directory e); [|left; reflexivity]. cbn [andb]. destruct (Z.eqb_spec (xe_first e) 0); [left; reflexivity|]. right. cbn [negb].
      exists (xe_first e). split; auto. destruct (NI eq_refl); [auto|congruence]. }
    eapply ls_file; [exact K|apply emit_file|exact EN|exact H].
  - intros anc path e es out D NZ I _ IH OE st R. inversion OE as [|? ? OE1 OE2]; subst. cbn [xoke] in OE1. destruct OE1 as [O1 O2]. destruct (IH OE2 st R) as (st' & R' & H). exists st'. split; auto.
    eapply ls_skip; [right|exact H]. exists (xe_first e). split; auto. cbn [W x_walker w_kind x_kind_of]. rewrite D. now replace (xe_first e =? 0) with false by lia.
  - intros anc path e es out D R2 NI DL RD _ IH OE st R. inversion OE as [|? ? OE1 OE2]; subst. cbn [xoke] in OE1. destruct OE1 as [O1 O2].
    set (st1 := mk_x_state (xt_realloc st) (xt_meta st) (set_add (xe_first e) (xt_visited st))). destruct (IH OE2 st1 R) as (st' & R' & H). exists st'. split; auto.
    assert (EN : x_enter fs scan st path (XFile e) = Ok (st1, None)).
    { unfold x_enter. rewrite alloc_in by auto. cbn [bind]. rewrite D. cbn [negb].
      replace (negb scan && xe_deleted e && bit_of_cluster (xv_bitmap fs) (xe_first e)) with false by (destruct DL as [->| ->]; now rewrite ?andb_false_r).
      destruct RD as [->|[x RD]]; [reflexivity|]. rewrite RD. now rewrite (chain_err _ _ _ _ O1 RD). }
    eapply ls_file; [right|apply emit_file|exact EN|exact H]. exists (xe_first e). split; auto. cbn [W x_walker w_kind x_kind_of]. rewrite D. now replace (xe_first e =? 0) with false by lia.
  - intros anc path e es out buf sub D R2 NI DL RD NE _ IHT _ IH OE st R. inversion OE as [|? ? OE1 OE2]; subst. cbn [xoke] in OE1. destruct OE1 as [O1 O2].
    set (st1 := mk_x_state (xt_realloc st) (xt_meta st) (set_add (xe_first e) (xt_visited st))).
    destruct (IHT (chain_bytes _ _ _ _ RD) st1 R) as (st2 & R2' & H2). destruct (IH OE2 st2 R2') as (st' & R' & H). exists st'. split; auto.
    assert (EN : x_enter fs scan st path (XFile e) = Ok (st1, Some (buf, path ++ [slash] ++ xe_name e))).
    { unfold x_enter. rewrite alloc_in by auto. cbn [bind]. rewrite D. cbn [negb].
      replace (negb scan && xe_deleted e && bit_of_cluster (xv_bitmap fs) (xe_first e)) with false by (destruct DL as [->| ->]; now rewrite ?andb_false_r).
      rewrite RD. destruct buf; [congruence|reflexivity]. }
    eapply ls_dir; [|exact NI|apply emit_file|exact EN|exact H2|exact H]. cbn [W x_walker w_kind x_kind_of]. rewrite D. now replace (xe_first e =? 0) with false by lia.
Qed.

End Fs.
