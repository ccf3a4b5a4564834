(** C39, C40, C59: opening, reading and walking an exFAT volume.  The theorems
    are about every volume content that the constructor of the parser accepts. *)
From Verif Require Import Base BaseLemmas FatBasic FatDir FatSpec FatProofs DirWalk DirWalkSpec DirWalkProofs ClusterRead ClusterReadSpec ClusterReadProofs
  FatFs ExBasic ExSpec ExBoot ExTable ExTableSpec ExTableProofs ExDir ExDirSpec ExDirProofs ExDirWrite ExFs ExFsSpec ExFsProofs
  Properties_ExBoot Properties_ExTable Properties_ExDir.

(** ** C59: the boot region that is used *)

(** The main region if it is valid; otherwise one of the two backups, with the
    sector size that goes with the place where it was found.  Every region tried
    before is invalid. *)
Theorem C59_find vol voff off b : 0 <= voff ->
  (br_find vol voff = Ok (off, b) <->
   b = slice vol (voff + off) (voff + off + 49152) /\ br_open b = Ok tt /\
   let refused o := exists e, br_open (slice vol (voff + o) (voff + o + 49152)) = Err e /\
     In e [BootRegionException; BootRegionChecksumException; NotImplementedError] in
   (off = 0 \/ (off = 6144 /\ refused 0 /\ fld 1 b 108 = 9) \/ (off = 49152 /\ refused 0 /\ refused 6144 /\ fld 1 b 108 = 12))).
Proof.
  intro V. cbv zeta. unfold br_find. change (12 * 512) with 6144. change (12 * 4096) with 49152.
  assert (OFF : Forall (fun o => 0 <= o) [0; 6144; 49152]) by (repeat constructor; lia).
  pose proof (br_search_spec vol voff [0; 6144; 49152] V OFF) as S.
  assert (CA : forall e, br_caught e = true <-> In e [BootRegionException; BootRegionChecksumException; NotImplementedError]).
  { intro e. destruct e; cbn; split; intro H; try discriminate; auto; intuition discriminate. }
  assert (SZ : forall r v, br_bytespersector r = Ok v -> (v = 512 <-> fld 1 r 108 = 9) /\ (v = 4096 <-> fld 1 r 108 = 12)).
  { intros r v. unfold br_bytespersector. cbv zeta. destruct (_ || _) eqn:E; [discriminate|]. apply orb_false_iff in E as [E1 E2]. intro X. injection X as <-.
    rewrite Z.shiftl_mul_pow2 by lia. assert (H : fld 1 r 108 = 9 \/ fld 1 r 108 = 10 \/ fld 1 r 108 = 11 \/ fld 1 r 108 = 12) by lia.
    destruct H as [->|[->|[->| ->]]]; cbn; split; split; lia. }
  assert (OB : forall r, br_open r = Ok tt -> exists v, br_bytespersector r = Ok v).
  { intro r. unfold br_open. destruct (_ || _); [discriminate|]. unfold br_validate. repeat (destruct (negb (list_eqb _ _)); [discriminate|]).
    destruct (br_bytespersector r) as [v|] eqn:E; [eauto|]. unfold br_checksum. rewrite E. discriminate. }
  split.
  - destruct (br_search vol voff [0; 6144; 49152]) as [[[o r]|]|] eqn:ES; cbn [bind]; try discriminate.
    apply (br_search_spec vol voff [0; 6144; 49152] V OFF) in ES as (p & q & E1 & -> & E2 & E3). set (r := slice vol (voff + o) (voff + o + 49152)) in *.
    destruct (br_bytespersector r) as [v|] eqn:EV; cbn [bind]; [|discriminate]. destruct (SZ r v EV) as [Z1 Z2].
    destruct (_ || _) eqn:C; [discriminate|]. intro X. injection X as <- <-. split; [auto|]. split; auto.
    apply orb_false_iff in C as [C1 C2].
    assert (RE : forall o', In o' p -> exists e, br_open (slice vol (voff + o') (voff + o' + 49152)) = Err e /\ In e [BootRegionException; BootRegionChecksumException; NotImplementedError]).
    { intros o' I. destruct (E3 o' I) as (e & H1 & H2). exists e. split; auto. now apply CA. }
    destruct p as [|p1 p]; [injection E1 as <- _; auto|]. injection E1 as <- E1. destruct p as [|p2 p].
    + injection E1 as <- _. right. left. split; auto. split; [apply RE; now left|]. apply Z1. lia.
    + injection E1 as <- E1. destruct p as [|p3 p]; [|destruct p; discriminate]. injection E1 as <- _. right. right. split; auto.
      split; [apply RE; now left|]. split; [apply RE; right; now left|]. apply Z2. lia.
  - intros (-> & E2 & C). set (r := slice vol (voff + off) (voff + off + 49152)) in *. destruct (OB r E2) as [v EV]. destruct (SZ r v EV) as [Z1 Z2].
    assert (ES : br_search vol voff [0; 6144; 49152] = Ok (Some (off, r))).
    { apply S. destruct C as [->|[(-> & (e & R1 & R2) & _)|(-> & (e & R1 & R2) & (e' & R3 & R4) & _)]].
      - exists [], [6144; 49152]. repeat split; auto. intros ? [].
      - exists [0], [49152]. repeat split; auto. intros o [<-|[]]. exists e. split; auto. now apply CA.
      - exists [0; 6144], []. repeat split; auto. intros o [<-|[<-|[]]]; [exists e|exists e']; (split; [auto|now apply CA]). }
    rewrite ES. cbn [bind]. rewrite EV. cbn [bind].
    replace (((off =? 6144) && negb (v =? 512)) || ((off =? 49152) && negb (v =? 4096))) with false by lia. reflexivity.
Qed.

(** What a volume is opened as. *)
Theorem C59_volume vol voff vsize fs : bytes_ok vol -> 0 <= voff -> x_fs_open vol voff vsize = Ok fs ->
  exists off, br_find vol voff = Ok (off, xv_boot fs) /\ (xv_backup fs = true <-> off <> 0) /\
    let b := xv_boot fs in let bps := 2 ^ fld 1 b 108 in
    g_vol (xv_geo fs) = vol /\ g_voff (xv_geo fs) = voff /\ g_vsize (xv_geo fs) = vsize /\
    g_cs (xv_geo fs) = bps * 2 ^ fld 1 b 109 /\ g_data (xv_geo fs) = fld 4 b 88 * bps /\ xv_last fs = fld 4 b 92 + 1 /\
    xv_fat fs = mk_xfat vol (voff + (fld 4 b 80 + fld 4 b 84 * (fld 2 b 106 mod 2)) * bps) (fld 4 b 84 * bps) (fld 4 b 92 + 1) /\
    exists root es fin first size, x_read_chain fs (fld 4 b 96) None false = Ok root /\ x_entries true root = (es, fin) /\
      In (XBitmap (fld 2 b 106 mod 2) first size) es /\ x_read_chain fs first None false = Ok (xv_bitmap fs).
Proof.
  intros B V. unfold x_fs_open. destruct (too_small _ _); [discriminate|].
  destruct (br_find vol voff) as [[off b]|] eqn:EF; cbn [bind]; [|discriminate].
  destruct (br_bytespersector b) as [bps|] eqn:EB; cbn [bind]; [|discriminate].
  destruct (br_sectorspercluster b) as [spc|] eqn:ES; cbn [bind]; [|discriminate].
  pose proof (proj1 (C59_find vol voff off b V) EF) as (EBB & _ & _).
  assert (BB : bytes_ok b) by (rewrite EBB; now apply bytes_ok_slice).
  assert (P1 : bps = 2 ^ fld 1 b 108).
  { unfold br_bytespersector in EB. cbv zeta in EB. destruct (_ || _) eqn:C; [discriminate|]. injection EB as <-. pose proof (fld_nonneg 1 b 108 BB). rewrite Z.shiftl_mul_pow2 by lia. lia. }
  assert (P2 : spc = 2 ^ fld 1 b 109).
  { unfold br_sectorspercluster in ES. destruct (_ <? _) eqn:C; [discriminate|]. injection ES as <-. pose proof (fld_nonneg 1 b 109 BB). rewrite Z.shiftl_mul_pow2 by lia. lia. }
  assert (AC : (if br_active_fat b then 1 else 0) = fld 2 b 106 mod 2).
  { unfold br_active_fat. pose proof (fld_nonneg 2 b 106 BB). rewrite land_1 by lia. pose proof (Z.mod_pos_bound (fld 2 b 106) 2 ltac:(lia)).
    destruct (Z.ltb_spec 0 (fld 2 b 106 mod 2)); lia. }
  match goal with |- context [xfat_open vol ?o ?s ?l] => destruct (xfat_open vol o s l) as [f|] eqn:EO; cbn [bind]; [|discriminate] end.
  unfold xfat_open in EO. destruct ((0 <? _) && _); [discriminate|]. destruct (_ || _); [discriminate|]. injection EO as <-.
  match goal with |- context [x_read ?f ?g ?l ?r None false] => destruct (x_read f g l r None false) as [root|] eqn:ER; cbn [bind]; [|discriminate] end.
  destruct (x_entries true root) as [es fin] eqn:EE. destruct (x_find_bitmap _ es) as [c|] eqn:EI; [|destruct fin; discriminate].
  match goal with |- context [x_read ?f ?g ?l c None false] => destruct (x_read f g l c None false) as [bm|] eqn:EM; cbn [bind]; [|discriminate] end.
  intro X. injection X as <-. exists off. cbn [xv_boot xv_backup xv_geo g_vol g_voff g_vsize g_cs g_data xv_last xv_fat xv_bitmap].
  split; [auto|]. split; [destruct (Z.eqb_spec off 0); cbn [negb]; split; congruence|].
  do 3 (split; [reflexivity|]). split; [congruence|]. split; [rewrite <- P1; reflexivity|]. split; [reflexivity|]. split.
  { f_equal; [|rewrite <- P1; reflexivity]. f_equal. unfold br_fatoffset, br_fatlength in *. rewrite <- AC, <- P1. destruct (br_active_fat b); lia. }
  assert (IB : exists size, In (XBitmap (fld 2 b 106 mod 2) c size) es).
  { rewrite AC in EI. clear -EI. induction es as [|i es IH]; [discriminate|]. cbn [x_find_bitmap] in EI.
    destruct i as [?|?|?|a k z]; try (destruct (IH EI) as [s I]; exists s; now right).
    destruct (Z.eqb_spec a (fld 2 b 106 mod 2)) as [->|N]; [injection EI as <-; exists z; now left|destruct (IH EI) as [s I]; exists s; now right]. }
  destruct IB as [size IB]. exists root, es, fin, c, size. split; [exact ER|]. split; [exact EE|]. split; [exact IB|exact EM].
Qed.
Print Assumptions C59_find.
Print Assumptions C59_volume.

(** ** C40: reading *)

(** The data of a file: what its clusters hold, following the table or not. *)
Theorem C40_exfat_read vol voff vsize fs first size nc d : bytes_ok vol -> x_fs_open vol voff vsize = Ok fs -> 0 <= voff ->
  (x_read_chain fs first size nc = Ok d <-> exists cl, file_clusters (xv_fat fs) (xv_last fs) (g_cs (xv_geo fs)) first size nc cl /\ holds (xv_geo fs) size cl d).
Proof. intros B E V. pose proof (x_open_ok _ _ _ _ B V E) as FO. pose proof (xo_cs _ _ _ _ FO). apply x_read_iff. lia. Qed.

Theorem C40_exfat_errors vol voff vsize fs first size nc x : bytes_ok vol -> x_fs_open vol voff vsize = Ok fs -> 0 <= voff -> 0 <= first ->
  x_read_chain fs first size nc = Err x -> x = FileAllocationTableException \/ x = ValueError.
Proof. intros B E V H. pose proof (x_open_ok _ _ _ _ B V E) as FO. apply x_read_err; auto. apply FO. Qed.

Theorem C40_exfat_length vol voff vsize fs first size nc d cl : bytes_ok vol -> x_fs_open vol voff vsize = Ok fs -> 0 <= voff ->
  x_read_chain fs first size nc = Ok d -> file_clusters (xv_fat fs) (xv_last fs) (g_cs (xv_geo fs)) first size nc cl ->
  zlen d = match size with None => g_cs (xv_geo fs) * zlen cl | Some n => Z.max 0 (Z.min n (g_cs (xv_geo fs) * zlen cl)) end.
Proof.
  intros B E V R C. pose proof (x_open_ok _ _ _ _ B V E) as FO. pose proof (xo_cs _ _ _ _ FO). apply (C40_exfat_read vol voff vsize) in R as (cl' & C' & R); auto.
  assert (cl' = cl) as ->. { unfold file_clusters in *. destruct nc; [|congruence]. destruct C as (n & -> & ->), C' as (m & Em & ->). injection Em as <-. reflexivity. }
  apply holds_length; auto. lia.
Qed.

(** Every byte of a file without a chain is the byte at its place in the run of clusters. *)
Theorem C40_exfat_contiguous_byte vol voff vsize fs first size d p : bytes_ok vol -> x_fs_open vol voff vsize = Ok fs -> 0 <= voff ->
  x_read_chain fs first (Some size) true = Ok d -> 0 <= p < zlen d ->
  2 <= first /\ znth d p = znth vol (voff + g_data (xv_geo fs) + (first - 2) * g_cs (xv_geo fs) + p).
Proof.
  intros B E V R P. pose proof (x_open_ok _ _ _ _ B V E) as FO. pose proof (xo_cs _ _ _ _ FO) as C512.
  pose proof R as R0. apply (C40_exfat_read vol voff vsize) in R as (cl & C & R); auto. pose proof (C40_exfat_length _ _ _ _ _ _ _ _ _ B E V R0 C) as L.
  cbv iota beta in L. destruct C as (n & En & ECL). injection En as <-. set (cs := g_cs (xv_geo fs)) in *. 
  destruct (Z.leb_spec 2 first) as [F2|F2]; [|subst cl; change (zlen []) with 0 in L; lia]. split; auto.
  assert (Q : 0 <= p / cs < zlen cl).
  { pose proof (zlen_nonneg cl). assert (p < cs * zlen cl) by lia. split; [apply Z.div_pos; lia|apply Z.div_lt_upper_bound; lia]. }
  assert (N : znth cl (p / cs) = Some (Some (first + p / cs))).
  { destruct (znth_some cl (p / cs) Q) as [c N]. rewrite N. f_equal. rewrite ECL in N. unfold consecutive in N.
    rewrite znth_nth_error in N by lia. rewrite nth_error_map in N.
    rewrite ECL, consecutive_len in Q. rewrite nth_error_nth' with (d := O) in N by (rewrite seq_length; lia). rewrite seq_nth in N by lia. cbn [option_map] in N. injection N as <-. f_equal. lia. }
  pose proof (holds_byte (xv_geo fs) (Some size) cl d p _ ltac:(fold cs; lia) R P N) as HB. fold cs in HB.
  pose proof (Z.mod_pos_bound p cs ltac:(lia)) as M. pose proof (Z.div_mod p cs ltac:(lia)) as DM.
  rewrite HB. cbn [cluster_data]. fold cs. rewrite (xo_vol _ _ _ _ FO), (xo_voff _ _ _ _ FO).
  assert (RD : readable (xv_geo fs) (first + p / cs)).
  { destruct R as [R _]. apply R. cbn [needed]. fold cs. assert (p < size) by lia. assert (p / cs < (size + cs - 1) / cs).
    { apply Z.lt_le_trans with (p / cs + 1); [lia|]. replace (size + cs - 1) with (size - 1 + 1 * cs) by lia.
      rewrite Z.div_add by lia. pose proof (Z.div_le_mono p (size - 1) cs ltac:(lia) ltac:(lia)). lia. }
    apply (znth_In _ (p / cs)). rewrite znth_ztake by lia. exact N. }
  unfold readable in RD. fold cs in RD. rewrite (xo_vol _ _ _ _ FO), (xo_voff _ _ _ _ FO) in RD. destruct RD as (R1 & R2 & _).
  rewrite znth_slice by lia. f_equal. nia.
Qed.
Print Assumptions C40_exfat_read.
Print Assumptions C40_exfat_errors.
Print Assumptions C40_exfat_length.
Print Assumptions C40_exfat_contiguous_byte.

(** ** C39: the walk *)

Definition xwalk_result (fs : x_fs) (scan : bool) (g : gen x_item) : Prop :=
  exists buf, x_read_chain fs (br_rootcluster (xv_boot fs)) None false = Ok buf /\
    full_walk (x_walker fs scan) (mk_x_state [] [] []) buf [br_rootcluster (xv_boot fs)] g.

(** The walk is the recursion over the directories that knows nothing but the
    directories above.  It always ends. *)
Theorem C39_exfat_walk vol voff vsize fs scan g : bytes_ok vol -> 0 <= voff -> x_fs_open vol voff vsize = Ok fs ->
  (x_walk fs scan = g <-> xwalk_result fs scan g).
Proof.
  intros B V E. pose proof (x_open_ok _ _ _ _ B V E) as FO. destruct (xo_root _ _ _ _ FO) as (buf & ER & BR). unfold x_walk, xwalk_result.
  rewrite ER. rewrite (x_walk_iff vol voff vsize fs B FO); [|lia|exact BR|constructor].
  split; [eauto|]. intros (b & Eb & H). congruence.
Qed.

Theorem C39_exfat_fuel vol voff vsize fs scan buf fuel : bytes_ok vol -> 0 <= voff -> x_fs_open vol voff vsize = Ok fs ->
  let first := br_rootcluster (xv_boot fs) in
  x_read_chain fs first None false = Ok buf -> (Z.to_nat (xv_last fs + 1) < fuel)%nat ->
  walk_from (x_walker fs scan) fuel (mk_x_state [] [] []) buf [first] = x_walk fs scan.
Proof.
  intros B V E first ER F. pose proof (x_open_ok _ _ _ _ B V E) as FO. apply (x_walk_iff vol voff vsize fs B FO); [lia| |constructor|].
  - eapply chain_bytes; eauto.
  - destruct (proj1 (C39_exfat_walk vol voff vsize fs scan _ B V E) eq_refl) as (b & Eb & H). fold first in Eb, H. congruence.
Qed.

(** The errors that end a walk early. *)
Theorem C39_exfat_errors vol voff vsize fs scan l x : bytes_ok vol -> 0 <= voff -> x_fs_open vol voff vsize = Ok fs ->
  x_walk fs scan = (l, Raised x) ->
  x = DirectoryEntriesException \/ (x = IndexError /\ 8 * zlen (xv_bitmap fs) < fld 4 (xv_boot fs) 92) \/ (x = TypeError /\ scan = false).
Proof.
  intros B V E H. pose proof (x_open_ok _ _ _ _ B V E) as FO. destruct (C59_volume _ _ _ _ B V E) as (off & _ & _ & _ & _ & _ & _ & _ & EL & _).
  apply (C39_exfat_walk vol voff vsize fs scan _ B V E) in H as (buf & ER & H).
  assert (BB : bytes_ok buf) by (eapply chain_bytes; eauto).
  assert (OS : xoks (mk_x_state [] [] [])) by constructor.
  destruct (x_walk_origin vol voff vsize fs B FO _ _ _ _ _ _ BB OS H) as [->|[[-> L]|[-> L]]]; auto.
  right. left. split; auto. lia.
Qed.

(** On a volume whose bitmap covers all clusters, whose directories are whole
    sectors and whose deleted directories are not reallocated, the walk is the
    recursive listing. *)
Theorem C39_exfat_tree vol voff vsize fs scan buf out : bytes_ok vol -> 0 <= voff -> x_fs_open vol voff vsize = Ok fs ->
  fld 4 (xv_boot fs) 92 <= 8 * zlen (xv_bitmap fs) ->
  let first := fld 4 (xv_boot fs) 96 in
  x_read_chain fs first None false = Ok buf -> xtree fs [first] [] buf out ->
  x_walk fs scan = (out, Done).
Proof.
  intros B V E BM first ER T. pose proof (x_open_ok _ _ _ _ B V E) as FO. destruct (C59_volume _ _ _ _ B V E) as (off & _ & _ & _ & _ & _ & _ & _ & EL & _).
  apply (C39_exfat_walk vol voff vsize fs scan _ B V E). exists buf. split; [exact ER|].
  assert (BB : bytes_ok buf) by (eapply chain_bytes; eauto).
  destruct (proj1 (xtree_walks vol voff vsize fs B FO scan ltac:(lia)) _ _ _ _ T BB (mk_x_state [] [] []) eq_refl) as (st' & R & H).
  rewrite <- (app_nil_r out). eapply fw_ok; [exact H|]. cbn [x_walker w_orphans]. rewrite R. constructor.
Qed.
Print Assumptions C39_exfat_walk.
Print Assumptions C39_exfat_fuel.
Print Assumptions C39_exfat_errors.
Print Assumptions C39_exfat_tree.

(** *** What is known about reallocated directories *)

(** Valid times are compared as numbers. *)
Lemma lex_gt_number a b : stamp_ok a -> stamp_ok b -> lex_gt (stamp_list a) (stamp_list b) = (stamp_number b <? stamp_number a).
Proof.
  destruct a as [[[[y m] d] [[h mi] s]] ms], b as [[[[y2 m2] d2] [[h2 mi2] s2]] ms2]. cbn [stamp_ok stamp_list stamp_number lex_gt].
  intros A1 A2. rewrite ?andb_false_r, ?orb_false_r. lia.
Qed.

(** Entries for the same first cluster: the metadata that are kept are those of
    an entry that is not older than any other. *)
Fixpoint note_all (es : list xentry) (l : list (Z * x_meta)) : result (list (Z * x_meta)) :=
  match es with [] => Ok l | e :: r => let! l' := x_note e l in note_all r l' end.

Lemma note_all_keeps c es : forall l l' ts sz nc, note_all es l = Ok l' -> Forall (fun e => xe_first e = c) es ->
  Forall (fun e => match xe_mtime e with Some t => stamp_ok t | None => True end) es ->
  meta_get c l = Some (Some ts, sz, nc) -> stamp_ok ts ->
  exists ts' sz' nc', meta_get c l' = Some (Some ts', sz', nc') /\ stamp_ok ts' /\ stamp_number ts <= stamp_number ts' /\
    (forall e, In e es -> exists t, xe_mtime e = Some t /\ stamp_number t <= stamp_number ts') /\
    ((ts', sz', nc') = (ts, sz, nc) \/ exists e, In e es /\ xe_mtime e = Some ts' /\ xe_size e = sz' /\ xe_no_chain e = nc').
Proof.
  induction es as [|e r IH]; intros l l' ts sz nc E F1 F2 G O; cbn [note_all] in E.
  - injection E as <-. exists ts, sz, nc. do 2 (split; [auto|]). split; [lia|]. split; [intros ? []|auto].
  - inversion F1 as [|? ? C1 C2]; subst. inversion F2 as [|? ? D1 D2]; subst.
    unfold x_note at 1 in E. rewrite G in E. unfold x_time_gt in E. destruct (xe_mtime e) as [t|] eqn:MT; [|discriminate]. cbn [bind] in E.
    rewrite lex_gt_number in E by auto. destruct (Z.ltb_spec (stamp_number ts) (stamp_number t)) as [L|L].
    + destruct (IH _ l' t (xe_size e) (xe_no_chain e) E C2 D2) as (ts' & sz' & nc' & H1 & H2 & H3 & H4 & H5); auto.
      { rewrite meta_get_set, Z.eqb_refl. try rewrite MT. reflexivity. }
      exists ts', sz', nc'. do 2 (split; [auto|]). split; [lia|]. split.
      * intros e' [<-|I]; [exists t; auto|auto].
      * right. destruct H5 as [X|(e' & I & X)]; [injection X as -> -> ->; exists e; split; [now left|auto]|exists e'; split; [now right|auto]].
    + destruct (IH _ l' ts sz nc E C2 D2 G O) as (ts' & sz' & nc' & H1 & H2 & H3 & H4 & H5).
      exists ts', sz', nc'. do 3 (split; [auto|]). split.
      * intros e' [<-|I]; [exists t; split; [auto|lia]|auto].
      * destruct H5 as [X|(e' & I & X)]; [auto|right; exists e'; split; [now right|auto]].
Qed.

Theorem C39_exfat_latest c e es l' : note_all (e :: es) [] = Ok l' -> Forall (fun e => xe_first e = c) (e :: es) ->
  Forall (fun e => exists t, xe_mtime e = Some t /\ stamp_ok t) (e :: es) ->
  exists best t, In best (e :: es) /\ xe_mtime best = Some t /\ meta_get c l' = Some (Some t, xe_size best, xe_no_chain best) /\
    forall e', In e' (e :: es) -> exists t', xe_mtime e' = Some t' /\ stamp_number t' <= stamp_number t.
Proof.
  intros E F1 F2. inversion F1 as [|? ? C1 C2]; subst. inversion F2 as [|? ? (t & MT & O) D2]; subst.
  cbn [note_all] in E. unfold x_note at 1 in E. cbn [meta_get] in E. rewrite MT in E. cbn [bind] in E.
  assert (D2' : Forall (fun e => match xe_mtime e with Some t => stamp_ok t | None => True end) es).
  { eapply Forall_impl; [|exact D2]. intros a (u & -> & U). exact U. }
  destruct (note_all_keeps (xe_first e) es _ l' t (xe_size e) (xe_no_chain e) E C2 D2') as (ts' & sz' & nc' & H1 & H2 & H3 & H4 & H5); auto.
  { rewrite meta_get_set, Z.eqb_refl. reflexivity. }
  destruct H5 as [X|(e' & I & X1 & X2 & X3)].
  - injection X as -> -> ->. exists e, t. split; [now left|]. split; auto. split; auto. intros e' [<-|I]; [exists t; split; [auto|lia]|auto].
  - exists e', ts'. split; [now right|]. split; auto. split; [congruence|]. intros e2 [<-|I2]; [exists t; auto|auto].
Qed.
Print Assumptions C39_exfat_latest.

(** ** Examples *)

(** A volume with clusters of one sector: the root directory is cluster 2, the
    bitmap is in cluster 3, the directory "d" is cluster 4, files are in 5 and 6. *)
Definition exv_head : list Z :=
  [0xEB; 0x76; 0x90] ++ [69; 88; 70; 65; 84; 32; 32; 32] ++ zeros 53 ++ zeros 8 ++ le_bytes 8 2048 ++ le_bytes 4 24 ++ le_bytes 4 1 ++
  le_bytes 4 25 ++ le_bytes 4 100 ++ le_bytes 4 2 ++ le_bytes 4 0x1234 ++ [0; 1; 0; 0; 9; 0; 1; 0x80; 0] ++ zeros 397 ++ [0x55; 0xAA].
Definition exv_region : list Z := with_sum (exv_head ++ zeros (11 * 512)) 512.
Definition exv_table : list Z :=
  let e := le_bytes 4 0xFFFFFFFF in let t := le_bytes 4 0xFFFFFFF8 ++ e ++ e ++ e ++ e ++ le_bytes 4 6 ++ e in t ++ zeros (512 - zlen t).
Definition exv_meta (attr first size : Z) (nc : bool) (mtime : Z) : xmeta := mk_xmeta attr 0 1431655765 mtime 1431655765 0 0 0 0 0 nc 0 size first size.
Definition exv_set (m : xmeta) (name : list Z) : list (list Z) := set_head m name :: sub_slots m name.
Definition exv_dir (slots : list (list Z)) : list Z := let d := concat slots in d ++ zeros (512 - zlen d).
Definition exv_bitmap_entry (first : Z) : list Z := [0x81; 0] ++ zeros 18 ++ le_bytes 4 first ++ le_bytes 8 13.
Definition exv_label : list Z := [0x83; 1; 76; 0] ++ zeros 28.
Definition exv_bits : list Z := [0x1F] ++ zeros 511.
Definition exv_volume (main : list Z) (root sub : list (list Z)) : list Z :=
  main ++ exv_region ++ exv_table ++ exv_dir root ++ exv_bits ++ exv_dir sub ++ (repeat 7 512) ++ (repeat 8 512) ++ zeros 512.
Definition T0 : Z := 1431655765.
Definition exv_root : list (list Z) :=
  [exv_bitmap_entry 3; exv_label] ++ exv_set (exv_meta 0x10 4 512 true T0) [100] ++ exv_set (exv_meta 0x20 5 600 false T0) [102].
(** The directory holds a file and a link to itself. *)
Definition exv_sub : list (list Z) := exv_set (exv_meta 0x20 5 3 true T0) [103] ++ exv_set (exv_meta 0x10 4 512 true T0) [104].
Definition exv_good : list Z := exv_volume exv_region exv_root exv_sub.

Definition exv_names (g : gen x_item) : list (list Z) :=
  map (fun i => match i with XFile e => xe_name e | XOrphan n => n | XLabel n => n | XBitmap _ _ _ => [] end) (fst g).

Example C39_exfat_example :
  match x_fs_open exv_good 0 None with
  | Ok fs => exv_names (x_walk fs false) = [[76]; [47; 100]; [47; 100; 47; 103]; [47; 102]] /\ snd (x_walk fs false) = Done /\
      x_read_chain fs 5 (Some 514) false = Ok (repeat 7 512 ++ [8; 8]) /\ x_read_chain fs 5 (Some 3) true = Ok [7; 7; 7]
  | Err _ => False
  end.
Proof. vm_compute. repeat split. Qed.

(** With a damaged main region, the backup is used. *)
Example C59_backup_example :
  match x_fs_open (exv_volume (zset exv_region 700 1) exv_root exv_sub) 0 None with
  | Ok fs => xv_backup fs = true /\ exv_names (x_walk fs false) = [[76]; [47; 100]; [47; 100; 47; 103]; [47; 102]]
  | Err _ => False
  end.
Proof. vm_compute. repeat split. Qed.

(** *** Limits *)

(** "A damaged directory does not hide the files behind it" is false: a
    directory whose size is not a number of sectors ends the walk. *)
Definition exv_cut : list Z :=
  exv_volume exv_region ([exv_bitmap_entry 3] ++ exv_set (exv_meta 0x10 4 500 true T0) [100] ++ exv_set (exv_meta 0x20 5 600 false T0) [102]) exv_sub.
Definition exv_lost (v : list Z) (x : exn) : bool :=
  match x_fs_open v 0 None with
  | Ok fs => match x_walk fs false with
             | (l, Raised y) => (zlen l =? 1) && match x, y with DirectoryEntriesException, DirectoryEntriesException => true | IndexError, IndexError => true | TypeError, TypeError => true | _, _ => false end
             | _ => false
             end
  | Err _ => false
  end.
Lemma exv_lost_spec v x : bytes_okb v = true -> exv_lost v x = true ->
  exists fs i, bytes_ok v /\ x_fs_open v 0 None = Ok fs /\ x_walk fs false = ([i], Raised x).
Proof.
  intros B H. unfold exv_lost in H. destruct (x_fs_open v 0 None) as [fs|]; [|discriminate H]. exists fs.
  destruct (x_walk fs false) as [l [|y]]; [discriminate H|]. apply andb_true_iff in H as [H1 H2].
  destruct l as [|i [|j l]]; [discriminate H1| |rewrite !zlen_cons in H1; pose proof (zlen_nonneg l); lia]. exists i. split; [apply bytes_okb_ok; exact B|]. split; [reflexivity|].
  destruct x, y; try discriminate H2; reflexivity.
Qed.
Theorem C39_exfat_size_refuted : exists v fs i, bytes_ok v /\ x_fs_open v 0 None = Ok fs /\ x_walk fs false = ([i], Raised DirectoryEntriesException).
Proof. exists exv_cut. apply exv_lost_spec; vm_compute; reflexivity. Qed.
Print Assumptions C39_exfat_size_refuted.

(** The bitmap may be shorter than the volume. *)
Definition exv_no_bitmap : list Z :=
  exv_volume exv_region ([exv_bitmap_entry 0] ++ exv_set (exv_meta 0x10 4 512 true T0) [100] ++ exv_set (exv_meta 0x20 5 600 false T0) [102]) exv_sub.
Theorem C39_exfat_bitmap_refuted : exists v fs i, bytes_ok v /\ x_fs_open v 0 None = Ok fs /\ x_walk fs false = ([i], Raised IndexError).
Proof. exists exv_no_bitmap. apply exv_lost_spec; vm_compute; reflexivity. Qed.
Print Assumptions C39_exfat_bitmap_refuted.

(** Two deleted directories with the same first cluster, one without a valid time. *)
Definition deleted (slots : list (list Z)) : list (list Z) := map (fun s => zset s 0 (byte_at s 0 - 128)) slots.
Definition exv_untimed : list Z :=
  exv_volume exv_region ([exv_bitmap_entry 3] ++ deleted (exv_set (exv_meta 0x10 4 512 true T0) [100]) ++ deleted (exv_set (exv_meta 0x10 4 512 true 0) [101])
    ++ exv_set (exv_meta 0x20 5 600 false T0) [102]) exv_sub.
Theorem C39_exfat_time_refuted : exists v fs i j, bytes_ok v /\ x_fs_open v 0 None = Ok fs /\ x_walk fs false = ([i; j], Raised TypeError).
Proof.
  exists exv_untimed.
  assert (B : bytes_okb exv_untimed = true) by (vm_compute; reflexivity).
  assert (H : (match x_fs_open exv_untimed 0 None with Ok fs => match x_walk fs false with ([_; _], Raised TypeError) => true | _ => false end | Err _ => false end) = true) by (vm_compute; reflexivity).
  destruct (x_fs_open exv_untimed 0 None) as [fs|]; [|discriminate H]. exists fs.
  destruct (x_walk fs false) as [[|i [|j [|k l]]] [|y]]; try discriminate H. exists i, j. split; [apply bytes_okb_ok; exact B|]. split; [reflexivity|].
  destruct y; try discriminate H; reflexivity.
Qed.
Print Assumptions C39_exfat_time_refuted.

(** Deleted directories with the same first cluster: the most recent one tells how to read it. *)
Definition exv_orphan : list Z :=
  exv_volume exv_region ([exv_bitmap_entry 3] ++ deleted (exv_set (exv_meta 0x10 4 512 true T0) [100]) ++ exv_set (exv_meta 0x20 5 600 false T0) [102])
    (deleted exv_sub).
Example C39_exfat_orphan_example :
  match x_fs_open exv_orphan 0 None with
  | Ok fs => exv_names (x_walk fs false) = [[47; 100]; [47; 102]; [60;79;114;112;104;97;110;32;100;105;114;101;99;116;111;114;121;32;52;62;47;103]; [60;79;114;112;104;97;110;32;100;105;114;101;99;116;111;114;121;32;52;62;47;104]]
  | Err _ => False
  end.
Proof. vm_compute. reflexivity. Qed.
