(** Proofs about the reports: cells, attributes of a record, control flow. *)
From Coq Require Import String Sorted Permutation.
From Verif Require Import Base BaseLemmas FieldLemmas Frs FrsSpec FrsProofs FileRecord FileRecordSpec Mft MftSpec MftProofs MftPathProofs
  Filetime FiletimeProofs Wsl Attributes AttributesSpec AttributesProofs ExtAttrProofs Carve CarveSpec Report ReportSpec.
Local Open Scope Z_scope.
Local Set Warnings "-abstract-large-number".

(** ** Cells *)

Lemma decode_quiet epoch t : exists o, decode_time epoch t true = Ok o.
Proof. unfold decode_time. destruct (_ <? _); eauto. Qed.

Lemma time_cell epoch t o : decode_time epoch t true = Ok o -> time_shown epoch t (format_timestamp epoch o).
Proof.
  intro H. exists o. split; [auto|]. destruct o; cbn [format_timestamp]; [|reflexivity].
  f_equal. change us_per_day with 86400000000. lia.
Qed.

Lemma filetime_at v off o : 0 <= off -> time_at v off = Ok o -> off + 8 <= zlen v /\ filetime_shown (fld 8 v off) (filetime_cell o).
Proof.
  intros Ho H. unfold time_at in H. apply bind_ok in H as (t & E & H). unfold u64 in E.
  apply unp_inv in E as [L ->]; try lia. split; [lia|]. now apply time_cell.
Qed.

Lemma filetime_total v off : 0 <= off -> off + 8 <= zlen v -> exists o, time_at v off = Ok o.
Proof. intros H L. unfold time_at, u64. rewrite unp_ok by lia. cbn [bind]. apply decode_quiet. Qed.

Lemma filetime_at8 v off o : 0 <= off -> time_at (fnd v) off = Ok o ->
  8 + off + 8 <= zlen v /\ filetime_shown (fld 8 v (8 + off)) (filetime_cell o).
Proof.
  intros Ho H. apply filetime_at in H as [L H]; [|lia]. unfold fnd in *. rewrite fld_zdrop in H by lia.
  rewrite zlen_zdrop in L. split; [lia|auto].
Qed.

Lemma fn_cells_shown v l : fn_cells v = Ok l -> fn_shown v l.
Proof.
  intro H. unfold fn_cells in H. apply bind_ok in H as (m & Em & H). apply bind_ok in H as (a & Ea & H).
  apply bind_ok in H as (c & Ec & H). apply bind_ok in H as (e & Ee & H). injection H as <-.
  apply filetime_at8 in Em as [? Em]; [|lia]. apply filetime_at8 in Ea as [? Ea]; [|lia].
  apply filetime_at8 in Ec as [? Ec]; [|lia]. apply filetime_at8 in Ee as [? Ee]; [|lia].
  constructor; auto; lia.
Qed.

Lemma fn_cells_total v : 40 <= zlen v -> exists l, fn_cells v = Ok l.
Proof.
  intro L. unfold fn_cells, fna_mtime, fna_atime, fna_ctime, fna_etime.
  assert (K : forall off, 0 <= off <= 24 -> exists o, time_at (fnd v) off = Ok o).
  { intros off Ho. apply filetime_total; [lia|]. unfold fnd. rewrite zlen_zdrop. lia. }
  destruct (K 0 ltac:(lia)) as [o0 ->], (K 8 ltac:(lia)) as [o1 ->], (K 16 ltac:(lia)) as [o2 ->], (K 24 ltac:(lia)) as [o3 ->].
  cbn [bind]. eauto.
Qed.

Lemma source_cell s tag : source_shown s tag (format_source s tag).
Proof.
  unfold source_shown, format_source. destruct tag as [[|x t]|]; [left; auto| |left; auto].
  right. exists (x :: t). split; [auto|]. split; [discriminate|reflexivity].
Qed.

Lemma flag_cell (P : Prop) b : (b = true <-> P) -> flag_shown P (yes_no b).
Proof.
  intro H. unfold flag_shown. destruct b; cbn; [left; split; [tauto|reflexivity]|right; split; [|reflexivity]].
  intro K. apply H in K. discriminate.
Qed.

(** ** First values *)

Section Fold.
  Context {B : Type}.
  Variable get : facts -> option B.
  Variable val : attr -> result (option B).
  Hypothesis step : forall s a s', facts_step s a = Ok s' ->
    match get s with Some x => get s' = Some x | None => val a = Ok (get s') end.

  Lemma fold_kept l : forall s fa x, facts_in s l Done = Ok fa -> get s = Some x -> get fa = Some x.
  Proof.
    induction l as [|a l IH]; cbn [facts_in]; intros s fa x H G; [injection H as <-; auto|].
    apply bind_ok in H as (s' & E & H). apply step in E. rewrite G in E. eauto.
  Qed.

  Lemma fold_first l : forall s fa, facts_in s l Done = Ok fa -> get s = None ->
    (Forall (fun a => val a = Ok None) l /\ get fa = None) \/
    exists l1 a l2 b, l = l1 ++ a :: l2 /\ Forall (fun a => val a = Ok None) l1 /\ val a = Ok (Some b) /\ get fa = Some b.
  Proof.
    induction l as [|a l IH]; cbn [facts_in]; intros s fa H G; [injection H as <-; auto|].
    apply bind_ok in H as (s' & E & H). apply step in E. rewrite G in E.
    destruct (get s') as [b|] eqn:G'.
    - right. exists [], a, l, b. repeat split; auto. eapply fold_kept; eauto.
    - destruct (IH _ _ H G') as [[F N]|(l1 & a' & l2 & b & -> & F & V & N)]; [left; auto|].
      right. exists (a :: l1), a', l2, b. repeat split; auto.
  Qed.
End Fold.

Lemma first_where_of {A B} (val : A -> result (option B)) (P : A -> Prop) l1 a l2 :
  (forall x, val x = Ok None -> ~ P x) -> Forall (fun x => val x = Ok None) l1 -> P a -> first_where P (l1 ++ a :: l2) a.
Proof. intros H F K. exists l1, l2. split; [auto|]. split; [|auto]. eapply Forall_impl; [|exact F]. auto. Qed.

Ltac step_cases H :=
  match type of H with facts_step ?s ?a = Ok _ => unfold facts_step in H; destruct a as [ty name v|ty name mp runs lo hi fsize] end;
  [match type of H with (if ?b then _ else _) = _ => destruct b; [discriminate|] end;
   let oid := fresh "oid" in let wsl := fresh "wsl" in let Eo := fresh "Eo" in let Ew := fresh "Ew" in
   apply bind_ok in H as (oid & Eo & H); apply bind_ok in H as (wsl & Ew & H)|]; injection H as <-.

(** $STANDARD_INFORMATION *)
Definition val_si (a : attr) : result (option (list Z)) :=
  match a with Resident ty _ v => Ok (if ty =? 0x10 then Some v else None) | _ => Ok None end.

Lemma step_si s a s' : facts_step s a = Ok s' -> match fa_si s with Some x => fa_si s' = Some x | None => val_si a = Ok (fa_si s') end.
Proof. intro H. step_cases H; cbn [fa_si val_si]; destruct (fa_si s); auto. Qed.

Lemma val_si_none a : val_si a = Ok None -> ~ is_si a.
Proof. intros H (nm & v & ->). cbn in H. discriminate. Qed.

Lemma val_si_some a v : val_si a = Ok (Some v) -> exists nm, a = Resident 0x10 nm v.
Proof. destruct a as [ty nm w|]; cbn; [|discriminate]. destruct (Z.eqb_spec ty 0x10); [|discriminate]. intro H; injection H as ->. subst. eauto. Qed.

Lemma si_cells_shown items fa cells : facts_of (items, Done) = Ok fa -> si_cells (fa_si fa) = Ok cells -> si_shown items cells.
Proof.
  intros H C. unfold facts_of in H. cbn [fst snd] in H.
  destruct (fold_first _ _ step_si _ _ _ H eq_refl) as [[F N]|(l1 & a & l2 & v & -> & F & V & N)].
  - rewrite N in C. injection C as <-. constructor. eapply Forall_impl; [|exact F]. exact val_si_none.
  - rewrite N in C. unfold si_cells in C.
    apply bind_ok in C as (m & Em & C). apply bind_ok in C as (t & Et & C).
    apply bind_ok in C as (c & Ec & C). apply bind_ok in C as (e & Ee & C). apply bind_ok in C as (u & Eu & C). injection C as <-.
    destruct (val_si_some _ _ V) as [nm ->].
    apply filetime_at in Em as [? Em]; [|lia]. apply filetime_at in Et as [? Et]; [|lia].
    apply filetime_at in Ec as [? Ec]; [|lia]. apply filetime_at in Ee as [? Ee]; [|lia].
    apply (si_some _ nm v); [|lia|exact Em|exact Et|exact Ec|exact Ee|].
    + apply (first_where_of val_si); eauto using val_si_none. exists nm, v; auto.
    + unfold si_usn, opt_at in Eu. rewrite zlen_slice in Eu by lia.
      destruct (Z.le_gt_cases 72 (zlen v)).
      * left. split; [auto|]. replace (Z.max 0 (Z.min (64 + 8 - 64) (zlen v - 64)) =? 8) with true in Eu by lia.
        rewrite unp_ok in Eu by lia. cbn [bind] in Eu. injection Eu as <-. reflexivity.
      * right. split; [lia|].
        replace (Z.max 0 (Z.min (64 + 8 - 64) (zlen v - 64)) =? 8) with false in Eu by lia. injection Eu as <-. reflexivity.
Qed.

(** Size *)
Definition val_size (a : attr) : result (option Z) :=
  match a with
  | Resident ty None v => Ok (if ty =? 0x80 then Some (zlen v) else None)
  | Nonresident ty None _ _ lo _ sz => Ok (if (ty =? 0x80) && (lo =? 0) then Some sz else None)
  | _ => Ok None
  end.

Lemma step_size s a s' : facts_step s a = Ok s' -> match fa_size s with Some x => fa_size s' = Some x | None => val_size a = Ok (fa_size s') end.
Proof. intro H. step_cases H; cbn [fa_size val_size]; destruct (fa_size s); auto; destruct name; auto. Qed.

Lemma val_size_none a : val_size a = Ok None -> ~ is_content a.
Proof.
  destruct a as [ty [nm|] v|ty [nm|] ? ? lo ? sz]; cbn; intros H K; try (intuition discriminate).
  - destruct K as [-> _]. discriminate.
  - destruct K as (-> & _ & ->). discriminate.
Qed.

Lemma val_size_some a n : val_size a = Ok (Some n) -> is_content a /\ n = content_size a.
Proof.
  destruct a as [ty [nm|] v|ty [nm|] ? ? lo ? sz]; cbn; try discriminate.
  - destruct (Z.eqb_spec ty 0x80); [|discriminate]. intro H; injection H as <-. auto.
  - destruct (Z.eqb_spec ty 0x80); [|discriminate]. destruct (Z.eqb_spec lo 0); [|discriminate]. cbn. intro H; injection H as <-. auto.
Qed.

Lemma size_cell_shown items fa : facts_of (items, Done) = Ok fa ->
  size_shown items match fa_size fa with None => unsure | Some n => Num n end.
Proof.
  intro H. unfold facts_of in H. cbn [fst snd] in H.
  destruct (fold_first _ _ step_size _ _ _ H eq_refl) as [[F N]|(l1 & a & l2 & v & -> & F & V & N)]; rewrite N.
  - right. split; [|reflexivity]. eapply Forall_impl; [|exact F]. exact val_size_none.
  - left. exists a. apply val_size_some in V as [C ->]. split; [|auto].
    apply (first_where_of val_size); eauto using val_size_none.
Qed.

(** Object identifier *)
Definition val_oid (a : attr) : result (option Z) :=
  match a with Resident ty _ v => if ty =? 0x40 then oid_timestamp v else Ok None | _ => Ok None end.

Lemma step_oid s a s' : facts_step s a = Ok s' -> match fa_objid s with Some x => fa_objid s' = Some x | None => val_oid a = Ok (fa_objid s') end.
Proof. intro H. step_cases H; cbn [fa_objid val_oid]; destruct (fa_objid s); auto; congruence. Qed.

Lemma le2_land (x : Z) : 0 <= x < 256 -> (Z.land x 0xC0 =? 0x80) = (x / 64 =? 2).
Proof.
  intro H. assert (E : Z.land x 0xC0 = 64 * (x / 64)).
  { change 0xC0 with (Z.shiftl (Z.ones 2) 6). apply Z.bits_inj'. intros n Hn. rewrite Z.land_spec.
    replace (64 * (x / 64)) with (Z.shiftl (Z.shiftr x 6) 6)
      by (rewrite Z.shiftl_mul_pow2, Z.shiftr_div_pow2 by lia; change (2 ^ 6) with 64; lia).
    destruct (Z.lt_ge_cases n 6).
    - rewrite !Z.shiftl_spec_low by lia. apply andb_false_r.
    - rewrite !Z.shiftl_spec_high, Z.shiftr_spec by lia. replace (n - 6 + 6) with n by lia.
      destruct (Z.lt_ge_cases n 8).
      + rewrite Z.ones_spec_low by lia. apply andb_true_r.
      + rewrite (Z.bits_above_log2 x n); [reflexivity|lia|].
        destruct (Z.eq_dec x 0) as [->|]; [cbn; lia|]. apply Z.log2_lt_pow2; [lia|]. apply Z.lt_le_trans with (2 ^ 8); [lia|].
        apply Z.pow_le_mono_r; lia. }
  rewrite E. destruct (Z.eqb_spec (x / 64) 2); [apply Z.eqb_eq|apply Z.eqb_neq]; lia.
Qed.

Lemma guid_time_value g : bytes_ok g ->
  guid_time g = fld 4 g 0 + 2 ^ 32 * fld 2 g 4 + 2 ^ 48 * (fld 2 g 6 mod 4096).
Proof.
  intro Bg. unfold guid_time.
  pose proof (fld_bound 4 g 0 ltac:(lia) ltac:(lia) Bg) as H0. pose proof (fld_bound 2 g 4 ltac:(lia) ltac:(lia) Bg) as H4.
  change 0xFFF with (Z.ones 12). rewrite Z.land_ones by lia. change (2 ^ 12) with 4096.
  change (256 ^ 4) with 4294967296 in H0. change (256 ^ 2) with 65536 in H4.
  replace (Z.shiftl (fld 2 g 4) 32) with (fld 2 g 4 * 2 ^ 32) by (rewrite Z.shiftl_mul_pow2 by lia; reflexivity).
  rewrite lor_shiftl_add by (change (2 ^ 48) with 281474976710656; change (2 ^ 32) with 4294967296; lia).
  replace (fld 2 g 6 mod 4096 * 2 ^ 48 + fld 2 g 4 * 2 ^ 32) with (Z.shiftl (fld 2 g 6 mod 4096 * 65536 + fld 2 g 4) 32).
  2:{ rewrite Z.shiftl_mul_pow2 by lia. change (2 ^ 48) with (65536 * 2 ^ 32). lia. }
  rewrite lor_shiftl_add by (change (2 ^ 32) with 4294967296; lia).
  change (2 ^ 48) with (65536 * 2 ^ 32). lia.
Qed.

Lemma oid_dated v : bytes_ok v -> forall o, oid_timestamp v = Ok o ->
  match o with Some us => guid_dated v us | None => forall us, ~ guid_dated v us end.
Proof.
  intros B o H. unfold oid_timestamp, oid_guid in H. rewrite zlen_slice in H by lia. 
  unfold guid_dated. pose proof (zlen_nonneg v).
  destruct (Z.le_gt_cases 16 (zlen v)) as [L|L].
  2:{ replace (Z.max 0 (Z.min (16 - 0) (zlen v - 0)) =? 16) with false in H by lia. injection H as <-. intros us (K & _). lia. }
  replace (Z.max 0 (Z.min (16 - 0) (zlen v - 0)) =? 16) with true in H by lia.
  set (g := slice v 0 16) in *.
  assert (Bg : bytes_ok g) by (now apply bytes_ok_slice).
  assert (F : forall w off, 0 <= off -> 0 <= w -> off + w <= 16 -> fld w g off = fld w v off).
  { intros w off H1 H2 H3. unfold fld, g. f_equal. rewrite slice_slice by lia. f_equal; lia. }
  assert (E1 : guid_rfc4122 g = (fld 1 v 8 / 64 =? 2)).
  { unfold guid_rfc4122. rewrite le2_land; [rewrite F by lia; auto|]. pose proof (fld_bound 1 g 8 ltac:(lia) ltac:(lia) Bg). lia. }
  assert (E2 : guid_version g = fld 2 v 6 / 4096).
  { unfold guid_version. rewrite Z.shiftr_div_pow2 by lia. rewrite F by lia. reflexivity. }
  rewrite E1, E2, (guid_time_value g Bg), !F in H by lia.
  destruct (Z.eqb_spec (fld 1 v 8 / 64) 2) as [K1|K1]; cbn [andb] in H.
  2:{ injection H as <-. intros us (_ & K & _). lia. }
  destruct (Z.eqb_spec (fld 2 v 6 / 4096) 1) as [K2|K2]; cbn [andb] in H.
  2:{ injection H as <-. intros us (_ & _ & K & _). lia. }
  unfold decode_guid_time in H. change ordinal_1582 with 577736 in H. destruct o as [us|]; [auto|].
  intros us (_ & _ & _ & K). rewrite K in H. discriminate.
Qed.

Definition item_bytes (a : attr) : Prop := match a with Resident _ _ v => bytes_ok v | _ => True end.

Lemma objid_cell_shown items fa : Forall item_bytes items -> facts_of (items, Done) = Ok fa ->
  objid_shown items match fa_objid fa with None => blank | Some us => format_timestamp ordinal_1582 (Some us) end.
Proof.
  intros B H. unfold facts_of in H. cbn [fst snd] in H.
  assert (VN : forall a, item_bytes a -> val_oid a = Ok None -> ~ is_dated a).
  { intros a Ba Va (nm & v & us & -> & K). cbn in Va, Ba. exact (oid_dated v Ba None Va us K). }
  destruct (fold_first _ _ step_oid _ _ _ H eq_refl) as [[F N]|(l1 & a & l2 & us & -> & F & V & N)]; rewrite N.
  - apply objid_none. rewrite Forall_forall in *. auto.
  - destruct a as [ty nm v|]; cbn in V; [|discriminate]. destruct (Z.eqb_spec ty 0x40); [subst|discriminate].
    apply Forall_app in B as [B1 B2]. inversion B2 as [|? ? Bv _]; subst. cbn in Bv.
    pose proof (oid_dated v Bv (Some us) V) as D. cbn beta iota in D.
    cbn [format_timestamp]. replace (ordinal_1582 * us_per_day + us) with (86400000000 * 577736 + us)
      by (change ordinal_1582 with 577736; change us_per_day with 86400000000; lia).
    apply (objid_some _ nm v us); [|auto].
    exists l1, l2. split; [auto|]. split; [|exists nm, v, us; auto]. rewrite Forall_forall in *. auto.
Qed.

(** Times of the Linux subsystem *)
Lemma lxb_open_cases v : (exists b, lxb_open v = Ok b /\ b = v /\ zlen v = 56 /\ fld 2 v 2 = 1 /\ fld 2 v 0 = 0) \/
  (lxb_open v = Err ValueError /\ ~ (zlen v = 56 /\ fld 2 v 2 = 1 /\ fld 2 v 0 = 0)).
Proof.
  unfold lxb_open. destruct (Z.eqb_spec (zlen v) 56) as [L|L]; cbn [negb]; [|right; split; [auto|tauto]].
  unfold u16. rewrite !unp_ok by lia. cbn [bind].
  destruct (Z.eqb_spec (fld 2 v 2) 1); cbn [negb orb]; [|right; split; [auto|tauto]].
  destruct (Z.eqb_spec (fld 2 v 0) 0); cbn [negb orb]; [|right; split; [auto|tauto]].
  left. exists v. auto.
Qed.

Lemma lxb_time_spec b no so t : 0 <= no -> 0 <= so -> lxb_time b no so = Ok t -> decode_unixtime (fld 8 b so) (fld 4 b no) = Ok t.
Proof.
  intros Hn Hs H. unfold lxb_time in H. apply bind_ok in H as (ns & E & H). apply bind_ok in H as (s & E' & H).
  unfold u32 in E. unfold u64 in E'. apply unp_inv in E as [_ ->]; try lia. apply unp_inv in E' as [_ ->]; try lia. auto.
Qed.

Lemma wsl_in_spec : forall l w o, wsl_in l Done w = Ok o ->
  (Forall (fun e => ~ is_lx e) l /\ o = w) \/
  exists l1 n f b l2 m a c, l = l1 ++ (n, f, b) :: l2 /\ is_lx (n, f, b) /\ Forall (fun e => ~ is_lx e) l2 /\
    lx_times b m a c /\ o = Some (m, a, c).
Proof.
  induction l as [|[[n f] b] l IH]; intros w o H; cbn [wsl_in] in H; [left; split; [auto|congruence]|].
  assert (Skip : ~ is_lx (n, f, b) -> wsl_in l Done w = Ok o ->
    (Forall (fun e => ~ is_lx e) ((n, f, b) :: l) /\ o = w) \/
    exists l1 n0 f0 b0 l2 m a c, (n, f, b) :: l = l1 ++ (n0, f0, b0) :: l2 /\ is_lx (n0, f0, b0) /\ Forall (fun e => ~ is_lx e) l2 /\
      lx_times b0 m a c /\ o = Some (m, a, c)).
  { intros N W. destruct (IH _ _ W) as [[F E]|(l1 & n0 & f0 & b0 & l2 & m & a & c & -> & K)]; [left; auto|].
    right. exists ((n, f, b) :: l1), n0, f0, b0, l2, m, a, c. split; [reflexivity|auto]. }
  destruct (zlist_eqb n LXATTRB_NAME) eqn:En.
  2:{ apply Skip; [|auto]. intros (K & _). cbn in K. subst n. discriminate En. }
  apply zlist_eqb_eq in En. subst n.
  destruct (lxb_open_cases b) as [(b' & E & -> & K)|[E K]]; rewrite E in H.
  2:{ apply Skip; [|auto]. intros (_ & K'). cbn in K'. tauto. }
  apply bind_ok in H as (a & Ea & H). apply bind_ok in H as (m & Em & H). apply bind_ok in H as (c & Ec & H).
  apply lxb_time_spec in Ea, Em, Ec; try lia.
  right. destruct (IH _ _ H) as [[F ->]|(l1 & n0 & f0 & b0 & l2 & m' & a' & c' & -> & K')].
  - exists [], LXATTRB_NAME, f, b, l, m, a, c. repeat split; auto; tauto.
  - exists ((LXATTRB_NAME, f, b) :: l1), n0, f0, b0, l2, m', a', c'. split; [reflexivity|auto].
Qed.

Definition val_wsl (a : attr) : result (option (Z * Z * Z)) :=
  match a with
  | Resident ty _ v => if ty =? 0xE0 then let (l, st) := ea_data v in wsl_in l st None else Ok None
  | _ => Ok None
  end.

Lemma step_wsl s a s' : facts_step s a = Ok s' -> match fa_wsl s with Some x => fa_wsl s' = Some x | None => val_wsl a = Ok (fa_wsl s') end.
Proof. intro H. step_cases H; cbn [fa_wsl val_wsl]; destruct (fa_wsl s); auto; congruence. Qed.

Lemma val_wsl_spec nm v o : bytes_ok v -> val_wsl (Resident 0xE0 nm v) = Ok o ->
  exists l, ea_walk v l /\
  ((Forall (fun e => ~ is_lx e) l /\ o = None) \/
   exists l1 n f b l2 m a c, l = l1 ++ (n, f, b) :: l2 /\ is_lx (n, f, b) /\ Forall (fun e => ~ is_lx e) l2 /\
     lx_times b m a c /\ o = Some (m, a, c)).
Proof.
  intros B H. cbn [val_wsl] in H. change (0xE0 =? 0xE0) with true in H. cbn iota in H.
  destruct (ea_loop_walk (S (length v)) v B ltac:(lia)) as (l & E & W). unfold ea_data in H. rewrite E in H.
  exists l. split; [auto|]. now apply wsl_in_spec.
Qed.

Lemma val_wsl_none a : item_bytes a -> val_wsl a = Ok None -> ~ has_lx a.
Proof.
  intros B H (nm & v & l & e & -> & W & I & X). cbn in B. destruct (val_wsl_spec nm v None B H) as (l' & W' & K).
  rewrite (ea_walk_fun _ _ W' _ W) in K.
  destruct K as [[F _]|(? & ? & ? & ? & ? & ? & ? & ? & _ & _ & _ & _ & K)]; [|discriminate].
  rewrite Forall_forall in F. exact (F e I X).
Qed.

Lemma wsl_cells_shown items fa : Forall item_bytes items -> facts_of (items, Done) = Ok fa ->
  wsl_shown items match fa_wsl fa with
    | None => [blank; blank; blank]
    | Some (m, a, c) => [format_timestamp ordinal_1970 (Some m); format_timestamp ordinal_1970 (Some a); format_timestamp ordinal_1970 (Some c)]
    end.
Proof.
  intros B H. unfold facts_of in H. cbn [fst snd] in H.
  destruct (fold_first _ _ step_wsl _ _ _ H eq_refl) as [[F N]|(l1 & a & l2 & w & -> & F & V & N)]; rewrite N.
  - apply wsl_none. rewrite Forall_forall in *. auto using val_wsl_none.
  - apply Forall_app in B as [B1 B2]. inversion B2 as [|? ? Bv _]; subst.
    destruct a as [ty nm v|]; [|discriminate V].
    assert (ty = 0xE0) as ->. { cbn in V. destruct (Z.eqb_spec ty 0xE0); [auto|discriminate]. }
    cbn in Bv. destruct (val_wsl_spec nm v (Some w) Bv V) as (l & W & K).
    destruct K as [[_ K]|(k1 & n & f & b & k2 & m & x & c & -> & X & Y & T & K)]; [discriminate|]. injection K as ->.
    assert (E : forall us, format_timestamp ordinal_1970 (Some us) = Stamp (86400000000 * 719163 + us)).
    { reflexivity. }
    rewrite !E. apply (wsl_some _ nm v k1 n f b k2); auto.
    exists l1, l2. split; [auto|]. split.
    + rewrite Forall_forall in *. auto using val_wsl_none.
    + exists nm, v, (k1 ++ (n, f, b) :: k2), (n, f, b). repeat split; auto; try apply X.
      apply in_or_app. right. left. auto.
Qed.

(** Names of streams *)
Lemma text_leb_cases a : forall b, if text_leb a b then a = b \/ text_lt a b else text_lt b a.
Proof.
  induction a as [|x a IH]; intros [|y b]; cbn [text_leb]; auto using text_lt.
  destruct (Z.ltb_spec x y); [auto using text_lt|]. destruct (Z.ltb_spec y x); [auto using text_lt|].
  assert (x = y) as -> by lia. specialize (IH b). destruct (text_leb a b); [destruct IH as [->|]|]; auto using text_lt.
Qed.

Lemma text_lt_trans a b c : text_lt a b -> text_lt b c -> text_lt a c.
Proof.
  intro H. revert c. induction H as [x t|x y s t L|x s t L IH]; intros c K; inversion K; subst; auto using text_lt.
  apply lt_here. lia.
Qed.

Lemma text_insert_in x l : forall y, In y (text_insert x l) <-> y = x \/ In y l.
Proof.
  induction l as [|z l IH]; intro y; cbn [text_insert]; [cbn; intuition|].
  destruct (text_leb x z); cbn; [intuition|]. rewrite IH. intuition.
Qed.

Lemma text_insert_sorted x l : ~ In x l -> StronglySorted text_lt l -> StronglySorted text_lt (text_insert x l).
Proof.
  induction l as [|z l IH]; intros N S; cbn [text_insert]; [repeat constructor|].
  inversion S as [|? ? S' F]; subst. pose proof (text_leb_cases x z) as C. destruct (text_leb x z).
  - destruct C as [->|C]; [exfalso; apply N; left; auto|]. constructor; [auto|]. constructor; [auto|].
    eapply Forall_impl; [|exact F]. intros w W. eapply text_lt_trans; eauto.
  - constructor; [apply IH; [intro K; apply N; right; auto|auto]|].
    apply Forall_forall. intros w W. apply text_insert_in in W as [->|W]; [auto|]. rewrite Forall_forall in F. auto.
Qed.

Lemma text_sort_in l : forall y, In y (text_sort l) <-> In y l.
Proof. induction l as [|x l IH]; intro y; cbn [text_sort]; [tauto|]. rewrite text_insert_in, IH. cbn. intuition. Qed.

Lemma text_sort_sorted l : NoDup l -> StronglySorted text_lt (text_sort l).
Proof.
  induction 1 as [|x l N D IH]; cbn [text_sort]; [constructor|]. apply text_insert_sorted; [rewrite text_sort_in|]; auto.
Qed.

Lemma set_add_in x l y : In y (set_add x l) <-> y = x \/ In y l.
Proof.
  unfold set_add. destruct (lin x l) eqn:E; [apply lin_In in E; intuition; now subst|].
  rewrite in_app_iff. cbn. intuition.
Qed.

Lemma set_add_nodup x l : NoDup l -> NoDup (set_add x l).
Proof.
  intro D. unfold set_add. destruct (lin x l) eqn:E; [auto|].
  apply (Permutation_NoDup (Permutation_cons_append l x)). constructor; [|auto].
  intro K. apply lin_In in K. congruence.
Qed.

Lemma step_ads s a s' : facts_step s a = Ok s' ->
  fa_ads s' = match a_name a with Some n => if a_type a =? 0x80 then set_add n (fa_ads s) else fa_ads s | None => fa_ads s end.
Proof. intro H. step_cases H; reflexivity. Qed.

Lemma fold_ads l : forall s fa, facts_in s l Done = Ok fa -> NoDup (fa_ads s) ->
  NoDup (fa_ads fa) /\ forall n, In n (fa_ads fa) <-> In n (fa_ads s) \/ stream_name l n.
Proof.
  induction l as [|a l IH]; cbn [facts_in]; intros s fa H D.
  - injection H as <-. split; [auto|]. intro n. split; [auto|]. intros [|(a & [] & _)]; auto.
  - apply bind_ok in H as (s' & E & H). apply step_ads in E.
    assert (D' : NoDup (fa_ads s')).
    { rewrite E. destruct (a_name a); [|auto]. destruct (_ =? _); auto using set_add_nodup. }
    destruct (IH _ _ H D') as [D2 I]. split; [auto|]. intro n. rewrite I, E.
    unfold stream_name. destruct (a_name a) as [m|] eqn:Na.
    + destruct (Z.eqb_spec (a_type a) 0x80) as [T|T].
      * rewrite set_add_in. split.
        -- intros [[->|K]|(b & K & L)]; [right; exists a; repeat split; auto; left; auto|auto|right; exists b; split; [right; auto|auto]].
        -- intros [K|(b & [->|K] & L)]; [auto|left; left|right; exists b; auto]. destruct L as [_ L]. congruence.
      * split.
        -- intros [K|(b & K & L)]; [auto|right; exists b; split; [right; auto|auto]].
        -- intros [K|(b & [->|K] & L)]; [auto|destruct L as [L _]; congruence|right; exists b; auto].
    + split.
      * intros [K|(b & K & L)]; [auto|right; exists b; split; [right; auto|auto]].
      * intros [K|(b & [->|K] & L)]; [auto|destruct L as [_ L]; congruence|right; exists b; auto].
Qed.

Lemma join_spaced l : join 32 l = spaced_text l.
Proof. induction l as [|x [|y l] IH]; [reflexivity..|]. cbn [join spaced_text] in *. now rewrite IH. Qed.

Lemma ads_cell_shown items fa : facts_of (items, Done) = Ok fa -> ads_shown items (Txt (join 32 (text_sort (fa_ads fa)))).
Proof.
  intro H. unfold facts_of in H. cbn [fst snd] in H.
  destruct (fold_ads _ _ _ H (NoDup_nil _)) as [D I]. exists (text_sort (fa_ads fa)).
  split; [now apply text_sort_sorted|]. split; [|now rewrite join_spaced].
  intro n. rewrite text_sort_in, I. cbn. tauto.
Qed.
