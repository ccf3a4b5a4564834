(** Proofs about FAT directories. *)
From Verif Require Import Base BaseLemmas FieldLemmas Utf16 FatBasic FatDir FatSpec FatDirSpec FatProofs.

(** ** Long names *)

Lemma cut_null_units u rest : Forall (fun x => 0 < x < 65536) u -> (rest = [] \/ exists r, rest = 0 :: 0 :: r) ->
  cut_null (flat_map utf16_unit u ++ rest) = flat_map utf16_unit u.
Proof.
  intros F R. induction F as [|x u H F IH].
  - cbn [flat_map app]. destruct R as [->|[r ->]]; reflexivity.
  - cbn [flat_map utf16_unit le_bytes app cut_null]. rewrite IH.
    replace ((x mod 256 =? 0) && (x / 256 mod 256 =? 0)) with false by lia. reflexivity.
Qed.

Lemma units_exist b : bytes_ok b -> zlen b mod 2 = 0 -> exists u rest, b = flat_map utf16_unit u ++ rest /\
  Forall (fun x => 0 < x < 65536) u /\ (rest = [] \/ exists r, rest = 0 :: 0 :: r).
Proof.
  remember (length b) as n eqn:E. revert b E. induction n as [n IH] using lt_wf_ind. intros b E B L.
  destruct b as [|x [|y t]].
  - exists [], []. cbn. auto.
  - discriminate.
  - inversion B as [|? ? Bx B']; subst. inversion B' as [|? ? By B'']; subst.
    destruct ((x =? 0) && (y =? 0)) eqn:Z0; bools.
    + exists [], (x :: y :: t). subst. cbn. split; auto. split; auto. right. now exists t.
    + destruct (IH (length t) ltac:(cbn; lia) t eq_refl B'') as (u & rest & E1 & E2 & E3).
      { rewrite !zlen_cons in L. lia. }
      exists ((x + 256 * y) :: u), rest. unfold is_byte in *. split; [|split; auto].
      * cbn [flat_map utf16_unit le_bytes app]. rewrite <- E1. f_equal; [lia|]. f_equal; lia.
      * constructor; auto. lia.
Qed.

Lemma utf16le_nonempty x u : utf16le (flat_map utf16_unit (x :: u)) <> [].
Proof.
  cbn [flat_map utf16_unit le_bytes app utf16le].
  destruct (_ && _).
  - destruct (flat_map utf16_unit u) as [|c [|d t]]; try discriminate. destruct (_ && _); discriminate.
  - destruct (_ && _); discriminate.
Qed.

Lemma ztake_cap {A} (l : list A) n : (if n <? zlen l then ztake n l else l) = ztake n l.
Proof. destruct (n <? zlen l) eqn:E; bools; auto. symmetry. now apply ztake_all. Qed.

Lemma build_long_name_iff ents nm : ents <> [] -> bytes_ok (concat (rev ents)) -> zlen (concat (rev ents)) mod 2 = 0 ->
  (build_long_name ents = Some nm <-> stored_name (concat (rev ents)) nm).
Proof.
  intros NE B L. destruct ents as [|e0 ents]; [congruence|]. unfold build_long_name. set (b := concat (rev (e0 :: ents))) in *. clearbody b.
  destruct (units_exist b B L) as (u & rest & -> & Fu & R). rewrite cut_null_units by auto.
  destruct u as [|x u].
  - cbn [flat_map utf16le]. split; [discriminate|]. intro S. exfalso. inversion S as [v (r' & EV & R') Fv NV]; subst.
    destruct v as [|y v]; [congruence|]. inversion Fv; subst. cbn [flat_map utf16_unit le_bytes app] in EV.
    destruct R as [->|[r ->]]; [discriminate|]. injection EV as E1 E2 _. lia.
  - pose proof (utf16le_nonempty x u) as NN. destruct (utf16le (flat_map utf16_unit (x :: u))) as [|c t] eqn:EU; [congruence|].
    rewrite ztake_cap. rewrite <- EU. split.
    + intro E. apply (f_equal (fun o => match o with Some x => x | None => [] end)) in E. cbv beta iota in E. rewrite <- E.
      apply sn_intro; [eauto|auto|discriminate].
    + intro S. inversion S as [v (r' & EV & R') Fv NV]; subst. f_equal. f_equal. f_equal.
      rewrite <- (cut_null_units (x :: u) rest), <- (cut_null_units v r') by auto. now rewrite EV.
Qed.

Lemma stored_name_fun b x y : stored_name b x -> stored_name b y -> x = y.
Proof.
  intros S T. inversion S as [u (r & EU & R) Fu NU]; subst. inversion T as [v (q & EV & Q) Fv NV]; subst. f_equal. f_equal.
  rewrite <- (cut_null_units u r), <- (cut_null_units v q) by auto. now rewrite EV.
Qed.

Lemma pieces_bytes L : concat (rev (flat_map lfn_pieces L)) = stored_bytes L.
Proof.
  unfold stored_bytes. induction L as [|s L IH]; [reflexivity|].
  cbn [flat_map rev]. rewrite rev_app_distr, concat_app, IH, map_app, concat_app. f_equal.
  cbn [lfn_pieces rev app concat map]. unfold part_bytes. rewrite !app_nil_r. reflexivity.
Qed.

Lemma part_len s : zlen s = 32 -> zlen (part_bytes s) = 26.
Proof. intro H. unfold part_bytes. rewrite !zlen_app, !zlen_slice by lia. lia. Qed.

Lemma stored_bytes_ok L : Forall slot_ok L -> bytes_ok (stored_bytes L) /\ zlen (stored_bytes L) = 26 * zlen L.
Proof.
  unfold stored_bytes. intro F. apply Forall_rev in F. rewrite <- (zlen_rev L). induction F as [|s l [H1 H2] F IH].
  - split; [constructor|reflexivity].
  - cbn [map concat]. destruct IH as [I1 I2]. split.
    + apply bytes_ok_app. split; auto. unfold part_bytes. rewrite !bytes_ok_app. auto using bytes_ok_slice.
    + rewrite zlen_app, part_len, I2, zlen_cons by auto. lia.
Qed.

Lemma run_name_iff L nm : L <> [] -> Forall slot_ok L ->
  (build_long_name (flat_map lfn_pieces L) = Some nm <-> stored_name (stored_bytes L) nm).
Proof.
  intros N F. destruct (stored_bytes_ok L F) as [B Z]. rewrite <- pieces_bytes in *. apply build_long_name_iff; auto.
  - destruct L; [congruence|discriminate].
  - rewrite Z. lia.
Qed.

(** ** Orders *)

Lemma land_64 v : Z.land v 0x3F = v mod 64.
Proof. change 0x3F with (2 ^ 6 - 1). apply land_pow. lia. Qed.

Lemma fld1_byte s i : bytes_ok s -> 0 <= i -> is_byte (fld 1 s i).
Proof. intros B H. pose proof (fld_bound 1 s i H ltac:(lia) B). unfold is_byte. lia. Qed.

Lemma unused_spec o : unused o = true <-> o = 0 \/ o = 0xE5.
Proof. unfold unused. rewrite zin_In. cbn [In]. lia. Qed.

Lemma coherent_first o : is_byte o -> coherent o 0 None = unused o || ((0x41 <=? o) && (o <=? 0x54)).
Proof.
  intro H. assert (T : (fun o => eqb (coherent o 0 None) (unused o || ((0x41 <=? o) && (o <=? 0x54)))) o = true).
  { revert o H. apply all_bytes. vm_compute. reflexivity. }
  now apply eqb_prop in T.
Qed.

Lemma coherent_none o ck : coherent o ck None = coherent o 0 None.
Proof. reflexivity. Qed.

Lemma next_order o : is_byte o -> unused o = false -> (Z.land o 0x40 =? 0) && ((o <=? 20) && (0 <? o)) = (1 <=? o) && (o <=? 20).
Proof.
  intros H _. assert (T : (fun o => eqb ((Z.land o 0x40 =? 0) && ((o <=? 20) && (0 <? o))) ((1 <=? o) && (o <=? 20))) o = true).
  { revert o H. apply all_bytes. vm_compute. reflexivity. }
  now apply eqb_prop in T.
Qed.

Lemma real_order_first n : 1 <= n <= 20 -> real_order (0x40 + n) = n /\ unused (0x40 + n) = false.
Proof.
  intro H. pose proof (all_bytes (fun o => negb ((0x41 <=? o) && (o <=? 0x54)) || ((real_order o =? o - 0x40) && negb (unused o))) ltac:(vm_compute; reflexivity) (0x40 + n) ltac:(unfold is_byte; lia)) as T. cbv beta in T.
  cbv beta in T. replace ((65 <=? 64 + n) && (64 + n <=? 84)) with true in T by lia. cbn [negb orb] in T.
  apply andb_true_iff in T as [T1 T2]. apply negb_true_iff in T2. split; [lia|auto].
Qed.

Lemma real_order_next n : 1 <= n <= 20 -> real_order n = n /\ unused n = false.
Proof.
  intro H. pose proof (all_bytes (fun o => negb ((1 <=? o) && (o <=? 20)) || ((real_order o =? o) && negb (unused o))) ltac:(vm_compute; reflexivity) n ltac:(unfold is_byte; lia)) as T. cbv beta in T.
  cbv beta in T. replace ((1 <=? n) && (n <=? 20)) with true in T by lia. cbn [negb orb] in T.
  apply andb_true_iff in T as [T1 T2]. apply negb_true_iff in T2. split; [lia|auto].
Qed.

(** ** Runs of parts *)

(** A run of deleted parts. *)
Inductive lfn_del (ck : Z) : list (list Z) -> Prop :=
| lx_first s : name_slot s = true -> unused (s_order s) = true -> s_check s = ck -> lfn_del ck [s]
| lx_next s L : lfn_del ck L -> name_slot s = true -> unused (s_order s) = true -> s_check s = ck -> lfn_del ck (L ++ [s]).

Inductive run (o ck : Z) (L : list (list Z)) : Prop :=
| run_desc n k : lfn_desc ck n k L -> real_order o = k -> unused o = false -> run o ck L
| run_del : lfn_del ck L -> unused o = true -> run o ck L.

Lemma lfn_desc_bound ck n k L : lfn_desc ck n k L -> 1 <= k <= n /\ n <= 20 /\ L <> [].
Proof.
  induction 1 as [s H H1 H2 H3|s k L H IH H1 H2 H3 H4]; [split; [lia|split; [lia|discriminate]]|].
  split; [lia|split; [lia|]]. destruct L; discriminate.
Qed.

Lemma run_nonempty o ck L : run o ck L -> L <> [].
Proof.
  intros [n k H _ _|H _]; [now apply lfn_desc_bound in H|]. destruct H; [discriminate|]. destruct L; discriminate.
Qed.

Lemma coherent_first_run s : slot_ok s -> name_slot s = true -> coherent (s_order s) (s_check s) None = true ->
  run (s_order s) (s_check s) [s].
Proof.
  intros [B _] N C. rewrite coherent_none, coherent_first in C by (apply fld1_byte; auto; lia).
  apply orb_true_iff in C as [C|C].
  - apply run_del; auto. now constructor.
  - bools. set (n := s_order s - 0x40). assert (E : s_order s = 0x40 + n) by (unfold n; lia).
    destruct (real_order_first n ltac:(lia)) as [R1 R2]. rewrite E. apply run_desc with (n := n) (k := n); auto.
    constructor; auto. lia.
Qed.

Lemma coherent_next_run s o ck L : slot_ok s -> name_slot s = true -> run o ck L -> coherent (s_order s) (s_check s) (Some (o, ck)) = true ->
  run (s_order s) (s_check s) (L ++ [s]) /\ s_check s = ck.
Proof.
  intros [B _] N R C. unfold coherent in C. assert (By : is_byte (s_order s)) by (apply fld1_byte; auto; lia).
  destruct R as [n k D RO U|D U]; rewrite U in C; cbn [andb negb] in C; rewrite ?andb_false_r, ?andb_true_r in C.
  - destruct (unused (s_order s)) eqn:US; cbn [andb negb] in C; [discriminate|].
    apply andb_true_iff in C as [C C4]. apply andb_true_iff in C as [C C3]. apply andb_true_iff in C as [C1 C2].
    pose proof (next_order (s_order s) By US) as X. rewrite C2, C3 in X. cbn [andb] in X. symmetry in X. clear C2 C3. bools.
    assert (CK : s_check s = ck) by lia. split; auto. destruct (real_order_next (s_order s) ltac:(lia)) as [R1 R2].
    apply run_desc with (n := n) (k := s_order s); auto. rewrite CK. apply ld_next; auto; try lia.
    replace (s_order s + 1) with k by lia. exact D.
  - destruct (unused (s_order s)) eqn:US; cbn [andb negb] in C; [|discriminate]. assert (CK : s_check s = ck) by lia. split; auto.
    apply run_del; auto. rewrite CK. now constructor.
Qed.

(** ** The state *)

Definition tail_run (P : list (list Z)) (st : dir_state) : Prop :=
  exists A B, P = A ++ B /\ Forall (fun s => name_slot s = true \/ other_slot s = true) B /\
    let L := filter name_slot B in
    ds_stash st = flat_map lfn_pieces L /\
    match ds_prev st with None => L = [] | Some (o, ck) => run o ck L end.

Definition null_seen (P : list (list Z)) (st : dir_state) : Prop :=
  ds_null st = true <-> exists s, In s P /\ s_order s = 0.

Lemma lfn_attr s : (Z.land (Z.land (byte_at s 11) 63) 63 =? 15) = (s_attr s =? 15).
Proof. rewrite !land_64. unfold s_attr, byte_at. rewrite Z.mod_mod by lia. reflexivity. Qed.

Lemma pieces_nil L : flat_map lfn_pieces L = [] -> L = [].
Proof. destruct L; [auto|discriminate]. Qed.

Lemma filter_all_name B : filter name_slot B = [] -> Forall (fun s => name_slot s = true \/ other_slot s = true) B -> Forall (fun s => other_slot s = true) B.
Proof.
  intros E F. rewrite Forall_forall in *. intros x X. destruct (F x X) as [H|H]; auto.
  assert (I : In x (filter name_slot B)) by (apply filter_In; auto). rewrite E in I. destruct I.
Qed.

Section Step.
Variables dec lower : list Z -> list Z.
Variable is32 : bool.

(** What the output of one step is. *)
Inductive step_file (P : list (list Z)) (s : list Z) (e : file_entry) : Prop :=
| sf_intro raw :
    describes is32 s e -> s_attr s <> 15 ->
    raw = (if (s_attr s / 8) mod 4 =? 1 then fix_first (slice s 0 11) else slice s 0 11) ->
    fe_short_raw e = (if (s_attr s / 8) mod 4 =? 1 then rstrip_space raw else match parse_short_name_raw raw with Some x => x | None => [] end) ->
    (fe_deleted e = Some true <-> s_order s = 0 \/ s_order s = 0xE5) ->
    (fe_deleted e = None <-> s_order s <> 0 /\ s_order s <> 0xE5 /\ exists x, In x P /\ s_order x = 0) ->
    (forall nm, fe_long e = Some nm ->
       exists A B, P = A ++ B /\ Forall (fun s => name_slot s = true \/ other_slot s = true) B /\
         let L := filter name_slot B in
         L <> [] /\ stored_name (stored_bytes L) nm /\
         (fe_deleted e <> Some true -> exists n, lfn_desc (build_checksum raw) n 1 L)) ->
    step_file P s e.

Lemma decode_date_of w : 0 <= w < 65536 -> date_of w (decode_fat_date w).
Proof. intros H y m k. apply decode_fat_date_iff. exact H. Qed.

Lemma both_of wd wt : 0 <= wd < 65536 -> 0 <= wt < 65536 -> datetime_of wd wt (both (decode_fat_date wd) (decode_fat_time wt)).
Proof.
  intros H1 H2 y m k h mi s. pose proof (decode_fat_date_iff wd) as D. pose proof (decode_fat_time_iff wt) as T.
  unfold both. destruct (decode_fat_date wd) as [[[y' m'] k']|] eqn:ED.
  - destruct (decode_fat_time wt) as [[[h' mi'] s']|] eqn:ET.
    + split.
      * intro E. injection E as <- <- <- <- <- <-. split; [now apply D|now apply T].
      * intros [A B]. apply D in A; auto. apply T in B; auto. injection A as -> -> ->. injection B as -> -> ->. reflexivity.
    + split; [discriminate|]. intros [_ B]. apply T in B; auto. discriminate.
  - split; [discriminate|]. intros [A _]. apply D in A; auto. discriminate.
Qed.

Lemma fld2_range s i : bytes_ok s -> 0 <= i -> 0 <= fld 2 s i < 65536.
Proof. intros B H. pose proof (fld_bound 2 s i H ltac:(lia) B). lia. Qed.

Lemma build_entry_describes s del short raw long attr nt enc : slot_ok s -> attr = s_attr s -> nt = fld 1 s 12 ->
  (enc = true <-> nt mod 2 = 1) -> (attr / 8) mod 4 <> 3 ->
  describes is32 s (build_entry is32 s del (Z.land attr 0x18 =? 0x10) short raw long attr nt enc).
Proof.
  intros [B L] -> -> EN K. unfold build_entry. pose proof (fld1_byte s 13 B ltac:(lia)) as B13. unfold is_byte in B13.
  constructor; cbn [fe_directory fe_attributes fe_size fe_first_cluster fe_ntbyte fe_encrypted fe_atime fe_mtime fe_ctime]; auto.
  - pose proof (all_bytes (fun v => eqb (Z.land v 24 =? 16) ((v / 16 mod 2 =? 1) && negb (v / 8 mod 2 =? 1))) ltac:(vm_compute; reflexivity) (s_attr s) ltac:(unfold s_attr, is_byte; lia)) as H. cbv beta in H.
    apply eqb_prop in H. rewrite H. split; intro X; lia.
  - pose proof (fld2_range s 26 B ltac:(lia)). pose proof (fld2_range s 20 B ltac:(lia)).
    destruct is32; rewrite lor_shiftl_add by lia; lia.
  - apply decode_date_of. apply fld2_range; auto; lia.
  - apply both_of; apply fld2_range; auto; lia.
  - exists (both (decode_fat_date (fld 2 s 16)) (decode_fat_time (fld 2 s 14))).
    pose proof (both_of (fld 2 s 16) (fld 2 s 14) ltac:(apply fld2_range; auto; lia) ltac:(apply fld2_range; auto; lia)) as BO.
    split; [exact BO|]. destruct (both _ _) as [[[[y m] k] [[h mi] sec]]|]; [|exact I].
    destruct (BO y m k h mi sec) as [BO1 _]. destruct (BO1 eq_refl) as [_ (T1 & T2 & T3 & T4 & _)].
    cbn [add_ms]. unfold byte_at. destruct (199 <? fld 1 s 13) eqn:E; repeat split; try lia.
Qed.

Lemma nt_bits v : is_byte v -> exists nt, parse_nt_byte v = Ok nt /\ (nt_encrypted nt = true <-> v mod 2 = 1).
Proof.
  intro H. exists (nt_expected v). split; [now apply parse_nt_byte_spec|]. unfold nt_expected, bit. cbn [nt_encrypted].
  rewrite Z.pow_0_r, Z.div_1_r. lia.
Qed.

Lemma byte0 s : zlen s = 32 -> fld 1 s 0 = hd 0 (slice s 0 11).
Proof.
  intro L. destruct s as [|x s]; [discriminate|]. unfold fld. rewrite !slice_0.
  change (ztake (0 + 1) (x :: s)) with (x :: ztake 0 s). rewrite ztake_nonpos by lia. change (ztake 11 (x :: s)) with (x :: ztake 10 s).
  cbn [le_val hd]. lia.
Qed.

Lemma fix_first_id n : hd 0 n <> 0 -> hd 0 n <> 0xE5 -> hd 0 n <> 5 -> fix_first n = n.
Proof.
  destruct n as [|c t]; auto. cbn [hd fix_first]. intros.
  replace ((c =? 0) || (c =? 229)) with false by lia. now replace (c =? 5) with false by lia.
Qed.

Lemma label_iff a : 0 <= a < 64 -> a <> 15 -> is_volume_label a = ((a / 8) mod 4 =? 1).
Proof.
  intros H N. pose proof (all_bytes (fun a => (a =? 15) || negb (a <? 64) || eqb (is_volume_label a) ((a / 8) mod 4 =? 1)) ltac:(vm_compute; reflexivity) a ltac:(unfold is_byte; lia)) as T. cbv beta in T.
  cbv beta in T. replace (a =? 15) with false in T by lia. replace (a <? 64) with true in T by lia. now apply eqb_prop in T.
Qed.

Lemma kind_iff a : 0 <= a < 64 -> (Z.land a 24 =? 16) || (Z.land a 24 =? 0) || (Z.land a 24 =? 8) = negb ((a / 8) mod 4 =? 3).
Proof.
  intros H. pose proof (all_bytes (fun a => eqb ((Z.land a 24 =? 16) || (Z.land a 24 =? 0) || (Z.land a 24 =? 8)) (negb ((a / 8) mod 4 =? 3))) ltac:(vm_compute; reflexivity) a ltac:(unfold is_byte; lia)) as T. cbv beta in T.
  now apply eqb_prop in T.
Qed.

Lemma parse_both lb le n : (parse_short_name dec lower lb le n = None <-> validate_short_name n = false) /\
  (parse_short_name_raw n = None <-> validate_short_name n = false).
Proof.
  unfold parse_short_name_raw, parse_short_name. destruct (validate_short_name n); cbn [negb].
  - split; (split; [|discriminate]).
    + destruct (if le then _ else _); discriminate.
    + destruct (rstrip_space _); discriminate.
  - tauto.
Qed.

Lemma null_step P st s : null_seen P st -> (ds_null st || (byte_at s 0 =? 0) = true <-> exists x, In x (P ++ [s]) /\ s_order x = 0).
Proof.
  intro N. rewrite orb_true_iff. unfold null_seen in N. split.
  - intros [H|H].
    + apply N in H as (x & X1 & X2). exists x. split; auto. apply in_or_app. auto.
    + exists s. split; [apply in_or_app; right; now left|]. unfold s_order. unfold byte_at in H. lia.
  - intros (x & X1 & X2). apply in_app_or in X1 as [X1|[<-|[]]].
    + left. apply N. eauto.
    + right. unfold byte_at. unfold s_order in X2. lia.
Qed.

(** One step: never fails, keeps the invariant, and its files are justified. *)
Lemma dir_step_spec P st s : Forall slot_ok P -> slot_ok s -> tail_run P st -> null_seen P st ->
  exists st' out, dir_step dec lower is32 false st s = Ok (st', out) /\ tail_run (P ++ [s]) st' /\ null_seen (P ++ [s]) st' /\
    forall e, In (FileE e) out -> step_file P s e.
Proof.
  intros FP SO TR NS. pose proof SO as [B LS]. pose proof (null_step P st s NS) as NS'.
  unfold dir_step. rewrite lfn_attr.
  assert (AT : Z.land (byte_at s 11) 63 = s_attr s) by (rewrite land_64; reflexivity). rewrite AT.
  set (null := ds_null st || (byte_at s 0 =? 0)) in *.
  assert (OI : forall {A} (stash : list A) nm e, ~ In (FileE e) (orphan_if stash nm)).
  { intros A stash nm e. destruct stash; cbn; [tauto|]. intros [X|[]]; discriminate. }
  assert (OS : forall nm e, ~ In (FileE e) (orphan_some nm)).
  { intros nm e. destruct nm; cbn; [|tauto]. intros [X|[]]; discriminate. }
  destruct TR as (A & BB & EP & FB & ST & PV). cbv zeta in *.
  destruct (s_attr s =? 15) eqn:EA; bools.
  - destruct (byte_at s 12 =? 0) eqn:ET; cbn [negb].
    + assert (N : name_slot s = true) by (unfold name_slot, s_type; unfold byte_at in ET; lia).
      change (byte_at s 0) with (s_order s). change (byte_at s 13) with (s_check s).
      destruct (coherent (s_order s) (s_check s) (ds_prev st)) eqn:EC; cbn [negb].
      * eexists _, _. split; [reflexivity|]. split; [|split].
        -- exists A, (BB ++ [s]). split; [rewrite EP; now rewrite <- app_assoc|]. split; [apply Forall_app; split; auto|].
           cbn [ds_stash ds_prev]. rewrite filter_app. cbn [filter]. rewrite N. split.
           ++ rewrite flat_map_app, ST. cbn [flat_map]. now rewrite app_nil_r.
           ++ destruct (ds_prev st) as [[o ck]|].
              ** destruct (coherent_next_run s o ck _ SO N PV EC) as [R _]. exact R.
              ** rewrite PV. cbn [app]. now apply coherent_first_run.
        -- exact NS'.
        -- cbn [In]. tauto.
      * destruct (coherent (s_order s) (s_check s) None) eqn:EC2.
        -- eexists _, _. split; [reflexivity|]. split; [|split; [exact NS'|]].
           ++ exists P, [s]. split; auto. split; [repeat constructor; auto|]. cbn [filter]. rewrite N. cbn [ds_stash ds_prev flat_map].
              split; [now rewrite app_nil_r|]. now apply coherent_first_run.
           ++ intros e X. exfalso. exact (OI _ _ _ _ X).
        -- eexists _, _. split; [reflexivity|]. split; [|split; [exact NS'|]].
           ++ exists (P ++ [s]), []. rewrite app_nil_r. split; auto. split; [constructor|]. cbn. auto.
           ++ intros e X. exfalso. exact (OI _ _ _ _ X).
    + assert (N : name_slot s = false /\ other_slot s = true).
      { unfold name_slot, other_slot, s_type. unfold byte_at in ET. lia. }
      eexists _, _. split; [reflexivity|]. split; [|split; [exact NS'|cbn [In]; tauto]].
      exists A, (BB ++ [s]). split; [rewrite EP; now rewrite <- app_assoc|]. split; [apply Forall_app; split; auto; constructor; [tauto|constructor]|].
      cbn [ds_stash ds_prev]. rewrite filter_app. cbn [filter]. destruct N as [-> _]. rewrite app_nil_r. auto.
  - assert (RS : tail_run (P ++ [s]) (mk_dir_state [] None null) /\ null_seen (P ++ [s]) (mk_dir_state [] None null)).
    { split; [|exact NS']. exists (P ++ [s]), []. rewrite app_nil_r. split; auto. split; [constructor|]. cbn. auto. }
    pose proof (fld1_byte s 12 B ltac:(lia)) as B12. destruct (nt_bits _ B12) as (nt & NT1 & NT2).
    change (byte_at s 12) with (fld 1 s 12). rewrite NT1. cbn [bind].
    assert (AR : 0 <= s_attr s < 64) by (unfold s_attr; lia).
    set (raw0 := slice s 0 11) in *.
    set (raw := if (s_attr s / 8) mod 4 =? 1 then fix_first raw0 else raw0) in *.
    destruct (short_names dec lower (nt_lower_base nt) (nt_lower_ext nt) (s_attr s) raw0) as [[ckraw norm] short] eqn:ESN.
    assert (SN : ckraw = raw /\ (norm = None <-> short = None) /\
      forall x, norm = Some x -> x = (if (s_attr s / 8) mod 4 =? 1 then rstrip_space raw else match parse_short_name_raw raw with Some x => x | None => [] end)).
    { unfold short_names in ESN. rewrite label_iff in ESN by auto. unfold raw.
      destruct ((s_attr s / 8) mod 4 =? 1) eqn:EL; cbn [negb] in ESN.
      - destruct (forallb _ (fix_first raw0)); injection ESN as <- <- <-; repeat split; try congruence; try discriminate.
      - injection ESN as <- <- <-. destruct (parse_both (nt_lower_base nt) (nt_lower_ext nt) raw0) as [Q1 Q2].
        split; auto. split; [tauto|]. intros x X. now rewrite X. }
    destruct SN as (-> & SN1 & SN2).
    clearbody null.
    assert (GO : forall del long out, 
      del = unused (byte_at s 0) ->
      (forall e, ~ In (FileE e) out) ->
      (forall nm, long = Some nm -> exists A B, P = A ++ B /\ Forall (fun s => name_slot s = true \/ other_slot s = true) B /\
         (filter name_slot B <> [] /\ stored_name (stored_bytes (filter name_slot B)) nm /\
         (del = false -> exists n, lfn_desc (build_checksum raw) n 1 (filter name_slot B)))) ->
      exists st' out',
        match short, norm with
        | Some short, Some norm =>
          if negb ((Z.land (s_attr s) 24 =? 16) || (Z.land (s_attr s) 24 =? 0) || (Z.land (s_attr s) 24 =? 8)) then Ok (mk_dir_state [] None null, out ++ orphan_some long)
          else if all_eq 229 s || all_eq 0 s then Ok (mk_dir_state [] None null, out ++ orphan_some long)
          else Ok (mk_dir_state [] None null, out ++ [FileE (build_entry is32 s (if null && negb del then None else Some del) (Z.land (s_attr s) 24 =? 16) short norm long (s_attr s) (fld 1 s 12) (nt_encrypted nt))])
        | _, _ => Ok (mk_dir_state [] None null, out ++ orphan_some long)
        end = Ok (st', out') /\ tail_run (P ++ [s]) st' /\ null_seen (P ++ [s]) st' /\ forall e, In (FileE e) out' -> step_file P s e).
    { intros del long out ED NO LN.
      assert (SK : forall e, In (FileE e) (out ++ orphan_some long) -> step_file P s e).
      { intros e X. apply in_app_or in X as [X|X]; exfalso; [exact (NO _ X)|exact (OS _ _ X)]. }
      destruct short as [short|]; [|eexists _, _; split; [reflexivity|]; destruct RS; auto].
      destruct norm as [norm|]; [|eexists _, _; split; [reflexivity|]; destruct RS; auto].
      rewrite kind_iff by auto. rewrite negb_involutive.
      destruct ((s_attr s / 8) mod 4 =? 3) eqn:EK; bools; [eexists _, _; split; [reflexivity|]; destruct RS; auto|].
      destruct (all_eq 229 s || all_eq 0 s); [eexists _, _; split; [reflexivity|]; destruct RS; auto|].
      eexists _, _. split; [reflexivity|]. split; [apply RS|split; [apply RS|]].
      intros e X. apply in_app_or in X as [X|[X|[]]]; [exfalso; exact (NO _ X)|]. injection X as <-.
      assert (US : del = true <-> s_order s = 0 \/ s_order s = 229) by (rewrite ED; apply unused_spec).
      apply sf_intro with (raw := raw); auto.
      - apply build_entry_describes; auto.
      - cbn [fe_deleted build_entry]. rewrite <- US. destruct del; cbn [negb]; rewrite ?andb_false_r, ?andb_true_r; [tauto|]. destruct null; split; discriminate.
      - cbn [fe_deleted build_entry]. destruct del; cbn [negb]; rewrite ?andb_false_r, ?andb_true_r.
        + split; [discriminate|]. intros (X1 & X2 & _). tauto.
        + assert (NU : s_order s <> 0 /\ s_order s <> 229). { split; intro X; assert (false = true) by (apply US; tauto); discriminate. }
          destruct null eqn:EN.
          * split; [|auto]. intros _. split; [tauto|split; [tauto|]]. destruct (proj1 NS' eq_refl) as (x & X1 & X2).
            apply in_app_or in X1 as [X1|[<-|[]]]; [eauto|tauto].
          * split; [discriminate|]. intros (_ & _ & x & X1 & X2). assert (false = true); [|discriminate]. apply NS'. exists x. split; auto. apply in_or_app; auto.
      - cbn [fe_long build_entry fe_deleted]. intros nm EN. destruct (LN nm EN) as (A' & B' & L1 & L2 & L3 & L4 & L5).
        exists A', B'. split; auto. split; auto. split; auto. split; auto. intro ND. apply L5. destruct del; auto. exfalso. apply ND. rewrite andb_false_r. reflexivity. }
    assert (FL : Forall slot_ok (filter name_slot BB)).
    { rewrite Forall_forall in *. intros x X. apply filter_In in X as [X _]. apply FP. rewrite EP. apply in_or_app; auto. }
    assert (LNAME : forall nm, build_long_name (ds_stash st) = Some nm -> filter name_slot BB <> [] /\ stored_name (stored_bytes (filter name_slot BB)) nm).
    { intros nm EN. rewrite ST in EN. assert (NE : filter name_slot BB <> []) by (intro X; rewrite X in EN; discriminate). split; auto. now apply run_name_iff. }
    cbv zeta. destruct (unused (byte_at s 0)) eqn:EU; cbn [negb].
    + apply (GO true (build_long_name (ds_stash st)) []); auto.
      intros nm EN. exists A, BB. destruct (LNAME nm EN). repeat split; auto. discriminate.
    + destruct (match ds_prev st with Some (o, c) => (c =? build_checksum raw) && (real_order o =? 1) | None => false end) eqn:EM.
      * destruct (ds_prev st) as [[o c]|]; [|discriminate]. apply andb_true_iff in EM as [EM1 EM0]. apply Z.eqb_eq in EM1, EM0.
        apply (GO false (build_long_name (ds_stash st)) []); auto.
        intros nm EN. exists A, BB. destruct (LNAME nm EN). repeat split; auto. intros _. subst c.
        destruct PV as [n k D RO U|D U]; [exists n; now replace 1 with k by lia|].
        exfalso. apply unused_spec in U as [-> | ->]; vm_compute in EM0; discriminate.
      * apply (GO false None (orphan_if (ds_stash st) (build_long_name (ds_stash st)))); auto. discriminate.
Qed.

(** The whole loop. *)
Lemma dir_loop_spec slots : forall P st, Forall slot_ok P -> Forall slot_ok slots -> tail_run P st -> null_seen P st ->
  snd (dir_loop dec lower is32 false st slots) = Done /\
  forall e, In (FileE e) (fst (dir_loop dec lower is32 false st slots)) ->
    exists p s q, slots = p ++ s :: q /\ step_file (P ++ p) s e.
Proof.
  induction slots as [|s slots IH]; intros P st FP FS TR NS; cbn [dir_loop].
  - split; auto. intros e X. cbn [fst] in X. destruct (ds_stash st); cbn in X; [tauto|]. destruct X as [X|[]]; discriminate.
  - inversion FS as [|? ? SO FS']; subst.
    destruct (dir_step_spec P st s FP SO TR NS) as (st' & out & -> & TR' & NS' & FO).
    destruct (IH (P ++ [s]) st') as [I1 I2]; auto.
    { apply Forall_app. split; auto. }
    split; [exact I1|]. intros e X. cbn [gapp fst] in X. apply in_app_or in X as [X|X].
    + exists [], s, slots. split; auto. rewrite app_nil_r. auto.
    + destruct (I2 e X) as (p & t & q & E1 & E2). exists (s :: p), t, q. split; [cbn; congruence|]. now rewrite <- app_assoc in E2.
Qed.

End Step.

Lemma cut_slots_spec n : forall buf, bytes_ok buf -> zlen buf = 32 * Z.of_nat n ->
  Forall slot_ok (cut_slots n buf) /\ concat (cut_slots n buf) = buf.
Proof.
  induction n as [|n IH]; intros buf B L.
  - split; [constructor|]. symmetry. apply zlen_0. lia.
  - cbn [cut_slots concat]. destruct (IH (zdrop 32 buf)) as [I1 I2].
    + now apply bytes_ok_zdrop.
    + rewrite zlen_zdrop. lia.
    + split; [constructor; auto; split; [now apply bytes_ok_ztake|rewrite zlen_ztake; lia]|]. rewrite I2. apply ztake_zdrop.
Qed.

Lemma cut_slots_concat l : Forall slot_ok l -> cut_slots (length l) (concat l) = l.
Proof.
  induction 1 as [|s l [B L] F IH]; [reflexivity|]. cbn [length cut_slots concat].
  rewrite ztake_app_exact, zdrop_app_exact by auto. now rewrite IH.
Qed.

Lemma init_run : tail_run [] dir_init /\ null_seen [] dir_init.
Proof.
  split.
  - exists [], []. split; auto. split; [constructor|]. cbn. auto.
  - split; [discriminate|]. intros (x & [] & _).
Qed.
