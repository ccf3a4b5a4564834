(** The items yielded by parse_ntfs_records. *)
From Verif Require Import Base BaseLemmas FieldLemmas Sorting LogPage LogFile LogSpec LogPageProofs LogFileProofs
  LogReadProofs LogWalkProofs LogClientProofs LogCollectProofs LogRecord LogParse LogParseSpec LogRecordProofs LogParseProofs.
From Coq Require Import Permutation Sorted.

Lemma oat_get_cons t i x j : oat_get ((i, x) :: t) j = if i =? j then Some x else oat_get t j.
Proof. unfold oat_get. cbn [find fst]. destruct (i =? j); reflexivity. Qed.

(** ** One record *)

(** The variables of the loop after the records [before]. *)
Definition holds_state (c : config) (before : list (list Z)) (s : loop_state) : Prop :=
  (forall i, open_as (cf_oat c) i before (oat_get (ls_oat s) i)) /\
  (cf_dumps c = Some true -> exists oats names,
     dumps 29 before oats /\ dumps 30 before names /\
     ls_loat s = option_map (fun d => (d, cf_oat c)) (nth_error oats 0) /\
     ls_ooat s = option_map (fun d => (d, cf_oat c)) (nth_error oats 1) /\
     ls_lan s = nth_error names 0 /\ ls_oan s = nth_error names 1 /\
     ls_noat s = zlen oats /\ ls_nan s = zlen names).

Lemma holds_start c : holds_state c [] loop_start.
Proof.
  split; [intro i; constructor|]. intros _. exists [], []. do 2 (split; [constructor|]). cbn. auto 10.
Qed.

Lemma dumps_skip op b before l : fld 2 b 0 <> op -> dumps op before l -> dumps op (b :: before) l.
Proof. intros. apply dumps_other; auto. Qed.

Lemma effect_spec c b before s : bytes_ok b -> 32 <= zlen b -> holds_state c before s ->
  match record_effect c b s with
  | Ok s' => holds_state c (b :: before) s' /\ (fld 2 b 0 <> 28 -> cf_dumps c <> None)
  | Err e =>
      (e = ClientException /\ fld 2 b 0 = 28 /\ (bad_part b 8 10 \/ bad_part b 4 6)) \/
      (e = ClientException /\ (fld 2 b 0 = 29 \/ fld 2 b 0 = 30) /\ cf_dumps c = Some true /\ bad_part b 4 6) \/
      (e = AttributeError_py /\ cf_dumps c = None)
  end.
Proof.
  intros B L [H1 H2]. unfold record_effect, nr_redo_op. rewrite u16_ok by lia. cbn [bind].
  unfold OpenNonresidentAttribute, OpenAttributeTableDump, AttributeNamesDump, use_dumps, nr_target.
  pose proof (redo_data_spec b B L) as R. pose proof (undo_data_spec b B L) as U.
  destruct (Z.eqb_spec (fld 2 b 0) 28) as [E|E].
  - destruct (nr_undo_data b) as [name|e]; cbn [bind]; [|destruct U as [-> U]; auto].
    rewrite u16_ok by lia. cbn [bind].
    destruct (nr_redo_data b) as [entry|e]; cbn [bind]; [|destruct R as [-> R]; auto].
    rewrite entry_reference_spec.
    assert (D : cf_dumps c = Some true -> exists oats names,
       dumps 29 (b :: before) oats /\ dumps 30 (b :: before) names /\
       ls_loat s = option_map (fun d => (d, cf_oat c)) (nth_error oats 0) /\
       ls_ooat s = option_map (fun d => (d, cf_oat c)) (nth_error oats 1) /\
       ls_lan s = nth_error names 0 /\ ls_oan s = nth_error names 1 /\
       ls_noat s = zlen oats /\ ls_nan s = zlen names).
    { intro D. destruct (H2 D) as (oats & names & D1 & D2 & D3). exists oats, names.
      do 2 (split; [apply dumps_skip; [lia|auto]|]). exact D3. }
    destruct (entry_ref (cf_oat c) entry) as [r|] eqn:ER; (split; [split|]); cbn [ls_oat ls_loat ls_ooat ls_lan ls_oan ls_noat ls_nan]; auto.
    + intro i. rewrite oat_get_cons. destruct (Z.eqb_spec (fld 2 b 12) i) as [EI|EI].
      * eapply open_this; eauto.
      * eapply open_another; eauto.
    + intro i. cbn. eapply open_cut; eauto.
  - assert (O : forall i, open_as (cf_oat c) i (b :: before) (oat_get (ls_oat s) i)) by (intro; apply open_other; auto).
    destruct (cf_dumps c) as [d|] eqn:EC; cbn [bind]; [|auto].
    destruct d; cbn [andb].
    2:{ split; [|discriminate]. split; [exact O|congruence]. }
    destruct (H2 eq_refl) as (oats & names & D1 & D2 & D3 & D4 & D5 & D6 & D7 & D8).
    destruct (Z.eqb_spec (fld 2 b 0) 29) as [E29|E29].
    + destruct (nr_redo_data b) as [dump|e]; cbn [bind].
      2:{ destruct R as [-> R]. right. left. auto. }
      split; [|discriminate]. split; [exact O|]. intros _. exists (dump :: oats), names.
      split; [apply dumps_this; auto|]. split; [apply dumps_skip; [lia|auto]|].
      cbn [ls_oat ls_loat ls_ooat ls_lan ls_oan ls_noat ls_nan]. rewrite zlen_cons.
      split; [reflexivity|]. split; [rewrite D3; reflexivity|]. do 3 (split; [auto; lia|]). lia.
    + destruct (Z.eqb_spec (fld 2 b 0) 30) as [E30|E30].
      * destruct (nr_redo_data b) as [dump|e]; cbn [bind].
        2:{ destruct R as [-> R]. right. left. auto. }
        split; [|discriminate]. split; [exact O|]. intros _. exists oats, (dump :: names).
        split; [apply dumps_skip; [lia|auto]|]. split; [apply dumps_this; auto|].
        cbn [ls_oat ls_loat ls_ooat ls_lan ls_oan ls_noat ls_nan]. rewrite zlen_cons.
        do 2 (split; [auto|]). split; [reflexivity|]. split; [rewrite D5; reflexivity|]. split; [auto|]. lia.
      * split; [|discriminate]. split; [exact O|]. intros _. exists oats, names.
        do 2 (split; [apply dumps_skip; [lia|auto]|]). auto 10.
Qed.

Lemma item_spec c cd before s : holds_state c (cd_buf cd :: before) s ->
  match record_item c cd s with
  | Ok i => exists od ad, i = Rec (cd_buf cd) (cd_lsn cd) (cd_tid cd) (cd_cluster cd) (ls_oat s) od ad /\
      match cf_dumps c with
      | None => False
      | Some false => od = None /\ ad = None
      | Some true => exists oats names, dumps 29 (cd_buf cd :: before) oats /\ dumps 30 (cd_buf cd :: before) names /\
          (option_map fst od, ad) = attached oats names /\ (forall d v, od = Some (d, v) -> v = cf_oat c)
      end
  | Err e => e = AttributeError_py /\ cf_dumps c = None
  end.
Proof.
  intros [_ H]. unfold record_item, use_dumps. destruct (cf_dumps c) as [d|]; cbn [bind]; [|auto].
  destruct d; cbn [andb].
  2:{ exists None, None. auto. }
  destruct (H eq_refl) as (oats & names & D1 & D2 & D3 & D4 & D5 & D6 & D7 & D8).
  assert (EL : (length oats =? length names)%nat = (zlen oats =? zlen names)).
  { unfold zlen. destruct (Nat.eqb_spec (length oats) (length names)); lia. }
  assert (E0 : (length oats =? 0)%nat = negb (0 <? zlen oats)).
  { unfold zlen. destruct (Nat.eqb_spec (length oats) 0); lia. }
  assert (OM : forall k, option_map fst (option_map (fun d : list Z => (d, cf_oat c)) (nth_error oats k)) = nth_error oats k).
  { intro k. destruct (nth_error oats k); reflexivity. }
  assert (OV : forall k d v, option_map (fun d : list Z => (d, cf_oat c)) (nth_error oats k) = Some (d, v) -> v = cf_oat c).
  { intros k d v. destruct (nth_error oats k); cbn; congruence. }
  rewrite D7, D8. unfold attached in *.
  destruct (0 <? zlen oats) eqn:EZ; cbn [andb negb].
  - destruct (zlen oats =? zlen names) eqn:EQ; cbn [negb].
    + eexists _, _. split; [reflexivity|]. exists oats, names. do 2 (split; [auto|]).
      unfold attached. rewrite E0, EL. cbn [negb]. rewrite D3, D5, OM. split; [reflexivity|apply OV].
    + eexists _, _. split; [reflexivity|]. exists oats, names. do 2 (split; [auto|]).
      unfold attached. rewrite E0, EL. cbn [negb]. rewrite D4, D6, OM. split; [reflexivity|apply OV].
  - eexists _, _. split; [reflexivity|]. exists oats, names. do 2 (split; [auto|]).
    unfold attached. rewrite E0. cbn. split; [reflexivity|discriminate].
Qed.

(** ** The loop over one client *)
Section Client.
  Variable lf : log_file.
  Variable data : list Z.
  Variable K : lf_ok lf.
  Variable B : bytes_ok data.

  Lemma data_after_ok n left out : data_after lf data n left out -> bytes_ok out.
  Proof.
    induction 1 as [| |n left buf e rest H1 H2 H3 IH]; try constructor.
    apply bytes_ok_app. split; [|auto]. apply bytes_ok_slice. apply (log_page_facts _ _ _ _ _ B H2).
  Qed.

  Lemma data_of_ok cluster x cd : data_of lf data cluster x cd -> bytes_ok (cd_buf cd).
  Proof.
    intros (n & off & h & _ & R & (rest & D & ->) & _). apply bytes_ok_app. split; [|eapply data_after_ok; eauto].
    apply bytes_ok_slice. apply (record_at_facts _ _ _ _ _ K B R).
  Qed.

  Lemma get_data_of cluster x : valid_lsn lf data x ->
    exists cd, get_client_data lf data cluster x = Ok cd /\ data_of lf data cluster x cd.
  Proof.
    intro V. destruct (valid_data lf data cluster x K B V) as (n & off & h & out & P & R & RD & E).
    eexists. split; [exact E|]. exists n, off, h. cbn. auto 10.
  Qed.

  Lemma client_loop_spec c : forall l before s, Forall (valid_lsn lf data) l -> holds_state c before s ->
    exists l1 cds is, Forall2 (data_of lf data (cf_cluster c)) l1 cds /\ shows c before cds is /\
      ((l1 = l /\ client_loop lf c data l s = (is, Done)) \/
       exists x l2 cd e, l = l1 ++ x :: l2 /\ data_of lf data (cf_cluster c) x cd /\ stops c cd e /\
         client_loop lf c data l s = (is, Raised e)).
  Proof.
    induction l as [|x l IH]; intros before s V S; cbn [client_loop].
    { exists [], [], []. split; [constructor|]. split; [constructor|]. auto. }
    inversion V as [|? ? Vx V']; subst. destruct (get_data_of (cf_cluster c) x Vx) as (cd & -> & D).
    assert (STOP : forall e g, g = ([], Raised e) -> stops c cd e ->
      exists l1 cds is, Forall2 (data_of lf data (cf_cluster c)) l1 cds /\ shows c before cds is /\
      ((l1 = x :: l /\ g = (is, Done)) \/
       exists y l2 cd e, x :: l = l1 ++ y :: l2 /\ data_of lf data (cf_cluster c) y cd /\ stops c cd e /\
         g = (is, Raised e))).
    { intros e g -> T. exists [], [], []. split; [constructor|]. split; [constructor|]. right. exists x, l, cd, e. auto. }
    assert (NEXT : forall before' s' is0 g, holds_state c before' s' -> g = gapp is0 (client_loop lf c data l s') ->
      (forall cds is, shows c before' cds is -> shows c before (cd :: cds) (is0 ++ is)) ->
      exists l1 cds is, Forall2 (data_of lf data (cf_cluster c)) l1 cds /\ shows c before cds is /\
      ((l1 = x :: l /\ g = (is, Done)) \/
       exists y l2 cd e, x :: l = l1 ++ y :: l2 /\ data_of lf data (cf_cluster c) y cd /\ stops c cd e /\
         g = (is, Raised e))).
    { intros before' s' is0 g S' -> W. destruct (IH before' s' V' S') as (l1 & cds & is & F & SH & X).
      exists (x :: l1), (cd :: cds), (is0 ++ is). split; [constructor; auto|]. split; [auto|].
      destruct X as [[-> ->]|(y & l2 & cd' & e & -> & D' & T & ->)].
      - left. auto.
      - right. exists y, l2, cd', e. auto. }
    unfold LfsClientRestart, LfsClientRecord.
    destruct (Z.eqb_spec (cd_type cd) 2) as [T2|T2].
    - unfold ntfs_restart_area. destruct (Z.ltb_spec (zlen (cd_buf cd)) 64) as [L|L].
      + eapply STOP; [reflexivity|]. apply stops_area; auto.
      + apply (NEXT before s [Area (cd_buf cd) (cd_lsn cd)]); auto. intros. cbn [app]. apply shows_area; auto.
    - destruct (Z.eqb_spec (cd_type cd) 1) as [T1|T1].
      2:{ apply (NEXT before s []); auto.
          - destruct (client_loop lf c data l s); reflexivity.
          - intros. cbn [app]. apply shows_other; auto. }
      unfold log_record. destruct (Z.ltb_spec (zlen (cd_buf cd)) 32) as [L|L]; cbn [bind].
      { eapply STOP; [reflexivity|]. apply stops_short; auto. }
      pose proof (effect_spec c (cd_buf cd) before s (data_of_ok _ _ _ D) L S) as EF.
      destruct (record_effect c (cd_buf cd) s) as [s'|e]; cbn [bind].
      2:{ eapply STOP; [reflexivity|]. destruct EF as [(-> & E1 & E2)|[(-> & E1 & E2 & E3)|[-> E1]]].
          - apply stops_entry; auto.
          - apply stops_dump; auto.
          - apply stops_unset; auto. }
      destruct EF as [S' _]. pose proof (item_spec c cd before s' S') as IT.
      destruct (record_item c cd s') as [i|e]; cbn [bind].
      2:{ destruct IT as [-> E]. eapply STOP; [reflexivity|]. apply stops_unset; auto. }
      destruct IT as (od & ad & -> & ATT).
      apply (NEXT (cd_buf cd :: before) s' [Rec (cd_buf cd) (cd_lsn cd) (cd_tid cd) (cd_cluster cd) (ls_oat s') od ad]); auto.
      intros. cbn [app]. apply shows_record; auto. apply S'.
  Qed.

  Lemma client_loop_items c l : Forall (valid_lsn lf data) l ->
    client_items lf data c l (fst (client_loop lf c data l loop_start)) (snd (client_loop lf c data l loop_start)).
  Proof.
    intro V. destruct (client_loop_spec c l [] loop_start V (holds_start c)) as (l1 & cds & is & F & SH & X).
    destruct X as [[-> ->]|(x & l2 & cd & e & -> & D & T & ->)]; cbn [fst snd].
    - eapply items_all; eauto.
    - eapply items_stop; eauto.
  Qed.

  Lemma clients_parse_items c : forall d, Forall (fun e => Forall (valid_lsn lf data) (snd e)) d ->
    all_items lf data c d (fst (clients_parse lf c data d)) (snd (clients_parse lf c data d)).
  Proof.
    induction d as [|[id l] d IH]; intro V; cbn [clients_parse]; [constructor|].
    inversion V as [|? ? V1 V2]; subst. cbn [snd] in V1. pose proof (client_loop_items c l V1) as C.
    destruct (client_loop lf c data l loop_start) as [is [|e]]; cbn [fst snd] in C.
    - unfold gapp. cbn [fst snd]. apply all_more; auto.
    - cbn [fst snd]. apply all_stop; auto.
  Qed.

  (** ** Grouping *)
  Lemma dict_append_in k x : forall d id xs, NoDup (map fst d) ->
    In (id, xs) (dict_append k x d) <->
    (id <> k /\ In (id, xs) d) \/
    (id = k /\ ((exists ys, In (k, ys) d /\ xs = ys ++ [x]) \/ (~ In k (map fst d) /\ xs = [x]))).
  Proof.
    induction d as [|[k' ys] d IH]; intros id xs N; cbn [dict_append].
    { cbn. split; [intros [E|[]]; injection E as <- <-; right; auto|]. intros [[_ []]|[-> [(ys & [] & _)|[_ ->]]]]. auto. }
    cbn [map fst] in N. inversion N as [|? ? N1 N2]; subst. destruct (Z.eqb_spec k' k) as [->|NE].
    - cbn [In map fst]. split.
      + intros [E|I]; [injection E as <- <-; right; split; [auto|]; left; eauto|].
        left. split; [|auto]. intros ->. apply N1. apply (in_map fst) in I. exact I.
      + intros [[NE [E|I]]|[-> [(zs & [E|I] & ->)|[NI _]]]].
        * injection E as <- _. congruence.
        * auto.
        * injection E as <-. auto.
        * exfalso. apply N1. apply (in_map fst) in I. exact I.
        * exfalso. auto.
    - cbn [In map fst]. rewrite IH by auto. split.
      + intros [E|[[N3 I]|[-> [(zs & I & ->)|[NI ->]]]]].
        * injection E as <- <-. left. auto.
        * auto.
        * right. split; [auto|]. left. eauto.
        * right. split; [auto|]. right. split; [|auto]. intros [E|I]; auto.
      + intros [[N3 [E|I]]|[-> [(zs & [E|I] & ->)|[NI ->]]]].
        * auto.
        * auto.
        * injection E as -> _. congruence.
        * right. right. split; [auto|]. left. eauto.
        * right. right. split; [auto|]. right. split; [|auto]. intro I. apply NI. auto.
  Qed.

  Lemma dict_append_keys k x : forall d, NoDup (map fst d) -> NoDup (map fst (dict_append k x d)) /\
    forall j, In j (map fst (dict_append k x d)) <-> j = k \/ In j (map fst d).
  Proof.
    induction d as [|[k' ys] d IH]; intro N; cbn [dict_append].
    { cbn. split; [constructor; auto; constructor|]. intro j. intuition. }
    cbn [map fst] in N. inversion N as [|? ? N1 N2]; subst. destruct (IH N2) as [I1 I2].
    destruct (Z.eqb_spec k' k) as [->|NE]; cbn [map fst In].
    - split; [constructor; auto|]. intro j. intuition.
    - split; [constructor; [rewrite I2; intuition; congruence|auto]|]. intro j. rewrite I2. intuition.
  Qed.

  Lemma client_of_fun x a b : client_of lf data x a -> client_of lf data x b -> a = b.
  Proof.
    intros (n & off & h & P & R & <-) (n' & off' & h' & P' & R' & <-).
    destruct (lsn_pos_fun _ _ _ _ _ _ P P') as [<- <-]. rewrite (record_at_fun _ _ _ _ _ _ R R'). auto.
  Qed.

  Lemma group_spec : forall l done d, Forall (valid_lsn lf data) l -> NoDup (done ++ l) ->
    NoDup (map fst d) ->
    (forall id xs, In (id, xs) d -> xs <> [] /\ NoDup xs /\ forall x, In x xs <-> In x done /\ client_of lf data x id) ->
    (forall x id, In x done -> client_of lf data x id -> In id (map fst d)) ->
    exists d', group_lsns lf data l d = Ok d' /\ NoDup (map fst d') /\
      (forall id xs, In (id, xs) d' -> xs <> [] /\ NoDup xs /\ forall x, In x xs <-> In x (done ++ l) /\ client_of lf data x id) /\
      (forall x id, In x (done ++ l) -> client_of lf data x id -> In id (map fst d')).
  Proof.
    induction l as [|x l IH]; intros done d V ND N H1 H2; cbn [group_lsns].
    { exists d. rewrite app_nil_r. auto. }
    inversion V as [|? ? (n & off & h & P & N0 & R & E) V']; subst.
    rewrite (proj2 (lsn_to_offset_iff lf _ n off K) P).
    pose proof (lsn_pos_bounds _ _ _ _ K P) as (Hn & Ho & _).
    pose proof R as (b0 & e0 & L0 & _). destruct (page_by_number_some _ _ _ _ _ K B L0) as (p & -> & _ & _ & PS). cbn [bind].
    pose proof (header_at_spec lf data n p off K B PS ltac:(lia)) as HH.
    destruct (header_at p off (lf_hl lf)) as [h'|e]; cbn [bind]; [|destruct HH as [_ HH]; destruct (HH _ R)].
    rewrite (record_at_fun _ _ _ _ _ _ HH R) in *. clear h' HH.
    destruct (header_fields _ _ _ _ _ K B R) as (_ & _ & _ & _ & -> & _). cbn [bind].
    set (x := fld 8 h 0) in *. set (id := fld 4 h 28).
    assert (CX : client_of lf data x id) by (exists n, off, h; auto).
    destruct (dict_append_keys id x d N) as [N' KS].
    assert (NX : ~ In x done). { apply NoDup_remove_2 in ND. intro I. apply ND, in_or_app. auto. }
    destruct (IH (done ++ [x]) (dict_append id x d)) as (d' & E' & D1 & D2 & D3); auto.
    - rewrite <- app_assoc. exact ND.
    - intros j xs I. apply dict_append_in in I; auto.
      destruct I as [[NE I]|[-> [(ys & I & ->)|[NI ->]]]].
      + destruct (H1 _ _ I) as (A1 & A2 & A3). do 2 (split; [auto|]). intro y. rewrite A3, in_app_iff. cbn [In].
        split; [tauto|]. intros [[?|[<-|[]]] C]; [auto|]. exfalso. apply NE. symmetry. eapply client_of_fun; eauto.
      + destruct (H1 _ _ I) as (A1 & A2 & A3). split; [destruct ys; discriminate|]. split.
        * apply (Permutation_NoDup (l := x :: ys)); [apply Permutation_cons_append|]. constructor; [|auto].
          rewrite A3. tauto.
        * intro y. rewrite !in_app_iff, A3. cbn [In]. split; [|tauto]. intros [?|[<-|[]]]; [tauto|]. auto.
      + split; [discriminate|]. split; [constructor; [intros []|constructor]|]. intro y. rewrite in_app_iff. cbn [In].
        split; [intros [<-|[]]; auto|]. intros [[I|[<-|[]]] C]; [|auto]. exfalso. apply NI. eauto.
    - intros y j I C. apply KS. apply in_app_iff in I. destruct I as [I|[<-|[]]]; [right; eauto|left].
      eapply client_of_fun; eauto.
    - exists d'. rewrite <- app_assoc in D2, D3. cbn [app] in D2, D3. auto.
  Qed.

  Lemma sort_lsns_spec l : Forall (valid_lsn lf data) l -> NoDup l ->
    exists d, sort_lsns lf data l = Ok d /\ grouped lf data l d /\
      (forall x, In x l -> exists id xs, In (id, xs) d /\ In x xs).
  Proof.
    intros V N. destruct (group_spec l [] [] V N) as (d & E & D1 & D2 & D3); [constructor|intros ? ? []|intros ? ? []|].
    unfold sort_lsns. rewrite E. cbn [bind app] in *. eexists. split; [reflexivity|]. split.
    - split.
      + rewrite map_map. cbn [fst]. exact D1.
      + intros id xs I. apply in_map_iff in I. destruct I as ([id' ys] & I & J). cbn [fst snd] in I.
        injection I as -> <-. destruct (D2 _ _ J) as (A1 & A2 & A3).
        assert (SI : forall x, In x (sort_by (fun x => x) ys) <-> In x ys) by (intro; apply sort_by_In).
        split. { destruct ys as [|y ys]; [congruence|]. intro Z0. specialize (SI y). rewrite Z0 in SI. cbn in SI. tauto. }
        split; [apply sorted_strict; auto|]. intro x. rewrite SI. auto.
    - intros x I. assert (Vx : valid_lsn lf data x) by (rewrite Forall_forall in V; auto).
      destruct Vx as (n & off & h & P & _ & R & _).
      assert (C : client_of lf data x (fld 4 h 28)) by (exists n, off, h; auto).
      specialize (D3 x _ I C). apply in_map_iff in D3. destruct D3 as ([id ys] & E1 & J). cbn [fst] in E1. rewrite <- E1 in C.
      exists id, (sort_by (fun x => x) ys). split.
      + apply in_map_iff. exists (id, ys). auto.
      + apply sort_by_In. apply (D2 _ _ J). auto.
  Qed.
End Client.

(** What the items are the items of. *)
Lemma shows_lsns c before cds is : shows c before cds is ->
  map item_lsn is = map cd_lsn (filter (fun cd => (cd_type cd =? 1) || (cd_type cd =? 2)) cds).
Proof.
  induction 1 as [|before cd cds is H1 H2 _ IH|before cd cds is H1 _ _ IH|before cd cds is t od ad H1 _ _ _ _ IH]; cbn [map filter]; auto.
  - replace (cd_type cd =? 1) with false by lia. replace (cd_type cd =? 2) with false by lia. exact IH.
  - rewrite H1. cbn [Z.eqb orb map item_lsn Pos.eqb]. f_equal; auto.
  - rewrite H1. cbn [Z.eqb orb map item_lsn Pos.eqb]. f_equal; auto.
Qed.

Lemma open_as_parts v b older r : (forall i, open_as v i (b :: older) (r i)) -> fld 2 b 0 = 28 ->
  ~ bad_part b 8 10 /\ ~ bad_part b 4 6.
Proof.
  intros H E. specialize (H 0). remember (b :: older) as l. destruct H; try discriminate; injection Heql as -> ->; try congruence;
    split; eapply part_bad; eauto.
Qed.

Lemma dumps_part op b older l : dumps op (b :: older) l -> fld 2 b 0 = op -> ~ bad_part b 4 6.
Proof.
  intros H E. remember (b :: older) as x. destruct H; try discriminate; injection Heqx as -> ->; [congruence|].
  eapply part_bad; eauto.
Qed.

(** Data that is shown does not stop the iteration. *)
Lemma shows_not_stops c before cds is : shows c before cds is -> forall cd e, In cd cds -> ~ stops c cd e.
Proof.
  induction 1 as [|before cd cds is H1 H2 _ IH|before cd cds is H1 L _ IH|before cd cds is t od ad H1 L O D _ IH];
    intros cd' e I; cbn in I; [contradiction|destruct I as [<-|I]; [|eauto]..].
  - destruct 1; congruence.
  - destruct 1; try congruence; lia.
  - destruct 1 as [| |_ _ E X|_ _ E C X|_ _ C]; try congruence; try lia.
    + destruct (open_as_parts _ _ _ _ O E). tauto.
    + rewrite C in D. destruct D as (oats & names & D1 & D2 & _). destruct E as [E|E].
      * exact (dumps_part _ _ _ _ D1 E X).
      * exact (dumps_part _ _ _ _ D2 E X).
    + rewrite C in D. contradiction.
Qed.

(** ** Checkpoints *)
Lemma dumps_fun op before l : dumps op before l -> forall l', dumps op before l' -> l = l'.
Proof.
  induction 1 as [|b older l H _ IH|b older l d H P _ IH]; intros l' D.
  - inversion D; auto.
  - remember (b :: older) as x. destruct D; try discriminate; injection Heqx as -> ->; [auto|contradiction].
  - remember (b :: older) as x. destruct D as [|b' older' l' H' D|b' older' l' d' H' P' D]; try discriminate;
      injection Heqx as -> ->; [contradiction|]. f_equal; [eapply part_fun; eauto|auto].
Qed.

Lemma checkpoints_dumps before h l : checkpoints before h l ->
  dumps 29 before (match h with Some d => d :: map fst l | None => map fst l end) /\ dumps 30 before (map snd l).
Proof.
  induction 1 as [|b older h l H1 H2 _ IH|b older d l H1 P _ IH|b older d n l H1 P _ IH].
  - split; constructor.
  - destruct IH. split; apply dumps_other; auto.
  - destruct IH. split; [apply dumps_this; auto|apply dumps_other; [lia|auto]].
  - destruct IH. cbn [map fst snd]. split; [apply dumps_other; [lia|auto]|apply dumps_this; auto].
Qed.

(** ** Targets *)
Lemma find_reference_spec dump v i : 0 <= i ->
  find_reference dump v i = match dump_ref dump v i with Some r => Ok r | None => Err ClientException end.
Proof.
  intro Hi. unfold find_reference, dump_ref. replace (zlen dump <=? i) with (negb (i <? zlen dump)) by lia.
  destruct (i <? zlen dump); cbn [negb]; [apply entry_reference_spec|reflexivity].
Qed.

Lemma target_spec b t od ad : bytes_ok b -> 32 <= zlen b -> (forall names, ad = Some names -> bytes_ok names) ->
  exists res, target_reference b t od ad = Ok res /\ target b t od ad res.
Proof.
  intros B L BA. unfold target_reference. destruct (op_in_spec b LOGGED_NONRESIDENT_UPDATES L) as (y & -> & Y). cbn [bind].
  change (y = true <-> nonresident b) in Y.
  destruct y; [|exists None; split; [auto|]; apply target_resident; rewrite <- Y; discriminate].
  pose proof (proj1 Y eq_refl) as NR. unfold nr_target. rewrite u16_ok by lia. cbn [bind].
  destruct (oat_get t (fld 2 b 12)) as [[r n]|] eqn:EO; [eexists; split; [reflexivity|apply target_open; auto]|].
  destruct od as [[d v]|]; [|exists None; split; [auto|apply target_unknown; auto]].
  destruct ad as [names|]; [|exists None; split; [auto|apply target_unknown; auto]].
  pose proof (fld_bound 2 b 12 ltac:(lia) ltac:(lia) B).
  rewrite find_reference_spec by lia. destruct (dump_ref d v (fld 2 b 12)) as [r|] eqn:ER.
  2:{ exists None. split; [auto|]. apply target_unknown; auto. right. right. eauto. }
  destruct (proj1 (find_name_iff names (fld 2 b 12) _ (BA _ eq_refl)) eq_refl) as [(n & -> & N)|[-> N]]; cbn [bind];
    eexists; (split; [reflexivity|]).
  - eapply target_named; eauto.
  - eapply target_unnamed; eauto.
Qed.

Lemma target_fun b t od ad x y : target b t od ad x -> target b t od ad y -> x = y.
Proof.
  intros [H|r n H1 H2|H1 H2 H3|d v names r n H1 H2 H3 H4 H5 H6|d v names r H1 H2 H3 H4 H5 H6]
         [G|r' n' G1 G2|G1 G2 G3|d' v' names' r' n' G1 G2 G3 G4 G5 G6|d' v' names' r' G1 G2 G3 G4 G5 G6];
    auto; try contradiction; try congruence;
    try (destruct H3 as [H3|[H3|(d0 & v0 & H3 & H4)]]; congruence);
    try (destruct G3 as [G3|[G3|(d0 & v0 & G3 & G4)]]; congruence).
  - replace d' with d in * by congruence. replace v' with v in * by congruence. replace names' with names in * by congruence.
    rewrite (named_fun _ _ _ _ H6 _ G6). congruence.
  - replace names' with names in * by congruence. destruct (G6 _ H6).
  - replace names' with names in * by congruence. destruct (H6 _ G6).
Qed.
