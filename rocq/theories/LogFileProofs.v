From Verif Require Import Base BaseLemmas FieldLemmas FrsSpec FrsProofs UsaSpec LogPage LogFile LogSpec LogPageProofs.

(** ** Restart pages *)

Lemma sig_in3 buf a b c : sig_in (ztake 4 buf) [a; b; c] = true <->
  signed_as buf a \/ signed_as buf b \/ signed_as buf c.
Proof.
  unfold sig_in, signed_as. cbn [existsb].
  assert (E : slice buf 0 4 = ztake 4 buf).
  { unfold slice. rewrite (zdrop_nonpos buf 0) by lia. reflexivity. }
  rewrite E, !orb_true_iff, !zlist_eqb_eq. intuition discriminate.
Qed.

Lemma version_okb a b :
  (((a =? 1) && (b =? 1)) || ((a =? 2) && (b =? 0)) || ((a =? 3) && (b =? 0))) = true <-> version_ok a b.
Proof. unfold version_ok. rewrite !orb_true_iff, !andb_true_iff, !Z.eqb_eq. tauto. Qed.

Lemma restart_page_spec raw : bytes_ok raw ->
  match restart_page raw with
  | Ok buf => restart_ok raw buf
  | Err NotImplementedError => restart_unsupported raw /\ forall buf, ~ restart_ok raw buf
  | Err e => log_exn e = true /\ ~ restart_unsupported raw /\ forall buf, ~ restart_ok raw buf
  end.
Proof.
  intros B. unfold restart_page.
  pose proof (unprotect_spec raw B) as U. destruct (unprotect raw) as [[buf e]|x]; cbn [bind fst].
  2:{ destruct U as [-> U]. split; [reflexivity|]. split.
      - intros (b & e & K & _). exact (U _ _ K).
      - intros b ((e & K) & _). exact (U _ _ K). }
  pose proof (unprotects_bytes _ _ _ B U) as BB.
  pose proof (unprotects_len _ _ _ U) as (L1 & L2 & _).
  assert (NO : forall Q : Prop, (restart_ok raw buf -> False) -> forall b, ~ restart_ok raw b).
  { intros _ N b K. pose proof K as ((e' & K') & _). destruct (unprotects_fun _ _ _ _ _ U K') as [<- _]. auto. }
  set (ER := Err RestartPageException : result (list Z)).
  assert (Bad : (restart_ok raw buf -> False) ->
    ((signed_as buf [82; 83; 84; 82] \/ signed_as buf [67; 72; 75; 68] \/ signed_as buf [66; 65; 65; 68]) ->
     (~ version_ok (fld 2 buf 28) (fld 2 buf 26) \/
      (version_ok (fld 2 buf 28) (fld 2 buf 26) /\
       ((page_size_ok (fld 4 buf 16) /\ fld 4 buf 16 <> 4096) \/
        (fld 4 buf 16 = 4096 /\ page_size_ok (fld 4 buf 20) /\ fld 4 buf 20 <> 4096)))) -> False) ->
    match ER with
    | Ok b => restart_ok raw b
    | Err NotImplementedError => restart_unsupported raw /\ forall b, ~ restart_ok raw b
    | Err e => log_exn e = true /\ ~ restart_unsupported raw /\ forall b, ~ restart_ok raw b
    end).
  { intros N1 N2. split; [reflexivity|]. split; [|exact (NO True N1)].
    intros (b & e' & K & K1 & K2). destruct (unprotects_fun _ _ _ _ _ U K) as [<- <-]. auto. }
  destruct (sig_in _ _) eqn:ES; cbn [negb].
  2:{ apply Bad; [intros (_ & K & _)|intros K _]; apply sig_in3 in K;
      change [82; 83; 84; 82] with sig_RSTR in K; change [67; 72; 75; 68] with sig_CHKD in K;
      change [66; 65; 65; 68] with sig_BAAD in K; congruence. }
  apply sig_in3 in ES.
  destruct (u16_at buf 28 BB ltac:(lia) ltac:(lia)) as [EM _]. unfold rp_major. rewrite EM. clear EM.
  destruct (u16_at buf 26 BB ltac:(lia) ltac:(lia)) as [EM _]. unfold rp_minor. rewrite EM. clear EM. cbn [bind].
  destruct (_ || _) eqn:EV; cbn [negb].
  2:{ assert (NV : ~ version_ok (fld 2 buf 28) (fld 2 buf 26)) by (intro K; apply version_okb in K; congruence).
      split; [|apply (NO True); intros (_ & _ & K & _); auto].
      exists buf, e. split; [exact U|]. split; [exact ES|]. left. exact NV. }
  apply version_okb in EV.
  destruct (u32_at buf 16 BB ltac:(lia) ltac:(lia)) as [EM BS]. unfold rp_system_size. rewrite EM. clear EM. cbn [bind].
  destruct ((_ <? 1024) || _) eqn:E1.
  { apply Bad; [intros (_ & _ & _ & K & _); rewrite K in E1; discriminate|].
    intros _ [K|[_ [[[K1 K2] _]|[K _]]]]; [auto|lia|rewrite K in E1; discriminate]. }
  destruct (fld 4 buf 16 =? PAGE_SIZE) eqn:E2; cbn [negb]; unfold PAGE_SIZE in *.
  2:{ split; [|apply (NO True); intros (_ & _ & _ & K & _); lia].
      exists buf, e. split; [exact U|]. split; [exact ES|]. right. split; [exact EV|]. left. unfold page_size_ok. lia. }
  destruct (u32_at buf 20 BB ltac:(lia) ltac:(lia)) as [EM BS2]. unfold rp_log_size. rewrite EM. clear EM. cbn [bind].
  destruct ((fld 4 buf 20 <? 1024) || _) eqn:E3.
  { apply Bad; [intros (_ & _ & _ & _ & K & _); rewrite K in E3; discriminate|].
    intros _ [K|[_ [[_ K]|[_ [[K1 K2] _]]]]]; [auto|lia|lia]. }
  destruct (fld 4 buf 20 =? 4096) eqn:E4; cbn [negb].
  2:{ split; [|apply (NO True); intros (_ & _ & _ & _ & K & _); lia].
      exists buf, e. split; [exact U|]. split; [exact ES|]. right. split; [exact EV|]. right. unfold page_size_ok. lia. }
  destruct (u16_at buf 24 BB ltac:(lia) ltac:(lia)) as [EM BO]. unfold rp_offset. rewrite EM. clear EM. cbn [bind].
  match goal with |- context [if ?c then _ else _] => destruct c eqn:E5 end.
  { apply Bad; [intros (_ & _ & _ & _ & _ & K1 & K2 & K3); lia|].
    intros _ [K|[_ [[_ K]|[_ [_ K]]]]]; [auto|lia|lia]. }
  repeat (apply orb_false_iff in E5 as [E5 ?]).
  split; [exists e; exact U|]. split; [exact ES|]. split; [exact EV|]. lia.
Qed.

Lemma restart_page_iff raw buf : bytes_ok raw -> (restart_page raw = Ok buf <-> restart_ok raw buf).
Proof.
  intros B. pose proof (restart_page_spec raw B) as H.
  destruct (restart_page raw) as [b|x] eqn:E.
  - split; [intros K; injection K as <-; exact H|]. intro K.
    destruct H as ((e & H) & _), K as ((e' & K) & _). destruct (unprotects_fun _ _ _ _ _ H K) as [-> _]. reflexivity.
  - split; [discriminate|]. intro K. destruct x; destruct H as [_ H]; first [destruct (H _ K)|destruct H as [_ H]; destruct (H _ K)].
Qed.

Lemma or_none_state raw : bytes_ok raw ->
  match or_none (restart_page raw) with
  | Ok r => restart_state raw r
  | Err e => e = NotImplementedError /\ restart_unsupported raw
  end.
Proof.
  intros B. pose proof (restart_page_spec raw B) as H. unfold or_none.
  destruct (restart_page raw) as [b|x]; [exact H|].
  destruct x; cbn [log_exn] in *; try (destruct H as [H1 H2]; first [discriminate H1|exact H2|auto]).
Qed.

Lemma restart_state_fun raw r r' : bytes_ok raw -> restart_state raw r -> restart_state raw r' -> r = r'.
Proof.
  intros B H H'. destruct r as [b|], r' as [b'|]; cbn in *; auto.
  - apply restart_page_iff in H, H'; auto. congruence.
  - destruct H' as [_ H']. destruct (H' _ H).
  - destruct H as [_ H]. destruct (H _ H').
Qed.

Lemma restart_ok_facts raw buf : bytes_ok raw -> restart_ok raw buf ->
  bytes_ok buf /\ zlen buf = zlen raw /\ 1024 <= zlen raw.
Proof.
  intros B ((e & U) & _). split; [exact (unprotects_bytes _ _ _ B U)|].
  pose proof (unprotects_len _ _ _ U). lia.
Qed.

(** ** Restart areas *)

Lemma page_area_spec buf : bytes_ok buf -> 28 <= zlen buf ->
  match page_area buf with
  | Ok area => area_ok buf area
  | Err e => (e = StructError \/ e = RestartAreaException) /\ forall area, ~ area_ok buf area
  end.
Proof.
  intros B L. unfold page_area, rp_offset, rp_system_size.
  destruct (u16_at buf 24 B ltac:(lia) ltac:(lia)) as [-> BO].
  destruct (u32_at buf 16 B ltac:(lia) ltac:(lia)) as [-> BS]. cbn [bind].
  set (a := zdrop (fld 2 buf 24) buf). assert (BA : bytes_ok a) by (apply bytes_ok_zdrop; auto).
  unfold restart_area, ra_array_offset, ra_clients, ra_free_list, ra_in_use_list, LFS_NO_CLIENT.
  destruct (Z.lt_ge_cases (zlen a) 24) as [S|S].
  { unfold u16. rewrite (unp_short 2 a 22) by lia. cbn [bind]. split; auto.
    intros area (-> & K & _). fold a in K. lia. }
  destruct (u16_at a 22 BA ltac:(lia) ltac:(lia)) as [-> B22]. cbn [bind].
  destruct (_ || _) eqn:E1.
  { split; auto. intros area (-> & _ & K1 & K2 & K3 & _). fold a in K1, K2, K3. lia. }
  repeat (apply orb_false_iff in E1 as [E1 ?]).
  destruct (u16_at a 8 BA ltac:(lia) ltac:(lia)) as [-> B8].
  destruct (u16_at a 10 BA ltac:(lia) ltac:(lia)) as [-> B10].
  destruct (u16_at a 12 BA ltac:(lia) ltac:(lia)) as [-> B12]. cbn [bind].
  destruct (_ && _) eqn:E2.
  { split; auto. intros area (-> & _ & _ & _ & _ & K & _). fold a in K. lia. }
  destruct (negb (fld 2 a 12 =? 65535) && _) eqn:E3.
  { split; auto. intros area (-> & _ & _ & _ & _ & _ & K). fold a in K. lia. }
  unfold area_ok. fold a. split; [reflexivity|]. lia.
Qed.

Lemma page_area_iff buf area : bytes_ok buf -> 28 <= zlen buf -> (page_area buf = Ok area <-> area_ok buf area).
Proof.
  intros B L. pose proof (page_area_spec buf B L) as H. destruct (page_area buf) as [a|x].
  - split; [intros K; injection K as <-; exact H|]. intro K. destruct H as [-> _], K as [-> _]. reflexivity.
  - split; [discriminate|]. intro K. destruct H as [_ H]. destruct (H _ K).
Qed.

(** ** Opening *)

Lemma all_ff data n : 8192 <= zlen data -> n = Z.to_nat 4096 ->
  (zlist_eqb (slice data 0 4096) (slice data 4096 8192) && zlist_eqb (slice data 4096 8192) (repeat 255 n) = true
   <-> forall p, 0 <= p < 8192 -> znth data p = Some 255).
Proof.
  intros L En. rewrite andb_true_iff, !zlist_eqb_eq.
  assert (N : forall p, 0 <= p < 4096 -> znth (repeat 255 n) p = Some 255).
  { intros p Hp. rewrite znth_nth_error by lia.
    assert (Q : (Z.to_nat p < n)%nat) by (rewrite En; apply Z2Nat.inj_lt; lia). clear En.
    rewrite (nth_error_nth' _ 255) by (rewrite repeat_length; exact Q).
    f_equal. apply nth_repeat. }
  assert (ZL : zlen (repeat 255 n) = 4096) by (rewrite zlen_repeat, En; apply Z2Nat.id; lia).
  clear En. revert N ZL. generalize (repeat 255 n). intros ff N ZL. split.
  - intros [E1 E2] p Hp. destruct (Z.lt_ge_cases p 4096).
    + rewrite <- (N p) by lia. rewrite <- E2, <- E1. rewrite znth_slice by lia. reflexivity.
    + rewrite <- (N (p - 4096)) by lia. rewrite <- E2. rewrite znth_slice by lia. f_equal. lia.
  - intros H. assert (E2 : slice data 4096 8192 = ff).
    { apply znth_ext; [rewrite zlen_slice by lia; lia|]. intros i Hi. rewrite zlen_slice in Hi by lia.
      rewrite znth_slice by lia. rewrite N by lia. apply H. lia. }
    split; auto. rewrite E2. apply znth_ext; [rewrite zlen_slice by lia; lia|].
    intros i Hi. rewrite zlen_slice in Hi by lia. rewrite znth_slice by lia. rewrite N by lia. apply H. lia.
Qed.

Lemma opened_spec data : bytes_ok data ->
  match log_open data with
  | Ok lf => opened data lf
  | Err e => (log_exn e = true \/ e = NotImplementedError \/ e = StructError) /\ forall lf, ~ opened data lf
  end.
Proof.
  intros B. unfold log_open, PAGE_SIZE. change (2 * 4096) with 8192.
  set (raw1 := slice data 0 4096). set (raw2 := slice data 4096 8192).
  pose proof (zlen_nonneg data) as HN.
  assert (L1 : zlen raw1 = Z.max 0 (Z.min 4096 (zlen data))) by (unfold raw1; rewrite zlen_slice by lia; lia).
  assert (L2 : zlen raw2 = Z.max 0 (Z.min 4096 (zlen data - 4096))) by (unfold raw2; rewrite zlen_slice by lia; lia).
  destruct (_ || _) eqn:E1.
  { split; [left; reflexivity|]. intros lf (K & _). lia. }
  apply orb_false_iff in E1 as [E1 E1']. apply negb_false_iff in E1, E1'.
  assert (L : 8192 <= zlen data) by lia.
  pose proof (all_ff data (Z.to_nat 4096) L eq_refl) as AF. fold raw1 raw2 in AF.
  destruct (_ && _) eqn:E2.
  { split; [left; reflexivity|]. intros lf (_ & K & _). apply K. apply AF. reflexivity. }
  assert (NF : ~ (forall p, 0 <= p < 8192 -> znth data p = Some 255)).
  { intro K. apply AF in K. discriminate. }
  clear AF E2.
  assert (B1 : bytes_ok raw1) by (apply bytes_ok_slice; auto).
  assert (B2 : bytes_ok raw2) by (apply bytes_ok_slice; auto).
  pose proof (or_none_state raw1 B1) as S1. destruct (or_none (restart_page raw1)) as [r1|x]; cbn [bind].
  2:{ destruct S1 as [-> S1]. split; auto. intros lf (_ & _ & K & _). fold raw1 in K.
      destruct (lf_rp1 lf) as [b|]; cbn in K; [|tauto].
      pose proof (restart_page_spec raw1 B1) as P. apply restart_page_iff in K; auto. rewrite K in P.
      destruct S1 as (b' & e & U & SG & S1). destruct P as ((e' & U') & _ & P1 & P2 & P3 & _).
      destruct (unprotects_fun _ _ _ _ _ U U') as [-> _]. destruct S1 as [S1|[_ [[_ S1]|[_ [_ S1]]]]]; auto. }
  pose proof (or_none_state raw2 B2) as S2. destruct (or_none (restart_page raw2)) as [r2|x]; cbn [bind].
  2:{ destruct S2 as [-> S2]. split; auto. intros lf (_ & _ & _ & K & _). fold raw2 in K.
      destruct (lf_rp2 lf) as [b|]; cbn in K; [|tauto].
      pose proof (restart_page_spec raw2 B2) as P. apply restart_page_iff in K; auto. rewrite K in P.
      destruct S2 as (b' & e & U & SG & S2). destruct P as ((e' & U') & _ & P1 & P2 & P3 & _).
      destruct (unprotects_fun _ _ _ _ _ U U') as [-> _]. destruct S2 as [S2|[_ [[_ S2]|[_ [_ S2]]]]]; auto. }
  assert (Uniq : forall lf, opened data lf -> lf_rp1 lf = r1 /\ lf_rp2 lf = r2).
  { intros lf (_ & _ & K1 & K2 & _). split; [eapply restart_state_fun; [exact B1| |]; eauto|].
    eapply restart_state_fun; [exact B2| |]; eauto. }
  assert (Fields : forall raw b, bytes_ok raw -> zlen raw = 4096 -> restart_ok raw b ->
    bytes_ok b /\ zlen b = 4096 /\ rp_log_size b = Ok 4096 /\ page_version b = Ok (fld 2 b 28, fld 2 b 26)).
  { intros raw b Br Lr R. destruct (restart_ok_facts _ _ Br R) as (Bb & Lb & _). split; [exact Bb|]. split; [lia|].
    destruct R as (_ & _ & _ & _ & R & _). split.
    - unfold rp_log_size. destruct (u32_at b 20 Bb ltac:(lia) ltac:(lia)) as [-> _]. congruence.
    - unfold page_version, rp_major, rp_minor.
      destruct (u16_at b 28 Bb ltac:(lia) ltac:(lia)) as [-> _].
      destruct (u16_at b 26 Bb ltac:(lia) ltac:(lia)) as [-> _]. reflexivity. }
  (* the end, given the page the settings come from *)
  assert (Fin : forall b, settings_from r1 r2 b -> bytes_ok b -> zlen b = 4096 ->
    match (let! a := page_area b in
           let! hl := ra_header_length a in
           if hl <? 48 then Err LogFileException else
           let! doff := ra_data_offset a in
           let! bits := ra_seq_bits a in
           if (64 <=? bits) || (bits <? 3) then Err LogFileException else
           Ok {| lf_size := zlen data; lf_rp1 := r1; lf_rp2 := r2; lf_psize := 4096;
                 lf_major := fld 2 b 28; lf_minor := fld 2 b 26; lf_hl := hl; lf_doff := doff; lf_bits := bits |})
    with
    | Ok lf => opened data lf
    | Err e => (log_exn e = true \/ e = NotImplementedError \/ e = StructError) /\ forall lf, ~ opened data lf
    end).
  { intros b SF Bb Lb.
    assert (Red : forall P : Prop, (forall lf area, opened data lf -> area_ok b area -> 40 <= zlen area ->
        48 <= fld 2 area 36 -> 3 <= fld 4 area 16 <= 63 -> P) -> forall lf, opened data lf -> P).
    { intros P HP lf O. destruct (Uniq lf O) as [U1 U2].
      pose proof O as (_ & _ & _ & _ & _ & _ & b' & area & SF' & A & LA & _ & _ & H1 & H2 & _ & H3 & H4).
      rewrite U1, U2 in SF'.
      assert (b' = b) by (inversion SF; subst; inversion SF'; subst; congruence). subst b'.
      apply (HP lf area); auto; lia. }
    pose proof (page_area_spec b Bb ltac:(lia)) as PA. destruct (page_area b) as [a|x]; cbn [bind].
    2:{ destruct PA as [PA1 PA2]. split.
        - destruct PA1 as [->| ->]; [auto|left; reflexivity].
        - intros lf O. refine (Red False _ lf O). intros lf' area _ K _ _ _. exact (PA2 _ K). }
    assert (Ba : bytes_ok a) by (destruct PA as [-> _]; apply bytes_ok_zdrop; auto).
    assert (AU : forall area, area_ok b area -> area = a) by (intros area [-> _]; destruct PA as [-> _]; reflexivity).
    unfold ra_header_length, ra_data_offset, ra_seq_bits.
    destruct (Z.lt_ge_cases (zlen a) 38) as [S|S].
    { unfold u16. rewrite (unp_short 2 a 36) by lia. cbn [bind]. split; auto.
      intros lf O. refine (Red False _ lf O). intros lf' area _ K K2 _ _. apply AU in K. subst area. lia. }
    destruct (u16_at a 36 Ba ltac:(lia) ltac:(lia)) as [-> Bh]. cbn [bind].
    destruct (fld 2 a 36 <? 48) eqn:EH.
    { split; [left; reflexivity|]. intros lf O. refine (Red False _ lf O).
      intros lf' area _ K _ K2 _. apply AU in K. subst area. lia. }
    destruct (Z.lt_ge_cases (zlen a) 40) as [S2'|S2'].
    { unfold u16. rewrite (unp_short 2 a 38) by lia. cbn [bind]. split; auto.
      intros lf O. refine (Red False _ lf O). intros lf' area _ K K2 _ _. apply AU in K. subst area. lia. }
    destruct (u16_at a 38 Ba ltac:(lia) ltac:(lia)) as [-> Bd]. cbn [bind].
    destruct (u32_at a 16 Ba ltac:(lia) ltac:(lia)) as [-> Bq]. cbn [bind].
    destruct (_ || _) eqn:EQ.
    { split; [left; reflexivity|]. intros lf O. refine (Red False _ lf O).
      intros lf' area _ K _ _ K2. apply AU in K. subst area. lia. }
    apply orb_false_iff in EQ as [EQ1 EQ2].
    unfold opened; cbn [lf_size lf_rp1 lf_rp2 lf_psize lf_major lf_minor lf_hl lf_doff lf_bits].
    fold raw1 raw2. do 6 (split; [auto|]).
    exists b, a. do 4 (split; [auto|]). do 1 (split; [auto|]). do 5 (split; [auto; lia|]). lia. }
  unfold choose_restart. destruct r1 as [b1|], r2 as [b2|].
  - destruct (Fields raw1 b1 B1 ltac:(lia) S1) as (Bb1 & Lb1 & P1 & V1).
    destruct (Fields raw2 b2 B2 ltac:(lia) S2) as (Bb2 & Lb2 & P2 & V2).
    rewrite P1, P2, V1, V2. cbn [bind].
    destruct (_ && _) eqn:EV.
    + specialize (Fin b1). cbn [fst snd] in EV. apply andb_true_iff in EV as [EV1 EV2].
      specialize (Fin ltac:(constructor; lia) Bb1 Lb1).
      destruct (page_area b1) as [a|x]; cbn [bind] in *; [|exact Fin].
      change (negb (4096 =? 4096)) with false. cbn [bind negb fst snd]. exact Fin.
    + assert (No : forall lf, ~ opened data lf).
      { intros lf O. destruct (Uniq lf O) as [U1 U2].
        destruct O as (_ & _ & _ & _ & _ & _ & b' & area & SF' & _). rewrite U1, U2 in SF'.
        inversion SF'; subst. cbn [fst snd] in EV. lia. }
      pose proof (page_area_spec b1 Bb1 ltac:(lia)) as PA. destruct (page_area b1) as [a|x]; cbn [bind].
      * change (negb (4096 =? 4096)) with false. cbn [bind negb]. split; [left; reflexivity|exact No].
      * split; [|exact No]. destruct PA as [[->| ->] _]; [auto|left; reflexivity].
  - destruct (Fields raw1 b1 B1 ltac:(lia) S1) as (Bb1 & Lb1 & P1 & V1).
    rewrite P1, V1. cbn [bind]. specialize (Fin b1 ltac:(constructor) Bb1 Lb1).
    destruct (page_area b1) as [a|x]; cbn [bind fst snd] in *; exact Fin.
  - destruct (Fields raw2 b2 B2 ltac:(lia) S2) as (Bb2 & Lb2 & P2 & V2).
    rewrite P2, V2. cbn [bind]. specialize (Fin b2 ltac:(constructor) Bb2 Lb2).
    destruct (page_area b2) as [a|x]; cbn [bind fst snd] in *; exact Fin.
  - cbn [bind]. split; [left; reflexivity|]. intros lf O. destruct (Uniq lf O) as [U1 U2].
    destruct O as (_ & _ & _ & _ & _ & _ & b' & area & SF' & _). rewrite U1, U2 in SF'. inversion SF'.
Qed.

Lemma opened_fun data a b : bytes_ok data -> opened data a -> opened data b -> a = b.
Proof.
  intros B Oa Ob.
  pose proof Oa as (L & _ & A1 & A2 & A3 & A4 & ba & aa & SA & AA & _ & A5 & A6 & A7 & _ & A8 & A9 & _).
  pose proof Ob as (_ & _ & B1 & B2 & B3 & B4 & bb & ab & SB & AB & _ & B5 & B6 & B7 & _ & B8 & B9 & _).
  assert (E1 : lf_rp1 a = lf_rp1 b) by (eapply restart_state_fun; [|exact A1|exact B1]; apply bytes_ok_slice; auto).
  assert (E2 : lf_rp2 a = lf_rp2 b) by (eapply restart_state_fun; [|exact A2|exact B2]; apply bytes_ok_slice; auto).
  rewrite E1, E2 in SA.
  assert (ba = bb) by (destruct SB; inversion SA; auto). subst bb.
  assert (aa = ab) by (destruct AA as [-> _], AB as [-> _]; reflexivity). subst ab.
  destruct a, b. cbn in *. congruence.
Qed.

Lemma log_open_iff data lf : bytes_ok data -> (log_open data = Ok lf <-> opened data lf).
Proof.
  intros B. pose proof (opened_spec data B) as H. destruct (log_open data) as [l|x].
  - split; [intros K; injection K as <-; exact H|]. intro K. f_equal. exact (opened_fun _ _ _ B H K).
  - split; [discriminate|]. intro K. destruct H as [_ H]. destruct (H _ K).
Qed.

Lemma opened_ok data lf : bytes_ok data -> opened data lf -> lf_ok lf.
Proof.
  intros B (L & _ & S1 & S2 & E1 & E2 & b & a & SF & A & LA & H1 & H2 & H3 & H4 & H5 & H6 & H7).
  assert (R : exists raw, bytes_ok raw /\ restart_ok raw b).
  { remember (lf_rp1 lf) as r1. remember (lf_rp2 lf) as r2.
    destruct SF; cbn in S1, S2; eauto using bytes_ok_slice. }
  destruct R as (raw & Br & R). destruct (restart_ok_facts _ _ Br R) as (Bb & Lb & _).
  assert (Ba : bytes_ok a) by (destruct A as [-> _]; apply bytes_ok_zdrop; auto).
  pose proof (u16_at a 36 Ba ltac:(lia) ltac:(lia)). pose proof (u16_at a 38 Ba ltac:(lia) ltac:(lia)).
  unfold lf_ok. rewrite H1, H2. split; [exact E2|]. split; [lia|]. split; [lia|]. split; [lia|].
  split; [|lia]. destruct R as (_ & _ & R & _). exact R.
Qed.
