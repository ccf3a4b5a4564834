From Coq Require Import Permutation Sorted Relations.
From Verif Require Import Base BaseLemmas FieldLemmas FrsSpec FrsProofs UsaSpec Sorting LogPage LogFile LogSpec LogPageProofs LogFileProofs LogReadProofs LogWalkProofs LogClientProofs.

(** ** The LSNs to start from *)

Lemma client_record_spec area p : bytes_ok area -> 0 <= p ->
  match client_record (zdrop p area) with
  | Ok c => c = zdrop p area /\ p + 32 <= zlen area /\ fld 4 area (p + 28) <= 128
  | Err e => (e = StructError \/ e = ClientRecordException) /\ ~ (p + 32 <= zlen area /\ fld 4 area (p + 28) <= 128)
  end.
Proof.
  intros B Hp. unfold client_record, cr_name_length, u32. rewrite unp_zdrop by lia.
  destruct (Z.lt_ge_cases (zlen area) (p + 32)) as [L|L].
  - rewrite (unp_short 4 area (p + 28)) by lia. cbn [bind]. split; auto. lia.
  - rewrite unp_ok by lia. cbn [bind]. destruct (Z.ltb_spec 128 (fld 4 area (p + 28))); split; auto; lia.
Qed.

Lemma clients_loop_spec area cao : bytes_ok area -> 0 <= cao -> forall n i, 0 <= i ->
  match clients_loop n area cao i with
  | (cs, Done) =>
    (forall j, i <= j < i + Z.of_nat n -> cao + 160 * j + 32 <= zlen area /\ fld 4 area (cao + 160 * j + 28) <= 128) /\
    exists l, client_lsns cs = Ok l /\
      forall x, In x l <-> exists j, i <= j < i + Z.of_nat n /\
        (x = fld 8 area (cao + 160 * j) \/ x = fld 8 area (cao + 160 * j + 8))
  | (cs, Raised e) => (e = StructError \/ e = ClientRecordException) /\ (exists l, client_lsns cs = Ok l) /\
    ~ forall j, i <= j < i + Z.of_nat n -> cao + 160 * j + 32 <= zlen area /\ fld 4 area (cao + 160 * j + 28) <= 128
  end.
Proof.
  intros B Hc. induction n as [|n IH]; intros i Hi; cbn [clients_loop].
  - split; [lia|]. exists []. split; auto. intro x. split; [intros []|]. intros (j & Hj & _). lia.
  - pose proof (client_record_spec area (i * 160 + cao) B ltac:(lia)) as H.
    replace (i * 160 + cao) with (cao + 160 * i) in * by lia.
    destruct (client_record (zdrop (cao + 160 * i) area)) as [c|e].
    2:{ destruct H as [H1 H2]. split; auto. split; [exists []; auto|]. intro F. apply H2. apply F. lia. }
    destruct H as (-> & L1 & L2). specialize (IH (i + 1) ltac:(lia)).
    assert (EL : forall l cs, client_lsns cs = Ok l -> client_lsns (zdrop (cao + 160 * i) area :: cs) =
      Ok (fld 8 area (cao + 160 * i) :: fld 8 area (cao + 160 * i + 8) :: l)).
    { intros l cs E. cbn [client_lsns]. unfold cr_oldest_lsn, cr_restart_lsn, u64.
      rewrite !unp_zdrop by lia. rewrite Z.add_0_r. rewrite !unp_ok by lia. cbn [bind]. rewrite E. reflexivity. }
    destruct (clients_loop n area cao (i + 1)) as [cs [|e]]; cbn [gcons].
    + destruct IH as (F & l & E & HI). split.
      { intros j Hj. destruct (Z.eq_dec j i) as [->|N]; [auto|]. apply F. lia. }
      exists (fld 8 area (cao + 160 * i) :: fld 8 area (cao + 160 * i + 8) :: l). split; [apply EL; auto|].
      intro x. cbn [In]. rewrite HI. split.
      * intros [<-|[<-|(j & Hj & Hx)]]; [exists i; split; auto; lia|exists i; split; auto; lia|exists j; split; auto; lia].
      * intros (j & Hj & Hx). destruct (Z.eq_dec j i) as [->|N]; [intuition|]. right. right. exists j. split; auto. lia.
    + destruct IH as (HE & (l & E) & F). split; auto. split; [eauto|]. intro F'. apply F. intros j Hj. apply F'. lia.
Qed.

Lemma restart_lsns_spec buf : bytes_ok buf -> 28 <= zlen buf ->
  match restart_lsns (Some buf) with
  | Ok l => restart_readable buf /\ forall x, In x l <-> restart_page_lsn buf x
  | Err e => (e = StructError \/ e = RestartAreaException \/ e = ClientRecordException) /\ ~ restart_readable buf
  end.
Proof.
  intros B L. cbn [restart_lsns]. unfold rp_chkdsk_lsn. destruct (u64_at buf 8 B ltac:(lia) ltac:(lia)) as [-> _].
  cbn [bind]. pose proof (page_area_spec buf B L) as H.
  destruct (page_area buf) as [area|e]; cbn [bind].
  2:{ destruct H as [H1 H2]. split; [tauto|]. intros (area & A & _). exact (H2 _ A). }
  pose proof H as (EA & LA & H22 & _). assert (BA : bytes_ok area) by (rewrite EA; apply bytes_ok_zdrop; auto).
  unfold ra_current_lsn. destruct (u64_at area 0 BA ltac:(lia) ltac:(lia)) as [-> _]. cbn [bind].
  unfold clients, ra_clients, ra_array_offset.
  destruct (u16_at area 8 BA ltac:(lia) ltac:(lia)) as [-> B8].
  destruct (u16_at area 22 BA ltac:(lia) ltac:(lia)) as [-> B22].
  pose proof (clients_loop_spec area (fld 2 area 22) BA ltac:(lia) (Z.to_nat (fld 2 area 8)) 0 ltac:(lia)) as C.
  rewrite Z2Nat.id in C by lia.
  destruct (clients_loop _ _ _ _) as [cs [|e]].
  - destruct C as (F & l & -> & HI). cbn [bind]. split.
    + exists area. split; auto.
    + intro x. unfold restart_page_lsn. rewrite <- EA. cbn [In]. rewrite HI. cbn. intuition.
  - destruct C as (HE & (l & ->) & F). cbn [bind]. split; [tauto|]. intros (area' & A & F'). apply F.
    destruct A as (EA' & _). rewrite <- EA in EA'. subst area'. exact F'.
Qed.

Lemma pages_loop_spec lf data : lf_ok lf -> bytes_ok data -> forall n i, 0 <= i ->
  exists ps, pages_loop lf data n i = (ps, Done) /\
    (forall p, In p ps -> exists k, i <= k < i + Z.of_nat n /\ page_shows lf data k p) /\
    (forall k buf e, i <= k < i + Z.of_nat n -> log_page_at lf data k buf e ->
       exists p, In p ps /\ lp_buf p = buf /\ page_shows lf data k p).
Proof.
  intros K B. induction n as [|n IH]; intros i Hi; cbn [pages_loop].
  - exists []. split; auto. split; [intros p []|]. lia.
  - destruct (IH (i + 1) ltac:(lia)) as (ps & E & F1 & F2).
    pose proof (page_by_number_spec lf data i K B Hi) as P.
    destruct (page_by_number lf data i) as [[p|]|x]; [| |contradiction]; rewrite E; cbn [gcons].
    + exists (p :: ps). split; auto. split.
      * intros q [<-|Hq]; [exists i; split; auto; lia|]. destruct (F1 q Hq) as (k & Hk & S). exists k. split; auto. lia.
      * intros k buf e Hk L. destruct (Z.eq_dec k i) as [->|N].
        -- exists p. split; [now left|]. split; auto. destruct P as (P & _).
           destruct (log_page_at_fun _ _ _ _ _ _ _ P L). auto.
        -- destruct (F2 k buf e ltac:(lia) L) as (q & Hq & S). exists q. split; [now right|auto].
    + exists ps. split; auto. split.
      * intros q Hq. destruct (F1 q Hq) as (k & Hk & S). exists k. split; auto. lia.
      * intros k buf e Hk L. destruct (Z.eq_dec k i) as [->|N]; [destruct (P _ _ L)|].
        apply (F2 k buf e ltac:(lia) L).
Qed.

Lemma page_lsns_spec ps : Forall (fun p => 40 <= zlen (lp_buf p)) ps ->
  exists l, page_lsns ps = Ok l /\
    forall x, In x l <-> exists p, In p ps /\ (x = fld 8 (lp_buf p) 8 \/ x = fld 8 (lp_buf p) 32).
Proof.
  induction 1 as [|p ps L _ (l & E & H)]; cbn [page_lsns].
  - exists []. split; auto. intro x. split; [intros []|]. intros (p & [] & _).
  - unfold lp_last_lsn, lp_last_end_lsn, u64. rewrite !unp_ok by lia. cbn [bind]. rewrite E. cbn [bind].
    eexists. split; [reflexivity|]. intro x. cbn [In]. rewrite H. split.
    + intros [<-|[<-|(q & Hq & S)]]; [exists p; auto|exists p; auto|exists q; auto].
    + intros (q & [<-|Hq] & S); [intuition|]. right. right. eauto.
Qed.

(** The restart pages the parser keeps. *)
Definition pages_kept (lf : log_file) : Prop :=
  forall buf, lf_rp1 lf = Some buf \/ lf_rp2 lf = Some buf -> bytes_ok buf /\ 28 <= zlen buf.

Definition restarts_readable (lf : log_file) : Prop :=
  forall buf, lf_rp1 lf = Some buf \/ lf_rp2 lf = Some buf -> restart_readable buf.

Lemma opened_kept data lf : bytes_ok data -> opened data lf -> pages_kept lf.
Proof.
  intros B (_ & _ & S1 & S2 & _) buf [E|E]; rewrite E in *; cbn in S1, S2.
  - destruct (restart_ok_facts _ _ (bytes_ok_slice _ _ _ B) S1) as (? & ? & ?). split; auto. lia.
  - destruct (restart_ok_facts _ _ (bytes_ok_slice _ _ _ B) S2) as (? & ? & ?). split; auto. lia.
Qed.

Lemma first_lsns_spec lf data : lf_ok lf -> bytes_ok data -> pages_kept lf ->
  match first_lsns lf data with
  | Ok s => restarts_readable lf /\ NoDup s /\ forall x, In x s <-> start_lsn lf data x
  | Err e => (e = StructError \/ e = RestartAreaException \/ e = ClientRecordException) /\ ~ restarts_readable lf
  end.
Proof.
  intros K B PK. unfold first_lsns.
  assert (H : forall rp, (forall buf, rp = Some buf -> bytes_ok buf /\ 28 <= zlen buf) ->
    match restart_lsns rp with
    | Ok l => (forall buf, rp = Some buf -> restart_readable buf) /\
              forall x, In x l <-> exists buf, rp = Some buf /\ restart_page_lsn buf x
    | Err e => (e = StructError \/ e = RestartAreaException \/ e = ClientRecordException) /\
               exists buf, rp = Some buf /\ ~ restart_readable buf
    end).
  { intros [buf|] HB.
    - destruct (HB buf eq_refl) as [B' L']. pose proof (restart_lsns_spec buf B' L') as H.
      destruct (restart_lsns (Some buf)) as [l|e].
      + destruct H as [H1 H2]. split; [intros b E; injection E as <-; auto|]. intro x. rewrite H2. split; [eauto|].
        intros (b & E & Hx). injection E as <-. auto.
      + destruct H as [H1 H2]. split; eauto.
    - cbn. split; [discriminate|]. intro x. split; [intros []|]. intros (b & E & _). discriminate. }
  pose proof (H (lf_rp1 lf) ltac:(intros; apply PK; auto)) as H1.
  pose proof (H (lf_rp2 lf) ltac:(intros; apply PK; auto)) as H2. clear H.
  destruct (restart_lsns (lf_rp1 lf)) as [l1|e]; cbn [bind].
  2:{ destruct H1 as (HE & buf & EB & HR). split; [auto|]. intro F. apply HR, F. auto. }
  destruct (restart_lsns (lf_rp2 lf)) as [l2|e]; cbn [bind].
  2:{ destruct H2 as (HE & buf & EB & HR). split; [auto|]. intro F. apply HR, F. auto. }
  unfold pages_from. destruct (pages_loop_spec lf data K B (Z.to_nat (lf_size lf / lf_psize lf - 2)) 2 ltac:(lia)) as (ps & -> & P1 & P2).
  assert (FL : Forall (fun p => 40 <= zlen (lp_buf p)) ps).
  { apply Forall_forall. intros p Hp. destruct (P1 p Hp) as (k & _ & (L & _)).
    destruct (log_page_facts _ _ _ _ _ B L) as (_ & -> & _). lia. }
  destruct (page_lsns_spec ps FL) as (l3 & -> & HI). cbn [bind].
  destruct H1 as [R1 I1], H2 as [R2 I2]. split; [intros buf [E|E]; auto|].
  split; [apply set_adds_NoDup; constructor|]. intro x. rewrite set_adds_In, !in_app_iff, I1, I2, HI.
  pose proof K as (Ep & _). unfold start_lsn, page_lsn. rewrite Ep in *. split.
  - intros [[(buf & E & X)|[(buf & E & X)|(p & Hp & X)]]|[]]; [left; eauto|left; eauto|right].
    destruct (P1 p Hp) as (k & Hk & (L & _)). exists k, (lp_buf p), (lp_end p). split; [lia|]. auto.
  - intros [(buf & [E|E] & X)|(n & buf & e & Hn & L & X)]; [left; left; eauto|left; right; left; eauto|].
    left. right. right. destruct (P2 n buf e ltac:(lia) L) as (p & Hp & <- & _). eauto.
Qed.

(** ** Validation *)

Lemma locate_valid lf data x : lf_ok lf -> bytes_ok data ->
  match locate lf data x with
  | Ok (Some h) => lh_this_lsn h = Ok (fld 8 h 0) /\ lh_previous_lsn h = Ok (fld 8 h 8) /\
      lh_undo_lsn h = Ok (fld 8 h 16) /\ (valid_lsn lf data x <-> x = fld 8 h 0) /\
      forall y, points_to lf data x y <-> (y = fld 8 h 8 \/ y = fld 8 h 16)
  | Ok None => ~ valid_lsn lf data x /\ forall y, ~ points_to lf data x y
  | Err _ => False
  end.
Proof.
  intros K B. pose proof (locate_spec lf data x K B) as L. destruct (locate lf data x) as [[h|]|e]; auto.
  - destruct L as (n & off & P & N & R). destruct (header_fields _ _ _ _ _ K B R) as (E1 & E2 & E3 & _).
    do 3 (split; [auto|]). split.
    + split.
      * intros (n' & off' & h' & P' & _ & R' & E). destruct (lsn_pos_fun _ _ _ _ _ _ P P') as [<- <-].
        rewrite (record_at_fun _ _ _ _ _ _ R R'). auto.
      * intros ->. exists n, off, h. auto.
    + intro y. split.
      * intros (n' & off' & h' & P' & _ & R' & E). destruct (lsn_pos_fun _ _ _ _ _ _ P P') as [<- <-].
        rewrite (record_at_fun _ _ _ _ _ _ R R'). auto.
      * intros E. exists n, off, h. auto.
  - split.
    + intros (n & off & h & P & N & R & _). exact (L _ _ _ P N R).
    + intros y (n & off & h & P & N & R & _). exact (L _ _ _ P N R).
Qed.

Lemma validate_first_spec lf data : lf_ok lf -> bytes_ok data -> forall l s new,
  exists s' new', validate_first lf data l s new = Ok (s', new') /\
    (NoDup s -> NoDup s') /\ (NoDup new -> NoDup new') /\
    (forall x, In x s' <-> In x s /\ (In x l -> valid_lsn lf data x)) /\
    (forall y, In y new' <-> In y new \/ exists x, In x l /\ points_to lf data x y).
Proof.
  intros K B. induction l as [|a l IH]; intros s new; cbn [validate_first].
  - exists s, new. split; auto. do 2 (split; [auto|]). cbn. split; [intuition|]. intro y. split; [auto|].
    intros [|(x & [] & _)]; auto.
  - pose proof (locate_valid lf data a K B) as L. destruct (locate lf data a) as [[h|]|e]; cbn [bind]; [| |contradiction].
    + destruct L as (-> & -> & -> & V & PT). cbn [bind].
      destruct (IH (if negb (a =? fld 8 h 0) then set_remove a s else s)
                   (set_add (fld 8 h 16) (set_add (fld 8 h 8) new))) as (s' & new' & E & N1 & N2 & I1 & I2).
      exists s', new'. split; [exact E|]. split.
      { intro N. apply N1. destruct (negb _); auto. apply set_remove_NoDup, N. }
      split; [intro N; apply N2; do 2 apply set_add_NoDup; auto|]. split.
      * intro x. rewrite I1. cbn [In]. destruct (Z.eqb_spec a (fld 8 h 0)) as [E0|E0]; cbn [negb].
        -- split; [|intuition]. intros [H1 H2]. split; auto. intros [<-|H3]; [apply V; auto|auto].
        -- rewrite set_remove_In. split.
           ++ intros [[H1 H2] H3]. split; auto. intros [<-|H4]; [congruence|auto].
           ++ intros [H1 H2]. split; [split; auto|auto]. intros ->. apply E0. apply V. auto.
      * intro y. rewrite I2, !set_add_In. split.
        -- intros [[->|[->|H]]|(x & Hx & P)]; [right|right|auto|right].
           ++ exists a. split; [now left|]. apply PT. auto.
           ++ exists a. split; [now left|]. apply PT. auto.
           ++ exists x. split; [now right|auto].
        -- intros [H|(x & [<-|Hx] & P)]; [auto| |eauto]. apply PT in P. destruct P; auto.
    + destruct L as [NV NP].
      destruct (IH (set_remove a s) new) as (s' & new' & E & N1 & N2 & I1 & I2).
      exists s', new'. split; [exact E|]. split; [intro N; apply N1, set_remove_NoDup, N|]. split; auto. split.
      * intro x. rewrite I1, set_remove_In. cbn [In]. split.
        -- intros [[H1 H2] H3]. split; auto. intros [<-|H4]; [congruence|auto].
        -- intros [H1 H2]. split; [split; auto|auto]. intros ->. apply NV. auto.
      * intro y. rewrite I2. split; [|].
        -- intros [H|(x & Hx & P)]; [auto|]. right. exists x. split; [now right|auto].
        -- intros [H|(x & [<-|Hx] & P)]; [auto|destruct (NP _ P)|eauto].
Qed.

Lemma validate_new_spec lf data : lf_ok lf -> bytes_ok data -> forall l new,
  exists new', validate_new lf data l new = Ok new' /\ (NoDup new -> NoDup new') /\
    (forall x, In x new' <-> In x new /\ (In x l -> valid_lsn lf data x)).
Proof.
  intros K B. induction l as [|a l IH]; intros new; cbn [validate_new].
  - exists new. split; auto. split; [auto|]. cbn. intuition.
  - pose proof (locate_valid lf data a K B) as L. destruct (locate lf data a) as [[h|]|e]; cbn [bind]; [| |contradiction].
    + destruct L as (-> & _ & _ & V & _). cbn [bind].
      destruct (IH (if negb (a =? fld 8 h 0) then set_remove a new else new)) as (new' & E & N1 & I1).
      exists new'. split; [exact E|]. split.
      { intro N. apply N1. destruct (negb _); auto. apply set_remove_NoDup, N. }
      intro x. rewrite I1. cbn [In]. destruct (Z.eqb_spec a (fld 8 h 0)) as [E0|E0]; cbn [negb].
      * split; [|intuition]. intros [H1 H2]. split; auto. intros [<-|H3]; [apply V; auto|auto].
      * rewrite set_remove_In. split.
        -- intros [[H1 H2] H3]. split; auto. intros [<-|H4]; [congruence|auto].
        -- intros [H1 H2]. split; [split; auto|auto]. intros ->. apply E0. apply V. auto.
    + destruct L as [NV _]. destruct (IH (set_remove a new)) as (new' & E & N1 & I1).
      exists new'. split; [exact E|]. split; [intro N; apply N1, set_remove_NoDup, N|].
      intro x. rewrite I1, set_remove_In. cbn [In]. split.
      * intros [[H1 H2] H3]. split; auto. intros [<-|H4]; [congruence|auto].
      * intros [H1 H2]. split; [split; auto|auto]. intros ->. apply NV. auto.
Qed.

(** ** Restart areas *)

Lemma valid_data lf data cluster x : lf_ok lf -> bytes_ok data -> valid_lsn lf data x ->
  exists n off h out, lsn_pos lf x n off /\ record_at lf data n off h /\ record_data lf data n off h out /\
    get_client_data lf data cluster x =
      Ok {| cd_buf := out; cd_type := fld 4 h 32; cd_lsn := x; cd_tid := fld 4 h 36; cd_cluster := cluster |}.
Proof.
  intros K B (n & off & h & P & N & R & E).
  destruct (get_client_data_ok lf data K B cluster x n off h P R) as (out & RD & G). exists n, off, h, out. auto.
Qed.

Lemma restart_areas_spec lf data : lf_ok lf -> bytes_ok data -> forall l c new, Forall (valid_lsn lf data) l ->
  exists c' new', restart_areas lf data l c new = Ok (c', new') /\ (NoDup new -> NoDup new') /\
    (forall y, In y new' <-> In y new \/ exists x, In x l /\ restart_area_names lf data x y).
Proof.
  intros K B. induction l as [|a l IH]; intros c new FA; cbn [restart_areas].
  - exists c, new. split; auto. split; auto. intro y. split; [auto|]. intros [|(x & [] & _)]; auto.
  - inversion FA as [|? ? Va FA']; subst.
    destruct (valid_data lf data (cf_cluster c) a K B Va) as (n & off & h & out & P & R & RD & ->). cbn [bind cd_type cd_buf].
    assert (NM : forall y, restart_area_names lf data a y -> fld 4 h 32 = 2 /\ 64 <= zlen out /\
      In y [fld 8 out 8; fld 8 out 16; fld 8 out 24; fld 8 out 32; fld 8 out 40]).
    { intros y (n' & off' & h' & out' & P' & R' & T & RD' & S). destruct (lsn_pos_fun _ _ _ _ _ _ P P') as [<- <-].
      pose proof (record_at_fun _ _ _ _ _ _ R R') as <-. rewrite (record_data_fun lf data _ _ _ _ _ RD RD'). auto. }
    assert (SKIP : ~ (fld 4 h 32 = 2 /\ 64 <= zlen out) ->
      exists c' new', restart_areas lf data l c new = Ok (c', new') /\ (NoDup new -> NoDup new') /\
        (forall y, In y new' <-> In y new \/ exists x, In x (a :: l) /\ restart_area_names lf data x y)).
    { intro NO. destruct (IH c new FA') as (c' & new' & E & N & I). exists c', new'. split; [exact E|]. split; auto.
      intro y. rewrite I. split.
      - intros [H|(x & Hx & RN)]; [auto|]. right. exists x. split; [now right|auto].
      - intros [H|(x & [<-|Hx] & RN)]; [auto| |eauto]. apply NM in RN. tauto. }
    unfold LfsClientRestart. destruct (Z.eqb_spec (fld 4 h 32) 2) as [ET|ET]; cbn [negb]; [|apply SKIP; tauto].
    unfold ntfs_restart_area. destruct (Z.ltb_spec (zlen out) 64) as [EL|EL]; [apply SKIP; lia|].
    assert (EC : exists cs, na_cluster_size out = Ok cs).
    { unfold na_cluster_size, u32. destruct (Z.leb_spec 84 (zlen out)); [rewrite unp_ok by lia; cbn; eauto|eauto]. }
    destruct EC as (cs & ->). cbn [bind].
    unfold na_major, na_checkpoint_lsn, na_oat_lsn, na_names_lsn, na_dirty_lsn, na_trans_lsn, u32, u64.
    rewrite !unp_ok by lia. cbn [bind].
    edestruct IH as (c' & new' & E & N & I); [exact FA'|]. exists c', new'. split; [exact E|].
    split; [intro N0; apply N, set_adds_NoDup, N0|]. intro y. rewrite I, set_adds_In. split.
    + intros [[H|H]|(x & Hx & RN)]; [right|auto|right].
      * exists a. split; [now left|]. exists n, off, h, out. auto 10.
      * exists x. split; [now right|auto].
    + intros [H|(x & [<-|Hx] & RN)]; [auto| |eauto]. apply NM in RN. tauto.
Qed.

Lemma add_restart_spec lf data : lf_ok lf -> bytes_ok data -> forall l s,
  exists t, add_restart lf data l s = Ok (s ++ t) /\ (NoDup s -> NoDup (s ++ t)) /\
    (addressable lf data -> Forall (valid_lsn lf data) t) /\ Forall (present lf data) t /\
    (forall x, In x l -> valid_lsn lf data x -> In x (s ++ t)).
Proof.
  intros K B. induction l as [|a l IH]; intros s; cbn [add_restart].
  - exists []. rewrite app_nil_r. split; auto. split; auto. split; [constructor|]. split; [constructor|]. intros x [].
  - pose proof (locate_valid lf data a K B) as L. destruct (locate lf data a) as [[h|]|e]; cbn [bind]; [| |contradiction].
    2:{ destruct L as [NV _]. destruct (IH s) as (t & E & N & F & F' & I). exists t. split; auto. do 3 (split; [auto|]).
        intros x [<-|Hx] V; [contradiction|auto]. }
    destruct L as (-> & _ & _ & V & _). cbn [bind].
    destruct (Z.eqb_spec a (fld 8 h 0)) as [E0|E0]; cbn [negb].
    2:{ destruct (IH s) as (t & E & N & F & F' & I). exists t. split; auto. do 3 (split; [auto|]).
        intros x [<-|Hx] Vx; [apply V in Vx; contradiction|auto]. }
    destruct (walk_spec lf data K B (find_next lf data a) a (set_add a s) (find_next_good lf data a K B)) as (t1 & -> & T1).
    cbn [bind].
    destruct (walk_spec lf data K B (find_previous lf data) a (set_add a s ++ t1) (find_previous_good lf data K B)) as (t2 & -> & T2).
    cbn [bind].
    destruct (walk_spec lf data K B (find_undo lf data) a ((set_add a s ++ t1) ++ t2) (find_undo_good lf data K B)) as (t3 & -> & T3).
    cbn [bind]. destruct (IH (((set_add a s ++ t1) ++ t2) ++ t3)) as (t4 & E & N & F & F' & I).
    assert (ES : exists t0, set_add a s = s ++ t0 /\ Forall (valid_lsn lf data) t0).
    { unfold set_add. destruct (zin a s); [exists []; rewrite app_nil_r; auto|]. exists [a]. split; auto.
      constructor; [apply V; auto|constructor]. }
    destruct ES as (t0 & ES & F0).
    exists (t0 ++ t1 ++ t2 ++ t3 ++ t4). rewrite E.
    assert (AP : (((set_add a s ++ t1) ++ t2) ++ t3) ++ t4 = s ++ t0 ++ t1 ++ t2 ++ t3 ++ t4).
    { rewrite ES, !app_assoc. reflexivity. }
    rewrite <- AP. split; [reflexivity|]. split.
    { intro ND. apply N. eapply trail_NoDup; [exact T3|]. eapply trail_NoDup; [exact T2|]. eapply trail_NoDup; [exact T1|].
      apply set_add_NoDup, ND. }
    assert (VP : forall x y, find_previous lf data x = Ok (Some y) -> valid_lsn lf data y).
    { intros x y Hx. destruct (find_previous_spec lf data K B x) as (r & Er & Hr). rewrite Hx in Er. injection Er as <-.
      apply (linked_valid lf data 8 x). apply Hr. reflexivity. }
    assert (VU : forall x y, find_undo lf data x = Ok (Some y) -> valid_lsn lf data y).
    { intros x y Hx. destruct (find_undo_spec lf data K B x) as (r & Er & Hr). rewrite Hx in Er. injection Er as <-.
      apply (linked_valid lf data 16 x). apply Hr. reflexivity. }
    assert (FP : Forall (valid_lsn lf data) t2 /\ Forall (valid_lsn lf data) t3).
    { split; [exact (trail_forall _ _ VP _ _ _ T2)|exact (trail_forall _ _ VU _ _ _ T3)]. }
    destruct FP as [F2 F3]. split.
    { intro AD. rewrite !Forall_app. split; [auto|]. split; [|auto].
      eapply trail_forall; [|exact T1]. intros c y. apply find_next_valid; auto. }
    split.
    { rewrite !Forall_app.
      assert (VV : forall m, Forall (valid_lsn lf data) m -> Forall (present lf data) m).
      { intros m. apply Forall_impl. intro. apply valid_present; auto. }
      split; [auto|]. split.
      - eapply trail_forall; [|exact T1]. intros c y Hy. destruct (find_next_good lf data a K B c) as (r & Er & Hr).
        rewrite Hy in Er. injection Er as <-. auto.
      - auto. }
    intros x [<-|Hx] Vx; [|apply I; auto]. rewrite AP, app_assoc. apply in_app_iff. left.
    rewrite <- ES. apply set_add_In. auto.
Qed.

(** ** The record that follows another *)

Lemma ends_at_closed lf : 8 <= lf_doff lf < 4096 -> forall n off len n' o', ends_at lf n off len n' o' ->
  0 <= off < 4096 -> 0 < len ->
  let body := 4096 - lf_doff lf in
  let left := len - (4096 - off) in
  (left <= 0 /\ n' = n /\ o' = off + len) \/
  (0 < left /\ left mod body <> 0 /\ n' = n + 1 + left / body /\ o' = lf_doff lf + left mod body) \/
  (0 < left /\ left mod body = 0 /\ n' + 1 = n + 1 + left / body /\ o' = 4096).
Proof.
  intros D. induction 1 as [n off len H|n off len n' o' H E IH]; intros Ho Hl; cbv zeta.
  - left. lia.
  - right. specialize (IH ltac:(lia) ltac:(lia)). cbv zeta in IH. set (body := 4096 - lf_doff lf) in *.
    set (left := len - (4096 - off)) in *. assert (B0 : 0 < body) by lia. assert (L0 : 0 < left) by lia.
    clearbody left.
    assert (DM : body < left -> left / body = 1 + (left - body) / body /\ left mod body = (left - body) mod body).
    { intro H1. replace left with ((left - body) + 1 * body) at 1 3 by lia.
      rewrite Z.div_add, Z.mod_add by lia. lia. }
    destruct IH as [(I1 & I2 & I3)|[(I1 & I2 & I3 & I4)|(I1 & I2 & I3 & I4)]].
    + destruct (Z.eq_dec left body) as [->|N].
      * right. rewrite Z.mod_same, Z.div_same by lia. lia.
      * left. rewrite Z.div_small, Z.mod_small by lia. lia.
    + left. destruct (DM ltac:(lia)) as [-> ->]. lia.
    + right. destruct (DM ltac:(lia)) as [-> ->]. lia.
Qed.

Lemma lsn_eq lf x n off : lf_ok lf -> lsn_pos lf x n off -> x = offset_to_lsn lf n off (lsn_seq lf x).
Proof.
  intros K P. rewrite <- (lsn_round_trip lf x K) at 1. rewrite (proj2 (lsn_to_offset_iff lf x n off K) P). cbn [fst snd].
  rewrite lsn_to_seqnum_spec by auto. reflexivity.
Qed.

Lemma follows_next lf data s x y : lf_ok lf -> bytes_ok data -> addressable lf data ->
  lsn_seq lf s = lsn_seq lf x -> follows lf data x y -> find_next lf data s x = Ok (Some y).
Proof.
  intros K B AD ES (n & off & h & n' & o' & P & N & R & D1 & D2 & E & SZ & V & EQ & Y).
  destruct (find_next_spec lf data s x K B) as (r & -> & H). f_equal.
  pose proof (locate_spec lf data x K B) as L. destruct (locate lf data x) as [[h'|]|e]; [| |contradiction].
  2:{ destruct (L _ _ _ P N R). }
  destruct L as (n1 & off1 & P1 & _ & R1). destruct (lsn_pos_fun _ _ _ _ _ _ P P1) as [<- <-].
  rewrite (record_at_fun _ _ _ _ _ _ R1 R) in H. clear P1 R1 h'.
  replace ((8 <=? fld 4 h 24) && (fld 4 h 24 mod 8 =? 0)) with true in H by lia.
  destruct H as (n1 & off1 & P1 & _ & _ & F). destruct (lsn_pos_fun _ _ _ _ _ _ P P1) as [<- <-]. clear P1.
  pose proof (record_at_facts _ _ _ _ _ K B R) as (_ & _ & Hn & Hd & Hd8 & Hh8 & Hoh & Hsz).
  pose proof (lsn_pos_bounds _ _ _ _ K P) as (_ & Ho & A & _).
  pose proof K as (_ & Eh & _).
  pose proof (ends_at_closed lf ltac:(lia) _ _ _ _ _ E ltac:(lia) ltac:(lia)) as C. cbv zeta in C.
  rewrite ES in F. set (q := lsn_seq lf x) in *. set (dl := fld 4 h 24) in *.
  replace (lf_hl lf + dl - (4096 - off)) with (dl - (4096 - off - lf_hl lf)) in C by lia.
  assert (HY : forall m o, lsn_pos lf y m o -> holds lf data m o y /\ y = offset_to_lsn lf m o q).
  { intros m o PY. split; [|rewrite <- EQ; apply lsn_eq; auto]. pose proof (lsn_pos_bounds _ _ _ _ K PY).
    destruct V as (m' & o'' & h'' & P'' & _ & R'' & E''). destruct (lsn_pos_fun _ _ _ _ _ _ PY P'') as [<- <-].
    exists h''. auto. }
  assert (FH : forall m o t, lsn_pos lf y m o -> first_place lf data ((m, o, q) :: t) r -> r = Some y).
  { intros m o t PY FP. destruct (HY m o PY) as [HO EY]. rewrite EY in HO |- *.
    inversion FP as [|? ? ? ? HH|? ? ? ? ? HH]; [reflexivity|contradiction]. }
  (* nothing at the first place *)
  assert (NH : forall m o, 1 <= m -> 0 <= o -> o mod 8 = 0 ->
      (forall z, lsn_pos lf z m o -> lsn_seq lf z = q -> ~ valid_lsn lf data z) ->
      ~ holds lf data m o (offset_to_lsn lf m o q)).
  { intros m o Hm Ho0 Ho8 F0 (hh & RR & EE). pose proof (record_at_facts _ _ _ _ _ K B RR) as (_ & _ & _ & _ & _ & _ & HH & HD).
    unfold addressable in AD. destruct (offset_to_lsn_pos lf m o q K) as [PZ SQ]; try lia.
    apply (F0 _ PZ SQ). exists m, o, hh. split; auto. split; [lia|auto]. }
  assert (H4096 : forall m l, ~ holds lf data m 4096 l).
  { intros m l (hh & RR & _). pose proof (record_at_facts _ _ _ _ _ K B RR). lia. }
  unfold next_places in F. cbv zeta in F.
  destruct (Z.leb_spec dl (4096 - off - lf_hl lf)) as [EL|EL].
  - destruct C as [(_ & -> & ->)|[C|C]]; [|lia|lia].
    replace (lf_size lf <=? (n + 1) * 4096) with false in F by lia.
    rewrite Z.add_assoc in Y.
    destruct Y as [Y|[Y F0]]; [eapply FH; eauto|].
    inversion F as [|? ? ? ? HH|? ? ? ? ? HH F2]; subst.
    + exfalso. revert HH. apply NH; auto; lia.
    + eapply FH; eauto.
  - set (left := dl - (4096 - off - lf_hl lf)) in *. set (body := 4096 - lf_doff lf) in *.
    destruct C as [C|[(C0 & C1 & C2 & C3)|(C0 & C1 & C2 & C3)]]; [lia| |].
    + rewrite <- C2, <- C3 in F. replace (lf_size lf <=? n' * 4096) with false in F by lia.
      destruct Y as [Y|[Y F0]]; [eapply FH; eauto|].
      inversion F as [|? ? ? ? HH|? ? ? ? ? HH F2]; subst r.
      * exfalso. revert HH. pose proof (Z.div_pos left body ltac:(lia) ltac:(lia)).
        assert (M8 : o' mod 8 = 0).
        { rewrite C3. rewrite (Z.mod_eq left) by lia.
          assert (exists k, body = 8 * k) as [k Ek] by (exists (body / 8); lia).
          rewrite Ek at 1. generalize (left / body). intro z.
          replace (lf_doff lf + (left - 8 * k * z)) with (lf_doff lf + left + (0 - k * z) * 8) by lia.
          rewrite Z.mod_add by lia. lia. }
        pose proof (Z.mod_pos_bound left body ltac:(lia)). apply NH; auto; lia.
      * eapply FH; eauto.
    + rewrite <- C2, C1 in F. replace (lf_size lf <=? (n' + 1) * 4096) with false in F by lia.
      rewrite Z.add_0_r in F. destruct Y as [Y|[Y F0]]; [|eapply FH; eauto].
      exfalso. subst o'. pose proof (lsn_pos_bounds _ _ _ _ K Y). lia.
Qed.

(** ** Everything together *)

Lemma walk_all_ext data f g : forall seeds s, (forall c, In c seeds -> forall x, f c x = g c x) ->
  walk_all data f seeds s = walk_all data g seeds s.
Proof.
  assert (W : forall f g, (forall x, f x = g x) -> forall n c s, walk n f c s = walk n g c s).
  { intros f0 g0 H. induction n as [|n IH]; intros c s; cbn [walk]; [reflexivity|]. rewrite H.
    destruct (g0 c) as [[y|]|e]; cbn [bind]; auto. destruct (zin y s); auto. }
  induction seeds as [|c seeds IH]; intros s H; cbn [walk_all]; [reflexivity|].
  rewrite (W (f c) (g c)) by (intro; apply H; now left).
  destruct (walk (walk_fuel data) (g c) c s); cbn [bind]; auto. apply IH. intros; apply H; now right.
Qed.

Lemma walk_all_incl data step : forall seeds s s', walk_all data step seeds s = Ok s' -> incl s s'.
Proof.
  assert (W : forall f n c s s', walk n f c s = Ok s' -> incl s s').
  { intros f. induction n as [|n IH]; intros c s s' E; cbn [walk] in E; [discriminate|].
    destruct (f c) as [[y|]|e]; cbn [bind] in E; [|injection E as <-; apply incl_refl|discriminate].
    destruct (zin y s); [injection E as <-; apply incl_refl|]. apply IH in E.
    eapply incl_tran; [|exact E]. apply incl_appl, incl_refl. }
  induction seeds as [|c seeds IH]; intros s s' E; cbn [walk_all] in E; [injection E as <-; apply incl_refl|].
  destruct (walk (walk_fuel data) (step c) c s) as [s1|e] eqn:E1; cbn [bind] in E; [|discriminate].
  eapply incl_tran; [eapply W; exact E1|]. eapply IH; exact E.
Qed.

Section Collect.
  Variable lf : log_file.
  Variable data : list Z.
  Variable ord : nat -> list Z -> list Z.
  Hypothesis K : lf_ok lf.
  Hypothesis B : bytes_ok data.
  Hypothesis PK : pages_kept lf.
  Hypothesis OP : forall k l, Permutation (ord k l) l.

  Lemma ord_In k l x : In x (ord k l) <-> In x l.
  Proof. split; apply Permutation_in; [apply OP|symmetry; apply OP]. Qed.

  Lemma collect_err c e : first_lsns lf data = Err e -> collect_lsns lf data ord c = Err e.
  Proof. intro E. unfold collect_lsns. rewrite E. reflexivity. Qed.

  Lemma collect_stages c : restarts_readable lf -> addressable lf data ->
    exists s2 s3 s4 s5 s6 c',
      collect_lsns lf data ord c = Ok (sort_by (fun x => x) s6, c') /\
      NoDup s6 /\ Forall (valid_lsn lf data) s6 /\
      (forall x, In x s2 <-> seed_lsn lf data x) /\
      walk_all data (find_next lf data) (ord 3%nat s2) s2 = Ok s3 /\
      walk_all data (fun _ => find_previous lf data) (ord 4%nat s3) s3 = Ok s4 /\
      walk_all data (fun _ => find_undo lf data) (ord 5%nat s4) s4 = Ok s5 /\
      incl s5 s6 /\
      (forall x y, In x s5 -> restart_area_names lf data x y -> valid_lsn lf data y -> In y s6).
  Proof.
    intros RR AD. unfold collect_lsns. pose proof (first_lsns_spec lf data K B PK) as F.
    destruct (first_lsns lf data) as [s0|e]; cbn [bind]; [|tauto]. destruct F as (_ & N0 & I0).
    destruct (validate_first_spec lf data K B (ord 0%nat s0) s0 []) as (s1 & new & -> & N1 & N2 & I1 & I2). cbn [bind].
    destruct (validate_new_spec lf data K B (ord 1%nat new) new) as (new' & -> & N3 & I3). cbn [bind].
    set (s2 := set_adds (ord 2%nat new') s1).
    assert (ND2 : NoDup s2) by (apply set_adds_NoDup; auto).
    assert (I : forall x, In x s2 <-> seed_lsn lf data x).
    { intro x. unfold s2, seed_lsn. rewrite set_adds_In, ord_In, I1, I3, ord_In, I2, ord_In, I0. split.
      - intros [[[[]|(z & Hz & P)] V]|[S V]].
        + apply ord_In in Hz. apply I0 in Hz. split; [|right; eauto]. apply V. right. exists z.
          split; auto. apply ord_In, I0, Hz.
        + auto.
      - intros [V [S|(z & Hz & P)]]; [auto|]. left. split; auto. right. exists z. split; auto. apply ord_In, I0, Hz. }
    assert (V2 : Forall (valid_lsn lf data) s2) by (apply Forall_forall; intros x Hx; apply I in Hx; apply Hx).
    clearbody s2.
    destruct (walk_all_spec lf data K B (find_next lf data) (fun c => find_next_good lf data c K B) (ord 3%nat s2) s2)
      as (t3 & E3 & ND3 & F3). rewrite E3. cbn [bind].
    destruct (walk_all_spec lf data K B (fun _ => find_previous lf data) (fun _ => find_previous_good lf data K B)
      (ord 4%nat (s2 ++ t3)) (s2 ++ t3)) as (t4 & E4 & ND4 & F4). rewrite E4. cbn [bind].
    destruct (walk_all_spec lf data K B (fun _ => find_undo lf data) (fun _ => find_undo_good lf data K B)
      (ord 5%nat ((s2 ++ t3) ++ t4)) ((s2 ++ t3) ++ t4)) as (t5 & E5 & ND5 & F5). rewrite E5. cbn [bind].
    assert (V5 : Forall (valid_lsn lf data) (((s2 ++ t3) ++ t4) ++ t5)).
    { rewrite !Forall_app. split; [split; [split; [auto|]|]|].
      - apply F3. intros a x y. apply find_next_valid; auto.
      - apply F4. intros _ x y Hx. destruct (find_previous_spec lf data K B x) as (r & Er & Hr).
        rewrite Hx in Er. injection Er as <-. apply (linked_valid lf data 8 x). apply Hr. reflexivity.
      - apply F5. intros _ x y Hx. destruct (find_undo_spec lf data K B x) as (r & Er & Hr).
        rewrite Hx in Er. injection Er as <-. apply (linked_valid lf data 16 x). apply Hr. reflexivity. }
    destruct (restart_areas_spec lf data K B (ord 6%nat (((s2 ++ t3) ++ t4) ++ t5)) c []) as (c' & new6 & -> & _ & I6).
    { eapply Permutation_Forall; [symmetry; apply OP|exact V5]. }
    cbn [bind].
    destruct (add_restart_spec lf data K B (ord 7%nat new6) (((s2 ++ t3) ++ t4) ++ t5)) as (t6 & -> & ND6 & F6 & _ & I7).
    cbn [bind]. exists s2, (s2 ++ t3), ((s2 ++ t3) ++ t4), (((s2 ++ t3) ++ t4) ++ t5), ((((s2 ++ t3) ++ t4) ++ t5) ++ t6), c'.
    split; [reflexivity|]. split; [auto 10|]. split; [apply Forall_app; auto|]. split; [exact I|].
    split; [exact E3|]. split; [exact E4|]. split; [exact E5|]. split; [apply incl_appl, incl_refl|].
    intros x y Hx RN V. apply I7; auto. apply ord_In. apply I6. right. exists x. split; [apply ord_In; auto|auto].
  Qed.

  Lemma closed_chain (step : Z -> result (option Z)) (R : Z -> Z -> Prop) s seeds s' :
    good_step lf data step -> (forall x y, R x y -> step x = Ok (Some y)) ->
    walk_all data (fun _ => step) seeds s = Ok s' -> incl s seeds ->
    forall x y, In x s -> chain R x y -> In y s'.
  Proof.
    intros G HR W I x y Hx CH. pose proof (walk_all_incl _ _ _ _ _ W) as SI.
    pose proof (walk_all_closed lf data K B step G seeds s s' W ltac:(intros; left; auto)) as CL.
    apply SI in Hx. clear SI W I. induction CH as [x|x y z Hxy CH IH]; auto. apply IH. eapply CL; eauto.
  Qed.

  (** Everything that can be reached from a seed, first forwards (as long as the
      log was written once), then by previous links, then by undo links. *)
  Lemma collect_complete c l c' : restarts_readable lf -> addressable lf data ->
    collect_lsns lf data ord c = Ok (l, c') ->
    forall s x y z, seed_lsn lf data s ->
      s = x \/ (exists q, one_pass lf data q /\ chain (follows lf data) s x) ->
      chain (links lf data 8) x y -> chain (links lf data 16) y z ->
      In z l /\ forall w, restart_area_names lf data z w -> valid_lsn lf data w -> In w l.
  Proof.
    intros RR AD E. destruct (collect_stages c RR AD) as (s2 & s3 & s4 & s5 & s6 & c2 & E' & _ & V6 & I2 & W3 & W4 & W5 & I56 & RA).
    rewrite E in E'. injection E' as -> ->.
    intros s x y z HS HX HY HZ.
    assert (IS : In s s2) by (apply I2; auto).
    assert (IX : In x s3).
    { destruct HX as [<-|(q & OP1 & CH)]; [eapply walk_all_incl; eauto|].
      assert (SQ : forall a, valid_lsn lf data a -> lsn_seq lf a = q) by exact OP1.
      assert (W3' : walk_all data (fun _ => find_next lf data s) (ord 3%nat s2) s2 = Ok s3).
      { rewrite <- W3. apply walk_all_ext. intros a Ha u. rewrite !find_next_eq by auto.
        apply ord_In, I2 in Ha. rewrite (SQ a (proj1 Ha)), (SQ s (proj1 HS)). reflexivity. }
      assert (AUX : forall a b, chain (follows lf data) a b -> valid_lsn lf data a ->
                chain (fun a b => follows lf data a b /\ valid_lsn lf data a) a b).
      { clear. induction 1 as [|a b d H1 H2 IH]; intro V; [apply chain_nil|]. eapply chain_cons; [split; eauto|].
        apply IH. destruct H1 as (? & ? & ? & ? & ? & _ & _ & _ & _ & _ & _ & _ & V' & _). exact V'. }
      refine (closed_chain (find_next lf data s) _ s2 _ s3 (find_next_good lf data s K B) _ W3' _ s x IS (AUX _ _ CH (proj1 HS))).
      - intros a b [FO Va]. apply follows_next; auto. rewrite (SQ a Va), (SQ s (proj1 HS)). reflexivity.
      - intros a Ha. apply ord_In. exact Ha. }
    assert (IY : In y s4).
    { refine (closed_chain (find_previous lf data) _ s3 _ s4 (find_previous_good lf data K B) _ W4 _ x y IX HY).
      - intros a b L. destruct (find_previous_spec lf data K B a) as (r & -> & Hr). apply Hr in L. subst r. reflexivity.
      - intros a Ha. apply ord_In. exact Ha. }
    assert (IZ : In z s5).
    { refine (closed_chain (find_undo lf data) _ s4 _ s5 (find_undo_good lf data K B) _ W5 _ y z IY HZ).
      - intros a b L. destruct (find_undo_spec lf data K B a) as (r & -> & Hr). apply Hr in L. subst r. reflexivity.
      - intros a Ha. apply ord_In. exact Ha. }
    split; [apply sort_by_In; auto|]. intros w RN V. apply sort_by_In. eapply RA; eauto.
  Qed.

  Lemma sorted_strict l : NoDup l -> StronglySorted Z.lt (sort_by (fun x => x) l).
  Proof.
    intro N. destruct (sort_by_stable (fun x : Z => x) l) as (P & S & _).
    assert (N' : NoDup (sort_by (fun x => x) l)) by (eapply Permutation_NoDup; eauto).
    revert S N'. generalize (sort_by (fun x : Z => x) l). clear. unfold sorted_by.
    induction l as [|a l IH]; intros S N; constructor.
    - inversion S; inversion N; subst. auto.
    - inversion S as [|? ? S1 S2]; inversion N as [|? ? N1 N2]; subst.
      rewrite Forall_forall in *. intros x Hx. specialize (S2 x Hx). cbn in S2.
      destruct (Z.eq_dec a x) as [->|]; [contradiction|lia].
  Qed.
End Collect.

(** Without the assumption on the size of the file, the methods still end. *)
Lemma get_client_data_any lf data cluster lsn : lf_ok lf -> bytes_ok data ->
  match get_client_data lf data cluster lsn with
  | Ok _ => True
  | Err e => e = AttributeError_py \/ e = LogFileException
  end.
Proof.
  intros K B. pose proof (lsn_to_offset_spec lf lsn K) as P.
  destruct (lsn_to_offset lf lsn) as [n off]. cbn [fst snd] in P.
  pose proof (lsn_pos_bounds _ _ _ _ K P) as (Hn & Ho & _).
  pose proof (fetch_spec lf data n off K B Hn ltac:(lia)) as F.
  destruct (fetch lf data n off) as [[h|]|x]; [| |contradiction].
  - destruct (get_client_data_ok lf data K B cluster lsn n off h P F) as (out & _ & ->). exact I.
  - destruct (get_client_data_err lf data K B cluster lsn n off P F) as (e & -> & H). exact H.
Qed.

Lemma restart_areas_any lf data : lf_ok lf -> bytes_ok data -> forall l c new,
  match restart_areas lf data l c new with
  | Ok _ => True
  | Err e => e = AttributeError_py \/ e = LogFileException
  end.
Proof.
  intros K B. induction l as [|a l IH]; intros c new; cbn [restart_areas]; [exact I|].
  pose proof (get_client_data_any lf data (cf_cluster c) a K B) as G.
  destruct (get_client_data lf data (cf_cluster c) a) as [cd|e]; cbn [bind]; [|exact G].
  destruct (negb _); [apply IH|]. unfold ntfs_restart_area.
  destruct (Z.ltb_spec (zlen (cd_buf cd)) 64) as [EL|EL]; [apply IH|].
  assert (EC : exists cs, na_cluster_size (cd_buf cd) = Ok cs).
  { unfold na_cluster_size, u32. destruct (Z.leb_spec 84 (zlen (cd_buf cd))); [rewrite unp_ok by lia; cbn; eauto|eauto]. }
  destruct EC as (cs & ->). cbn [bind].
  unfold na_major, na_checkpoint_lsn, na_oat_lsn, na_names_lsn, na_dirty_lsn, na_trans_lsn, u32, u64.
  rewrite !unp_ok by lia. cbn [bind]. apply IH.
Qed.

Lemma collect_any lf data ord c : lf_ok lf -> bytes_ok data -> pages_kept lf ->
  match collect_lsns lf data ord c with
  | Ok _ => True
  | Err e => e = AttributeError_py \/ e = LogFileException \/
      e = StructError \/ e = RestartAreaException \/ e = ClientRecordException
  end.
Proof.
  intros K B PK. unfold collect_lsns. pose proof (first_lsns_spec lf data K B PK) as F.
  destruct (first_lsns lf data) as [s0|e]; cbn [bind]; [|tauto].
  destruct (validate_first_spec lf data K B (ord 0%nat s0) s0 []) as (s1 & new & -> & _). cbn [bind].
  destruct (validate_new_spec lf data K B (ord 1%nat new) new) as (new' & -> & _). cbn [bind].
  set (s2 := set_adds (ord 2%nat new') s1).
  destruct (walk_all_spec lf data K B (find_next lf data) (fun c => find_next_good lf data c K B) (ord 3%nat s2) s2)
    as (t3 & -> & _). cbn [bind].
  destruct (walk_all_spec lf data K B (fun _ => find_previous lf data) (fun _ => find_previous_good lf data K B)
    (ord 4%nat (s2 ++ t3)) (s2 ++ t3)) as (t4 & -> & _). cbn [bind].
  destruct (walk_all_spec lf data K B (fun _ => find_undo lf data) (fun _ => find_undo_good lf data K B)
    (ord 5%nat ((s2 ++ t3) ++ t4)) ((s2 ++ t3) ++ t4)) as (t5 & -> & _). cbn [bind].
  match goal with |- context [restart_areas lf data ?l ?c ?n] => pose proof (restart_areas_any lf data K B l c n) as R;
    destruct (restart_areas lf data l c n) as [[c' new6]|e] end; cbn [bind]; [|tauto].
  match goal with |- context [add_restart lf data ?l ?s] => destruct (add_restart_spec lf data K B l s) as (t6 & -> & _) end.
  exact I.
Qed.
