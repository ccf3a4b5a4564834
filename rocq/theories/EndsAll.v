(** The reports on a volume (--indx, --all-mft) do not run out of fuel. *)
From Verif Require Import Base BaseLemmas MftSpec FileObject FragmentedFile Filetime Attributes Properties_Attributes Shadow ShadowSpec Properties_Shadow Volume VolumeProofs Properties_Volume
  Report ReportText ReportFiles LogReport AllMft AllMftSpec Properties_Mount Properties_AllMft Main ShadowRead TextsAll EndsMft.
Local Open Scope Z_scope.

Lemma seek_neg b off n : off < 0 -> seek_read b off n = Err ValueError.
Proof. intro H. unfold seek_read. now rewrite (proj2 (Z.ltb_lt _ _) H). Qed.
Lemma volume_nonneg vol voff v : volume_open vol voff = Ok v -> 0 <= voff.
Proof. destruct (Z.ltb_spec voff 0) as [H|H]; [|auto]. unfold volume_open. rewrite seek_neg by auto. discriminate. Qed.
Lemma volume_ends vol voff : bytes_ok vol -> zlen vol < 2 ^ 63 -> ends (volume_open vol voff).
Proof.
  intros B L H. pose proof (C66_errors vol voff _ B L H) as I. cbn [In] in I.
  repeat match goal with H : _ \/ _ |- _ => destruct H as [H|H]; [discriminate|] end. exact I.
Qed.
Lemma volume_csize vol voff v : bytes_ok vol -> zlen vol < 2 ^ 63 -> volume_open vol voff = Ok v -> 0 < ff_csize (vo_file v).
Proof.
  intros B L H. pose proof (volume_nonneg _ _ _ H) as V. destruct (C66_content vol voff v B L V H) as (cs & runs & fsize & T & C & _).
  pose proof (C66_located vol voff (vo_boot v) cs runs fsize B L V) as X. rewrite H in X. apply X in T. injection T as ->. exact C.
Qed.
Lemma table_ends vol voff : bytes_ok vol -> zlen vol < 2 ^ 63 -> ends (table_of vol voff).
Proof.
  intros B L. unfold table_of. apply ends_bind; [now apply volume_ends|]. intros v H. apply pread_ends; [eapply volume_csize; eauto|lia].
Qed.

(** ** --indx *)

Lemma indx_of_ends vol voff : bytes_ok vol -> zlen vol < 2 ^ 63 -> (forall t, table_of vol voff = Ok t -> fits t) -> gends (indx_of vol voff).
Proof.
  intros B L F. unfold indx_of. apply gends_run; [now apply volume_ends|]. intros v H. pose proof (volume_csize _ _ _ B L H) as C.
  apply gends_run; [apply pread_ends; [exact C|lia]|]. intros t T.
  assert (E : table_of vol voff = Ok t) by (unfold table_of; rewrite H; exact T).
  assert (Bt : bytes_ok t) by (eapply table_bytes; eauto). unfold indx_file. apply gends_run; [now apply mft_open_ends|]. intros p _.
  apply gends_cons, gends_map. apply indx_ends; auto.
Qed.

(** ** --all-mft *)

Lemma item2_ends b : ends (parse_item2 b).
Proof. unfold parse_item2. plain. Qed.
Lemma item3_ends b : ends (parse_item3 b).
Proof. unfold parse_item3. plain. Qed.
Lemma items_end buf n : forall off, (0 < n)%nat -> 16384 - off <= 128 * (Z.of_nat n - 1) -> gends (cb_items_from n buf off).
Proof.
  induction n as [|n IH]; intros off N L; [lia|]. cbn [cb_items_from]. destruct (Z.ltb_spec off 16384) as [O|O]; cbn [negb]; [|discriminate].
  assert (K : gends (cb_items_from n buf (off + 128))) by (apply IH; lia). cbv zeta.
  destruct (negb _); [discriminate|]. destruct (_ =? 0); [discriminate|]. destruct (negb _); [discriminate|]. destruct (_ =? 1); [exact K|].
  destruct (negb _); [discriminate|]. destruct (_ =? 2).
  - pose proof (item2_ends (slice buf off (off + 128))) as H. destruct (parse_item2 _) as [i|e]; [exact K|]. intro X. injection X as ->. now apply H.
  - pose proof (item3_ends (slice buf off (off + 128))) as H. destruct (parse_item3 _) as [i|e]; [exact K|]. intro X. injection X as ->. now apply H.
Qed.
Lemma cb_items_end buf : gends (cb_items buf).
Proof. unfold cb_items. apply items_end; lia. Qed.
Local Opaque cb_items.
Lemma shadows_of_end l s : s <> Raised OutOfFuel -> gends (shadows_of l s).
Proof.
  intro H. induction l as [|[i|i] l IH]; cbn [shadows_of]; [exact H| |exact IH].
  assert (T : ends (decode_filetime (i2_time i) true)) by plain. destruct (decode_filetime _ _) as [t|e]; [exact IH|].
  intro X. injection X as ->. now apply T.
Qed.
Lemma shadows_end cbs : gends (shadows cbs).
Proof.
  induction cbs as [|b cbs IH]; cbn [shadows]; [discriminate|]. pose proof (cb_items_end b) as H. destruct (cb_items b) as [l s].
  pose proof (shadows_of_end l s H) as K. destruct (shadows_of l s) as [a [|e]]; [now apply gends_app|exact K].
Qed.

(** None of the chains of blocks of the volume leads back to itself. *)
Definition loop_free (fuel : nat) (vol : list Z) (voff : Z) : Prop :=
  ~ cb_loop (mk_vol vol voff) /\
  forall o items i, open_one fuel (mk_vol vol voff) None = Ok o -> all_items (sp_cbs o) = Ok items -> In (I3 i) items -> no_loops (mk_vol vol voff) i.
(** [fuel] bounds the blocks that are read for a shadow copy and [depth] the
    shadow copies that are followed for one. *)
Definition enough (fuel depth : nat) (vol : list Z) (voff : Z) : Prop :=
  (List.length vol < fuel)%nat /\ (0 < depth)%nat /\
  forall o items, open_one fuel (mk_vol vol voff) None = Ok o -> all_items (sp_cbs o) = Ok items -> (List.length items + 1 < depth)%nat.
(** The tables have at most 2^58 bytes. *)
Definition tables_fit (fuel depth : nat) (vol : list Z) (voff : Z) : Prop :=
  (forall t, table_of vol voff = Ok t -> fits t) /\
  forall o g o1 d t, open_one fuel (mk_vol vol voff) None = Ok o -> select_shadow fuel depth o (ByGuid g) = (o1, Ok tt) ->
    shadow_bytes o1 = Ok d -> table_of d 0 = Ok t -> fits t.

Section All.
  Variables fuel depth : nat.
  Variable vol : list Z.
  Variable voff : Z.
  Variable o : parser.
  Hypothesis B : bytes_ok vol.
  Hypothesis SZ : sizes_ok fuel vol voff.
  Hypothesis LF : loop_free fuel vol voff.
  Hypothesis EN : enough fuel depth vol voff.
  Hypothesis TF : tables_fit fuel depth vol voff.
  Hypothesis O : open_one fuel (mk_vol vol voff) None = Ok o.

  Lemma selection_ends sel : snd (select_shadow fuel depth o sel) <> Err OutOfFuel.
  Proof.
    destruct EN as (L & D & N). destruct (open_one_plain _ _ _ O) as [_ C3]. destruct (open_one_parser _ _ _ O) as (_ & _ & ST & _).
    apply C46_terminates; rewrite ?C3, ?ST; cbn [v_data]; auto.
    - intros l3 c3 A I. destruct LF as [_ NL]. eapply NL; eauto.
    - intros l2 A. eapply N; eauto.
  Qed.

  Lemma bytes_end g o1 : select_shadow fuel depth o (ByGuid g) = (o1, Ok tt) -> ends (shadow_bytes o1).
  Proof.
    intros S H. destruct (selected_shown fuel depth (mk_vol vol voff) o g o1 B O S) as (SO & _).
    destruct (shadow_bytes_read o1 SO) as [p R]. rewrite H in R. unfold read_result in R.
    destruct (sp_two o1 && false); [discriminate (proj2 R)|]. destruct (_ || _); [discriminate (proj2 R)|].
    destruct R as (_ & [[X _]|[X _]]); discriminate X.
  Qed.

  Lemma section_ends g o1 tag : select_shadow fuel depth o (ByGuid g) = (o1, Ok tt) ->
    gends (table_rows (let! d := shadow_bytes o1 in table_of d 0) false tag).
  Proof.
    intros S. unfold table_rows. destruct (selected_shown fuel depth (mk_vol vol voff) o g o1 B O S) as (SO & items & i & _ & _ & _ & PV).
    assert (K : forall d, shadow_bytes o1 = Ok d -> bytes_ok d /\ zlen d < 2 ^ 63).
    { intros d SB. eapply shown_small; eauto. now apply shadow_bytes_shown. }
    apply gends_run.
    - apply ends_bind; [eapply bytes_end; eauto|]. intros d SB. destruct (K d SB) as [Bd Ld]. now apply table_ends.
    - intros t E. apply bind_ok in E as (d & SB & E). destruct (K d SB) as [Bd _]. apply mft_ends; [eapply table_bytes; eauto|].
      destruct TF as [_ F]. eapply F; eauto.
  Qed.

  Lemma reports_end l s : s <> Raised OutOfFuel -> forall st pos, gends (shadow_reports fuel depth (set_state o st pos) l s).
  Proof.
    intro H. induction l as [|x l IH]; intros st pos; cbn [shadow_reports]; [exact H|].
    destruct (C84_fresh fuel depth o st pos (ByGuid (si_guid x))) as [F1 F2]. pose proof (selection_ends (ByGuid (si_guid x))) as SE.
    destruct (select_shadow fuel depth (set_state o st pos) (ByGuid (si_guid x))) as [o1 r] eqn:E1. cbn [snd] in F1. subst r.
    destruct (snd (select_shadow fuel depth o (ByGuid (si_guid x)))) as [[]|e] eqn:ES.
    - specialize (F2 eq_refl). symmetry in F2. apply gends_seq; [eapply section_ends; eauto|].
      assert (X : exists st' pos', o1 = set_state o st' pos').
      { unfold select_shadow in F2. destruct (_ && _) in F2; [discriminate|]. destruct (select _ _ _ _ _ _ _) as [s0 r0] in F2. injection F2 as <- _. eauto. }
      destruct X as (st' & pos' & ->). apply IH.
    - intro X. injection X as ->. now apply SE.
  Qed.
End All.

Theorem all_ends fuel depth vol voff : bytes_ok vol -> zlen vol < 2 ^ 63 -> sizes_ok fuel vol voff -> loop_free fuel vol voff -> enough fuel depth vol voff ->
  tables_fit fuel depth vol voff -> gends (process_all_mft fuel depth vol voff).
Proof.
  intros B L SZ LF EN TF. unfold process_all_mft. apply gends_seq.
  - unfold table_rows. apply gends_run; [now apply table_ends|]. intros t E. apply mft_ends; [eapply table_bytes; eauto|now apply TF].
  - pose proof (C47_open_one_ends (mk_vol vol voff) None fuel (proj1 LF)) as [OE _]; [apply EN|].
    destruct (open_one fuel (mk_vol vol voff) None) as [o|e] eqn:O.
    + pose proof (shadows_end (sp_cbs o)) as S. destruct (shadows (sp_cbs o)) as [l st]. rewrite (set_state_same o) at 1.
      eapply reports_end; eauto.
    + destruct e; try discriminate. now elim OE.
Qed.
