(** A table written in pieces is found. *)
From Verif Require Import Base BaseLemmas FieldLemmas FileObject MappingPairs MappingPairsProofs Frs FrsSpec FrsProofs
  Sorting FileRecord FileRecordSpec FileRecordProofs FragmentedFile FragmentedFileSpec FragmentedFileProofs
  Attributes AttributesSpec AttributesProofs IndexProofs BootSectorProofs MftSpec Volume VolumeSpec VolumeProofs.
From Coq Require Import Permutation Sorted.

Section Complete.
  Variables (vol : list Z) (voff cs fsize : Z).
  Hypothesis B : bytes_ok vol.
  Hypothesis Hc : 0 < cs.
  Let lay (runs : list (option Z * Z)) := mk_layout vol voff cs runs.

  Lemma reads_prefix runs more off n out : runs_positive (runs ++ more) -> 0 <= off -> 0 <= n -> off + n <= clusters runs * cs ->
    reads (lay (runs ++ more)) fsize off n out <-> reads (lay runs) fsize off n out.
  Proof.
    intros HP H1 H2 H3. unfold reads. cbn [ly_cluster lay].
    assert (X : zlen out = read_length cs fsize off (Some n) -> bytes_at (lay (runs ++ more)) off out <-> bytes_at (lay runs) off out).
    { intro L. assert (LN : zlen out <= n).
      { rewrite L. unfold read_length. destruct (_ <=? _); [lia|]. destruct (Z.ltb_spec n 0); lia. }
      unfold bytes_at. split; intros A i Hi; destruct (A i Hi) as (b & E & C); exists b; (split; [exact E|]);
        apply (content_prefix vol voff cs Hc runs more (off + i) b HP); auto; lia. }
    split; intros [R1 R2]; specialize (X R2); tauto.
  Qed.

  Lemma segment_prefix runs more size k f : runs_positive (runs ++ more) -> 0 <= size -> 0 <= k -> (k + 1) * size <= clusters runs * cs ->
    table_segment (lay (runs ++ more)) fsize size k f <-> table_segment (lay runs) fsize size k f.
  Proof.
    intros HP Hs Hk HL. unfold table_segment. split; intros (raw & H1 & H2 & H3); exists raw; (split; [auto|]; split; [|auto]);
      apply (reads_prefix runs more (k * size) size raw); auto; nia.
  Qed.

  Lemma parsable_prefix runs more size : runs_positive (runs ++ more) -> 4 * size <= clusters runs * cs ->
    parsable (lay (runs ++ more)) fsize size -> parsable (lay runs) fsize size.
  Proof.
    intros HP HL (R1 & (b & R2 & L & E) & Z & f & S & V).
    assert (Z0 : 1024 <= size) by (destruct Z; lia).
    split; [apply (reads_prefix runs more) in R1; auto; lia|].
    split; [exists b; split; [apply (reads_prefix runs more) in R2; auto; lia|auto]|]. split; auto.
    exists f. split; auto. apply (segment_prefix runs more) in S; auto; lia.
  Qed.

  Lemma reads_bytes runs off n out : reads (lay runs) fsize off n out -> bytes_ok out.
  Proof.
    intros [A _]. apply Forall_forall. intros x Hx. apply In_znth in Hx as [i Hi].
    destruct (A i (znth_Some_range _ _ _ Hi)) as (b & Hb & C). rewrite Hi in Hb. injection Hb as <-.
    inversion C as [? L|? c st ? L ES S1 S2 N]; subst; [red; lia|]. eapply bytes_ok_znth; eauto.
  Qed.

  Lemma segment_opened runs size k f : table_segment (lay runs) fsize size k f -> opened f.
  Proof. intros (raw & _ & R & O). exists raw, true, (Some k). split; auto. eapply reads_bytes; eauto. Qed.

  Lemma holds_positive f lo r sz : opened f -> holds_piece f lo r sz -> runs_positive r.
  Proof.
    intros O (items & mp & hi & E & S). pose proof (opened_positive f O) as F. rewrite E in F. cbn [fst] in F.
    assert (K : In (Nonresident 0x80 None mp r lo hi sz) items).
    { apply (filter_In (part_of (stream_type false) (stream_name None))). unfold stream_parts in S. rewrite S. now left. }
    rewrite Forall_forall in F. exact (F _ K).
  Qed.

  Lemma written_prefix ly size runs t final : (exists all, ly = lay all) -> written ly fsize size runs t final ->
    exists more, final = runs ++ more /\ runs_positive more.
  Proof.
    intros [all ->] W. induction W as [runs|runs e t f r sz final S _ HP W IH].
    - exists []. split; [now rewrite app_nil_r|constructor].
    - destruct IH as (more & -> & P). exists (r ++ more). split; [now rewrite app_assoc|].
      apply Forall_app. split; auto. eapply holds_positive; [eapply segment_opened; exact S|eauto].
  Qed.

  Lemma contiguous_snoc v l runs mp r hi sz : contiguous v l runs ->
    contiguous v (l ++ [Nonresident 0x80 None mp r (v + clusters runs) hi sz]) (runs ++ r).
  Proof.
    induction 1 as [v|v ty name mp' r' hi' sz' rest runs H IH]; cbn [app clusters].
    - rewrite Z.add_0_r. rewrite <- (app_nil_r r) at 2. constructor. constructor.
    - rewrite <- app_assoc. constructor. rewrite clusters_app. now replace (v + (clusters r' + clusters runs)) with (v + clusters r' + clusters runs) by lia.
  Qed.

  Lemma contiguous_sorted v l runs : contiguous v l runs -> Forall (fun a => runs_positive (runs_of a)) l ->
    sorted_by first_vcn l /\ Forall (fun a => v <= first_vcn a) l.
  Proof.
    induction 1 as [v|v ty name mp r hi sz rest runs H IH]; intro F; [split; constructor|].
    inversion F as [|? ? F1 F2]; subst. destruct (IH F2) as [S G]. cbn in F1. pose proof (clusters_nonneg r F1) as CN.
    split.
    - constructor; auto. eapply Forall_impl; [|exact G]. cbn. intros a Ha. lia.
    - constructor; cbn; [lia|]. eapply Forall_impl; [|exact G]. cbn. intros a Ha. lia.
  Qed.

  Lemma grows_written base size all runs t final : (exists more, all = runs ++ more) -> runs_positive all -> all = final ->
    written (lay all) fsize size runs t final ->
    parsable (lay all) fsize size -> 4 * size <= clusters runs * cs -> runs <> [] ->
    forall ch items, opened_record (mk_fr base ch) -> fr_attributes (mk_fr base ch) = (items, Done) ->
    stream_parts None false items <> [] -> contiguous 0 (stream_parts None false items) runs ->
    Forall (fun e => 0 <= al_segment e) t ->
    grows vol voff cs fsize base ch runs t final.
  Proof.
    intros HM HP EA W PA. assert (Z : size_ok size) by (destruct PA as (_ & _ & Z & _); auto).
    revert HM. remember (lay all) as ly eqn:EL. induction W as [runs|runs e t f r sz final S LS HD W IH]; intros HM H4 HN ch items O E N C SG; [constructor|].
    subst ly. cbn [ly_cluster lay] in LS. inversion SG as [|? ? SG1 SG2]; subst.
    assert (Z0 : 1024 <= size) by (destruct Z; lia).
    assert (K : 0 <= segment_number e) by (apply Z.mod_pos_bound; lia).
    pose proof (segment_opened _ _ _ _ S) as OF.
    destruct (written_prefix _ _ _ _ _ ltac:(eexists; reflexivity) W) as (more & EM & PM).
    destruct HD as (it & mp & hi & EG & SP).
    assert (O' : opened_record (mk_fr base (ch ++ [f]))) by now apply opened_snoc.
    assert (E' : fr_attributes (mk_fr base (ch ++ [f])) = (items ++ it, Done)).
    { unfold fr_attributes in *. cbn [fr_base fr_children] in *. rewrite map_app. cbn [map].
      clear - E EG. change (frs_gen base :: map frs_gen ch ++ [frs_gen f]) with ((frs_gen base :: map frs_gen ch) ++ [frs_gen f]).
      revert items E. induction (frs_gen base :: map frs_gen ch) as [|g gs IH]; intros items E; cbn [gconcat app] in *.
      - injection E as <-. rewrite EG. cbn [fst snd app]. unfold gapp. cbn [fst snd]. now rewrite app_nil_r.
      - destruct g as [gl [|x]]; cbn [fst snd] in *; [|discriminate]. unfold gapp in *.
        destruct (gconcat gs) as [l st]. cbn [fst snd] in E. injection E as <- ->. rewrite (IH l eq_refl). cbn. now rewrite app_assoc. }
    assert (SP' : stream_parts None false (items ++ it) = stream_parts None false items ++ [Nonresident 0x80 None mp r (clusters runs) hi sz]).
    { unfold stream_parts in *. now rewrite filter_app, SP. }
    assert (C' : contiguous 0 (stream_parts None false (items ++ it)) (runs ++ r)).
    { rewrite SP'. exact (contiguous_snoc 0 _ runs mp r hi sz C). }
    assert (N' : runs ++ r <> []) by (intro X; apply app_eq_nil in X; tauto).
    assert (HP' : runs_positive (runs ++ r ++ more)) by (rewrite EM in HP; now rewrite <- app_assoc in HP).
    assert (PR : 0 <= clusters r).
    { apply clusters_nonneg. apply Forall_app in HP' as [_ X]. apply Forall_app in X as [X _]. exact X. }
    apply (grows_piece vol voff cs fsize base ch runs e t size f (runs ++ r)).
    - apply (parsable_prefix runs (r ++ more)); auto. rewrite EM, <- app_assoc in PA. exact PA.
    - apply (segment_prefix runs (r ++ more)); auto; try lia. rewrite EM, <- app_assoc in S. exact S.
    - exists (items ++ it), (stream_parts None false (items ++ it)). split; auto. split; [|split; [|split; auto]].
      + assert (SF : Forall (fun a => runs_positive (runs_of a)) (stream_parts None false (items ++ it))).
        { pose proof (fr_attributes_positive _ O') as F. rewrite E' in F. cbn [fst] in F. apply Forall_forall. intros a Ha.
          apply filter_In in Ha as [Ha _]. rewrite Forall_forall in F. auto. }
        destruct (contiguous_sorted _ _ _ C' SF) as [SS _]. repeat split; auto.
      + rewrite SP'. intro X. apply app_eq_nil in X as [_ X]. discriminate.
    - eapply IH with (items := items ++ it); eauto.
      + rewrite clusters_app. nia.
      + rewrite SP'. intro X. apply app_eq_nil in X as [_ X]. discriminate.
  Qed.

  Lemma written_located boot runs : zlen vol < 2 ^ 63 -> table_written vol voff boot cs runs fsize -> table_located vol voff boot cs runs fsize.
  Proof.
    intros Hv (fs & c & f0 & runs0 & v & l & e0 & t & size & EB & G & OF & HD & N & RL & W & S & S0 & PA & H4 & WR).
    exists fs, c, f0, runs0, (Some v). split; auto. split; auto. split; auto.
    assert (O : opened f0) by (eexists _, true, (Some 0); split; [|exact OF]; now apply bytes_ok_slice).
    assert (OR : opened_record (mk_fr f0 [])) by (split; [exact O|constructor]).
    pose proof (holds_positive _ _ _ _ O HD) as P0.
    destruct HD as (items & mp & hi & EG & SP).
    assert (E : fr_attributes (mk_fr f0 []) = (items, Done)).
    { unfold fr_attributes. cbn [fr_base fr_children map gconcat]. rewrite EG. cbn [fst snd]. unfold gapp. cbn [fst snd]. now rewrite app_nil_r. }
    assert (C : contiguous 0 (stream_parts None false items) runs0).
    { rewrite SP. pose proof (contig_cons 0 0x80 None mp runs0 hi fsize [] [] (contig_nil _)) as C0. now rewrite app_nil_r in C0. }
    split; [|split; [|split; auto]].
    - exists items, (stream_parts None false items). split; auto. split; [|split; [rewrite SP; discriminate|auto]].
      rewrite SP. repeat split; auto. repeat constructor.
    - exists items, 0x80, None, mp, runs0, hi, []. split; auto. now rewrite SP.
    - exists l, e0, t. split; auto. split; auto. split; auto.
      assert (BV : bytes_ok v) by (apply (record_list_bytes vol voff B cs f0); auto).
      destruct (written_prefix _ _ _ _ _ ltac:(eexists; reflexivity) WR) as (more & EM & PM).
      apply (grows_written f0 size runs runs0 t runs) with (items := items); auto.
      + eauto.
      + rewrite EM. apply Forall_app. auto.
      + rewrite SP. discriminate.
      + assert (SG : Forall (fun e => 0 <= al_segment e) (filter for_data l)).
        { apply Forall_forall. intros x Hx. apply filter_In in Hx as [Hx _].
          pose proof (al_walk_segments v 0 l BV ltac:(lia) W) as F. rewrite Forall_forall in F. auto. }
        pose proof (sorted_Forall al_lowest _ _ _ S SG) as SF. now inversion SF.
  Qed.
End Complete.

Lemma grows_positive vol voff cs fsize : bytes_ok vol -> 0 < cs -> forall base ch runs es final,
  opened_record (mk_fr base ch) -> runs_positive runs -> grows vol voff cs fsize base ch runs es final -> runs_positive final.
Proof.
  intros B Hc base ch runs es final O HP G. revert O HP.
  induction G as [ch runs|ch runs e t size f runs' final G1 G2 G3 G4 IH]; intros O HP; auto.
  assert (O' : opened_record (mk_fr base (ch ++ [f]))) by (apply opened_snoc; auto; eapply segment_opened; [exact B|exact Hc|exact G2]).
  exact (IH O' (main_stream_positive _ _ _ O' G3)).
Qed.
