(** A shadow copy of a volume with an offset that is not negative is opened and
    selected without a seek to a negative position. *)
From Coq Require Import Lia.
From Verif Require Import Base BaseLemmas FieldLemmas PartitionTable Shadow ShadowSelect2 Mount Properties_Mount.
Local Open Scope Z_scope.

Definition calm {A} (r : result A) : Prop := r <> Err ValueError.
Lemma calm_ok {A} (a : A) : calm (Ok a).
Proof. discriminate. Qed.
Lemma calm_bind {A B} (r : result A) (k : A -> result B) : calm r -> (forall a, r = Ok a -> calm (k a)) -> calm (bind r k).
Proof. intros R K. destruct r as [a|e]; cbn [bind]; [now apply K|]. intros X. apply R. congruence. Qed.
Lemma calm_unp w b o : calm (unp w b o).
Proof. destruct (unp w b o) eqn:E; [discriminate|]. apply unp_err in E as ->. discriminate. Qed.
Lemma calm_seek d o n : 0 <= o -> calm (seek_read d o n).
Proof. intros O. unfold seek_read. replace (o <? 0) with false by lia. destruct (_ <=? _); [discriminate|]. destruct (_ <=? _); discriminate. Qed.
Lemma seek_bytes d o n b : bytes_ok d -> seek_read d o n = Ok b -> bytes_ok b.
Proof.
  intros B S. unfold seek_read in S. destruct (_ <? _); [discriminate|]. destruct (_ <=? _) in S; [discriminate|]. destruct (_ <=? _) in S; [discriminate|].
  injection S as <-. now apply bytes_ok_slice.
Qed.
Lemma u64_nonneg b o x : bytes_ok b -> 0 <= o -> u64 b o = Ok x -> 0 <= x.
Proof. intros B O E. apply unp_inv in E as [_ ->]; [|lia|lia]. pose proof (fld_bound 8 b o O ltac:(lia) B). lia. Qed.

Lemma calm_start b : calm (start_block b).
Proof.
  unfold start_block. destruct (negb _); [discriminate|]. destruct (negb _); [discriminate|]. unfold shadow_block. destruct (negb _) in |- *; [discriminate|]. cbn [bind].
  repeat (apply calm_bind; [apply calm_unp|]; intros ? _; destruct (negb _); [discriminate|]). discriminate.
Qed.
Lemma calm_disabled r : calm r -> calm (start_or_disabled r).
Proof. intros C. destruct r as [|e]; [discriminate|]. cbn [start_or_disabled]. destruct (is_shadow_exn e); [discriminate|]. intros X. apply C. congruence. Qed.
Lemma calm_block ty x b : x <> ValueError -> calm (block_ok ty x b).
Proof. intros X H. apply block_ok_err in H as [H|[H|H]]; [now apply X|discriminate..]. Qed.
Lemma calm_control b : calm (control_block_ok b).
Proof.
  unfold control_block_ok. apply calm_bind; [now apply calm_block|]. intros _ _. apply calm_bind; [apply calm_unp|]. intros ? _. destruct (_ && _); discriminate.
Qed.

Section Volume.
Variable v : vol.
Hypothesis B : bytes_ok (v_data v).
Hypothesis O : 0 <= v_off v.

Lemma calm_chain {A} n ok (payload : list Z -> result A) : (forall b, calm (ok b)) -> (forall b, calm (payload b)) ->
  forall a, 0 <= a -> calm (chain n v ok payload a).
Proof.
  intros K P. induction n as [|n IH]; intros a AN; [discriminate|]. cbn [chain]. destruct (a =? 0); [discriminate|].
  apply calm_bind; [apply calm_seek; lia|]. intros buf S. apply calm_bind; [apply K|]. intros _ _. apply calm_bind; [apply calm_unp|]. intros own _.
  destruct (negb _); [discriminate|]. apply calm_bind; [apply P|]. intros x _. apply calm_bind; [apply calm_unp|]. intros nx N.
  apply calm_bind; [|discriminate]. apply IH. apply (u64_nonneg buf 40); [eapply seek_bytes; eauto|lia|exact N].
Qed.

Lemma calm_blocks fuel s : bytes_ok s -> calm (control_blocks fuel v s).
Proof.
  intros BS. unfold control_blocks, first_control_block. destruct (u64 s 7728) as [o|e] eqn:E; cbn [bind].
  - destruct (_ && _); cbn [bind]; [discriminate|]. apply calm_chain; [apply calm_control|discriminate|]. exact (u64_nonneg s 7728 _ BS ltac:(lia) E).
  - apply unp_err in E as ->. discriminate.
Qed.

Lemma calm_bitmap fuel s a : 0 <= a -> calm (read_bitmap fuel v s a).
Proof. intros A. apply calm_bind; [|discriminate]. apply calm_chain; [intros; now apply calm_block|discriminate|exact A]. Qed.
Lemma calm_locations fuel a : 0 <= a -> calm (read_locations fuel v a).
Proof.
  intros A. apply calm_bind; [|discriminate]. apply calm_chain; [intros; now apply calm_block| |exact A]. intros b X. apply location_items_err in X. cbn in X. intuition discriminate.
Qed.
Lemma calm_diff fuel a : 0 <= a -> calm (read_diff_area fuel v a).
Proof.
  intros A. apply calm_bind; [|discriminate]. apply calm_chain; [intros; now apply calm_block| |exact A]. intros b X. apply diff_entries_err in X. cbn in X. intuition discriminate.
Qed.
Lemma calm_app a : calm (read_app_info v a).
Proof.
  unfold read_app_info. destruct (Z.ltb_spec 0 a); [|discriminate]. apply calm_bind; [apply calm_seek; lia|]. intros buf _. apply calm_bind; [now apply calm_block|]. intros _ _.
  apply calm_bind; [apply calm_unp|]. intros ? _. destruct (negb _); discriminate.
Qed.
End Volume.

(** ** Items *)
Definition item_ok (i : Shadow.item) : Prop :=
  match i with I2 _ => True | I3 j => 0 <= i3_diff j /\ 0 <= i3_app j /\ 0 <= i3_loc j /\ 0 <= i3_bitmap j /\ 0 <= i3_prev j end.
Definition gcalm {A} (g : gen A) : Prop := snd g <> Raised ValueError.

Lemma items_ok buf : bytes_ok buf -> forall n off, Forall item_ok (fst (cb_items_from n buf off)) /\ gcalm (cb_items_from n buf off).
Proof.
  intro B. induction n as [|n IH]; intro off; [split; [constructor|discriminate]|]. cbn [cb_items_from].
  destruct (negb (off <? 16384)); [split; [constructor|discriminate]|]. destruct (negb (zlen (slice buf off (off + 4)) =? 4)); [split; [constructor|discriminate]|].
  destruct (_ =? 0); [split; [constructor|discriminate]|]. destruct (negb (zin _ _)); [split; [constructor|discriminate]|]. destruct (_ =? 1); [apply IH|].
  destruct (negb (zlen _ =? 128)); [split; [constructor|discriminate]|]. specialize (IH (off + 128)). destruct (cb_items_from n buf (off + 128)) as [l s].
  unfold gcalm in *. cbn [fst snd] in IH. destruct IH as [I1 I2].
  destruct (_ =? 2).
  - assert (C : calm (parse_item2 (slice buf off (off + 128)))).
    { unfold parse_item2. apply calm_bind; [apply calm_unp|]. intros sz _. destruct (sz =? 0); [discriminate|]. do 3 (apply calm_bind; [apply calm_unp|]; intros ? _). discriminate. }
    destruct (parse_item2 (slice buf off (off + 128))) as [i|]; cbn [gcons fst snd]; [split; [constructor; [exact I|exact I1]|exact I2]|].
    split; [constructor|]. intros X. apply C. congruence.
  - assert (F : bytes_ok (slice buf off (off + 128))) by now apply bytes_ok_slice.
    assert (C : calm (parse_item3 (slice buf off (off + 128)))) by (unfold parse_item3; do 5 (apply calm_bind; [apply calm_unp|]; intros ? _); discriminate).
    destruct (parse_item3 (slice buf off (off + 128))) as [i|] eqn:E; cbn [gcons fst snd]; [split; [constructor; [|exact I1]|exact I2]|].
    + unfold parse_item3 in E. apply bind_ok in E as (a & A & E). apply bind_ok in E as (b & A1 & E). apply bind_ok in E as (c & A2 & E).
      apply bind_ok in E as (d & A3 & E). apply bind_ok in E as (e & A4 & E). injection E as <-. cbn [item_ok i3_diff i3_app i3_loc i3_bitmap i3_prev].
      apply u64_nonneg in A, A1, A2, A3, A4; try assumption; lia.
    + split; [constructor|]. intros X. apply C. congruence.
Qed.
Lemma cb_items_ok buf : bytes_ok buf -> Forall item_ok (fst (cb_items buf)) /\ gcalm (cb_items buf).
Proof. intros B. unfold cb_items. generalize 129%nat. intros n. now apply items_ok. Qed.
Local Opaque cb_items.

Lemma all_items_ok cbs : Forall bytes_ok cbs -> calm (all_items cbs) /\ forall l, all_items cbs = Ok l -> Forall item_ok l.
Proof.
  induction 1 as [|b t B F (I1 & I2)]; cbn [all_items]; [split; [discriminate|intros l E; injection E as <-; constructor]|].
  destruct (cb_items_ok b B) as [J1 J2]. destruct (cb_items b) as [l s]. unfold gcalm in J2. cbn [fst snd] in J1, J2. destruct s as [|e].
  - split; [apply calm_bind; [exact I1|discriminate]|]. intros r E. apply bind_ok in E as (q & Q & E). injection E as <-. apply Forall_app. split; [exact J1|now apply I2].
  - split; [intros X; apply J2; congruence|discriminate].
Qed.
Lemma find_guid_calm cbs pos : Forall bytes_ok cbs -> forall f, calm (find_guid cbs pos f).
Proof.
  induction 1 as [|b t B F IH]; intros f; cbn [find_guid]; [discriminate|]. destruct (cb_items_ok b B) as [_ J2]. destruct (cb_items b) as [l s].
  unfold gcalm in J2. cbn [snd] in J2.
  destruct (find _ l) as [[i|i]|]; [apply IH| |]; (destruct s as [|e]; [apply IH|intros X; apply J2; congruence]).
Qed.
Lemma find_items_calm cbs cbs3 sel : Forall bytes_ok cbs -> Forall bytes_ok cbs3 ->
  calm (find_items cbs cbs3 sel) /\ forall i j, find_items cbs cbs3 sel = Ok (i, j) -> item_ok (I3 j).
Proof.
  intros F F3. destruct (all_items_ok _ F) as [C2 _]. destruct (all_items_ok _ F3) as [C3 K3].
  assert (CG : calm (match sel with ByGuid g => Ok (Some g) | ByPos p => find_guid cbs p None end)) by (destruct sel; [discriminate|now apply find_guid_calm]).
  unfold find_items. split.
  - apply calm_bind; [exact CG|]. intros g _. apply calm_bind; [exact C3|]. intros l3 _. apply calm_bind; [exact C2|]. intros l2 _. cbv zeta.
    destruct (negb _); [discriminate|]. destruct (items2_of l2 g) as [|a [|? ?]]; [discriminate| |discriminate]. destruct (items3_of l3 g) as [|? [|? ?]]; discriminate.
  - intros i j E. apply bind_ok in E as (g & _ & E). apply bind_ok in E as (l3 & L3 & E). apply bind_ok in E as (l2 & _ & E). cbv zeta in E.
    destruct (negb _); [discriminate|]. destruct (items2_of l2 g) as [|a [|? ?]]; [discriminate| |discriminate]. destruct (items3_of l3 g) as [|b [|? ?]] eqn:I3s; try discriminate.
    injection E as <- <-. assert (X : In b (items3_of l3 g)) by (rewrite I3s; now left). unfold items3_of in X. apply in_flat_map in X as (x & IX & X).
    destruct x as [x|x]; [contradiction|]. destruct (guid_is g (i3_guid x)); [|contradiction]. destruct X as [<-|[]]. exact (proj1 (Forall_forall _ _) (K3 _ L3) _ IX).
Qed.

Lemma select_calm fuel v cbs cbs3 : bytes_ok (v_data v) -> 0 <= v_off v -> Forall bytes_ok cbs -> Forall bytes_ok cbs3 ->
  forall depth st sel, calm (snd (select fuel depth v cbs cbs3 st sel)).
Proof.
  intros B O F F3. induction depth as [|d IH]; intros st sel; [discriminate|]. cbn [select]. destruct st as [p0 nx0].
  destruct (find_items_calm cbs cbs3 sel F F3) as [C K]. destruct (find_items cbs cbs3 sel) as [[c2 c3]|e]; cbn [step snd]; [|intros X; apply C; congruence].
  destruct (K _ _ eq_refl) as (N1 & N2 & N3 & N4 & N5). clear C K.
  pose proof (calm_bitmap v B O fuel (i2_size c2) _ N4) as H. destruct (read_bitmap fuel v (i2_size c2) (i3_bitmap c3)); cbn [step snd]; [clear H|intros X; apply H; congruence].
  pose proof (calm_bitmap v B O fuel (i2_size c2) _ N5) as H. destruct (read_bitmap fuel v (i2_size c2) (i3_prev c3)); cbn [step snd]; [clear H|intros X; apply H; congruence].
  pose proof (calm_locations v B O fuel _ N3) as H. destruct (read_locations fuel v (i3_loc c3)); cbn [step snd]; [clear H|intros X; apply H; congruence].
  pose proof (calm_app v O (i3_app c3)) as H. destruct (read_app_info v (i3_app c3)); cbn [step snd]; [clear H|intros X; apply H; congruence].
  pose proof (calm_diff v B O fuel _ N1) as H. destruct (read_diff_area fuel v (i3_diff c3)); cbn [step snd]; [clear H|intros X; apply H; congruence].
  specialize (IH (new_pstate, []) (ByPos (i2_pos c2 + 1))). destruct (select fuel d v cbs cbs3 (new_pstate, []) (ByPos (i2_pos c2 + 1))) as [[q nx] [u|e]]; cbn [snd] in *; [discriminate|].
  destruct e; cbn [snd]; try discriminate. now elim IH.
Qed.

Lemma select_shadow_calm fuel depth o sel : bytes_ok (v_data (sp_store o)) -> 0 <= v_off (sp_store o) -> Forall bytes_ok (sp_cbs o) -> Forall bytes_ok (sp_cbs3 o) ->
  calm (snd (select_shadow fuel depth o sel)).
Proof.
  intros B O F F3. unfold select_shadow. destruct (_ && _); [discriminate|]. pose proof (select_calm fuel _ _ _ B O F F3 depth (sp_cur o, sp_next o) sel) as C.
  destruct (select _ _ _ _ _ _ _). exact C.
Qed.

Lemma blocks_bytes fuel v s cbs : bytes_ok (v_data v) -> control_blocks fuel v s = Ok cbs -> Forall bytes_ok cbs.
Proof. intros B C. unfold control_blocks in C. apply bind_ok in C as (a & _ & C). eapply chain_bytes; eauto. Qed.

Lemma mount_one_calm fuel depth v k fill : bytes_ok (v_data v) -> mount_one fuel depth v k fill = Err ValueError <-> v_off v < 0.
Proof.
  intros B. split.
  - intros E. destruct (Z.ltb_spec (v_off v) 0) as [|O]; [assumption|exfalso]. revert E. change (calm (mount_one fuel depth v k fill)). unfold mount_one. apply calm_bind.
    + unfold open_one. apply calm_bind; [now apply calm_seek|]. intros s S. apply calm_bind; [apply calm_disabled, calm_start|]. intros _ _.
      apply calm_bind; [|discriminate]. apply calm_blocks; [exact B|exact O|]. eapply seek_bytes; eauto.
    + intros o OP. assert (C : calm (snd (select_shadow fuel depth o (ByPos k)))).
      { unfold open_one in OP. apply bind_ok in OP as (s & S & OP). apply bind_ok in OP as (? & _ & OP). apply bind_ok in OP as (cbs & CB & OP). injection OP as <-.
        apply select_shadow_calm; cbn [sp_store sp_cbs sp_cbs3]; [exact B|exact O|eapply blocks_bytes; eauto..]. }
      destruct (select_shadow fuel depth o (ByPos k)) as [o' r]. cbn [snd] in C. apply calm_bind; [exact C|discriminate].
  - intros O. unfold mount_one, open_one, seek_read. now replace (v_off v <? 0) with true by lia.
Qed.

Lemma mount_two_calm fuel depth v w k : bytes_ok (v_data v) -> bytes_ok (v_data w) ->
  mount_two fuel depth v w k = Err ValueError <-> v_off v < 0 \/ (v_off v < 2 ^ 63 /\ v_off w < 0).
Proof.
  intros B BW. split.
  - intros E. destruct (Z.ltb_spec (v_off v) 0) as [|O]; [now left|]. right.
    destruct (Z.leb_spec (2 ^ 63) (v_off v)) as [L|L].
    { exfalso. unfold mount_two, open_two, seek_read in E. replace (v_off v <? 0) with false in E by lia. replace (2 ^ 63 <=? v_off v) with true in E by lia. discriminate. }
    split; [assumption|]. destruct (Z.ltb_spec (v_off w) 0) as [|OW]; [assumption|exfalso]. revert E. change (calm (mount_two fuel depth v w k)). unfold mount_two. apply calm_bind.
    + unfold open_two. apply calm_bind; [now apply calm_seek|]. intros s S. apply calm_bind; [now apply calm_seek|]. intros s3 S3.
      apply calm_bind; [apply calm_disabled; apply calm_bind; [apply calm_start|intros; apply calm_start]|]. intros _ _. destruct (storage_local s); [discriminate|].
      apply calm_bind; [apply calm_blocks; [exact B|exact O|exact (seek_bytes _ _ _ _ B S)]|]. intros cbs _.
      apply calm_bind; [apply calm_blocks; [exact BW|exact OW|exact (seek_bytes _ _ _ _ BW S3)]|discriminate].
    + intros o OP. assert (C : calm (snd (select_shadow fuel depth o (ByPos k)))).
      { unfold open_two in OP. apply bind_ok in OP as (s & S & OP). apply bind_ok in OP as (s3 & S3 & OP). apply bind_ok in OP as (? & _ & OP).
        destruct (storage_local s); [discriminate|]. apply bind_ok in OP as (cbs & CB & OP). apply bind_ok in OP as (cbs3 & CB3 & OP). injection OP as <-.
        apply select_shadow_calm; cbn [sp_store sp_cbs sp_cbs3]; [exact BW|exact OW| |]; eapply blocks_bytes; [exact B|exact CB|exact BW|exact CB3]. }
      destruct (select_shadow fuel depth o (ByPos k)) as [o' r]. cbn [snd] in C. apply calm_bind; [exact C|discriminate].
  - unfold mount_two, open_two. intros [O|[L O]].
    + unfold seek_read. now replace (v_off v <? 0) with true by lia.
    + destruct (Z.ltb_spec (v_off v) 0) as [N|N]; [unfold seek_read; now replace (v_off v <? 0) with true by lia|].
      unfold seek_read. replace (v_off v <? 0) with false by lia. replace (2 ^ 63 <=? v_off v) with false by lia. change (2 ^ 63 <=? 8192) with false.
      now replace (v_off w <? 0) with true by lia.
Qed.
