(** A description of on-disk structures: consecutive parts, each with a width in
    bytes; and reading a part back.  Used to state what the field accessors of the
    code should return, without mentioning offsets. *)
From Verif Require Import Base BaseLemmas FieldLemmas.

Inductive part : Type :=
| Num (w : nat) (v : Z)        (** an unsigned little-endian integer of [w] bytes *)
| Int (w : nat) (v : Z)        (** a signed (two's complement) integer of [w] bytes *)
| Raw (w : Z) (l : list Z).    (** [w] bytes *)

Definition width (p : part) : Z :=
  match p with Num w _ => Z.of_nat w | Int w _ => Z.of_nat w | Raw w _ => w end.

Definition part_bytes (p : part) : list Z :=
  match p with
  | Num w v => le_bytes w v
  | Int w v => le_bytes w (v mod 256 ^ Z.of_nat w)
  | Raw _ l => l
  end.

Definition part_ok (p : part) : Prop :=
  match p with
  | Num w v => 0 <= v < 256 ^ Z.of_nat w
  | Int w v => (0 < w)%nat /\ - 2 ^ (8 * Z.of_nat w - 1) <= v < 2 ^ (8 * Z.of_nat w - 1)
  | Raw w l => zlen l = w
  end.

Definition image (l : list part) : list Z := flat_map part_bytes l.
Definition parts_ok (l : list part) : Prop := Forall part_ok l.

(** The part that begins [off] bytes from the start. *)
Fixpoint part_at (l : list part) (off : Z) : option part :=
  match l with
  | [] => None
  | p :: t => if off =? 0 then Some p else if off <? 0 then None else part_at t (off - width p)
  end.

Lemma part_len p : part_ok p -> zlen (part_bytes p) = width p.
Proof. destruct p; cbn; intros; rewrite ?le_bytes_len; auto. Qed.

Lemma slice_part l rest : parts_ok l -> forall off p, part_at l off = Some p ->
  slice (image l ++ rest) off (off + width p) = part_bytes p.
Proof.
  induction 1 as [|q t Hq Ht IH]; intros off p H; [discriminate|]. cbn [part_at] in H.
  cbn [image flat_map]. fold (image t). rewrite <- app_assoc. pose proof (part_len q Hq) as Hl.
  destruct (off =? 0) eqn:E; bools.
  - inversion H; subst. apply slice_prefix. lia.
  - destruct (off <? 0) eqn:E2; [discriminate|]. bools.
    assert (Hw : width q <= off).
    { destruct (Z_le_gt_dec (width q) off); auto. exfalso.
      assert (off - width q < 0) by lia. destruct t as [|y t]; cbn in H; [discriminate|].
      replace (off - width q =? 0) with false in H by lia. replace (off - width q <? 0) with true in H by lia. discriminate. }
    rewrite slice_app_r by lia. rewrite Hl. replace (off + width p - width q) with (off - width q + width p) by lia.
    now apply IH.
Qed.

Lemma part_at_ok l : parts_ok l -> forall off p, part_at l off = Some p -> part_ok p.
Proof.
  induction 1 as [|q t Hq Ht IH]; intros off p H; [discriminate|]. cbn [part_at] in H.
  destruct (off =? 0); [now inversion H; subst|]. destruct (off <? 0); [discriminate|]. eauto.
Qed.

Lemma fld_num l rest off w v : parts_ok l -> part_at l off = Some (Num w v) ->
  fld (Z.of_nat w) (image l ++ rest) off = v.
Proof.
  intros Hl H. unfold fld. pose proof (slice_part l rest Hl _ _ H) as E. cbn [width part_bytes] in E. rewrite E.
  apply le_val_le_bytes. exact (part_at_ok l Hl _ _ H).
Qed.

Lemma unp_num l rest off w v : parts_ok l -> part_at l off = Some (Num w v) ->
  unp (Z.of_nat w) (image l ++ rest) off = Ok v.
Proof.
  intros Hl H. unfold unp. pose proof (slice_part l rest Hl _ _ H) as E. cbn [width part_bytes] in E. rewrite E.
  rewrite le_bytes_len, Z.eqb_refl. f_equal. apply le_val_le_bytes. exact (part_at_ok l Hl _ _ H).
Qed.

Lemma unp_int l rest off w v : parts_ok l -> part_at l off = Some (Int w v) ->
  unp_s (Z.of_nat w) (image l ++ rest) off = Ok v.
Proof.
  intros Hl H. unfold unp_s, unp. pose proof (slice_part l rest Hl _ _ H) as E. cbn [width part_bytes] in E. rewrite E.
  rewrite le_bytes_len, Z.eqb_refl. cbn [bind]. f_equal. destruct (part_at_ok l Hl _ _ H) as [Hw Hv].
  assert (P : 256 ^ Z.of_nat w = 2 ^ (8 * Z.of_nat w)) by (rewrite Z.pow_mul_r by lia; reflexivity).
  pose proof (Z.mod_pos_bound v (256 ^ Z.of_nat w)) as B.
  assert (Pp : 0 < 256 ^ Z.of_nat w) by (apply Z.pow_pos_nonneg; lia).
  rewrite le_val_le_bytes by auto. unfold to_signed.
  assert (D : 2 ^ (8 * Z.of_nat w) = 2 * 2 ^ (8 * Z.of_nat w - 1)).
  { replace (8 * Z.of_nat w) with (Z.succ (8 * Z.of_nat w - 1)) at 1 by lia. rewrite Z.pow_succ_r by lia. reflexivity. }
  rewrite P in *. set (h := 2 ^ (8 * Z.of_nat w - 1)) in *. rewrite D in *. clearbody h.
  destruct (Z_le_gt_dec 0 v).
  - rewrite Z.mod_small by lia. replace (v <? h) with true by lia. auto.
  - replace (v mod (2 * h)) with (v + 2 * h) by (rewrite <- (Z.mod_add v 1) by lia; rewrite Z.mod_small; lia).
    replace (v + 2 * h <? h) with false by lia. lia.
Qed.

Lemma image_app a b : image (a ++ b) = image a ++ image b.
Proof. unfold image. now rewrite flat_map_app. Qed.

Lemma parts_ok_split l n : parts_ok l -> parts_ok (firstn n l) /\ parts_ok (skipn n l).
Proof. unfold parts_ok. rewrite <- (firstn_skipn n l) at 1. now rewrite Forall_app. Qed.

Definition total (l : list part) : Z := fold_right (fun p n => width p + n) 0 l.

Lemma image_len l : parts_ok l -> zlen (image l) = total l.
Proof.
  induction 1 as [|p t Hp Ht IH]; [reflexivity|]. cbn [image flat_map total fold_right]. fold (image t) (total t).
  rewrite zlen_app, part_len by auto. lia.
Qed.

Lemma zdrop_image l rest n : parts_ok l -> n = total l -> zdrop n (image l ++ rest) = rest.
Proof. intros H ->. apply zdrop_app_exact. symmetry. now apply image_len. Qed.

Lemma get_unp l rest off w n v : parts_ok l -> part_at l off = Some (Num n v) -> Z.of_nat n = w ->
  unp w (image l ++ rest) off = Ok v.
Proof. intros H E <-. now apply unp_num. Qed.

Lemma get_int l rest off w n v : parts_ok l -> part_at l off = Some (Int n v) -> Z.of_nat n = w ->
  unp_s w (image l ++ rest) off = Ok v.
Proof. intros H E <-. now apply unp_int. Qed.

Lemma get_fld l rest off w n v : parts_ok l -> part_at l off = Some (Num n v) -> Z.of_nat n = w ->
  fld w (image l ++ rest) off = v.
Proof. intros H E <-. now apply fld_num. Qed.

Lemma get_num l rest off e n v : parts_ok l -> part_at l off = Some (Num n v) -> off + Z.of_nat n = e ->
  slice (image l ++ rest) off e = le_bytes n v.
Proof. intros H E <-. exact (slice_part l rest H off _ E). Qed.

Lemma get_raw l rest off e w r : parts_ok l -> part_at l off = Some (Raw w r) -> off + w = e ->
  slice (image l ++ rest) off e = r.
Proof. intros H E <-. exact (slice_part l rest H off _ E). Qed.

(** Read the part at a constant offset. *)
Ltac getp H :=
  first
  [ erewrite (get_unp _ _ _ _ _ _ H) by reflexivity
  | erewrite (get_int _ _ _ _ _ _ H) by reflexivity
  | erewrite (get_fld _ _ _ _ _ _ H) by reflexivity
  | erewrite (get_raw _ _ _ _ _ _ H) by reflexivity
  | erewrite (get_num _ _ _ _ _ _ H) by reflexivity ].
