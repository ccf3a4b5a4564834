(** Reading fields out of serialised records. *)
From Verif Require Import Base BaseLemmas.

Lemma fld_app_r w (x y : list Z) off : zlen x <= off -> fld w (x ++ y) off = fld w y (off - zlen x).
Proof. intros; unfold fld. rewrite slice_app_r by lia. f_equal; f_equal; lia. Qed.

Lemma fld_app_l w (x y : list Z) off : 0 <= off -> off + w <= zlen x -> fld w (x ++ y) off = fld w x off.
Proof. intros; unfold fld. now rewrite slice_app_l by lia. Qed.

Lemma fld_here n w v (y : list Z) : Z.of_nat n = w -> 0 <= v < 256 ^ w -> fld w (le_bytes n v ++ y) 0 = v.
Proof.
  intros E H. rewrite fld_app_l by (rewrite ?le_bytes_len; lia). unfold fld.
  rewrite slice_full by (rewrite le_bytes_len; lia). rewrite le_val_le_bytes; subst w; auto.
Qed.

Lemma fld_zdrop w (v : list Z) p off : 0 <= p -> 0 <= off -> fld w (zdrop p v) off = fld w v (p + off).
Proof.
  intros. unfold fld, slice. rewrite zdrop_zdrop by lia. f_equal; f_equal; try lia; f_equal; lia.
Qed.

Lemma slice_zdrop {A} (v : list A) p a b : 0 <= p -> 0 <= a -> slice (zdrop p v) a b = slice v (p + a) (p + b).
Proof. intros. unfold slice. rewrite zdrop_zdrop by lia. f_equal; try lia; f_equal; lia. Qed.

Lemma unp_zdrop w (v : list Z) p off : 0 <= p -> 0 <= off -> unp w (zdrop p v) off = unp w v (p + off).
Proof.
  intros. unfold unp. rewrite slice_zdrop by lia. now replace (p + (off + w)) with (p + off + w) by lia.
Qed.

Lemma unp_short w (v : list Z) off : 0 <= off -> 0 < w -> zlen v < off + w -> unp w v off = Err StructError.
Proof.
  intros. destruct (unp w v off) as [x|e] eqn:E.
  - apply unp_inv in E; lia.
  - apply unp_err in E. now subst.
Qed.

Lemma zdrop_slice {A} (v : list A) p : zdrop p v = slice v p (zlen v + Z.max 0 p).
Proof.
  unfold slice. rewrite ztake_all; auto. rewrite zlen_zdrop. pose proof (zlen_nonneg v). lia.
Qed.

(** Skip over a prefix of known length. *)
Ltac lens := repeat (progress rewrite ?zlen_app, ?le_bytes_len, ?zlen_cons in * ); change (zlen (@nil Z)) with 0 in *.
Ltac skip := rewrite fld_app_r by (lens; lia); lens.

(** [fld w (seg1 ++ seg2 ++ ...) off = v] where the segment at [off] is
    [le_bytes n v]. *)
Ltac fget :=
  repeat rewrite fld_app_r by (lens; lia);
  match goal with |- fld _ _ ?o = _ => replace o with 0 by (lens; lia) end;
  apply fld_here; [reflexivity|lia].

Lemma land_pow2 f k : 0 <= k -> Z.land f (2 ^ k) = if Z.testbit f k then 2 ^ k else 0.
Proof.
  intro Hk. apply Z.bits_inj'. intros n Hn. rewrite Z.land_spec, Z.pow2_bits_eqb by lia.
  destruct (Z.eqb_spec k n) as [->|N].
  - destruct (Z.testbit f n) eqn:E; [now rewrite Z.pow2_bits_true by lia|now rewrite Z.bits_0].
  - destruct (Z.testbit f k); [rewrite Z.pow2_bits_false by lia|rewrite Z.bits_0]; apply andb_false_r.
Qed.

Lemma land_pow2_pos f k : 0 <= k -> (0 <? Z.land f (2 ^ k)) = Z.testbit f k.
Proof.
  intro Hk. rewrite land_pow2 by lia. pose proof (Z.pow_pos_nonneg 2 k).
  destruct (Z.testbit f k); [apply Z.ltb_lt; lia|reflexivity].
Qed.
