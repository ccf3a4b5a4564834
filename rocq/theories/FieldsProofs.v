(** Reading the fields of GUIDs, flags and indexes. *)
From Verif Require Import Base BaseLemmas FieldLemmas Layout FieldsSpec Frs Attributes MoveTable.

Lemma unp_s_zdrop w (v : list Z) p off : 0 <= p -> 0 <= off -> unp_s w (zdrop p v) off = unp_s w v (p + off).
Proof. intros. unfold unp_s. now rewrite unp_zdrop by lia. Qed.

Lemma land_low k f : 0 <= k -> Z.land f (2 ^ k - 1) = f mod 2 ^ k.
Proof. intros. replace (2 ^ k - 1) with (Z.ones k) by (rewrite Z.ones_equiv; lia). apply Z.land_ones. lia. Qed.

Lemma extra_flags_bits case folder trust two reserve more :
  0 <= case < 2 -> 0 <= folder < 8 -> 0 <= trust < 4 -> 0 <= two < 4 -> 0 <= reserve < 16 -> 0 <= more ->
  let f := extra_flags case folder trust two reserve more in
  Z.land f 1 = case /\ Z.land (Z.shiftr f 8) 15 = reserve /\ Z.shiftr (Z.land f 14) 1 = folder /\
  Z.shiftr (Z.land f 48) 4 = trust.
Proof.
  intros. unfold extra_flags in f. repeat split.
  - change 1 with (2 ^ 1 - 1). rewrite land_low by lia. change (2 ^ 1) with 2. unfold f. lia.
  - change 15 with (2 ^ 4 - 1). rewrite land_low, Z.shiftr_div_pow2 by lia. change (2 ^ 4) with 16. change (2 ^ 8) with 256. unfold f. lia.
  - rewrite Z.shiftr_land. change (Z.shiftr 14 1) with (2 ^ 3 - 1). rewrite land_low, Z.shiftr_div_pow2 by lia.
    change (2 ^ 3) with 8. change (2 ^ 1) with 2. unfold f. lia.
  - rewrite Z.shiftr_land. change (Z.shiftr 48 4) with (2 ^ 2 - 1). rewrite land_low, Z.shiftr_div_pow2 by lia.
    change (2 ^ 2) with 4. change (2 ^ 4) with 16. unfold f. lia.
Qed.

Lemma land_c0 v : 0 <= v < 256 -> Z.land v 0xC0 = 64 * (v / 64).
Proof.
  intro H.
  assert (F : forallb (fun v => Z.land v 0xC0 =? 64 * (v / 64)) (map Z.of_nat (seq 0 256)) = true) by reflexivity.
  rewrite forallb_forall in F. apply Z.eqb_eq, F, in_map_iff. exists (Z.to_nat v). rewrite in_seq. lia.
Qed.

Lemma guid_len low mid hi version variant node : parts_ok (guid_parts low mid hi version variant node) ->
  zlen (image (guid_parts low mid hi version variant node)) = 16.
Proof. intro H. rewrite image_len by exact H. reflexivity. Qed.

Lemma guid_fields low mid hi version variant node rest : 0 <= hi < 4096 ->
  parts_ok (guid_parts low mid hi version variant node) ->
  let g := image (guid_parts low mid hi version variant node) ++ rest in
  guid_time g = guid_time_of low mid hi /\ guid_version g = version /\
  (guid_rfc4122 g = true <-> 128 <= variant < 192).
Proof.
  intros Hh H. unfold guid_parts in *.
  assert (HL : 0 <= low < 2 ^ 32) by (inversion H as [|? ? P Q]; exact P).
  assert (HM : 0 <= mid < 2 ^ 16) by (inversion H as [|? ? ? Q]; inversion Q as [|? ? P ?]; exact P).
  assert (HV : 0 <= variant < 256)
    by (inversion H as [|? ? ? Q]; inversion Q as [|? ? ? R]; inversion R as [|? ? ? S]; inversion S as [|? ? P ?]; exact P).
  cbv zeta. unfold guid_time, guid_version, guid_rfc4122. repeat getp H. split; [|split].
  - change 4095 with (2 ^ 12 - 1). rewrite land_low by lia.
    replace ((version * 4096 + hi) mod 2 ^ 12) with hi by (change (2 ^ 12) with 4096; lia).
    assert (HM2 : 0 <= Z.shiftl mid 32 < 2 ^ 48) by (rewrite Z.shiftl_mul_pow2 by lia; lia).
    rewrite (lor_shiftl_add hi _ 48) by (lia || auto). rewrite Z.shiftl_mul_pow2 by lia.
    replace (hi * 2 ^ 48 + mid * 2 ^ 32) with (Z.shiftl (hi * 2 ^ 16 + mid) 32) by (rewrite Z.shiftl_mul_pow2 by lia; lia).
    rewrite lor_shiftl_add by lia. unfold guid_time_of. lia.
  - rewrite Z.shiftr_div_pow2 by lia. change (2 ^ 12) with 4096. lia.
  - rewrite land_c0 by auto. rewrite Z.eqb_eq. lia.
Qed.

Lemma until_null_app name junk : ~ In 0 name -> until_null (name ++ 0 :: junk) = name.
Proof.
  induction name as [|x t IH]; intro H; [reflexivity|]. cbn [app until_null].
  destruct (x =? 0) eqn:E; bools; [exfalso; apply H; left; auto|]. rewrite IH; auto. intro C. apply H. now right.
Qed.

Lemma until_null_full name : ~ In 0 name -> until_null name = name.
Proof.
  induction name as [|x t IH]; intro H; [reflexivity|]. cbn [until_null].
  destruct (x =? 0) eqn:E; bools; [exfalso; apply H; left; auto|]. rewrite IH; auto. intro C. apply H. now right.
Qed.
