(** Proofs about partition tables. *)
From Verif Require Import Base BaseLemmas FieldLemmas Utf16 MoveTableSpec Crc32 Crc32Proofs.
From Verif Require Import PartitionTable PartitionTableSpec.

Lemma znth_all {A} (a b : list A) : (forall i, znth a i = znth b i) -> a = b.
Proof.
  intro H. apply znth_ext; auto. pose proof (zlen_nonneg a). pose proof (zlen_nonneg b).
  destruct (Z.lt_trichotomy (zlen a) (zlen b)) as [L|[L|L]]; auto; exfalso.
  - destruct (znth_some b (zlen a) ltac:(lia)) as [x X]. rewrite <- H, znth_none in X by lia. discriminate.
  - destruct (znth_some a (zlen b) ltac:(lia)) as [x X]. rewrite H, znth_none in X by lia. discriminate.
Qed.

Lemma beq_eq a : forall b, beq a b = true <-> a = b.
Proof.
  induction a as [|x a IH]; intros [|y b]; cbn [beq]; try (split; congruence).
  rewrite andb_true_iff, Z.eqb_eq, IH. split; [intros [-> ->]|intro E; injection E]; auto.
Qed.

Lemma beq_false a b : beq a b = false <-> a <> b.
Proof. rewrite <- beq_eq. destruct (beq a b); split; congruence. Qed.

Lemma seek_read_spec vol off n : zlen vol < 2 ^ 63 -> 0 <= n ->
  match seek_read vol off n with
  | Ok l => 0 <= off /\ l = slice vol off (off + n)
  | Err e => (e = ValueError \/ e = OverflowError) /\ (off < 0 \/ zlen vol < off + n)
  end.
Proof.
  intros F Hn. unfold seek_read. destruct (off <? 0) eqn:E1; bools; [split; auto; lia|].
  destruct (2 ^ 63 <=? off) eqn:E2; bools; [split; auto; lia|].
  destruct (2 ^ 63 <=? n) eqn:E3; bools; split; auto; lia.
Qed.

(** [read] gave as much as it was asked for exactly when the bytes are there. *)
Lemma seek_read_full vol off n l : zlen vol < 2 ^ 63 -> 0 < n ->
  (seek_read vol off n = Ok l /\ zlen l = n) <-> bytes_at vol off n l.
Proof.
  intros F Hn. pose proof (seek_read_spec vol off n F ltac:(lia)) as S. unfold bytes_at. split.
  - intros [E L]. rewrite E in S. destruct S as [S1 ->]. rewrite zlen_slice in L by lia. repeat split; lia.
  - intros (H1 & H2 & ->). destruct (seek_read vol off n) as [l|e].
    + destruct S as [_ ->]. split; auto. rewrite zlen_slice by lia. lia.
    + lia.
Qed.

Lemma seek_read_full0 vol off n l : zlen vol < 2 ^ 63 -> 0 <= n -> off < zlen vol ->
  (seek_read vol off n = Ok l /\ zlen l = n) <-> bytes_at vol off n l.
Proof.
  intros F Hn Ho. pose proof (seek_read_spec vol off n F ltac:(lia)) as S. unfold bytes_at. split.
  - intros [E L]. rewrite E in S. destruct S as [S1 ->]. rewrite zlen_slice in L by lia. repeat split; lia.
  - intros (H1 & H2 & ->). destruct (seek_read vol off n) as [l|e].
    + destruct S as [_ ->]. split; auto. rewrite zlen_slice by lia. lia.
    + lia.
Qed.

Lemma zero_crc_eq buf : 20 <= zlen buf -> zero_crc buf = slice buf 0 16 ++ [0; 0; 0; 0] ++ slice buf 20 (zlen buf).
Proof.
  intro L. pose proof (zlen_nonneg buf) as P0. apply znth_all.
  assert (LL : zlen (slice buf 0 16 ++ [0; 0; 0; 0] ++ slice buf 20 (zlen buf)) = zlen buf).
  { rewrite !zlen_app, !zlen_slice by lia. change (zlen [0; 0; 0; 0]) with 4. lia. }
  unfold zero_crc. intros i. destruct (Z.lt_ge_cases i 0) as [N|N]; [now rewrite !znth_neg by lia|].
  assert (L16 : zlen (slice buf 0 16) = 16) by (rewrite zlen_slice by lia; lia).
  destruct (Z.lt_ge_cases i 16) as [A|A].
  { rewrite !znth_zset_other by lia. rewrite znth_app1 by lia. rewrite znth_slice by lia. f_equal; lia. }
  rewrite (znth_app2 (slice buf 0 16)) by lia. rewrite L16.
  destruct (Z.lt_ge_cases i 20) as [B|B].
  { rewrite znth_app1 by (change (zlen [0;0;0;0]) with 4; lia).
    assert (C : i = 16 \/ i = 17 \/ i = 18 \/ i = 19) by lia.
    destruct C as [-> | [-> | [-> | ->]]];
      repeat (rewrite znth_zset_other by lia); rewrite znth_zset_same; rewrite ?zlen_zset; try lia; reflexivity. }
  rewrite !znth_zset_other by lia. rewrite znth_app2 by (change (zlen [0;0;0;0]) with 4; lia).
  change (zlen [0;0;0;0]) with 4. destruct (Z.lt_ge_cases i (zlen buf)) as [C|C].
  - rewrite znth_slice by lia. f_equal; lia.
  - rewrite !znth_none; auto. rewrite zlen_slice by lia. lia.
Qed.

(** ** The header *)

Definition header_of (location : Z) (hdr : list Z) : gpt_header :=
  mk_gpt_header location (fld 8 hdr 40) (fld 8 hdr 48) (slice hdr 56 72) (fld 8 hdr 72) (fld 4 hdr 80) (fld 4 hdr 84) (fld 4 hdr 88).

Lemma first_usable ss : 0 < ss -> (2 * ss + 16384) / ss = 2 + 16384 / ss.
Proof. intro H. rewrite Z.add_comm, Z.div_add by lia. lia. Qed.

Ltac contra := let X := fresh in intro X; exfalso; destruct X; try lia; try congruence.

Lemma gpt_check_spec vol ss off loc hdr : zlen vol < 2 ^ 63 -> bytes_ok vol -> 512 <= ss -> bytes_at vol off ss hdr ->
  slice hdr 0 8 = efi_part ->
  match gpt_check vol ss off loc hdr with
  | Ok h => exists arr, gpt_valid vol ss off hdr arr /\ h = header_of loc hdr
  | Err e => (e = ValueError \/ e = OverflowError) /\ forall arr, ~ gpt_valid vol ss off hdr arr
  end.
Proof.
  intros F B Hs HB HS. unfold gpt_check. pose proof HB as (HB1 & HB2 & HB3).
  assert (LH : zlen hdr = ss) by (subst hdr; rewrite zlen_slice by lia; lia).
  assert (BH : bytes_ok hdr) by (subst hdr; now apply bytes_ok_slice).
  pose proof (fld_bound 4 hdr 80 ltac:(lia) ltac:(lia) BH) as P1.
  pose proof (fld_bound 4 hdr 84 ltac:(lia) ltac:(lia) BH) as P2.
  pose proof (fld_bound 8 hdr 72 ltac:(lia) ltac:(lia) BH) as P3.
  destruct (fld 4 hdr 8 =? 0) eqn:E1; bools; [split; auto; intro arr; contra|].
  destruct ((fld 4 hdr 12 <? 92) || (ss <? fld 4 hdr 12)) eqn:E2; bools; [split; auto; intro arr; contra|].
  assert (EC : zero_crc (slice hdr 0 (fld 4 hdr 12)) = slice hdr 0 16 ++ [0; 0; 0; 0] ++ slice hdr 20 (fld 4 hdr 12)).
  { rewrite zero_crc_eq by (rewrite zlen_slice by lia; lia).
    rewrite !slice_slice by lia. rewrite zlen_slice by lia. f_equal; [f_equal; lia|]. f_equal. f_equal; lia. }
  rewrite EC.
  destruct (crc32 _ =? fld 4 hdr 16) eqn:E3; bools; cbn [negb]; [|split; auto; intro arr; contra].
  destruct (fld 8 hdr 24 * ss =? off) eqn:E4; bools; cbn [negb]; [|split; auto; intro arr; contra].
  destruct ((fld 8 hdr 24 =? fld 8 hdr 32) || (fld 8 hdr 32 =? 0)) eqn:E5; bools; [split; auto; intro arr; contra|].
  rewrite first_usable by lia.
  destruct (fld 8 hdr 40 <? 2 + 16384 / ss) eqn:E6; bools; [split; auto; intro arr; contra|].
  destruct ((fld 8 hdr 72 <=? 1) || (zlen vol - ss <=? fld 8 hdr 72 * ss)) eqn:E7; bools; [split; auto; intro arr; contra|].
  destruct ((fld 4 hdr 84 <? 128) || negb (fld 4 hdr 84 mod 128 =? 0)) eqn:E8; bools.
  { split; auto. intros arr X. destruct (gv_entry_size _ _ _ _ _ X) as (k & K1 & K2). rewrite K2 in E8. lia. }
  assert (K : exists k, 1 <= k /\ fld 4 hdr 84 = 128 * k) by (exists (fld 4 hdr 84 / 128); lia).
  pose proof (seek_read_full0 vol (fld 8 hdr 72 * ss) (fld 4 hdr 80 * fld 4 hdr 84)) as SR.
  pose proof (seek_read_spec vol (fld 8 hdr 72 * ss) (fld 4 hdr 80 * fld 4 hdr 84) F ltac:(nia)) as SS.
  destruct (seek_read vol _ _) as [arr|e] eqn:E9; cbn [bind].
  2:{ destruct SS as [S1 S2]. split; auto. intros arr X. destruct (gv_array _ _ _ _ _ X) as (X1 & X2 & X3). lia. }
  specialize (SR arr F ltac:(nia) ltac:(lia)).
  destruct (zlen arr =? _) eqn:E10; bools; cbn [negb].
  2:{ split; auto. intros arr' X. destruct (gv_array _ _ _ _ _ X) as (X1 & X2 & X3).
      destruct SS as [S1 S2]. subst arr. apply E10. rewrite zlen_slice by lia. lia. }
  apply proj1 in SR. specialize (SR (conj eq_refl E10)).
  destruct (crc32 arr =? _) eqn:E11; bools; cbn [negb].
  - exists arr. split; [|reflexivity]. constructor; auto; try lia.
  - split; auto. intros arr' X. pose proof (gv_array_crc _ _ _ _ _ X) as XC.
    destruct (gv_array _ _ _ _ _ X) as (_ & _ & X3). destruct SR as (_ & _ & S3). congruence.
Qed.

Definition place (vol : list Z) (ss : Z) (w : gpt_where) : Z := fst (gpt_place vol ss w).
Definition location (w : gpt_where) : Z := match w with Primary => 0 | LastLba => 1 | AlternateLba _ => 2 end.

(** The alternate address remembered: that of any sector with the signature. *)
Definition remembered (vol : list Z) (ss off : Z) (before after : option Z) : Prop :=
  (exists hdr, bytes_at vol off ss hdr /\ slice hdr 0 8 = efi_part /\ after = Some (fld 8 hdr 32)) \/
  ((forall hdr, bytes_at vol off ss hdr -> slice hdr 0 8 <> efi_part) /\ after = before).

Lemma gpt_internal_spec vol ss w b : zlen vol < 2 ^ 63 -> bytes_ok vol -> 512 <= ss ->
  match fst (gpt_header_internal vol ss w b) with
  | Ok h => exists hdr arr, gpt_valid vol ss (place vol ss w) hdr arr /\ h = header_of (location w) hdr
  | Err e => (e = ValueError \/ e = OverflowError) /\ forall hdr arr, ~ gpt_valid vol ss (place vol ss w) hdr arr
  end /\ remembered vol ss (place vol ss w) b (snd (gpt_header_internal vol ss w b)).
Proof.
  intros F B Hs. unfold gpt_header_internal. unfold place.
  assert (EL : snd (gpt_place vol ss w) = location w) by (destruct w; reflexivity).
  destruct (gpt_place vol ss w) as [off loc]. cbn [fst snd] in EL |- *. subst loc.
  pose proof (seek_read_spec vol off ss F ltac:(lia)) as SS.
  assert (NB : forall hdr hdr', bytes_at vol off ss hdr -> bytes_at vol off ss hdr' -> hdr = hdr').
  { intros ? ? (_ & _ & ->) (_ & _ & ->). reflexivity. }
  destruct (seek_read vol off ss) as [buf|e] eqn:E.
  2:{ destruct SS as [S1 S2]. cbn [fst snd]. split; [split; auto|].
      - intros hdr arr X. destruct (gv_sector _ _ _ _ _ X) as (X1 & X2 & _). lia.
      - right. split; auto. intros hdr (X1 & X2 & _). lia. }
  destruct SS as [S1 S2].
  destruct (zlen buf =? ss) eqn:E1; bools; cbn [negb].
  2:{ cbn [fst snd]. subst buf. rewrite zlen_slice in E1 by lia. split; [split; auto|].
      - intros hdr arr X. destruct (gv_sector _ _ _ _ _ X) as (X1 & X2 & _). lia.
      - right. split; auto. intros hdr (X1 & X2 & _). lia. }
  assert (HB : bytes_at vol off ss buf).
  { subst buf. rewrite zlen_slice in E1 by lia. repeat split; lia. }
  destruct (beq (slice buf 0 8) efi_part) eqn:E2; cbn [negb].
  2:{ apply beq_false in E2. cbn [fst snd]. split; [split; auto|].
      - intros hdr arr X. pose proof (gv_sector _ _ _ _ _ X) as Y. rewrite (NB _ _ HB Y) in E2. apply E2. apply X.
      - right. split; auto. intros hdr Y. now rewrite <- (NB _ _ HB Y). }
  apply beq_eq in E2. cbn [fst snd]. split.
  - pose proof (gpt_check_spec vol ss off (location w) buf F B Hs HB E2) as C.
    destruct (gpt_check _ _ _ _ _) as [h|e].
    + destruct C as (arr & C1 & C2). eauto.
    + destruct C as (C1 & C2). split; auto. intros hdr arr X. pose proof (gv_sector _ _ _ _ _ X) as Y.
      rewrite <- (NB _ _ HB Y) in X. exact (C2 arr X).
  - left. eauto.
Qed.

Lemma gpt_valid_fun vol ss off hdr arr hdr' arr' : gpt_valid vol ss off hdr arr -> gpt_valid vol ss off hdr' arr' ->
  hdr = hdr' /\ arr = arr'.
Proof.
  intros X Y. destruct (gv_sector _ _ _ _ _ X) as (_ & _ & ->). destruct (gv_sector _ _ _ _ _ Y) as (_ & _ & ->).
  split; auto. destruct (gv_array _ _ _ _ _ X) as (_ & _ & ->). destruct (gv_array _ _ _ _ _ Y) as (_ & _ & ->). reflexivity.
Qed.

(** ** Corruption *)

Definition same_outside (a b : Z) (l m : list Z) : Prop :=
  zlen l = zlen m /\ forall i, ~ a <= i < b -> znth l i = znth m i.

Lemma same_slice a b l m x y : same_outside a b l m -> 0 <= x -> y <= a \/ b <= x -> slice l x y = slice m x y.
Proof.
  intros [L H] Hx Hy. apply znth_all. intro i. destruct (Z.lt_ge_cases i 0) as [N|N]; [now rewrite !znth_neg|].
  destruct (Z.lt_ge_cases i (y - x)) as [M|M].
  - rewrite !znth_slice by lia. apply H. lia.
  - rewrite !znth_none; auto; pose proof (zlen_nonneg m); pose proof (zlen_nonneg l);
    (destruct (Z.le_ge_cases x y); [rewrite zlen_slice by lia; lia|rewrite slice_empty by lia; change (zlen (@nil Z)) with 0; lia]).
Qed.

Lemma same_sub a b l m x y : same_outside a b l m -> 0 <= x -> same_outside (a - x) (b - x) (slice l x y) (slice m x y).
Proof.
  intros [L H] Hx. split.
  - destruct (Z.le_ge_cases x y); [rewrite !zlen_slice by lia; lia|rewrite !slice_empty by lia; reflexivity].
  - intros i Hi. destruct (Z.lt_ge_cases i 0) as [N|N]; [now rewrite !znth_neg|].
    destruct (Z.lt_ge_cases i (y - x)) as [M|M].
    + rewrite !znth_slice by lia. apply H. lia.
    + rewrite !znth_none; auto; pose proof (zlen_nonneg m); pose proof (zlen_nonneg l);
      (destruct (Z.le_ge_cases x y); [rewrite zlen_slice by lia; lia|rewrite slice_empty by lia; change (zlen (@nil Z)) with 0; lia]).
Qed.

Lemma same_wider a b a' b' l m : same_outside a b l m -> a' <= a -> b <= b' -> same_outside a' b' l m.
Proof. intros [L H] Ha Hb. split; auto. intros i Hi. apply H. lia. Qed.

(** Equal checksums of strings that differ at most in a window of four bytes. *)
Lemma crc_same l m a b : bytes_ok l -> bytes_ok m -> same_outside a b l m -> 0 <= a -> a <= b <= zlen l -> b - a <= 4 ->
  crc32 l = crc32 m -> l = m.
Proof.
  intros Bl Bm S Ha Hb H4 E. pose proof S as [L _].
  assert (D : forall k : list Z, zlen k = zlen l -> k = slice k 0 a ++ slice k a b ++ slice k b (zlen l)).
  { intros k K. rewrite <- (slice_split k a b (zlen l)) by lia. rewrite <- (slice_split k 0 a (zlen l)) by lia.
    symmetry. apply slice_full. lia. }
  rewrite (D l eq_refl), (D m (eq_sym L)) in E |- *.
  rewrite <- (same_slice a b l m 0 a S) in E |- * by lia.
  rewrite <- (same_slice a b l m b (zlen l) S) in E |- * by lia.
  apply crc32_window in E; auto using bytes_ok_slice; [now rewrite E| |]; rewrite !zlen_slice by lia; lia.
Qed.

Definition covered (hdr : list Z) : list Z := slice hdr 0 16 ++ [0; 0; 0; 0] ++ slice hdr 20 (fld 4 hdr 12).

Lemma covered_same a b hdr hdr' : same_outside a b hdr hdr' -> fld 4 hdr 12 = fld 4 hdr' 12 ->
  92 <= fld 4 hdr 12 <= zlen hdr -> same_outside a b (covered hdr) (covered hdr').
Proof.
  intros [L H] E R. unfold covered. rewrite <- E. set (n := fld 4 hdr 12) in *.
  assert (L1 : zlen (slice hdr 0 16) = 16) by (rewrite zlen_slice by lia; lia).
  assert (L2 : zlen (slice hdr' 0 16) = 16) by (rewrite zlen_slice by lia; lia).
  split.
  - rewrite !zlen_app, L1, L2, !zlen_slice by lia. lia.
  - intros i Hi. destruct (Z.lt_ge_cases i 0) as [N|N]; [now rewrite !znth_neg|].
    destruct (Z.lt_ge_cases i 16) as [A|A].
    { rewrite !znth_app1 by lia. rewrite !znth_slice by lia. apply H. lia. }
    rewrite (znth_app2 (slice hdr 0 16)), (znth_app2 (slice hdr' 0 16)), L1, L2 by lia.
    destruct (Z.lt_ge_cases i 20) as [C|C].
    { rewrite !znth_app1 by (change (zlen [0;0;0;0]) with 4; lia). reflexivity. }
    rewrite !(znth_app2 [0;0;0;0]) by (change (zlen [0;0;0;0]) with 4; lia). change (zlen [0;0;0;0]) with 4.
    destruct (Z.lt_ge_cases i n) as [D|D].
    + rewrite !znth_slice by lia. apply H. lia.
    + rewrite !znth_none; auto; rewrite zlen_slice by lia; lia.
Qed.

Lemma covered_inj hdr hdr' p : fld 4 hdr 12 = fld 4 hdr' 12 -> zlen hdr = zlen hdr' -> 92 <= fld 4 hdr 12 <= zlen hdr ->
  covered hdr = covered hdr' -> 0 <= p < fld 4 hdr 12 -> ~ 16 <= p < 20 -> znth hdr p = znth hdr' p.
Proof.
  intros E L R C Hp Hn. apply (f_equal (fun l => znth l p)) in C. unfold covered in C. rewrite <- E in C.
  set (n := fld 4 hdr 12) in *.
  assert (L1 : zlen (slice hdr 0 16) = 16) by (rewrite zlen_slice by lia; lia).
  assert (L2 : zlen (slice hdr' 0 16) = 16) by (rewrite zlen_slice by lia; lia).
  destruct (Z.lt_ge_cases p 16) as [A|A].
  { rewrite !znth_app1, !znth_slice in C by lia. exact C. }
  rewrite (znth_app2 (slice hdr 0 16)), (znth_app2 (slice hdr' 0 16)), L1, L2 in C by lia.
  rewrite !(znth_app2 [0;0;0;0]) in C by (change (zlen [0;0;0;0]) with 4; lia). change (zlen [0;0;0;0]) with 4 in C.
  rewrite !znth_slice in C by lia. replace (20 + (p - 16 - 4)) with p in C by lia. exact C.
Qed.

Lemma covered_ok hdr : bytes_ok hdr -> bytes_ok (covered hdr).
Proof.
  intro B. unfold covered. rewrite !bytes_ok_app. repeat split; try (now apply bytes_ok_slice).
  repeat (constructor; [unfold is_byte; lia|]). constructor.
Qed.

(** Two valid headers in the same place, different at most in a window of four
    bytes that leaves the size field alone and either is the checksum field or
    does not touch it, are the same as far as the size reaches. *)
Lemma gpt_window vol vol' ss off hdr arr hdr' arr' a : bytes_ok vol -> bytes_ok vol' ->
  gpt_valid vol ss off hdr arr -> gpt_valid vol' ss off hdr' arr' ->
  same_outside (off + a) (off + a + 4) vol vol' -> 0 <= a ->
  a + 4 <= 12 \/ a = 16 \/ 20 <= a -> a + 4 <= fld 4 hdr 12 -> vol = vol'.
Proof.
  intros B B' V V' S Ha Hw Hh. pose proof S as [L _].
  destruct (gv_sector _ _ _ _ _ V) as (O1 & O2 & O3). destruct (gv_sector _ _ _ _ _ V') as (_ & O2' & O3').
  pose proof (gv_size _ _ _ _ _ V) as Z1. pose proof (gv_crc _ _ _ _ _ V) as C1. pose proof (gv_crc _ _ _ _ _ V') as C2.
  assert (SH : same_outside a (a + 4) hdr hdr').
  { rewrite O3, O3'. pose proof (same_sub _ _ _ _ off (off + ss) S O1) as Q.
    replace (off + a - off) with a in Q by lia. replace (off + a + 4 - off) with (a + 4) in Q by lia. exact Q. }
  assert (LH : zlen hdr = ss) by (rewrite O3, zlen_slice by lia; lia).
  assert (LH' : zlen hdr' = ss) by (rewrite O3', zlen_slice by lia; lia).
  assert (BH : bytes_ok hdr) by (rewrite O3; now apply bytes_ok_slice).
  assert (BH' : bytes_ok hdr') by (rewrite O3'; now apply bytes_ok_slice).
  assert (EZ : fld 4 hdr 12 = fld 4 hdr' 12).
  { unfold fld. f_equal. apply (same_slice _ _ _ _ _ _ SH); lia. }
  fold (covered hdr) in C1. fold (covered hdr') in C2.
  assert (LC : zlen (covered hdr) = fld 4 hdr 12).
  { unfold covered. rewrite !zlen_app, !zlen_slice by lia. change (zlen [0;0;0;0]) with 4. lia. }
  assert (EH : forall i, a <= i < a + 4 -> znth hdr i = znth hdr' i).
  { destruct (Z.eq_dec a 16) as [-> | N16].
    - assert (EC : covered hdr = covered hdr').
      { unfold covered. rewrite <- EZ. rewrite (same_slice _ _ _ _ 0 16 SH), (same_slice _ _ _ _ 20 (fld 4 hdr 12) SH) by lia. reflexivity. }
      rewrite EC, C2 in C1. unfold fld in C1. apply le_val_inj in C1; auto using bytes_ok_slice.
      2:{ rewrite !zlen_slice by lia. lia. }
      intros i Hi. apply (f_equal (fun l => znth l (i - 16))) in C1. rewrite !znth_slice in C1 by lia.
      replace (16 + (i - 16)) with i in C1 by lia. auto.
    - assert (EF : fld 4 hdr 16 = fld 4 hdr' 16).
      { unfold fld. f_equal. apply (same_slice _ _ _ _ _ _ SH); lia. }
      rewrite <- EF, <- C1 in C2. symmetry in C2.
      apply (crc_same _ _ a (a + 4)) in C2; auto using covered_ok; try lia; [|apply covered_same; auto; lia].
      intros i Hi. apply (covered_inj hdr hdr'); auto; lia. }
  apply znth_all. intro i. destruct S as [_ S]. destruct (Z.lt_ge_cases i (off + a)) as [A|A]; [apply S; lia|].
  destruct (Z.lt_ge_cases i (off + a + 4)) as [A2|A2]; [|apply S; lia].
  specialize (EH (i - off) ltac:(lia)). rewrite O3, O3', !znth_slice in EH by lia. replace (off + (i - off)) with i in EH by lia. auto.
Qed.

(** ** Strict UTF-16 *)

Lemma utf16_strict_sound n : forall l s, (length l <= n)%nat -> bytes_ok l -> utf16_strict l = Some s ->
  Forall scalar s /\ l = utf16_encode s.
Proof.
  induction n as [|n IH]; intros l s Hn B E.
  { destruct l; [|cbn in Hn; lia]. injection E as <-. split; [constructor|reflexivity]. }
  destruct l as [|a [|b t]]; try discriminate.
  { injection E as <-. split; [constructor|reflexivity]. }
  inversion B as [|? ? Ba B1]; subst. inversion B1 as [|? ? Bb Bt]; subst. unfold is_byte in Ba, Bb. cbn [utf16_strict] in E.
  set (u := a + 256 * b) in *.
  assert (Eu : [a; b] = utf16_unit u) by (unfold utf16_unit; cbn [le_bytes]; unfold u; f_equal; [lia|f_equal; lia]).
  destruct ((55296 <=? u) && (u <=? 56319)) eqn:E1; bools.
  - destruct t as [|c [|d t']]; try discriminate.
    inversion Bt as [|? ? Bc B3]; subst. inversion B3 as [|? ? Bd Bt']; subst. unfold is_byte in Bc, Bd.
    set (v := c + 256 * d) in *.
    assert (Ev : [c; d] = utf16_unit v) by (unfold utf16_unit; cbn [le_bytes]; unfold v; f_equal; [lia|f_equal; lia]).
    destruct ((56320 <=? v) && (v <=? 57343)) eqn:E2; bools; try discriminate.
    destruct (utf16_strict t') as [s'|] eqn:Es; try discriminate. cbn [option_map] in E.
    apply (f_equal (fun o => match o with Some x => x | None => [] end)) in E. cbv beta iota in E. subst s.
    apply IH in Es as [I1 I2]; auto; [|cbn [length] in Hn; lia]. split.
    + constructor; auto. red. lia.
    + cbn [utf16_encode flat_map]. fold (utf16_encode s'). unfold utf16_char.
      replace (_ <? 65536) with false by lia.
      replace (55296 + (65536 + (u - 55296) * 1024 + (v - 56320) - 65536) / 1024) with u by lia.
      replace (56320 + (65536 + (u - 55296) * 1024 + (v - 56320) - 65536) mod 1024) with v by lia.
      rewrite <- Eu, <- Ev, <- I2. reflexivity.
  - destruct ((56320 <=? u) && (u <=? 57343)) eqn:E2; bools; try discriminate.
    destruct (utf16_strict t) as [s'|] eqn:Es; try discriminate. cbn [option_map] in E.
    apply (f_equal (fun o => match o with Some x => x | None => [] end)) in E. cbv beta iota in E. subst s.
    apply IH in Es as [I1 I2]; auto; [|cbn [length] in Hn; lia]. split.
    + constructor; auto. red. unfold u in *. lia.
    + cbn [utf16_encode flat_map]. fold (utf16_encode s'). unfold utf16_char.
      replace (u <? 65536) with true by (unfold u; lia). rewrite <- Eu, <- I2. reflexivity.
Qed.

Lemma utf16_strict_complete s : Forall scalar s -> utf16_strict (utf16_encode s) = Some s.
Proof.
  induction 1 as [|c s H Hs IH]; [reflexivity|].
  cbn [utf16_encode flat_map]. fold (utf16_encode s). unfold utf16_char, utf16_unit.
  destruct (c <? 65536) eqn:E; bools.
  - red in H. cbn [le_bytes app utf16_strict]. replace (c mod 256 + 256 * (c / 256 mod 256)) with c by lia.
    replace (_ && _) with false by lia. replace (_ && _) with false by lia. now rewrite IH.
  - set (u := 55296 + (c - 65536) / 1024). set (w := 56320 + (c - 65536) mod 1024).
    assert (Hu : 55296 <= u <= 56319) by (red in H; lia).
    assert (Hw : 56320 <= w <= 57343) by lia.
    assert (Ec : 65536 + (u - 55296) * 1024 + (w - 56320) = c) by (unfold u, w; lia).
    clearbody u w. cbn [le_bytes app utf16_strict].
    replace (u mod 256 + 256 * (u / 256 mod 256)) with u by lia.
    replace (w mod 256 + 256 * (w / 256 mod 256)) with w by lia.
    replace (_ && _) with true by lia. replace (_ && _) with true by lia. rewrite IH. cbn [option_map]. now rewrite Ec.
Qed.

Lemma cut_nul_spec s : exists t, s = cut_nul s ++ t /\ ~ In 0 (cut_nul s) /\ (t = [] \/ hd 1 t = 0).
Proof.
  induction s as [|c s (t & E & N & T)]; [exists []; repeat split; auto|]. cbn [cut_nul].
  destruct (c =? 0) eqn:Ec; bools.
  - subst c. exists (0 :: s). repeat split; auto.
  - exists t. cbn [app]. rewrite <- E. repeat split; auto. intros [X|X]; auto.
Qed.

Lemma gpt_name_spec raw : bytes_ok raw -> name_of raw (gpt_name raw).
Proof.
  intro B. unfold gpt_name, name_of. destruct (utf16_strict raw) as [s|] eqn:E.
  - left. apply (utf16_strict_sound (length raw)) in E as [E1 E2]; auto.
    destruct (cut_nul_spec s) as (t & T1 & T2 & T3). exists t. rewrite <- T1. auto.
  - right. split; auto. intros t Ht ->. rewrite utf16_strict_complete in E by auto. discriminate.
Qed.

(** ** Enumeration *)

Lemma zeros16 l : zlen l = 16 -> (beq l (zeros 16) = forallb (Z.eqb 0) l).
Proof.
  intro L. change (zeros 16) with (repeat 0 16).
  assert (G : forall n l, zlen l = Z.of_nat n -> beq l (repeat 0 n) = forallb (Z.eqb 0) l).
  { clear. induction n as [|n IH]; intros [|x l] L; cbn [beq repeat forallb]; auto.
    - rewrite zlen_cons in L. pose proof (zlen_nonneg l). lia.
    - change (zlen (@nil Z)) with 0 in L. lia.
    - rewrite zlen_cons in L. rewrite IH by lia. rewrite (Z.eqb_sym x). reflexivity. }
  apply (G 16%nat). lia.
Qed.

Definition partition_of (e : list Z) (p : gpt_partition) : Prop :=
  gp_type p = slice e 0 16 /\ gp_unique p = slice e 16 32 /\ gp_start p = fld 8 e 32 /\ gp_end p = fld 8 e 40 /\
  gp_attr p = fld 8 e 48 /\ name_of (slice e 56 128) (gp_name p).

Lemma gpt_entries_spec arr count size : bytes_ok arr -> 128 <= size -> count * size <= zlen arr ->
  forall n fuel i, (n < fuel)%nat -> 0 <= i -> count = i + Z.of_nat n ->
  exists ps, gpt_entries fuel arr count size i = Ok ps /\
    Forall2 partition_of (filter slot_used (map (gpt_slot arr size) (zseq i n))) ps.
Proof.
  intros B Hs HL. induction n as [|n IH]; intros [|fuel] i Hf Hi Hc; try lia; cbn [gpt_entries zseq map filter].
  - replace (i <? count) with false by lia. exists []. split; [reflexivity|constructor].
  - replace (i <? count) with true by lia. cbn [negb]. unfold gpt_slot at 1 2. set (e := slice arr (i * size) (i * size + 128)).
    assert (LE : zlen e = 128) by (unfold e; rewrite zlen_slice by nia; nia).
    assert (BE : bytes_ok e) by (now apply bytes_ok_slice).
    rewrite LE. cbn [Z.eqb Pos.eqb negb].
    destruct (IH fuel (i + 1) ltac:(lia) ltac:(lia) ltac:(lia)) as (ps & P1 & P2).
    unfold slot_used at 1. rewrite zeros16 by (rewrite zlen_slice by lia; lia).
    destruct (forallb (Z.eqb 0) (slice e 0 16)); cbn [negb].
    + eauto.
    + rewrite P1. cbn [bind]. eexists. split; [reflexivity|]. constructor; auto.
      repeat split; try reflexivity. apply gpt_name_spec. now apply bytes_ok_slice.
Qed.

Lemma read_gpt_partitions_spec vol ss off hdr arr : zlen vol < 2 ^ 63 -> bytes_ok vol -> 512 <= ss ->
  gpt_valid vol ss off hdr arr ->
  exists ps, read_gpt_partitions vol ss (fld 8 hdr 72) (fld 4 hdr 80) (fld 4 hdr 84) (fld 4 hdr 88) = Ok ps /\
    Forall2 partition_of (filter slot_used (map (gpt_slot arr (fld 4 hdr 84)) (zseq 0 (Z.to_nat (fld 4 hdr 80))))) ps.
Proof.
  intros F B Hs V. unfold read_gpt_partitions.
  pose proof (gv_sector _ _ _ _ _ V) as (H1 & H2 & H3).
  assert (BH : bytes_ok hdr) by (rewrite H3; now apply bytes_ok_slice).
  pose proof (fld_bound 4 hdr 80 ltac:(lia) ltac:(lia) BH) as P1.
  destruct (fld 4 hdr 80 =? 0) eqn:E0; bools.
  { rewrite E0. exists []. split; [reflexivity|constructor]. }
  destruct (gv_array_lba _ _ _ _ _ V) as [A1 A2]. destruct (gv_entry_size _ _ _ _ _ V) as (k & K1 & K2).
  replace ((fld 8 hdr 72 <=? 1) || (zlen vol - ss <=? fld 8 hdr 72 * ss)) with false by lia.
  replace ((fld 4 hdr 84 <? 128) || negb (fld 4 hdr 84 mod 128 =? 0)) with false by lia.
  pose proof (gv_array _ _ _ _ _ V) as VA.
  apply (seek_read_full0 vol (fld 8 hdr 72 * ss) (fld 4 hdr 80 * fld 4 hdr 84) arr F ltac:(nia) ltac:(lia)) in VA as [-> V2]. cbn [bind].
  replace (zlen arr =? _) with true by lia. cbn [negb].
  rewrite (gv_array_crc _ _ _ _ _ V). rewrite Z.eqb_refl. cbn [negb].
  destruct (gv_array _ _ _ _ _ V) as (_ & _ & V3).
  apply gpt_entries_spec; try lia; try nia.
  - rewrite V3. now apply bytes_ok_slice.
  - unfold zlen in V2. assert (fld 4 hdr 80 <= fld 4 hdr 80 * fld 4 hdr 84) by nia. lia.
Qed.

(** ** MBR *)

Definition mbr_partition_of (e : list Z) : mbr_partition :=
  mk_mbr_partition (fld 1 e 0) (slice e 1 4) (slot_type e) (slice e 5 8) (slot_start e) (slot_sectors e).

Lemma fld_sub w (d : list Z) a b off : 0 <= a -> 0 <= off -> a + off + w <= b -> fld w (slice d a b) off = fld w d (a + off).
Proof.
  intros. unfold fld. rewrite slice_slice by lia. do 2 f_equal; lia.
Qed.

Lemma mbr_entry_slot sec off : 0 <= off -> mbr_entry sec off = mbr_partition_of (slice sec off (off + 16)).
Proof.
  intro H. unfold mbr_entry, mbr_partition_of, slot_type, slot_start, slot_sectors.
  rewrite !fld_sub by lia. rewrite !slice_slice by lia. repeat (f_equal; try lia).
Qed.

Lemma mbr_loop_spec sec : mbr_loop 4 sec 0 =
  map mbr_partition_of (filter (fun e => negb (slot_type e =? 0)) (mbr_slots sec)).
Proof.
  unfold mbr_slots. cbn [mbr_loop map filter].
  rewrite !mbr_entry_slot by lia. cbn [mp_type mbr_partition_of].
  change (446 + 0 * 16) with 446. change (446 + (0 + 1) * 16) with 462. change (446 + (0 + 1 + 1) * 16) with 478. change (446 + (0 + 1 + 1 + 1) * 16) with 494.
  change (446 + 16 * 0) with 446. change (446 + 16 * 1) with 462. change (446 + 16 * 2) with 478. change (446 + 16 * 3) with 494.
  change (462 + 16 * 0) with (446 + 16). change (462 + 16 * 1) with (462 + 16). change (462 + 16 * 2) with (478 + 16). change (462 + 16 * 3) with (494 + 16).
  repeat match goal with |- context [if ?b =? 0 then _ else _] => destruct (b =? 0); cbn [negb map] end; reflexivity.
Qed.

Lemma read_mbr_partitions_spec vol : read_mbr_partitions vol =
  if 512 <=? zlen vol then Ok (map mbr_partition_of (filter (fun e => negb (slot_type e =? 0)) (mbr_slots (slice vol 0 512))))
  else Err ValueError.
Proof.
  unfold read_mbr_partitions, seek_read. cbn [Z.ltb Z.compare bind Z.add].
  change (2 ^ 63 <=? 0) with false. change (2 ^ 63 <=? 512) with false. cbn [bind].
  rewrite zlen_slice by lia. pose proof (zlen_nonneg vol). rewrite mbr_loop_spec.
  destruct (512 <=? zlen vol) eqn:E; bools.
  - replace (_ =? 512) with true by lia. reflexivity.
  - replace (_ =? 512) with false by lia. reflexivity.
Qed.

(** ** EBR *)

Definition ebr_tuple (p : ebr_partition) : Z * Z * Z * Z := (ep_boot p, ep_type p, ep_start p, ep_size p).

Lemma read_ebr_spec vol ss lba : zlen vol < 2 ^ 63 -> 0 <= lba -> 0 <= ss -> lba * ss < 2 ^ 63 ->
  match read_ebr vol ss lba with
  | Ok None => forall sec, ~ ebr_sector vol ss lba sec
  | Ok (Some (p, next)) => exists sec, ebr_sector vol ss lba sec /\ next = fld 4 sec 470 /\
      ebr_tuple p = (fld 1 sec 446, fld 1 sec 450, lba + fld 4 sec 454, fld 4 sec 458)
  | Err _ => False
  end.
Proof.
  intros F H1 H2 H3. unfold read_ebr, seek_read.
  replace (lba * ss <? 0) with false by nia. replace (2 ^ 63 <=? lba * ss) with false by lia.
  change (2 ^ 63 <=? 512) with false. cbn [bind]. pose proof (zlen_nonneg vol) as P0.
  destruct (zlen _ =? 512) eqn:E; bools; cbn [negb].
  2:{ intros sec ((X1 & X2 & _) & _). rewrite zlen_slice in E by lia. lia. }
  rewrite zlen_slice in E by lia.
  destruct (fld 2 _ 510 =? 43605) eqn:E2; bools; cbn [negb].
  2:{ intros sec ((X1 & X2 & ->) & X3). auto. }
  eexists. split; [split; [|exact E2]|].
  - repeat split; lia.
  - split; reflexivity.
Qed.

Lemma ebr_sector_fun vol ss lba s t : ebr_sector vol ss lba s -> ebr_sector vol ss lba t -> s = t.
Proof. intros [(_ & _ & ->) _] [(_ & _ & ->) _]. reflexivity. Qed.

Lemma logicals_one vol ss lba p sec : ebr_sector vol ss lba sec ->
  ebr_tuple p = (fld 1 sec 446, fld 1 sec 450, lba + fld 4 sec 454, fld 4 sec 458) ->
  forall vis ps, logicals vol ss vis ps ->
  logicals vol ss (lba :: vis) (map ebr_tuple (if ep_type p =? 0 then [] else [p]) ++ ps).
Proof.
  intros S E vis ps L. destruct p as [pb pt ps' pz]. cbn [ebr_tuple ep_boot ep_type ep_start ep_size] in *.
  injection E as -> -> -> ->. destruct (fld 1 sec 450 =? 0) eqn:Z0; bools; cbn [map app].
  - apply lg_no; auto. intros q (sec' & S' & N & _). rewrite (ebr_sector_fun _ _ _ _ _ S S') in Z0. auto.
  - apply lg_yes; auto. exists sec. repeat split; auto; apply S.
Qed.

Lemma chain_fun vol ss first seen rel v : chain_visits vol ss first seen rel v ->
  forall w, chain_visits vol ss first seen rel w -> v = w.
Proof.
  assert (LF : forall lba a b, ebr_link vol ss lba a -> ebr_link vol ss lba b -> a = b).
  { intros lba a b (s & S & ->) (t & T & ->). now rewrite (ebr_sector_fun _ _ _ _ _ S T). }
  induction 1 as [seen rel H|seen rel H1 H2|seen rel H1 H2|seen rel next vis H1 H2 H3 H4 IH]; intros w W;
    inversion W; subst; try tauto; auto.
  - destruct H0 as (s & S & _). exfalso. eapply H2; eauto.
  - exfalso. apply H3. eapply LF; eauto.
  - destruct H2 as (s & S & _). exfalso. eapply H0; eauto.
  - exfalso. apply H3. eapply LF; eauto.
  - f_equal. apply IH. assert (next = next0) by (eapply LF; eauto). now subst.
Qed.

Lemma chains_fun vol ss seen fs v : chains_visit vol ss seen fs v -> forall w, chains_visit vol ss seen fs w -> v = w.
Proof.
  induction 1 as [|seen f fs v w H1 H2 IH]; intros x X; inversion X; subst; auto.
  assert (v = v0) by (eapply chain_fun; eauto). subst. f_equal. now apply IH.
Qed.

Lemma logicals_fun vol ss vis p : logicals vol ss vis p -> forall q, logicals vol ss vis q -> p = q.
Proof.
  induction 1 as [|lba vis p ps H1 H2 IH|lba vis ps H1 H2 IH]; intros q Q; inversion Q; subst; auto.
  - f_equal; auto. destruct H1 as (s & S & _ & ->). destruct H3 as (t & T & _ & ->). now rewrite (ebr_sector_fun _ _ _ _ _ S T).
  - exfalso. eapply H3; eauto.
  - exfalso. eapply H1; eauto.
Qed.

Lemma logicals_app vol ss v p : logicals vol ss v p -> forall w q, logicals vol ss w q -> logicals vol ss (v ++ w) (p ++ q).
Proof. induction 1; intros w q Q; cbn [app]; auto; constructor; auto. Qed.

Lemma ebr_loop_spec vol ss first : bytes_ok vol -> zlen vol < 2 ^ 63 -> 512 <= ss < 2 ^ 30 -> 0 <= first < 2 ^ 32 ->
  forall fuel loc track rel, 0 <= rel < 2 ^ 32 -> NoDup loc -> incl loc track ->
  Forall (fun k => 0 <= k < zlen vol + 1) loc -> (Z.to_nat (zlen vol + 1) < fuel + length loc)%nat ->
  exists vis ps, ebr_loop fuel vol ss first rel track = Ok (ps, rev vis ++ track) /\
    chain_visits vol ss first track rel vis /\ logicals vol ss vis (map ebr_tuple ps).
Proof.
  intros B F Hs Hf. induction fuel as [|fuel IH]; intros loc track rel Hr ND IN FA HF.
  { exfalso. assert (length loc <= Z.to_nat (zlen vol + 1))%nat; [|lia].
    rewrite <- (seq_length (Z.to_nat (zlen vol + 1)) 0), <- (map_length Z.of_nat).
    apply NoDup_incl_length; auto. intros k Hk. rewrite Forall_forall in FA. specialize (FA k Hk).
    apply in_map_iff. exists (Z.to_nat k). split; [lia|]. apply in_seq; lia. }
  cbn [ebr_loop]. destruct (zin (first + rel) track) eqn:E.
  { apply zin_In in E. exists [], []. repeat split; [now constructor|constructor]. }
  apply zin_false in E.
  pose proof (read_ebr_spec vol ss (first + rel) F ltac:(lia) ltac:(lia) ltac:(nia)) as R.
  destruct (read_ebr vol ss (first + rel)) as [[[p next]|]|]; [| |tauto]; cbn [bind].
  2:{ exists [first + rel], []. repeat split; [now apply cv_unreadable|].
      apply lg_no; [|constructor]. intros q (s & S & _). exact (R s S). }
  destruct R as (sec & S1 & S2 & S3).
  assert (BS : bytes_ok sec) by (destruct S1 as [(_ & _ & ->) _]; now apply bytes_ok_slice).
  pose proof (fld_bound 4 sec 470 ltac:(lia) ltac:(lia) BS) as NB. rewrite <- S2 in NB. change (256 ^ 4) with (2 ^ 32) in NB.
  destruct (next =? 0) eqn:EN; bools.
  - exists [first + rel], (if ep_type p =? 0 then [] else [p]). repeat split.
    + apply cv_last; auto. exists sec. split; auto. congruence.
    + pose proof (logicals_one vol ss _ p sec S1 S3 [] [] (lg_nil _ _)) as L. now rewrite app_nil_r in L.
  - destruct (IH ((first + rel) :: loc) ((first + rel) :: track) next) as (vis & ps & I1 & I2 & I3).
    + lia.
    + constructor; auto.
    + intros x [->|X]; [now left|right; auto].
    + constructor; auto. destruct S1 as [(X1 & X2 & _) _]. nia.
    + cbn [length]. lia.
    + rewrite I1. cbn [bind fst snd]. exists ((first + rel) :: vis), ((if ep_type p =? 0 then [] else [p]) ++ ps). repeat split.
      * do 2 f_equal. cbn [rev]. now rewrite <- app_assoc.
      * eapply cv_next; eauto. exists sec. auto.
      * rewrite map_app. apply (logicals_one vol ss _ p sec); auto.
Qed.

Definition ext (p : mbr_partition) : bool := is_extended (mp_type p).

Lemma ebr_parts_spec vol ss : bytes_ok vol -> zlen vol < 2 ^ 63 -> 512 <= ss < 2 ^ 30 ->
  forall parts results track seen, Forall (fun p => 0 <= mp_start p < 2 ^ 32) parts ->
  (forall x, In x track <-> In x seen) ->
  let firsts := map mp_start (filter ext parts) in
  if zin 0 firsts then ebr_parts (S (S (length vol))) vol ss parts results track = Ok []
  else exists vis ps, ebr_parts (S (S (length vol))) vol ss parts results track = Ok (results ++ ps) /\
    chains_visit vol ss seen firsts vis /\ logicals vol ss vis (map ebr_tuple ps).
Proof.
  intros B F Hs. 
  assert (MONO : forall f a rel v, chain_visits vol ss f a rel v -> forall b, (forall x, In x a <-> In x b) -> chain_visits vol ss f b rel v).
  { induction 1 as [seen rel H|seen rel H1 H2|seen rel H1 H2|seen rel next vis H1 H2 H3 H4 IH]; intros b Hb.
    - apply cv_seen. now apply Hb.
    - apply cv_unreadable; auto. rewrite <- Hb; auto.
    - apply cv_last; auto. rewrite <- Hb; auto.
    - eapply cv_next; eauto; [rewrite <- Hb; auto|]. apply IH. intro x. cbn [In]. rewrite Hb. tauto. }
  induction parts as [|p parts IH]; intros results track seen FA HT; cbn [filter map].
  { cbn [zin existsb]. exists [], []. rewrite app_nil_r. repeat split; constructor. }
  inversion FA as [|? ? Fp FP]; subst. cbn [ebr_parts]. cbv zeta in *. change (is_extended (mp_type p)) with (ext p).
  destruct (ext p) eqn:EX; cbn [negb]; [|apply IH; auto].
  cbn [map]. cbn [zin existsb]. destruct (mp_start p =? 0) eqn:E0; bools.
  { rewrite E0. reflexivity. }
  replace (0 =? mp_start p) with false by lia. cbn [orb].
  destruct (ebr_loop_spec vol ss (mp_start p) B F Hs Fp (S (S (length vol))) [] track 0) as (v & qs & L1 & L2 & L3); try lia.
  { constructor. } { intros x []. } { constructor. } { cbn [length]. unfold zlen. lia. }
  rewrite L1. cbn [bind fst snd].
  specialize (IH (results ++ qs) (rev v ++ track) (v ++ seen) FP).
  assert (HT' : forall x, In x (rev v ++ track) <-> In x (v ++ seen)).
  { intro x. rewrite !in_app_iff, <- in_rev, HT. tauto. }
  specialize (IH HT'). cbv zeta in IH. fold (zin 0 (map mp_start (filter ext parts))).
  destruct (zin 0 (map mp_start (filter ext parts))); auto.
  destruct IH as (vis & ps & I1 & I2 & I3). exists (v ++ vis), (qs ++ ps). rewrite I1, app_assoc. repeat split.
  - constructor; auto. eapply MONO; eauto.
  - rewrite map_app. now apply logicals_app.
Qed.

Lemma filter_filter {A} (f g : A -> bool) l : filter f (filter g l) = filter (fun x => g x && f x) l.
Proof.
  induction l as [|x l IH]; auto. cbn [filter]. destruct (g x); cbn [filter andb]; [|auto]. destruct (f x); now rewrite IH.
Qed.

Lemma filter_map {A B} (f : A -> B) (g : B -> bool) l : filter g (map f l) = map f (filter (fun x => g (f x)) l).
Proof. induction l as [|x l IH]; auto. cbn [filter map]. destruct (g (f x)); cbn [map]; now rewrite IH. Qed.

Lemma extended_starts_eq vol : map mp_start (filter ext (map mbr_partition_of (filter (fun e => negb (slot_type e =? 0)) (mbr_slots (slice vol 0 512))))) =
  extended_starts vol.
Proof.
  unfold extended_starts. rewrite filter_map, map_map, filter_filter. cbn [mp_start mbr_partition_of]. f_equal.
  apply filter_ext. intro e. unfold ext, is_extended. cbn [mp_type mbr_partition_of]. lia.
Qed.

Lemma read_ebr_partitions_spec vol ss : bytes_ok vol -> zlen vol < 2 ^ 63 -> 512 <= ss < 2 ^ 30 -> 512 <= zlen vol ->
  if zin 0 (extended_starts vol) then read_ebr_partitions vol ss = Ok []
  else exists vis ps, read_ebr_partitions vol ss = Ok ps /\
    chains_visit vol ss [] (extended_starts vol) vis /\ logicals vol ss vis (map ebr_tuple ps).
Proof.
  intros B F Hs HL. unfold read_ebr_partitions. rewrite read_mbr_partitions_spec.
  replace (512 <=? zlen vol) with true by lia. cbn [bind].
  set (parts := map mbr_partition_of _).
  pose proof (ebr_parts_spec vol ss B F Hs parts [] [] []) as P.
  assert (FA : Forall (fun p => 0 <= mp_start p < 2 ^ 32) parts).
  { unfold parts. apply Forall_forall. intros p Hp. apply in_map_iff in Hp as (e & <- & He). apply filter_In in He as [He _].
    cbn [mp_start mbr_partition_of]. unfold slot_start. apply (fld_bound 4 e 8); try lia.
    unfold mbr_slots in He. apply in_map_iff in He as (i & <- & _). apply bytes_ok_slice. now apply bytes_ok_slice. }
  specialize (P FA (fun x => iff_refl _)). cbv zeta in P.
  assert (EQ : map mp_start (filter ext parts) = extended_starts vol) by apply extended_starts_eq. rewrite EQ in P.
  destruct (zin 0 (extended_starts vol)); auto.
Qed.

(** Sectors visited are visited once. *)
Lemma chain_nodup vol ss f seen rel v : chain_visits vol ss f seen rel v -> NoDup v /\ forall x, In x v -> ~ In x seen.
Proof.
  induction 1 as [seen rel H|seen rel H1 H2|seen rel H1 H2|seen rel next vis H1 H2 H3 H4 [I1 I2]].
  - split; [constructor|intros x []].
  - split; [constructor; auto; constructor|intros x [<-|[]]; auto].
  - split; [constructor; auto; constructor|intros x [<-|[]]; auto].
  - split.
    + constructor; auto. intro X. apply (I2 _ X). now left.
    + intros x [<-|X]; auto. intro Y. apply (I2 _ X). now right.
Qed.

Lemma chains_nodup vol ss seen fs v : chains_visit vol ss seen fs v -> NoDup v /\ forall x, In x v -> ~ In x seen.
Proof.
  induction 1 as [|seen f fs v w H1 H2 [I1 I2]]; [split; [constructor|intros x []]|].
  destruct (chain_nodup _ _ _ _ _ _ H1) as [J1 J2]. split.
  - revert J1 I2. clear - I1. intros J1 I2. induction v as [|x v IH]; auto. inversion J1; subst. cbn [app]. constructor.
    + rewrite in_app_iff. intros [X|X]; auto. apply (I2 _ X). now left.
    + apply IH; auto. intros y Y Z. apply (I2 _ Y). now right.
  - intros x X. apply in_app_iff in X as [X|X]; auto. intro Y. apply (I2 _ X). rewrite in_app_iff. auto.
Qed.
