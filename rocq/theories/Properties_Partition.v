(** Properties of partition tables (C48, C49, C50). *)
From Verif Require Import Base BaseLemmas FieldLemmas Utf16 MoveTableSpec Crc32 Crc32Proofs.
From Verif Require Import PartitionTable PartitionTableSpec PartitionTableProofs.

(** ** C49: GPT headers *)

(** A header is returned exactly when the copy in that place is valid. *)
Theorem C49_accepted_iff_valid vol ss w b h : zlen vol < 2 ^ 63 -> bytes_ok vol -> 512 <= ss ->
  fst (gpt_header_internal vol ss w b) = Ok h <->
  exists hdr arr, gpt_valid vol ss (place vol ss w) hdr arr /\
    h = mk_gpt_header (location w) (fld 8 hdr 40) (fld 8 hdr 48) (slice hdr 56 72) (fld 8 hdr 72) (fld 4 hdr 80) (fld 4 hdr 84) (fld 4 hdr 88).
Proof.
  intros F B Hs. destruct (gpt_internal_spec vol ss w b F B Hs) as [S _].
  destruct (fst (gpt_header_internal vol ss w b)) as [h'|e].
  - destruct S as (hdr & arr & V & ->). split.
    + intro E. injection E as <-. exists hdr, arr. split; [exact V|reflexivity].
    + intros (hdr' & arr' & V' & ->). destruct (gpt_valid_fun _ _ _ _ _ _ _ V V') as [-> _]. reflexivity.
  - destruct S as [_ S]. split; [discriminate|]. intros (hdr & arr & V & _). exfalso. exact (S _ _ V).
Qed.

(** Anything else is refused with one of the two exceptions the caller handles. *)
Theorem C49_refusals vol ss w b e : zlen vol < 2 ^ 63 -> bytes_ok vol -> 512 <= ss ->
  fst (gpt_header_internal vol ss w b) = Err e -> e = ValueError \/ e = OverflowError.
Proof.
  intros F B Hs E. destruct (gpt_internal_spec vol ss w b F B Hs) as [S _]. rewrite E in S. apply S.
Qed.

(** The copies are tried in order: the primary; the alternate named by a primary
    sector with the signature; the last sector. *)
Definition candidate (vol : list Z) (ss : Z) (c : option Z) : Prop :=
  remembered vol ss ss None c.

Definition found (vol : list Z) (ss off : Z) (loc : Z) (h : gpt_header) : Prop :=
  exists hdr arr, gpt_valid vol ss off hdr arr /\ h = header_of loc hdr.

Definition absent (vol : list Z) (ss off : Z) : Prop := forall hdr arr, ~ gpt_valid vol ss off hdr arr.

Theorem C49_fallback vol ss h : zlen vol < 2 ^ 63 -> bytes_ok vol -> 512 <= ss ->
  fst (read_gpt_header vol ss None) = Ok h <->
  found vol ss ss 0 h \/
  (absent vol ss ss /\ exists lba, candidate vol ss (Some lba) /\ found vol ss (lba * ss) 2 h) \/
  (absent vol ss ss /\ (forall lba, candidate vol ss (Some lba) -> absent vol ss (lba * ss)) /\
   found vol ss (zlen vol - ss) 1 h).
Proof.
  intros F B Hs. unfold read_gpt_header.
  assert (CF : forall a b, candidate vol ss a -> candidate vol ss b -> a = b).
  { intros a b [(x & X1 & X2 & ->)|(X1 & ->)] [(y & Y1 & Y2 & ->)|(Y1 & ->)]; auto.
    - destruct X1 as (_ & _ & ->). destruct Y1 as (_ & _ & ->). reflexivity.
    - exfalso. exact (Y1 _ X1 X2).
    - exfalso. exact (X1 _ Y1 Y2). }
  assert (CA : forall e, e = ValueError \/ e = OverflowError -> gpt_caught e = true) by (intros e [-> | ->]; reflexivity).
  assert (FF : forall off loc h h', found vol ss off loc h -> found vol ss off loc h' -> h = h').
  { intros off loc x y (h1 & a1 & V1 & ->) (h2 & a2 & V2 & ->). now destruct (gpt_valid_fun _ _ _ _ _ _ _ V1 V2) as [-> _]. }
  assert (FA : forall off loc h, found vol ss off loc h -> absent vol ss off -> False).
  { intros off loc x (h1 & a1 & V1 & _) A. exact (A _ _ V1). }
  destruct (gpt_internal_spec vol ss Primary None F B Hs) as [S R].
  destruct (gpt_header_internal vol ss Primary None) as [[h0|e0] c]; cbn [fst snd] in *.
  { fold (found vol ss (place vol ss Primary) (location Primary) h0) in S. change (place vol ss Primary) with ss in *. cbn [location] in S. split.
    - intro E. injection E as <-. auto.
    - intros [X|[[X _]|[X _]]]; [|exfalso; eauto|exfalso; eauto]. f_equal. eauto. }
  destruct S as [S1 S2]. rewrite CA by auto. change (place vol ss Primary) with ss in *. fold (absent vol ss ss) in S2.
  assert (LAST : forall b, fst (gpt_header_internal vol ss LastLba b) = Ok h <-> found vol ss (zlen vol - ss) 1 h).
  { intro b. rewrite C49_accepted_iff_valid by auto. reflexivity. }
  destruct c as [lba|].
  - destruct (gpt_internal_spec vol ss (AlternateLba lba) (Some lba) F B Hs) as [T _].
    destruct (gpt_header_internal vol ss (AlternateLba lba) (Some lba)) as [[h1|e1] c1]; cbn [fst snd] in *;
      change (place vol ss (AlternateLba lba)) with (lba * ss) in T.
    + fold (found vol ss (lba * ss) (location (AlternateLba lba)) h1) in T. cbn [location] in T. split.
      * intro E. injection E as <-. right; left. eauto.
      * intros [X|[[_ (l & X1 & X2)]|(_ & X1 & X2)]]; [exfalso; eauto| |exfalso; eauto].
        specialize (CF _ _ R X1). injection CF as <-. f_equal. eauto.
    + destruct T as [T1 T2]. rewrite CA by auto. fold (absent vol ss (lba * ss)) in T2. rewrite LAST. split.
      * intro X. right; right. repeat split; auto. intros l L. specialize (CF _ _ R L). injection CF as <-. auto.
      * intros [X|[[_ (l & X1 & X2)]|(_ & X1 & X2)]]; [exfalso; eauto| |auto].
        specialize (CF _ _ R X1). injection CF as <-. exfalso; eauto.
  - cbn [fst snd] in *. rewrite LAST. split.
    + intro X. right; right. repeat split; auto. intros l L. specialize (CF _ _ R L). discriminate.
    + intros [X|[[_ (l & X1 & X2)]|(_ & X1 & X2)]]; [exfalso; eauto| |auto].
      specialize (CF _ _ R X1). discriminate.
Qed.

(** Any change confined to four consecutive bytes of the header (the size
    field left alone, the checksum field taken as a whole) is detected. *)
Theorem C49_four_bytes vol vol' ss off hdr arr a : bytes_ok vol -> bytes_ok vol' ->
  gpt_valid vol ss off hdr arr -> same_outside (off + a) (off + a + 4) vol vol' -> vol <> vol' -> 0 <= a ->
  a + 4 <= 12 \/ a = 16 \/ 20 <= a -> a + 4 <= fld 4 hdr 12 ->
  forall hdr' arr', ~ gpt_valid vol' ss off hdr' arr'.
Proof.
  intros B B' V S N Ha Hw Hh hdr' arr' V'. apply N. exact (gpt_window vol vol' ss off hdr arr hdr' arr' a B B' V V' S Ha Hw Hh).
Qed.

(** A change of one byte of the header, other than of its size field, makes that copy be rejected. *)
Theorem C49_single_byte vol ss off hdr arr w b p v : zlen vol < 2 ^ 63 -> bytes_ok vol -> 512 <= ss ->
  off = place vol ss w -> gpt_valid vol ss off hdr arr -> 0 <= p < fld 4 hdr 12 -> ~ 12 <= p < 16 ->
  is_byte v -> znth vol (off + p) <> Some v ->
  exists e, fst (gpt_header_internal (zset vol (off + p) v) ss w b) = Err e.
Proof.
  intros F B Hs Eo V Hp Hq Hv Hd. set (vol' := zset vol (off + p) v).
  assert (B' : bytes_ok vol') by (now apply zset_bytes_ok).
  assert (L' : zlen vol' = zlen vol) by apply zlen_zset.
  pose proof (gv_sector _ _ _ _ _ V) as (O1 & O2 & _). pose proof (gv_size _ _ _ _ _ V) as Z1.
  assert (D : vol <> vol').
  { intro E. apply Hd. rewrite E. apply znth_zset_same. lia. }
  assert (W : exists a, a <= p < a + 4 /\ 0 <= a /\ (a + 4 <= 12 \/ a = 16 \/ 20 <= a) /\ a + 4 <= fld 4 hdr 12).
  { destruct (Z.le_gt_cases p 8); [exists p; lia|]. destruct (Z.lt_ge_cases p 12); [exists 8; lia|].
    destruct (Z.lt_ge_cases p 20); [exists 16; lia|]. destruct (Z.le_gt_cases (p + 4) (fld 4 hdr 12)); [exists p; lia|].
    exists (fld 4 hdr 12 - 4). lia. }
  destruct W as (a & W1 & W2 & W3 & W4).
  assert (S : same_outside (off + a) (off + a + 4) vol vol').
  { split; [auto|]. intros i Hi. symmetry. apply znth_zset_other. lia. }
  pose proof (C49_four_bytes vol vol' ss off hdr arr a B B' V S D W2 W3 W4) as N.
  destruct (gpt_internal_spec vol' ss w b ltac:(lia) B' Hs) as [I _].
  destruct (fst (gpt_header_internal vol' ss w b)) as [h|e]; [|eauto].
  destruct I as (hdr' & arr' & V' & _). exfalso. apply (N hdr' arr'). rewrite Eo. unfold place in *.
  destruct w; cbn [gpt_place fst] in *; auto. now rewrite <- L'.
Qed.

(** So does a change confined to four consecutive bytes of the partition array
    (and outside the header sector). *)
Theorem C49_array_change vol vol' ss off hdr arr a : bytes_ok vol -> bytes_ok vol' ->
  gpt_valid vol ss off hdr arr -> same_outside a (a + 4) vol vol' -> vol <> vol' ->
  fld 8 hdr 72 * ss <= a -> a + 4 <= fld 8 hdr 72 * ss + fld 4 hdr 80 * fld 4 hdr 84 ->
  a + 4 <= off \/ off + ss <= a ->
  forall hdr' arr', ~ gpt_valid vol' ss off hdr' arr'.
Proof.
  intros B B' V S N H1 H2 H3 hdr' arr' V'. apply N. pose proof S as [L Si].
  destruct (gv_sector _ _ _ _ _ V) as (O1 & O2 & O3). destruct (gv_sector _ _ _ _ _ V') as (_ & O2' & O3').
  assert (EH : hdr = hdr') by (rewrite O3, O3'; apply (same_slice _ _ _ _ _ _ S); lia). rewrite <- EH in V'. clear O3' EH.
  destruct (gv_array _ _ _ _ _ V) as (A1 & A2 & A3). destruct (gv_array _ _ _ _ _ V') as (_ & A2' & A3').
  pose proof (gv_array_crc _ _ _ _ _ V) as C1. pose proof (gv_array_crc _ _ _ _ _ V') as C2. rewrite <- C1 in C2. symmetry in C2.
  set (p := fld 8 hdr 72 * ss) in *. set (n := fld 4 hdr 80 * fld 4 hdr 84) in *.
  assert (SA : same_outside (a - p) (a - p + 4) arr arr').
  { rewrite A3, A3'. pose proof (same_sub _ _ _ _ p (p + n) S A1) as Q. replace (a + 4 - p) with (a - p + 4) in Q by lia. exact Q. }
  assert (LA : zlen arr = n) by (rewrite A3, zlen_slice by lia; lia).
  apply (crc_same _ _ (a - p) (a - p + 4)) in C2; auto; try lia; try (rewrite ?A3, ?A3'; now apply bytes_ok_slice).
  apply znth_all. intro i. destruct (Z.lt_ge_cases i a) as [I|I]; [apply Si; lia|].
  destruct (Z.lt_ge_cases i (a + 4)) as [J|J]; [|apply Si; lia].
  apply (f_equal (fun l => znth l (i - p))) in C2. rewrite A3, A3', !znth_slice in C2 by lia.
  replace (p + (i - p)) with i in C2 by lia. auto.
Qed.

(** A disk with a header of the given size, four bytes after the 92 defined
    ones, and an empty partition array. *)
Definition gpt_disk (hsize crc : Z) (tail : list Z) (count pcrc : Z) (array : list Z) : list Z :=
  zeros 512 ++
  ([69; 70; 73; 32; 80; 65; 82; 84] ++ le_bytes 4 0x10000 ++ le_bytes 4 hsize ++ le_bytes 4 crc ++ zeros 4 ++
   le_bytes 8 1 ++ le_bytes 8 67 ++ le_bytes 8 34 ++ le_bytes 8 60 ++ [0; 1; 2; 3; 4; 5; 6; 7; 8; 9; 10; 11; 12; 13; 14; 15] ++
   le_bytes 8 2 ++ le_bytes 4 count ++ le_bytes 4 128 ++ le_bytes 4 pcrc ++ tail ++ zeros (420 - zlen tail)) ++
  array ++ zeros (34304 - 1024 - zlen array).

(** The size field is not protected: it selects what the checksum covers, and
    a header exists for which changing that one byte goes undetected. *)
Theorem C49_size_byte_refuted : exists vol vol' h, vol' = zset vol (512 + 12) 96 /\ vol <> vol' /\
  gpt_open vol 512 = Ok tt /\
  fst (gpt_header_internal vol 512 Primary None) = Ok h /\ fst (gpt_header_internal vol' 512 Primary None) = Ok h.
Proof.
  exists (gpt_disk 92 0xb0f93104 [4; 207; 93; 20] 0 0 []), (gpt_disk 96 0xb0f93104 [4; 207; 93; 20] 0 0 []).
  eexists. split; [apply beq_eq; vm_compute; reflexivity|]. split.
  { intro E. apply (f_equal (fun l => znth l 524)) in E. vm_compute in E. discriminate. }
  split; [vm_compute; reflexivity|]. split; vm_compute; reflexivity.
Qed.

(** ** C50: partitions *)

(** The partitions of an accepted header: the used slots in order, each with what is stored in it. *)
Theorem C50_gpt vol ss w b h : zlen vol < 2 ^ 63 -> bytes_ok vol -> 512 <= ss ->
  fst (gpt_header_internal vol ss w b) = Ok h ->
  exists ps, read_gpt_partitions vol ss (gh_array_lba h) (gh_count h) (gh_size h) (gh_array_crc h) = Ok ps /\
    Forall2 (fun e p => gp_type p = slice e 0 16 /\ gp_unique p = slice e 16 32 /\ gp_start p = fld 8 e 32 /\
                        gp_end p = fld 8 e 40 /\ gp_attr p = fld 8 e 48 /\ name_of (slice e 56 128) (gp_name p))
      (filter slot_used (map (fun i => slice vol (gh_array_lba h * ss + i * gh_size h) (gh_array_lba h * ss + i * gh_size h + 128))
                             (zseq 0 (Z.to_nat (gh_count h))))) ps.
Proof.
  intros F B Hs E. apply C49_accepted_iff_valid in E as (hdr & arr & V & ->); auto. cbn [gh_array_lba gh_count gh_size gh_array_crc].
  destruct (read_gpt_partitions_spec vol ss _ hdr arr F B Hs V) as (ps & P1 & P2). exists ps. split; auto.
  replace (map (fun i => slice vol (fld 8 hdr 72 * ss + i * fld 4 hdr 84) (fld 8 hdr 72 * ss + i * fld 4 hdr 84 + 128)) (zseq 0 (Z.to_nat (fld 4 hdr 80))))
    with (map (gpt_slot arr (fld 4 hdr 84)) (zseq 0 (Z.to_nat (fld 4 hdr 80)))); [exact P2|].
  apply map_ext_in. intros i Hi. unfold gpt_slot.
  destruct (gv_array _ _ _ _ _ V) as (A1 & A2 & ->). destruct (gv_entry_size _ _ _ _ _ V) as (k & K1 & K2).
  assert (R : 0 <= i < fld 4 hdr 80).
  { assert (G : forall n s, In i (zseq s n) -> s <= i < s + Z.of_nat n).
    { induction n as [|n IH]; intros s X; [destruct X|]. destruct X as [<-|X]; [lia|]. apply IH in X. lia. }
    apply G in Hi. lia. }
  rewrite slice_slice by nia. f_equal; nia.
Qed.

(** What a name is: it decodes one string, so the relation is a function. *)
Theorem C50_name_unique raw s t : name_of raw s -> name_of raw t -> s = t.
Proof.
  assert (CUT : forall s a t b : list Z, ~ In 0 s -> ~ In 0 t -> (a = [] \/ hd 1 a = 0) -> (b = [] \/ hd 1 b = 0) -> s ++ a = t ++ b -> s = t).
  { clear. induction s as [|x s IH]; intros a [|y t] b Hs Ht Ha Hb E; auto; cbn [app] in E.
    - exfalso. destruct Ha as [->|Ha]; [discriminate|]. subst a. cbn [hd] in Ha. apply Ht. now left.
    - exfalso. destruct Hb as [->|Hb]; [discriminate|]. subst b. cbn [hd] in Hb. apply Hs. now left.
    - injection E as -> E. f_equal. apply (IH a t b); auto; intro X; [apply Hs|apply Ht]; now right. }
  intros [(a & A1 & A2 & A3 & A4)|[-> A]] [(b & B1 & B2 & B3 & B4)|[-> B]]; auto.
  - apply (CUT s a t b); auto. rewrite <- (utf16_round_trip (s ++ a)), <- (utf16_round_trip (t ++ b)) by auto. congruence.
  - exfalso. exact (B _ A1 A4).
  - exfalso. exact (A _ B1 B4).
Qed.

(** The partitions of an MBR: the used ones of the four slots, in order. *)
Theorem C50_mbr vol : 512 <= zlen vol -> read_mbr_partitions vol =
  Ok (map (fun e => mk_mbr_partition (fld 1 e 0) (slice e 1 4) (fld 1 e 4) (slice e 5 8) (fld 4 e 8) (fld 4 e 12))
       (filter (fun e => negb (fld 1 e 4 =? 0))
         [slice vol 446 462; slice vol 462 478; slice vol 478 494; slice vol 494 510])).
Proof.
  intro H. rewrite read_mbr_partitions_spec. replace (512 <=? zlen vol) with true by lia. do 3 f_equal.
  unfold mbr_slots. cbn [map]. rewrite !slice_slice by lia. reflexivity.
Qed.

Theorem C50_mbr_short vol : zlen vol < 512 -> read_mbr_partitions vol = Err ValueError.
Proof. intro H. rewrite read_mbr_partitions_spec. replace (512 <=? zlen vol) with false by lia. reflexivity. Qed.

(** The MBR itself: accepted exactly when its signature is there. *)
Theorem C50_mbr_signature vol r : read_mbr vol = Ok r <->
  512 <= zlen vol /\ fld 2 vol 510 = 0xAA55 /\ snd r = fld 4 vol 440 /\
  (fst r = true <-> fld 1 vol 0 <> 0 /\ fld 1 vol 1 <> 0).
Proof.
  unfold read_mbr, seek_read. change (0 <? 0) with false. change (2 ^ 63 <=? 0) with false. change (2 ^ 63 <=? 512) with false.
  cbn [bind]. change (0 + 512) with 512. rewrite zlen_slice by lia. pose proof (zlen_nonneg vol). rewrite !fld_sub by lia.
  change (0 + 510) with 510. change (0 + 440) with 440. change (0 + 0) with 0. change (0 + 1) with 1.
  destruct (Z.lt_ge_cases (zlen vol) 512) as [L|L].
  { replace (_ =? 512) with false by lia. cbn [negb]. split; [discriminate|lia]. }
  replace (_ =? 512) with true by lia. cbn [negb].
  destruct (Z.eqb_spec (fld 2 vol 510) 43605) as [E|E]; cbn [negb]; [|split; [discriminate|lia]].
  destruct r as [x y]. cbn [fst snd].
  destruct (Z.eqb_spec (fld 1 vol 0) 0), (Z.eqb_spec (fld 1 vol 1) 0); cbn [negb andb];
    (split; [intro X; injection X as <- <-; repeat split; auto; intuition congruence
            |intros (_ & _ & -> & X); do 2 f_equal; destruct x; intuition congruence]).
Qed.

(** ** C48: extended partitions *)

(** The list is that of the logical partitions of the sectors visited, for
    every disk: the walk ends, and visits no sector twice. *)
Theorem C48_ebr vol ss : bytes_ok vol -> zlen vol < 2 ^ 63 -> 512 <= ss < 2 ^ 30 -> 512 <= zlen vol ->
  ~ In 0 (extended_starts vol) ->
  exists visited ps, read_ebr_partitions vol ss = Ok ps /\
    chains_visit vol ss [] (extended_starts vol) visited /\ NoDup visited /\
    logicals vol ss visited (map ebr_tuple ps).
Proof.
  intros B F Hs HL HN. pose proof (read_ebr_partitions_spec vol ss B F Hs HL) as S.
  apply zin_false in HN. rewrite HN in S. destruct S as (vis & ps & S1 & S2 & S3).
  exists vis, ps. repeat split; auto. now apply chains_nodup in S2 as [? _].
Qed.

(** The sectors visited and their logical partitions are determined by the disk. *)
Theorem C48_unique vol ss starts v w p q : chains_visit vol ss [] starts v -> chains_visit vol ss [] starts w ->
  logicals vol ss v p -> logicals vol ss w q -> v = w /\ p = q.
Proof.
  intros V W P Q. assert (v = w) by (eapply chains_fun; eauto). subst. split; auto. eapply logicals_fun; eauto.
Qed.

(** The walk ends for every disk, without an error when there is an MBR to read. *)
Theorem C48_terminates vol ss : bytes_ok vol -> zlen vol < 2 ^ 63 -> 512 <= ss < 2 ^ 30 -> mbr_open vol ss = Ok tt ->
  exists ps, read_ebr_partitions vol ss = Ok ps.
Proof.
  intros B F Hs HO. unfold mbr_open in HO.
  assert (HL : 512 <= zlen vol).
  { destruct (_ || _) in HO; try discriminate. destruct (zlen vol <? 2 * ss) eqn:E in HO; try discriminate. lia. }
  pose proof (read_ebr_partitions_spec vol ss B F Hs HL) as S.
  destruct (zin 0 (extended_starts vol)); eauto. destruct S as (? & ps & S & _). eauto.
Qed.

(** A disk with the given MBR slots, one extended boot record in sector 2 with
    a logical partition of 5 sectors at relative sector 1, linked to relative sector [link]. *)
Definition mbr_slot (t start size : Z) : list Z := [0; 0; 0; 0; t; 0; 0; 0] ++ le_bytes 4 start ++ le_bytes 4 size.
Definition table_sector (slots : list (list Z)) : list Z := zeros 446 ++ concat slots ++ [0x55; 0xAA].
Definition ebr_disk (slot2 : list Z) (link : Z) : list Z :=
  table_sector [mbr_slot 5 2 10; slot2; zeros 16; zeros 16] ++ zeros 512 ++
  table_sector [mbr_slot 7 1 5; mbr_slot 5 link 5; zeros 16; zeros 16] ++
  table_sector [mbr_slot 11 1 4; mbr_slot 5 0 0; zeros 16; zeros 16].

(** An extended partition that starts at sector 0 hides the logical partitions
    of the ones before it. *)
Theorem C48_later_entry_hides_refuted : exists vol p, mbr_open vol 512 = Ok tt /\
  extended_starts vol = [2; 0] /\ logical vol 512 2 p /\ read_ebr_partitions vol 512 = Ok [] /\
  read_ebr_partitions (zset vol 466 0) 512 <> Ok [].
Proof.
  exists (ebr_disk (mbr_slot 5 0 10) 1). eexists. split; [vm_compute; reflexivity|]. split; [vm_compute; reflexivity|].
  split; [|split; [vm_compute; reflexivity|vm_compute; discriminate]].
  exists (slice (ebr_disk (mbr_slot 5 0 10) 1) 1024 1536). split; [|split; [vm_compute; discriminate|reflexivity]].
  split; [split; [|split]|]; try reflexivity; vm_compute; discriminate.
Qed.

Theorem C48_zero_start vol ss : bytes_ok vol -> zlen vol < 2 ^ 63 -> 512 <= ss < 2 ^ 30 -> 512 <= zlen vol ->
  In 0 (extended_starts vol) -> read_ebr_partitions vol ss = Ok [].
Proof.
  intros B F Hs HL HN. pose proof (read_ebr_partitions_spec vol ss B F Hs HL) as S. apply zin_In in HN. now rewrite HN in S.
Qed.

(** ** Examples *)

(** Two logical partitions on a chain of two records; a record linked to itself; a link outside the disk. *)
Example C48_chain : read_ebr_partitions (ebr_disk (zeros 16) 1) 512 =
  Ok [mk_ebr_partition 0 7 3 5; mk_ebr_partition 0 11 4 4].
Proof. vm_compute. reflexivity. Qed.
Example C48_far : read_ebr_partitions (ebr_disk (zeros 16) 4000000000) 512 = Ok [mk_ebr_partition 0 7 3 5].
Proof. vm_compute. reflexivity. Qed.
Example C48_shared : read_ebr_partitions (ebr_disk (mbr_slot 15 3 10) 1) 512 =
  Ok [mk_ebr_partition 0 7 3 5; mk_ebr_partition 0 11 4 4].
Proof. vm_compute. reflexivity. Qed.

(** Three slots, the second unused. *)
Definition gpt_slot_bytes (t : Z) (first last : Z) (name : list Z) : list Z :=
  repeat t 16 ++ repeat 9 16 ++ le_bytes 8 first ++ le_bytes 8 last ++ le_bytes 8 4 ++ name ++ zeros (72 - zlen name).
Definition slots3 : list Z :=
  gpt_slot_bytes 1 34 40 (utf16_encode [69; 128512; 70]) ++ gpt_slot_bytes 0 1 2 [] ++ gpt_slot_bytes 2 41 60 [0; 216; 65; 0].
Definition disk3 : list Z :=
  let d := gpt_disk 92 0 [] 3 (crc32 slots3) slots3 in
  gpt_disk 92 (crc32 (slice d 512 604)) [] 3 (crc32 slots3) slots3.

Example C50_example : exists h, fst (read_gpt_header disk3 512 None) = Ok h /\ gh_count h = 3 /\
  read_gpt_partitions disk3 512 (gh_array_lba h) (gh_count h) (gh_size h) (gh_array_crc h) =
  Ok [mk_gpt_partition (repeat 1 16) (repeat 9 16) 34 40 4 [69; 128512; 70];
      mk_gpt_partition (repeat 2 16) (repeat 9 16) 41 60 4 []].
Proof. eexists. split; [vm_compute; reflexivity|]. split; vm_compute; reflexivity. Qed.

(** One bit changed: rejected. *)
Example C49_flip : fst (gpt_header_internal (zset disk3 (512 + 40) 35) 512 Primary None) = Err ValueError.
Proof. vm_compute. reflexivity. Qed.
Example C49_flip_array : fst (gpt_header_internal (zset disk3 (1024 + 300) 35) 512 Primary None) = Err ValueError.
Proof. vm_compute. reflexivity. Qed.

Example C50_mbr_example : read_mbr_partitions (ebr_disk (mbr_slot 7 100 10) 1) =
  Ok [mk_mbr_partition 0 [0; 0; 0] 5 [0; 0; 0] 2 10; mk_mbr_partition 0 [0; 0; 0] 7 [0; 0; 0] 100 10].
Proof. vm_compute. reflexivity. Qed.

Print Assumptions C49_accepted_iff_valid.
Print Assumptions C49_refusals.
Print Assumptions C49_fallback.
Print Assumptions C49_four_bytes.
Print Assumptions C49_single_byte.
Print Assumptions C49_array_change.
Print Assumptions C49_size_byte_refuted.
Print Assumptions C50_gpt.
Print Assumptions C50_name_unique.
Print Assumptions C50_mbr.
Print Assumptions C50_mbr_short.
Print Assumptions C50_mbr_signature.
Print Assumptions C48_ebr.
Print Assumptions C48_unique.
Print Assumptions C48_terminates.
Print Assumptions C48_later_entry_hides_refuted.
Print Assumptions C48_zero_start.
