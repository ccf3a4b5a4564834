(** Proofs about exFAT directories. *)
From Verif Require Import Base BaseLemmas FieldLemmas Utf16 FatBasic FatDir FatSpec FatDirSpec FatProofs FatDirProofs
  ExBasic ExSpec ExBasicProofs ExDir ExDirSpec Properties_ExBasic.

(** ** Types and flags *)

Lemma x_pure_mod t : is_byte t -> x_pure t = t mod 128.
Proof.
  intro V. pose proof (all_bytes (fun t => x_pure t =? t mod 128) ltac:(vm_compute; reflexivity) t V) as T. cbv beta in T. lia.
Qed.
Lemma x_category_div t : is_byte t -> x_category t = (t / 64) mod 2.
Proof.
  intro V. pose proof (all_bytes (fun t => x_category t =? (t / 64) mod 2) ltac:(vm_compute; reflexivity) t V) as T. cbv beta in T. lia.
Qed.
Lemma x_in_use_le t : is_byte t -> x_in_use t = (128 <=? t).
Proof.
  intro V. pose proof (all_bytes (fun t => Bool.eqb (x_in_use t) (128 <=? t)) ltac:(vm_compute; reflexivity) t V) as T. cbv beta in T.
  now apply eqb_prop in T.
Qed.
Lemma x_flags_bits f : is_byte f -> x_flags f = (f mod 2 =? 1, (f / 2) mod 2 =? 1).
Proof.
  intro V. pose proof (all_bytes (fun f => Bool.eqb (fst (x_flags f)) (f mod 2 =? 1) && Bool.eqb (snd (x_flags f)) ((f / 2) mod 2 =? 1))
    ltac:(vm_compute; reflexivity) f V) as T. cbv beta in T. apply andb_true_iff in T as [T1 T2].
  apply eqb_prop in T1. apply eqb_prop in T2. destruct (x_flags f). cbn [fst snd] in *. congruence.
Qed.

Lemma land_bit v k : 0 <= v -> 0 <= k -> (0 <? Z.land v (2 ^ k)) = ((v / 2 ^ k) mod 2 =? 1).
Proof.
  intros V K. assert (E : (v / 2 ^ k) mod 2 =? 1 = Z.testbit v k).
  { destruct (Z.testbit v k) eqn:T.
    - apply Z.testbit_true in T; auto. lia.
    - apply Z.testbit_false in T; auto. lia. }
  rewrite E. clear E. destruct (Z.testbit v k) eqn:T.
  - assert (Z.testbit (Z.land v (2 ^ k)) k = true) by (rewrite Z.land_spec, T, Z.pow2_bits_true; auto).
    assert (Z.land v (2 ^ k) <> 0) by (intro X; rewrite X, Z.bits_0 in H; discriminate).
    assert (0 <= Z.land v (2 ^ k)) by (apply Z.land_nonneg; auto). lia.
  - assert (Z.land v (2 ^ k) = 0); [|lia]. apply Z.bits_inj. intro n. rewrite Z.land_spec, Z.bits_0.
    destruct (Z.eq_dec n k) as [->|N]; [now rewrite T|]. rewrite Z.pow2_bits_false by auto. apply andb_false_r.
Qed.

Lemma type_byte s : slot_ok s -> is_byte (x_type s).
Proof. intros [B _]. apply fld1_byte; auto; lia. Qed.

(** ** Secondary entries *)

Definition sub_ok (deleted : bool) (x : list Z) : Prop := x_sub x /\ (deleted = false -> x_used x).

Lemma max_names_le n c : 1 <= n <= 255 -> 1 <= c -> ((x_max_names n <? c) || (17 <? c) = false <-> 15 * (c - 1) < n).
Proof. intros N C. unfold x_max_names. destruct (Z.leb_spec n 15), (Z.eqb_spec (n mod 15) 0); lia. Qed.

(** The checks at the start of one iteration. *)
Lemma sub_checks deleted s : slot_ok s ->
  (if zin (x_type s) [0x00; 0x80] then true else if negb (x_category (x_type s) =? 1) then true else negb deleted && negb (x_in_use (x_type s))) = false
  <-> sub_ok deleted s.
Proof.
  intro O. pose proof (type_byte s O) as B. rewrite x_category_div, x_in_use_le by auto. unfold sub_ok, x_sub, x_used.
  unfold is_byte in B. set (t := x_type s) in *. clearbody t.
  destruct (zin t [0; 128]) eqn:Z1.
  { apply zin_In in Z1. cbn [In] in Z1. split; [discriminate|]. intros [H _]. exfalso. destruct Z1 as [<-|[<-|[]]]; discriminate. }
  destruct (Z.eqb_spec ((t / 64) mod 2) 1) as [E|E]; cbn [negb].
  2:{ split; [discriminate|tauto]. }
  destruct deleted; cbn [negb andb]; [split; auto; intros _; split; auto; discriminate|].
  destruct (Z.leb_spec 128 t); cbn [negb]; split; auto; try discriminate. intros [_ H2]. specialize (H2 eq_refl). lia.
Qed.

Lemma names_cons s subs : x_names (s :: subs) = (if is_name s then [x_part s] else []) ++ x_names subs.
Proof. unfold x_names. cbn [filter]. destruct (is_name s); reflexivity. Qed.

Definition tail_layout (vendor : bool) (subs : list (list Z)) : Prop :=
  exists mid vend, subs = mid ++ vend /\ Forall (fun y => x_kind y <> 0x40 /\ is_vendor y = false) mid /\
    Forall (fun y => is_vendor y = true) vend /\ (vendor = true -> mid = []).

Lemma tail_layout_cons vendor s subs : tail_layout vendor (s :: subs) <->
  (if is_vendor s then tail_layout true subs else vendor = false /\ x_kind s <> 0x40 /\ tail_layout false subs).
Proof.
  unfold tail_layout. split.
  - intros ([|y mid] & vend & E & M & V & H).
    + cbn [app] in E. subst vend. inversion V as [|? ? V1 V2]; subst. rewrite V1. exists [], subs. repeat split; auto.
    + injection E as -> ->. inversion M as [|? ? [M1 M2] M3]; subst. rewrite M2. destruct vendor; [specialize (H eq_refl); discriminate|].
      repeat split; auto. exists mid, vend. repeat split; auto. discriminate.
  - destruct (is_vendor s) eqn:E.
    + intros (mid & vend & -> & M & V & H). rewrite (H eq_refl). exists [], (s :: vend). repeat split; auto.
    + intros (-> & K & mid & vend & -> & M & V & H). exists (s :: mid), vend. repeat split; auto. discriminate.
Qed.

Lemma x_vendor_is s : slot_ok s -> x_vendor (x_pure (x_type s)) = is_vendor s.
Proof.
  intro O. rewrite x_pure_mod by (now apply type_byte). unfold x_vendor, is_vendor, x_kind. cbn [zin existsb].
  cbn [zin]. destruct (_ =? 96), (_ =? 97); reflexivity.
Qed.

Lemma secondary_tail deleted x : 1 <= xs_name_len x <= 255 -> forall subs i names vendor r, Forall slot_ok subs -> 2 <= i -> 1 <= zlen names ->
  15 * (zlen names - 1) < xs_name_len x ->
  (x_secondary deleted i (Some x) names vendor subs = Some r <->
   Forall (sub_ok deleted) subs /\ tail_layout vendor subs /\ 15 * (zlen (names ++ x_names subs) - 1) < xs_name_len x /\
   r = (Some x, names ++ x_names subs)).
Proof.
  intro NL. induction subs as [|s subs IH]; intros i names vendor r O I NN NB.
  - cbn [x_secondary]. change (x_names []) with (@nil (list Z)). rewrite app_nil_r. split.
    + intro E. injection E as <-. repeat split; auto. exists [], []. repeat split; auto.
    + intros (_ & _ & _ & ->). reflexivity.
  - inversion O as [|? ? O1 O2]; subst. pose proof (sub_checks deleted s O1) as SC.
    rewrite tail_layout_cons, names_cons. cbn [x_secondary].
    change (byte_at s 0) with (x_type s). rewrite x_vendor_is by auto.
    destruct (zin (x_type s) [0; 128]).
    { split; [discriminate|]. intros (F & _). inversion F as [|? ? F1 _]; subst. apply SC in F1. discriminate. }
    destruct (negb (x_category (x_type s) =? 1)).
    { split; [discriminate|]. intros (F & _). inversion F as [|? ? F1 _]; subst. apply SC in F1. discriminate. }
    destruct (negb deleted && negb (x_in_use (x_type s))).
    { split; [discriminate|]. intros (F & _). inversion F as [|? ? F1 _]; subst. apply SC in F1. discriminate. }
    assert (S1 : sub_ok deleted s) by (now apply SC). clear SC.
    rewrite x_pure_mod by (now apply type_byte). fold (x_kind s).
    replace (i =? 0) with false by lia. replace (i =? 1) with false by lia. replace (2 <=? i) with true by lia. cbn [andb].
    destruct (Z.eqb_spec (x_kind s) 0x40) as [K|K].
    { split; [discriminate|]. intros (_ & T & _). assert (is_vendor s = false) by (unfold is_vendor; rewrite K; reflexivity).
      rewrite H in T. tauto. }
    unfold is_name. destruct (Z.eqb_spec (x_kind s) 0x41) as [K1|K1].
    + assert (V : is_vendor s = false) by (unfold is_vendor; rewrite K1; reflexivity). rewrite V. cbn [negb].
      pose proof (max_names_le (xs_name_len x) (zlen names + 1) NL ltac:(lia)) as MX.
      destruct ((x_max_names (xs_name_len x) <? zlen names + 1) || (17 <? zlen names + 1)).
      { split; [discriminate|]. intros (_ & _ & L & _). exfalso. rewrite zlen_app in L. cbn [app] in L. rewrite zlen_cons in L.
        pose proof (zlen_nonneg (x_names subs)). assert (true = false); [|discriminate]. apply MX. lia. }
      assert (MX' := proj1 MX eq_refl). clear MX.
      destruct vendor; cbn [andb orb]; [split; [discriminate|]; intros (_ & (X & _) & _); discriminate|].
      rewrite IH by (auto; try lia; rewrite zlen_app; change (zlen [slice s 2 32]) with 1; lia).
      fold (x_part s). rewrite <- app_assoc. cbn [app]. split.
      * intros (F & T & L & E). repeat split; auto.
      * intros (F & (_ & _ & T) & L & E). inversion F; subst. repeat split; auto.
    + cbn [app]. destruct vendor; cbn [andb orb].
      * destruct (is_vendor s) eqn:V; cbn [negb].
        2:{ split; [discriminate|]. intros (_ & (X & _) & _); discriminate. }
        rewrite IH by (auto; lia). split.
        -- intros (F & T & L & E). repeat split; auto.
        -- intros (F & T & L & E). inversion F; subst. repeat split; auto.
      * rewrite IH by (auto; lia). destruct (is_vendor s) eqn:V; split.
        -- intros (F & T & L & E). repeat split; auto.
        -- intros (F & T & L & E). inversion F; subst. repeat split; auto.
        -- intros (F & T & L & E). repeat split; auto.
        -- intros (F & (_ & _ & T) & L & E). inversion F; subst. repeat split; auto.
Qed.

Definition stream_rec (s : list Z) : xstream := mk_xstream ((fld 1 s 1 / 2) mod 2 =? 1) (fld 1 s 3) (fld 8 s 8) (fld 4 s 20) (fld 8 s 24).

Lemma x_stream_iff s x : slot_ok s -> (x_stream s = Some x <-> fld 1 s 1 mod 2 = 1 /\ fld 1 s 3 <> 0 /\ x = stream_rec s).
Proof.
  intros [B L]. unfold x_stream, stream_rec, byte_at. rewrite x_flags_bits by (apply fld1_byte; auto; lia).
  destruct (Z.eqb_spec (fld 1 s 1 mod 2) 1) as [E|E]; cbn [negb]; [|split; [discriminate|tauto]].
  destruct (Z.eqb_spec (fld 1 s 3) 0) as [E0|E0]; [split; [discriminate|tauto]|].
  split; [intro X; injection X as <-; auto|intros (_ & _ & ->); reflexivity].
Qed.

Lemma secondary_iff deleted subs r : Forall slot_ok subs -> 2 <= zlen subs ->
  (x_secondary deleted 0 None [] false subs = Some r <->
   exists sx nm rest, subs = sx :: nm :: rest /\ Forall (sub_ok deleted) subs /\ x_kind sx = 0x40 /\ x_kind nm = 0x41 /\
     tail_layout false rest /\ fld 1 sx 1 mod 2 = 1 /\ fld 1 sx 3 <> 0 /\ 15 * (zlen (x_names subs) - 1) < fld 1 sx 3 /\
     r = (Some (stream_rec sx), x_names subs)).
Proof.
  intros O L. destruct subs as [|sx [|nm rest]]; [cbn in L; lia|cbn in L; lia|].
  inversion O as [|? ? O1 O']; subst. inversion O' as [|? ? O2 O3]; subst. clear L.
  assert (NM : forall P : Prop, x_kind sx = 0x40 -> x_kind nm = 0x41 -> (x_names (sx :: nm :: rest) = x_part nm :: x_names rest -> P) -> P).
  { intros P H1 H2 H. apply H. rewrite !names_cons. unfold is_name. rewrite H1, H2. reflexivity. }
  transitivity (Forall (sub_ok deleted) (sx :: nm :: rest) /\ x_kind sx = 0x40 /\ x_kind nm = 0x41 /\
     tail_layout false rest /\ fld 1 sx 1 mod 2 = 1 /\ fld 1 sx 3 <> 0 /\ 15 * (zlen (x_names (sx :: nm :: rest)) - 1) < fld 1 sx 3 /\
     r = (Some (stream_rec sx), x_names (sx :: nm :: rest))).
  2:{ split.
      - intros H. exists sx, nm, rest. tauto.
      - intros (a & b & c & E & H). injection E as <- <- <-. tauto. }
  assert (STEP : forall s more i st names, slot_ok s -> i < 2 -> 
    x_secondary deleted i st names false (s :: more) =
    if zin (x_type s) [0x00; 0x80] then None else if negb (x_category (x_type s) =? 1) then None else if negb deleted && negb (x_in_use (x_type s)) then None
    else if (i =? 0) && negb (x_kind s =? 0x40) then None
      else if (i =? 1) && negb (x_kind s =? 0x41) then None
      else
        match (if x_kind s =? 0x40 then match x_stream s with None => None | Some x => Some (Some x) end else Some st) with
        | None => None
        | Some st =>
          match (if x_kind s =? 0x41 then
                   match st with
                   | None => None
                   | Some x => if (x_max_names (xs_name_len x) <? zlen names + 1) || (17 <? zlen names + 1) then None
                               else Some (names ++ [slice s 2 32])
                   end
                 else Some names) with
          | None => None
          | Some names => x_secondary deleted (i + 1) st names (is_vendor s) more
          end
        end).
  { intros s more i st names Os Hi. cbn [x_secondary]. change (byte_at s 0) with (x_type s). rewrite x_vendor_is by auto.
    rewrite x_pure_mod by (now apply type_byte). fold (x_kind s). replace (2 <=? i) with false by lia. reflexivity. }
  rewrite STEP by (auto; lia). pose proof (sub_checks deleted sx O1) as SC.
  destruct (zin (x_type sx) [0; 128]).
  { split; [discriminate|]. intros (F & _). inversion F as [|? ? F1 _]; subst. apply SC in F1. discriminate. }
  destruct (negb (x_category (x_type sx) =? 1)).
  { split; [discriminate|]. intros (F & _). inversion F as [|? ? F1 _]; subst. apply SC in F1. discriminate. }
  destruct (negb deleted && negb (x_in_use (x_type sx))).
  { split; [discriminate|]. intros (F & _). inversion F as [|? ? F1 _]; subst. apply SC in F1. discriminate. }
  assert (S1 : sub_ok deleted sx) by (now apply SC). clear SC.
  change (0 =? 0) with true. change (0 =? 1) with false. cbn [andb].
  destruct (Z.eqb_spec (x_kind sx) 0x40) as [K|K]; cbn [negb]; [|split; [discriminate|tauto]].
  replace (x_kind sx =? 0x41) with false by lia. assert (VX : is_vendor sx = false) by (unfold is_vendor; rewrite K; reflexivity). rewrite VX.
  pose proof (x_stream_iff sx) as XS. destruct (x_stream sx) as [x|].
  2:{ split; [discriminate|]. intros (_ & _ & _ & _ & H1 & H2 & _). assert (None = Some (stream_rec sx)); [|discriminate]. apply XS; auto. }
  destruct (proj1 (XS x O1) eq_refl) as (X1 & X2 & X3). clear XS. subst x. change (0 + 1) with 1.
  assert (NL : 1 <= fld 1 sx 3 <= 255). { destruct O1 as [B _]. pose proof (fld1_byte sx 3 B ltac:(lia)) as H. unfold is_byte in H. lia. }
  rewrite STEP by (auto; lia). pose proof (sub_checks deleted nm O2) as SC.
  destruct (zin (x_type nm) [0; 128]).
  { split; [discriminate|]. intros (F & _). inversion F as [|? ? _ F']; subst. inversion F' as [|? ? F1 _]; subst. apply SC in F1. discriminate. }
  destruct (negb (x_category (x_type nm) =? 1)).
  { split; [discriminate|]. intros (F & _). inversion F as [|? ? _ F']; subst. inversion F' as [|? ? F1 _]; subst. apply SC in F1. discriminate. }
  destruct (negb deleted && negb (x_in_use (x_type nm))).
  { split; [discriminate|]. intros (F & _). inversion F as [|? ? _ F']; subst. inversion F' as [|? ? F1 _]; subst. apply SC in F1. discriminate. }
  assert (S2 : sub_ok deleted nm) by (now apply SC). clear SC.
  change (1 =? 0) with false. change (1 =? 1) with true. cbn [andb].
  destruct (Z.eqb_spec (x_kind nm) 0x41) as [K2|K2]; cbn [negb]; [|split; [discriminate|tauto]].
  replace (x_kind nm =? 0x40) with false by lia. assert (VN : is_vendor nm = false) by (unfold is_vendor; rewrite K2; reflexivity). rewrite VN.
  change (zlen []) with 0. cbn [xs_name_len stream_rec].
  assert (MX : (x_max_names (fld 1 sx 3) <? 0 + 1) || (17 <? 0 + 1) = false) by (apply max_names_le; lia). rewrite MX. clear MX.
  cbn [app]. change (1 + 1) with 2. apply (NM _ K K2). intros ->. fold (x_part nm).
  rewrite secondary_tail by (auto; try (cbn [xs_name_len stream_rec zlen]; change (zlen [x_part nm]) with 1; lia)).
  cbn [app xs_name_len stream_rec]. split.
  - intros (F & T & L & E). repeat split; auto.
  - intros (F & _ & _ & T & _ & _ & L & E). inversion F as [|? ? _ F']; subst. inversion F'; subst. repeat split; auto.
Qed.

(** ** Entry sets *)

Lemma xtime_fun w c t t' : xtime_of w c t -> xtime_of w c t' -> t = t'.
Proof.
  intros H H'. destruct t as [[[[[y m] d] [[h mi] s]] ms]|].
  - symmetry. apply H'. apply H. reflexivity.
  - destruct t' as [[[[[y m] d] [[h mi] s]] ms]|]; auto. apply H. apply H'. reflexivity.
Qed.
Lemma xzone_fun b z z' : xzone_of b z -> xzone_of b z' -> z = z'.
Proof.
  intros H H'. destruct z as [q|].
  - symmetry. apply H'. apply H. reflexivity.
  - destruct z' as [q|]; auto. apply H. apply H'. reflexivity.
Qed.
Lemma decode_xtime w c : 0 <= w < 2 ^ 32 -> is_byte c -> xtime_of w c (x_decode_timestamp w c).
Proof. intros W C y m d h mi s ms. apply C38_exfat; auto. Qed.
Lemma decode_xzone b : is_byte b -> xzone_of b (x_decode_timezone b).
Proof.
  intros B q. split.
  - intro E. assert (R : -64 <= q <= 63).
    { rewrite C43_timezone in E by auto. unfold is_byte in B. destruct (b <? 128); [discriminate|]. injection E as <-. destruct (Z.ltb_spec (b mod 128) 64); lia. }
    split; auto. now apply C43_round_trip.
  - intros [R E]. apply C43_round_trip; auto.
Qed.

Lemma x_name_of_iff parts len n : x_build_name parts len = Some n <-> x_name_of parts len n.
Proof.
  rewrite C42_exact. unfold x_name_of. split; [tauto|]. intro H. split; auto. intros ->. destruct H as (t & T & N & _).
  cbn [concat] in T. inversion T; subst. apply N. reflexivity.
Qed.

Lemma names_app a b : x_names (a ++ b) = x_names a ++ x_names b.
Proof. unfold x_names. now rewrite filter_app, map_app. Qed.

Lemma bool_iff (a b : bool) : (a = true <-> b = true) -> a = b.
Proof. destruct a, b; intuition congruence. Qed.
Lemma eqb1_iff v : (v =? 1) = true <-> v = 1.
Proof. lia. Qed.

Lemma concat_len slots : Forall slot_ok slots -> zlen (concat slots) = 32 * zlen slots.
Proof. induction 1 as [|s l [_ H] _ IH]; [reflexivity|]. cbn [concat]. rewrite zlen_app, zlen_cons. lia. Qed.

Lemma x_entry_ext a b : xe_deleted a = xe_deleted b -> xe_directory a = xe_directory b -> xe_name a = xe_name b ->
  xe_atime a = xe_atime b -> xe_atz a = xe_atz b -> xe_mtime a = xe_mtime b -> xe_mtz a = xe_mtz b -> xe_ctime a = xe_ctime b -> xe_ctz a = xe_ctz b ->
  xe_size a = xe_size b -> xe_valid a = xe_valid b -> xe_attributes a = xe_attributes b -> xe_first a = xe_first b ->
  xe_encrypted a = xe_encrypted b -> xe_no_chain a = xe_no_chain b -> a = b.
Proof. destruct a, b; cbn; intros; subst; reflexivity. Qed.

Lemma xfld2_range s i : bytes_ok s -> 0 <= i -> 0 <= fld 2 s i < 65536.
Proof. intros B H. pose proof (fld_bound 2 s i H ltac:(lia) B). lia. Qed.
Lemma fld4_range s i : bytes_ok s -> 0 <= i -> 0 <= fld 4 s i < 2 ^ 32.
Proof. intros B H. pose proof (fld_bound 4 s i H ltac:(lia) B). lia. Qed.

Lemma x_file_iff s rest e n : slot_ok s -> Forall slot_ok rest -> x_kind s = 5 ->
  (x_file s rest = Some (e, n) <-> exists subs q, rest = subs ++ q /\ file_set s subs e /\ n = zlen subs).
Proof.
  intros O OR K. pose proof (type_byte s O) as TB. destruct O as [B L]. unfold x_file, byte_at.
  fold (x_type s). rewrite x_in_use_le by auto.
  assert (BI : forall i, 0 <= i -> is_byte (fld 1 s i)) by (intros; apply fld1_byte; auto).
  pose proof (BI 1 ltac:(lia)) as B1. set (count := fld 1 s 1) in *.
  assert (TK : x_type s = if negb (128 <=? x_type s) then 0x05 else 0x85).
  { unfold x_kind in K. unfold is_byte in TB. destruct (Z.leb_spec 128 (x_type s)); cbn [negb]; lia. }
  set (deleted := negb (128 <=? x_type s)) in *.
  destruct ((count <? 2) || (64 <? count)) eqn:EC; bools.
  { split; [discriminate|]. intros (subs & q & _ & F & _). exfalso. destruct (fs_count _ _ _ F) as [_ FC]. fold count in FC. lia. }
  assert (SP : forall subs q, rest = subs ++ q -> zlen subs = count -> ztake count rest = subs).
  { intros subs q -> ZZ. now apply ztake_app_exact. }
  destruct (Z.eqb_spec (zlen (ztake count rest)) count) as [ZT|ZT]; cbn [negb].
  2:{ split; [discriminate|]. intros (subs & q & E & F & _). exfalso. apply ZT. destruct (fs_count _ _ _ F) as [FC _]. fold count in FC.
      rewrite (SP subs q E FC). exact FC. }
  transitivity (file_set s (ztake count rest) e /\ n = count).
  2:{ split.
      - intros [F ->]. exists (ztake count rest), (zdrop count rest). rewrite ztake_zdrop. auto.
      - intros (subs & q & E & F & ->). destruct (fs_count _ _ _ F) as [FC _]. fold count in FC. rewrite (SP subs q E FC). auto. }
  set (subs := ztake count rest) in *. 
  assert (OS : Forall slot_ok subs). { rewrite <- (ztake_zdrop rest count) in OR. apply Forall_app in OR. tauto. }
  clearbody subs. clear SP rest OR.
  assert (CK : x_set_checksum (s ++ concat subs) = Ok (rot_total 16 (set_bytes (concat (s :: subs))))).
  { rewrite C37_exfat_value. cbn [concat]. rewrite zlen_app, (concat_len subs OS). replace (_ && _) with true by lia. reflexivity. }
  rewrite CK. clear CK. set (ck := rot_total 16 (set_bytes (concat (s :: subs)))) in *.
  destruct (negb deleted && negb (fld 2 s 2 =? ck)) eqn:EK.
  { split; [discriminate|]. intros [F _]. exfalso. apply andb_true_iff in EK as [D NE]. apply negb_true_iff in D, NE. assert (XD : xe_deleted e = deleted).
    { pose proof (fs_kind _ _ _ F) as FK. rewrite TK in FK. destruct deleted, (xe_deleted e); auto; discriminate. }
    rewrite <- XD in D. pose proof (fs_checksum _ _ _ F) as FC. fold ck in FC. destruct (xe_deleted e); [discriminate|]. specialize (FC eq_refl). lia. }
  pose proof (secondary_iff deleted subs) as SI. 
  assert (FSE : forall e, file_set s subs e -> xe_deleted e = deleted).
  { intros e' F. pose proof (fs_kind _ _ _ F) as FK. rewrite TK in FK. destruct deleted, (xe_deleted e'); auto; discriminate. }
  destruct (x_secondary deleted 0 None [] false subs) as [r|].
  2:{ split; [discriminate|]. intros [F _]. exfalso. destruct (fs_layout _ _ _ F) as (x & nm & mid & vend & E1 & E2 & E3 & E4 & E5 & E6 & E7 & E8 & _).
      specialize (SI (Some (stream_rec x), x_names subs) OS ltac:(lia)). assert (None = Some (Some (stream_rec x), x_names subs)); [|discriminate].
      apply SI. exists x, nm, (mid ++ vend). do 1 (split; [auto|]). split; [rewrite <- (FSE e F); apply (fs_subs _ _ _ F)|].
      do 2 (split; [auto|]). split; [|auto]. exists mid, vend. repeat split; auto. discriminate. }
  destruct (proj1 (SI r OS ltac:(lia)) eq_refl) as (x & nm & tl & E1 & E2 & E3 & E4 & (mid & vend & -> & M & V & _) & E6 & E7 & E8 & E9). clear SI.
  rewrite E9. cbn [xs_name_len stream_rec xs_size xs_valid xs_first xs_no_chain].
  assert (BX : bytes_ok x). { rewrite E1 in OS. inversion OS as [|? ? [HB _] _]; exact HB. }
  assert (A16 : (0 <? Z.land (fld 2 s 4) 16) = ((fld 2 s 4 / 16) mod 2 =? 1)).
  { pose proof (xfld2_range s 4 B ltac:(lia)). change 16 with (2 ^ 4). apply land_bit; lia. }
  assert (A15 : (0 <? Z.land (fld 2 s 6) 32768) = ((fld 2 s 6 / 32768) mod 2 =? 1)).
  { pose proof (xfld2_range s 6 B ltac:(lia)). change 32768 with (2 ^ 15). apply land_bit; lia. }
  rewrite A16, A15. clear A16 A15.
  assert (T1 := decode_xtime (fld 4 s 16) 0 (fld4_range s 16 B ltac:(lia)) ltac:(unfold is_byte; lia)).
  assert (T2 := decode_xtime (fld 4 s 12) (fld 1 s 21) (fld4_range s 12 B ltac:(lia)) (BI 21 ltac:(lia))).
  assert (T3 := decode_xtime (fld 4 s 8) (fld 1 s 20) (fld4_range s 8 B ltac:(lia)) (BI 20 ltac:(lia))).
  assert (Z1 := decode_xzone (fld 1 s 24) (BI 24 ltac:(lia))). assert (Z2 := decode_xzone (fld 1 s 23) (BI 23 ltac:(lia))).
  assert (Z3 := decode_xzone (fld 1 s 22) (BI 22 ltac:(lia))).
  pose proof (x_name_of_iff (x_names subs) (Some (fld 1 x 3))) as NI.
  destruct (x_build_name (x_names subs) (Some (fld 1 x 3))) as [name|].
  2:{ split; [discriminate|]. intros [F _]. exfalso. destruct (fs_layout _ _ _ F) as (x' & nm' & mid' & vend' & E1' & _ & _ & _ & _ & _ & _ & _ & N & _).
      rewrite E1 in E1'. injection E1' as <- _ _. apply NI in N. discriminate. }
  pose proof (proj1 (NI name) eq_refl) as N. split.
  - intro X. injection X as <- <-. split; auto. constructor; cbn [xe_deleted xe_directory xe_name xe_atime xe_atz xe_mtime xe_mtz xe_ctime xe_ctz xe_size xe_valid xe_attributes xe_first xe_encrypted xe_no_chain]; auto.
    + intro D. rewrite D in EK. cbn [negb andb] in EK. fold ck. lia.
    + exists x, nm, mid, vend. do 9 (split; [auto|]). do 3 (split; [auto|]). apply eqb1_iff.
    + apply eqb1_iff.
    + apply eqb1_iff.
  - intros [F ->]. do 2 f_equal. destruct (fs_layout _ _ _ F) as (x' & nm' & mid' & vend' & E1' & _ & _ & _ & _ & _ & _ & _ & N' & S1 & S2 & S3 & S4).
    rewrite E1 in E1'. injection E1' as <- _ _. apply NI in N'. injection N' as N'.
    apply x_entry_ext; cbn [xe_deleted xe_directory xe_name xe_atime xe_atz xe_mtime xe_mtz xe_ctime xe_ctz xe_size xe_valid xe_attributes xe_first xe_encrypted xe_no_chain]; auto.
    + symmetry; auto.
    + apply bool_iff. rewrite eqb1_iff. symmetry. apply (fs_directory _ _ _ F).
    + eapply xtime_fun; [exact T1|apply (fs_atime _ _ _ F)].
    + eapply xzone_fun; [exact Z1|apply (fs_atz _ _ _ F)].
    + eapply xtime_fun; [exact T2|apply (fs_mtime _ _ _ F)].
    + eapply xzone_fun; [exact Z2|apply (fs_mtz _ _ _ F)].
    + eapply xtime_fun; [exact T3|apply (fs_ctime _ _ _ F)].
    + eapply xzone_fun; [exact Z3|apply (fs_ctz _ _ _ F)].
    + symmetry. apply (fs_attributes _ _ _ F).
    + apply bool_iff. rewrite eqb1_iff. symmetry. apply (fs_encrypted _ _ _ F).
    + apply bool_iff. rewrite eqb1_iff. symmetry. exact S4.
Qed.

(** ** Names outside of sets *)

Lemma ends_null_iff l : ends_null l = true <-> null_end l.
Proof.
  unfold ends_null, null_end. split.
  - intro H. destruct (rev l) as [|a [|b r]] eqn:E; try discriminate. bools. subst a b. exists (rev r).
    rewrite <- (rev_involutive l), E. cbn [rev]. now rewrite <- app_assoc.
  - intros [r ->]. rewrite rev_app_distr. reflexivity.
Qed.

Lemma gather_run t slots : forall i, 0 <= i < 17 -> exists run q, slots = run ++ q /\ x_gather t i slots = map x_part run /\
  Forall (same_run t) run /\ zlen run <= 17 - i /\
  (forall k x, k < zlen run - 1 -> znth run k = Some x -> ~ null_end (x_part x)) /\
  (zlen run = 17 - i \/ (exists x, znth run (zlen run - 1) = Some x /\ null_end (x_part x)) \/
   match q with [] => True | y :: _ => ~ same_run t y end).
Proof.
  induction slots as [|s slots IH]; intros i I.
  - exists [], []. change (zlen (@nil (list Z))) with 0. repeat split; auto; try lia. intros; discriminate.
  - cbn [x_gather]. destruct (Z.eqb_spec (byte_at s 0) t) as [T|T]; cbn [negb].
    2:{ exists [], (s :: slots). change (zlen (@nil (list Z))) with 0. repeat split; auto; try lia; [intros; discriminate|]. right; right. intros [H _]. auto. }
    destruct (Z.eqb_spec (byte_at s 1) 0) as [F|F]; cbn [negb].
    2:{ exists [], (s :: slots). change (zlen (@nil (list Z))) with 0. repeat split; auto; try lia; [intros; discriminate|]. right; right. intros [_ H]. auto. }
    assert (ONE : forall A : Prop, A -> (17 <= i + 1 \/ null_end (x_part s)) -> exists run q, s :: slots = run ++ q /\ slice s 2 32 :: [] = map x_part run /\
      Forall (same_run t) run /\ zlen run <= 17 - i /\
      (forall k x, k < zlen run - 1 -> znth run k = Some x -> ~ null_end (x_part x)) /\
      (zlen run = 17 - i \/ (exists x, znth run (zlen run - 1) = Some x /\ null_end (x_part x)) \/
       match q with [] => True | y :: _ => ~ same_run t y end)).
    { intros _ _ D. exists [s], slots. change (zlen [s]) with 1. repeat split; auto; try lia.
      - repeat constructor; auto.
      - intros k x K E. apply znth_Some_range in E. change (zlen [s]) with 1 in E. lia.
      - destruct D as [D|D]; [left; lia|]. right; left. exists s. split; auto. }
    destruct (Z.leb_spec 17 (i + 1)) as [L|L]; [apply (ONE True); auto|].
    destruct (ends_null (slice s 2 32)) eqn:EN; [apply (ONE True); auto; right; now apply ends_null_iff|].
    destruct (IH (i + 1) ltac:(lia)) as (run & q & E1 & E2 & E3 & E4 & E5 & E6).
    exists (s :: run), q. rewrite zlen_cons. pose proof (zlen_nonneg run) as P. split; [now rewrite E1|]. split; [cbn [map]; now rewrite E2|].
    split; [constructor; auto; split; auto|]. split; [lia|]. split.
    + intros k x K E. cbn [znth] in E. destruct (Z.eqb_spec k 0) as [->|K0].
      * injection E as <-. intro N. apply ends_null_iff in N. unfold x_part in N. congruence.
      * apply (E5 (k - 1) x); [lia|]. exact E.
    + destruct E6 as [E6|[(x & X1 & X2)|E6]]; [left; lia| |auto]. right; left. exists x. split; auto. cbn [znth].
      pose proof (znth_Some_range _ _ _ X1). replace (1 + zlen run - 1 =? 0) with false by lia. rewrite <- X1. f_equal; lia.
Qed.

Lemma orphan_run_short t run q run' q' : orphan_run t run q -> orphan_run t run' q' -> run ++ q = run' ++ q' -> zlen run' <= zlen run.
Proof.
  intros H H' E. destruct (Z.le_gt_cases (zlen run') (zlen run)) as [|L]; auto. exfalso.
  pose proof (or_count _ _ _ H) as C. pose proof (or_count _ _ _ H') as C'.
  destruct (or_end _ _ _ H) as [X|[(x & X1 & X2)|X]].
  - lia.
  - apply (or_inner _ _ _ H' (zlen run - 1) x); auto; [lia|]. rewrite <- (znth_app1 run' q') by lia. rewrite <- E, znth_app1 by lia. exact X1.
  - destruct (znth_some run' (zlen run) ltac:(lia)) as [y Y]. assert (znth (run ++ q) (zlen run) = Some y) by (rewrite E, znth_app1 by lia; auto).
    rewrite znth_app2, Z.sub_diag in H0 by lia. destruct q as [|y' q]; [discriminate|]. injection H0 as ->. apply X.
    pose proof (or_run _ _ _ H') as F. rewrite Forall_forall in F. apply F. eapply znth_In; eauto.
Qed.
Lemma orphan_run_fun t run q run' q' : orphan_run t run q -> orphan_run t run' q' -> run ++ q = run' ++ q' -> run = run' /\ q = q'.
Proof.
  intros H H' E. assert (L : length run = length run').
  { pose proof (orphan_run_short _ _ _ _ _ H H' E). symmetry in E. pose proof (orphan_run_short _ _ _ _ _ H' H E). unfold zlen in *. lia. }
  clear H H'. revert run' L E. induction run as [|x run IH]; intros [|x' run'] L E; try discriminate; auto.
  injection E as -> E. injection L as L. destruct (IH run' L E) as [-> ->]. auto.
Qed.

Lemma x_orphan_iff s rest name n : slot_ok s ->
  (x_orphan s rest = Some (name, n) <->
   exists run q, rest = run ++ q /\ orphan_run (x_type s) (s :: run) q /\ x_name_of (map x_part (s :: run)) None name /\ n = zlen (s :: run)).
Proof.
  intro O. unfold x_orphan. change (byte_at s 0) with (x_type s).
  destruct (gather_run (x_type s) (s :: rest) 0 ltac:(lia)) as (run & q & E1 & E2 & E3 & E4 & E5 & E6). rewrite E2.
  destruct run as [|s' run].
  - cbn [map]. assert (N : x_build_name [] None = None) by reflexivity. rewrite N. split; [discriminate|].
    intros (run' & q' & -> & R & _). exfalso. cbn [app] in E1. subst q. change (zlen (@nil (list Z))) with 0 in E6.
    destruct E6 as [E6|[(x & X & _)|E6]]; [lia|discriminate|]. apply E6. pose proof (or_run _ _ _ R) as F. now inversion F.
  - injection E1 as <- ->. assert (R : orphan_run (x_type s) (s :: run) q).
    { constructor; auto. rewrite zlen_cons in *. pose proof (zlen_nonneg run). lia. }
    pose proof (x_name_of_iff (map x_part (s :: run)) None) as NI. split.
    + intro H. destruct (x_build_name (map x_part (s :: run)) None) as [nm|] eqn:EB; [|discriminate]. injection H as <- <-.
      exists run, q. split; auto. split; auto. split; [now apply NI|]. unfold zlen. cbn [map length]. now rewrite map_length.
    + intros (run' & q' & E & R' & N & ->). assert (X : (s :: run) ++ q = (s :: run') ++ q') by (cbn [app]; now rewrite E).
      destruct (orphan_run_fun _ _ _ _ _ R R' X) as [ER _]. injection ER as <-. apply NI in N. rewrite N. unfold zlen. cbn [map length]. now rewrite map_length.
Qed.

(** ** Labels *)

Lemma utf16le_len l : 2 * zlen (utf16le l) <= zlen l + 1.
Proof.
  assert (H : forall n l, zlen l <= Z.of_nat n -> 2 * zlen (utf16le l) <= zlen l + 1); [|apply (H (length l)); unfold zlen; lia]. clear l.
  induction n as [|n IH]; intros l L.
  - destruct l; [cbn; lia|]. rewrite zlen_cons in L. pose proof (zlen_nonneg l). lia.
  - destruct l as [|a [|b t]]; [cbn; lia|cbn; lia|]. rewrite !zlen_cons in *. cbn [utf16le].
    assert (I1 := IH t ltac:(lia)).
    destruct (_ && _).
    + destruct t as [|c [|d t']]; [cbn; lia|cbn; lia|]. rewrite !zlen_cons in *. destruct (_ && _); rewrite zlen_cons.
      * assert (I2 := IH t' ltac:(lia)). lia.
      * lia.
    + destruct (_ && _); rewrite zlen_cons; lia.
Qed.

Lemma cut_null_len l : zlen (cut_null l) <= zlen l.
Proof. pose proof (cut_text l) as T. induction T; rewrite ?zlen_cons in *; try lia. change (zlen (@nil Z)) with 0. pose proof (zlen_nonneg l). lia. Qed.

Lemma x_label_iff s n : slot_ok s -> 1 <= fld 1 s 1 <= 15 ->
  (x_build_label (slice s 2 (2 + fld 1 s 1 * 2)) (fld 1 s 1) = Some n <-> label_of s n).
Proof.
  intros [B L] C. unfold x_build_label, label_of. set (raw := slice s 2 (2 + fld 1 s 1 * 2)).
  assert (LR : zlen raw = fld 1 s 1 * 2) by (unfold raw; rewrite zlen_slice by lia; lia).
  pose proof (utf16le_len (cut_null raw)) as L1. pose proof (cut_null_len raw) as L2.
  transitivity (n = utf16le (cut_null raw) /\ n <> [] /\ forall c, In c n -> ~ x_bad_char c).
  2:{ split; [intros (-> & H); exists (cut_null raw); split; [apply cut_text|auto]|].
      intros (t & T & H). apply text_fun in T. subst t. auto. }
  destruct (utf16le (cut_null raw)) as [|c0 nm] eqn:E.
  { split; [discriminate|]. intros (-> & H & _). congruence. }
  rewrite <- E in *. replace (fld 1 s 1 <? zlen (utf16le (cut_null raw))) with false by lia.
  assert (FB : existsb x_forbidden (utf16le (cut_null raw)) = false <-> forall c, In c (utf16le (cut_null raw)) -> ~ x_bad_char c).
  { split.
    - intros H c I BC. apply x_forbidden_iff in BC. assert (existsb x_forbidden (utf16le (cut_null raw)) = true) by (apply existsb_exists; eauto). congruence.
    - intro H. destruct (existsb _ _) eqn:EE; auto. apply existsb_exists in EE as (c & I & F). apply x_forbidden_iff in F. destruct (H c I F). }
  destruct (existsb x_forbidden (utf16le (cut_null raw))).
  - split; [discriminate|]. intros (-> & _ & H). apply FB in H. discriminate.
  - split; [intro H; injection H as <-; split; auto; split; [rewrite E; discriminate|now apply FB]|intros (-> & _); reflexivity].
Qed.

Lemma land_1 v : Z.land v 1 = v mod 2.
Proof. change 1 with (2 ^ 1 - 1). apply land_pow. lia. Qed.

(** ** The loop *)

(** The branch taken for a type. *)
Definition branch (root : bool) (t : Z) : Z :=
  let p := x_pure t in
  if t =? 0x00 then 0 else if t =? 0x80 then 1
  else if x_category t =? 0 then
    if negb root && x_in_use t && zin p [0x01; 0x02; 0x03] then 2
    else if negb root && x_in_use t && (p =? 0x20) then 7
    else if p =? 0x21 then 7 else if p =? 0x22 then 7
    else if p =? 0x05 then 3
    else if root && (p =? 0x03) && x_in_use t then 4
    else if root && (p =? 0x01) && x_in_use t then 5
    else 7
  else if p =? 0x41 then 6 else 7.
Definition branch2 (root : bool) (t : Z) : Z :=
  if t =? 0 then 0 else if t =? 128 then 1 else if negb root && zin t [0x81; 0x82; 0x83] then 2
  else if t mod 128 =? 5 then 3 else if root && (t =? 0x83) then 4 else if root && (t =? 0x81) then 5
  else if t mod 128 =? 0x41 then 6 else 7.
Lemma branch_eq root t : is_byte t -> branch root t = branch2 root t.
Proof.
  intro V. destruct root.
  - pose proof (all_bytes (fun t => branch true t =? branch2 true t) ltac:(vm_compute; reflexivity) t V) as T. cbv beta in T. lia.
  - pose proof (all_bytes (fun t => branch false t =? branch2 false t) ltac:(vm_compute; reflexivity) t V) as T. cbv beta in T. lia.
Qed.

Definition x_step (root : bool) (a b : Z) (s : list Z) (rest : list (list Z)) : gen x_item :=
  let go := x_dir_loop root in
  if x_type s =? 0 then ([], Done)
  else if x_type s =? 128 then ([], if root then Raised DirectoryEntriesException else Done)
  else if negb root && zin (x_type s) [0x81; 0x82; 0x83] then ([], Done)
  else if x_kind s =? 5 then
    match x_file s rest with None => go a b 0 rest | Some (e, n) => gcons (XFile e) (go a b n rest) end
  else if root && (x_type s =? 0x83) then
    if (2 <=? a + 1) || (15 <? fld 1 s 1) then ([], Raised DirectoryEntriesException)
    else if 0 <? fld 1 s 1 then
      match x_build_label (slice s 2 (2 + fld 1 s 1 * 2)) (fld 1 s 1) with
      | None => ([], Raised DirectoryEntriesException)
      | Some l => gcons (XLabel l) (go (a + 1) b 0 rest)
      end
    else go (a + 1) b 0 rest
  else if root && (x_type s =? 0x81) then
    if 3 <=? b + 1 then ([], Raised DirectoryEntriesException)
    else gcons (XBitmap (Z.land (fld 1 s 1) 1) (fld 4 s 20) (fld 8 s 24)) (go a (b + 1) 0 rest)
  else if x_kind s =? 0x41 then
    match x_orphan s rest with None => go a b 0 rest | Some (name, n) => gcons (XOrphan name) (go a b (n - 1) rest) end
  else go a b 0 rest.

Lemma loop_step root a b s rest : slot_ok s -> x_dir_loop root a b 0 (s :: rest) = x_step root a b s rest.
Proof.
  intro O. pose proof (branch_eq root (x_type s) (type_byte s O)) as BE.
  cbn [x_dir_loop]. change (0 <? 0) with false. cbv iota. change (byte_at s 0) with (x_type s). change (byte_at s 1) with (fld 1 s 1).
  unfold x_step. fold (x_kind s) in *. unfold branch, branch2 in BE. fold (x_kind s) in BE. cbv zeta in *.
  repeat (match type of BE with context [if ?c then _ else _] => destruct c end; try discriminate BE); try reflexivity.
  all: try (destruct (2 <=? a + 1); reflexivity). destruct root; reflexivity.
Qed.

Lemma loop_skip root a b r : forall subs n, n = zlen subs -> x_dir_loop root a b n (subs ++ r) = x_dir_loop root a b 0 r.
Proof.
  induction subs as [|s subs IH]; intros n ->; [reflexivity|]. rewrite zlen_cons. pose proof (zlen_nonneg subs).
  cbn [app x_dir_loop]. replace (0 <? 1 + zlen subs) with true by lia. apply IH. lia.
Qed.

Lemma listing_loop root : forall slots a b, Forall slot_ok slots -> 0 <= a -> 0 <= b ->
  listing root a b slots (fst (x_dir_loop root a b 0 slots)) (snd (x_dir_loop root a b 0 slots)).
Proof.
  assert (H : forall n slots, (length slots <= n)%nat -> forall a b, Forall slot_ok slots -> 0 <= a -> 0 <= b ->
    listing root a b slots (fst (x_dir_loop root a b 0 slots)) (snd (x_dir_loop root a b 0 slots))).
  2:{ intros slots. apply (H (length slots)). auto. }
  induction n as [|n IH]; intros slots L a b O A B.
  { destruct slots; [|cbn in L; lia]. constructor. }
  destruct slots as [|s rest]; [constructor|]. inversion O as [|? ? O1 O2]; subst. cbn [length] in L.
  rewrite loop_step by auto. unfold x_step. cbv zeta.
  destruct (Z.eqb_spec (x_type s) 0) as [T|T0]; [now constructor|].
  destruct (Z.eqb_spec (x_type s) 128) as [T|T1]; [now apply li_invalid|].
  destruct (negb root && zin (x_type s) [129; 130; 131]) eqn:EF.
  { apply andb_true_iff in EF as [R Z]. apply zin_In in Z. apply li_foreign; auto. now destruct root. }
  destruct (Z.eqb_spec (x_kind s) 5) as [K|K].
  { pose proof (fun e n => x_file_iff s rest e n O1 O2 K) as FI. destruct (x_file s rest) as [[e c]|].
    - destruct (proj1 (FI e c) eq_refl) as (subs & q & -> & F & ->). rewrite loop_skip by auto. cbn [gcons fst snd].
      apply li_file; auto. apply Forall_app in O2 as [_ O2]. apply IH; auto. rewrite app_length in L. lia.
    - apply li_broken; auto; [|apply IH; auto; lia]. intros subs q e -> F. 
      assert (X : None = Some (e, zlen subs)) by (apply FI; eauto). discriminate X. }
  destruct (root && (x_type s =? 131)) eqn:EL.
  { apply andb_true_iff in EL as [-> TL]. apply Z.eqb_eq in TL.
    destruct ((2 <=? a + 1) || (15 <? fld 1 s 1)) eqn:E1; bools.
    { apply li_bad_label; auto. destruct (Z.lt_ge_cases 15 (fld 1 s 1)); [right; left; lia|left; lia]. }
    assert (a = 0) by lia. subst a. pose proof (fld1_byte s 1 (proj1 O1) ltac:(lia)) as B1. unfold is_byte in B1.
    destruct (Z.ltb_spec 0 (fld 1 s 1)) as [P|P].
    - pose proof (fun n => x_label_iff s n O1 ltac:(lia)) as LI.
      destruct (x_build_label (slice s 2 (2 + fld 1 s 1 * 2)) (fld 1 s 1)) as [l|].
      + cbn [gcons fst snd]. apply li_label; auto; [lia|now apply LI|]. apply IH; auto; lia.
      + apply li_bad_label; auto. right. right. split; [lia|]. intros l X. apply LI in X. discriminate X.
    - apply li_no_label; auto; [lia|]. apply IH; auto; lia. }
  destruct (root && (x_type s =? 129)) eqn:EB.
  { apply andb_true_iff in EB as [-> TL]. apply Z.eqb_eq in TL. destruct (Z.leb_spec 3 (b + 1)) as [P|P].
    - apply li_bad_bitmap; auto. lia.
    - cbn [gcons fst snd]. replace (Z.land (fld 1 s 1) 1) with (fld 1 s 1 mod 2) by (symmetry; apply land_1).
      apply li_bitmap; auto; [lia|]. apply IH; auto; lia. }
  destruct (Z.eqb_spec (x_kind s) 65) as [KO|KO].
  { pose proof (fun name n => x_orphan_iff s rest name n O1) as OI. destruct (x_orphan s rest) as [[name c]|].
    - destruct (proj1 (OI name c) eq_refl) as (run & q & -> & R & N & ->). rewrite loop_skip by (rewrite zlen_cons; lia). cbn [gcons fst snd].
      apply li_orphan; auto. apply Forall_app in O2 as [_ O2]. apply IH; auto. rewrite app_length in L. lia.
    - apply li_no_orphan; auto; [|apply IH; auto; lia]. intros run q nm -> R N.
      assert (X : None = Some (nm, zlen (s :: run))) by (apply OI; eauto 6). discriminate X. }
  apply li_other; [| |apply IH; auto; lia].
  - unfold x_kind in K, KO. cbn [In]. intros [X|[X|[X|[X|[X|[X|[X|[X|[]]]]]]]]]; rewrite <- X in *; try congruence; try discriminate; try (cbn in K, KO; lia).
    + destruct root; cbn in EF, EB; discriminate.
    + destruct root; cbn in EF, EL; discriminate.
  - intros -> X. rewrite X in EF. discriminate.
Qed.

Lemma loop_listing root a b slots l st : listing root a b slots l st -> Forall slot_ok slots -> 0 <= a -> 0 <= b ->
  x_dir_loop root a b 0 slots = (l, st).
Proof.
  induction 1 as [a b|a b s r T|a b s r T|a b s r R T|a b s subs r e l st F X IH|a b s r l st K F X IH|a b s r n l st R T A0 C LO X IH|
    a b s r l st R T A0 C X IH|a b s r R T D|a b s r l st R T D X IH|a b s r R T D|a b s run q n l st K R N X IH|a b s r l st K R X IH|a b s r l st N1 N2 X IH];
    intros O A B; [reflexivity|..]; inversion O as [|? ? O1 O2]; subst; rewrite loop_step by auto; unfold x_step; cbv zeta.
  - rewrite T. reflexivity.
  - rewrite T. reflexivity.
  - cbn [In] in T. destruct T as [T|[T|[T|[]]]]; rewrite <- T; reflexivity.
  - assert (K : x_kind s = 5). { unfold x_kind. rewrite (fs_kind _ _ _ F). destruct (xe_deleted e); reflexivity. }
    assert (TT : x_type s = 5 \/ x_type s = 133). { rewrite (fs_kind _ _ _ F). destruct (xe_deleted e); auto. }
    replace (x_type s =? 0) with false by lia. replace (x_type s =? 128) with false by lia.
    assert (ZF : zin (x_type s) [129; 130; 131] = false) by (destruct TT as [-> | ->]; reflexivity). rewrite ZF, andb_false_r.
    replace (x_kind s =? 5) with true by lia.
    assert (E : x_file s (subs ++ r) = Some (e, zlen subs)) by (apply x_file_iff; eauto). rewrite E.
    rewrite loop_skip by auto. apply Forall_app in O2 as [_ O2]. rewrite IH by auto. reflexivity.
  - pose proof (type_byte s O1) as TB. unfold is_byte in TB.
    assert (TT : x_type s = 5 \/ x_type s = 133). { unfold x_kind in K. lia. }
    replace (x_type s =? 0) with false by lia. replace (x_type s =? 128) with false by lia.
    assert (ZF : zin (x_type s) [129; 130; 131] = false) by (destruct TT as [-> | ->]; reflexivity). rewrite ZF, andb_false_r.
    replace (x_kind s =? 5) with true by lia. destruct (x_file s r) as [[e n]|] eqn:E; [|apply IH; auto].
    exfalso. apply x_file_iff in E; auto. destruct E as (subs & q & E1 & E2 & _). exact (F subs q e E1 E2).
  - unfold x_kind. rewrite T. cbn -[x_build_label slice x_dir_loop Z.add Z.mul fld Z.leb Z.ltb]. change (2 <=? 0 + 1) with false. cbn [orb]. replace (15 <? fld 1 s 1) with false by lia. replace (0 <? fld 1 s 1) with true by lia.
    apply x_label_iff in LO; auto. rewrite LO. change (0 + 1) with 1. rewrite IH by (auto; lia). reflexivity.
  - unfold x_kind. rewrite T, C. cbn -[x_dir_loop]. apply IH; auto; lia.
  - unfold x_kind. rewrite T. cbn -[x_build_label slice x_dir_loop Z.leb Z.ltb Z.add Z.mul fld].
    destruct (Z.leb_spec 2 (a + 1)) as [L|L]; [reflexivity|]. destruct (Z.ltb_spec 15 (fld 1 s 1)) as [L1|L1]; [reflexivity|]. cbn [orb].
    destruct D as [D|[D|[D D']]]; [lia|lia|]. pose proof (fld1_byte s 1 (proj1 O1) ltac:(lia)) as B1. unfold is_byte in B1.
    replace (0 <? fld 1 s 1) with true by lia.
    destruct (x_build_label (slice s 2 (2 + fld 1 s 1 * 2)) (fld 1 s 1)) as [n|] eqn:E; [|reflexivity].
    exfalso. apply x_label_iff in E; auto; [|lia]. exact (D' n E).
  - unfold x_kind. rewrite T. cbn -[x_dir_loop Z.leb Z.add fld Z.modulo]. replace (3 <=? b + 1) with false by lia. rewrite IH by (auto; lia). rewrite land_1. reflexivity.
  - unfold x_kind. rewrite T. cbn -[x_dir_loop Z.leb Z.add fld Z.modulo]. replace (3 <=? b + 1) with true by lia. reflexivity.
  - pose proof (type_byte s O1) as TB. unfold is_byte in TB. assert (TT : x_type s = 65 \/ x_type s = 193). { unfold x_kind in K. lia. }
    replace (x_type s =? 0) with false by lia. replace (x_type s =? 128) with false by lia.
    assert (ZF : zin (x_type s) [129; 130; 131] = false) by (destruct TT as [-> | ->]; reflexivity). rewrite ZF, andb_false_r.
    replace (x_kind s =? 5) with false by lia. replace (x_type s =? 131) with false by lia. replace (x_type s =? 129) with false by lia.
    rewrite andb_false_r. replace (x_kind s =? 65) with true by lia.
    assert (E : x_orphan s (run ++ q) = Some (n, zlen (s :: run))) by (apply x_orphan_iff; eauto 7). rewrite E.
    rewrite loop_skip by (rewrite zlen_cons; lia). apply Forall_app in O2 as [_ O2]. rewrite IH by auto. reflexivity.
  - pose proof (type_byte s O1) as TB. unfold is_byte in TB. assert (TT : x_type s = 65 \/ x_type s = 193). { unfold x_kind in K. lia. }
    replace (x_type s =? 0) with false by lia. replace (x_type s =? 128) with false by lia.
    assert (ZF : zin (x_type s) [129; 130; 131] = false) by (destruct TT as [-> | ->]; reflexivity). rewrite ZF, andb_false_r.
    replace (x_kind s =? 5) with false by lia. replace (x_type s =? 131) with false by lia. replace (x_type s =? 129) with false by lia.
    rewrite andb_false_r. replace (x_kind s =? 65) with true by lia. destruct (x_orphan s r) as [[nm n]|] eqn:E; [|apply IH; auto].
    exfalso. apply x_orphan_iff in E; auto. destruct E as (run & q & E1 & E2 & E3 & _). exact (R run q nm E1 E2 E3).
  - pose proof (type_byte s O1) as TB. unfold is_byte in TB. cbn [In] in N1. unfold x_kind.
    replace (x_type s =? 0) with false by lia. replace (x_type s =? 128) with false by lia.
    assert (ZF : negb root && zin (x_type s) [129; 130; 131] = false).
    { destruct root; [reflexivity|]. cbn [negb andb]. apply zin_false. cbn [In]. specialize (N2 eq_refl). lia. }
    rewrite ZF. replace (x_type s mod 128 =? 5) with false by lia. replace (x_type s =? 131) with false by lia. replace (x_type s =? 129) with false by lia.
    rewrite andb_false_r. replace (x_type s mod 128 =? 65) with false by lia. apply IH; auto.
Qed.

Lemma loop_listing_iff root a b slots l st : Forall slot_ok slots -> 0 <= a -> 0 <= b ->
  (x_dir_loop root a b 0 slots = (l, st) <-> listing root a b slots l st).
Proof.
  intros O A B. split.
  - intro E. pose proof (listing_loop root slots a b O A B) as H. now rewrite E in H.
  - intro H. now apply loop_listing.
Qed.

Lemma entries_slots root slots : Forall slot_ok slots -> 16 <= zlen slots -> zlen slots mod 16 = 0 ->
  x_entries root (concat slots) = x_dir_loop root 0 0 0 slots.
Proof.
  intros O L M. unfold x_entries. rewrite (concat_len slots O). replace ((_ <? 512) || _) with false by lia.
  replace (Z.to_nat (32 * zlen slots / 32)) with (length slots) by (unfold zlen; rewrite Z.mul_comm, Z.div_mul by lia; lia).
  now rewrite cut_slots_concat.
Qed.
