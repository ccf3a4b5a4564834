(** Property C89: the texts of attribute types and of FAT and exFAT file attributes. *)
From Coq Require Import String.
From Verif Require Import Base BaseLemmas Report LogReport LogReportSpec LogTextProofs Names NamesSpec.
Local Open Scope list_scope.
Local Open Scope Z_scope.

Lemma type_named_in code name : type_named code name <-> In (code, ("$" ++ name)%string) attribute_types.
Proof.
  split.
  - intros (k & -> & H & N). destruct (Z.lt_ge_cases k 0) as [L|L]; [rewrite znth_neg in H by auto; discriminate|].
    destruct (Z.lt_ge_cases k 16) as [L'|L']; [|rewrite znth_none in H by exact L'; discriminate].
    assert (C : forall j, (j < 16)%nat -> nth_error type_names j = Some name -> In (16 * (Z.of_nat j + 1), ("$" ++ name)%string) attribute_types).
    { intros j Hj E. do 16 (destruct j as [|j]; [cbn in E; injection E as <-; first [congruence|cbn; tauto]|]). lia. }
    rewrite znth_nth_error in H by lia. specialize (C (Z.to_nat k) ltac:(lia) H). now rewrite Z2Nat.id in C by lia.
  - intro I.
    assert (C : Forall (fun x => fst x = 16 * (fst x / 16 - 1 + 1) /\
      match snd x with String _ nm => znth type_names (fst x / 16 - 1) = Some nm /\ nm <> ""%string | EmptyString => False end) attribute_types).
    { repeat (constructor; [cbn [fst snd]; split; [reflexivity|split; [reflexivity|discriminate]]|]). constructor. }
    rewrite Forall_forall in C. destruct (C _ I) as (E1 & E2 & E3). exists (code / 16 - 1). auto.
Qed.

Lemma type_cases code :
  (exists name, type_named code name /\ resolve_attribute_type code = 36 :: txt name) \/
  ((forall name, ~ type_named code name) /\ resolve_attribute_type code = py_hex code).
Proof.
  unfold resolve_attribute_type. destruct (find _ _) as [[c s]|] eqn:E.
  - left. apply find_some in E as [I E]. cbn in E. apply Z.eqb_eq in E as ->.
    assert (D : exists nm, s = ("$" ++ nm)%string).
    { assert (C : Forall (fun x => exists nm, snd x = ("$" ++ nm)%string) attribute_types) by (repeat (constructor; [eexists; reflexivity|]); constructor).
      rewrite Forall_forall in C. apply (C _ I). }
    destruct D as [nm ->]. exists nm. split; [now apply type_named_in|reflexivity].
  - right. split; [|auto]. intros name H. apply type_named_in in H. pose proof (find_none _ _ E _ H) as X. cbn in X. lia.
Qed.

(** Every type code has a text that says what it is, and no two have the same. *)
Theorem C89_type : forall code, 0 <= code -> type_shown code (resolve_attribute_type code).
Proof.
  intros code H. destruct (type_cases code) as [(name & N & ->)|[N ->]]; [left; eauto|right; split; [auto|now apply py_hex_shown]].
Qed.
Print Assumptions C89_type.

Theorem C89_type_unique : forall a b s, type_shown a s -> type_shown b s -> a = b.
Proof.
  assert (U : forall n t, ~ hex_shown n (36 :: t)) by (intros n t (d & E & _); discriminate).
  assert (D : forall a b name, type_named a name -> type_named b name -> a = b).
  { assert (X : forallb (fun x => forallb (fun y => implb (String.eqb (snd x) (snd y)) (fst x =? fst y)) attribute_types) attribute_types = true) by (vm_compute; reflexivity).
    intros a b name I J. apply type_named_in in I, J. rewrite forallb_forall in X. specialize (X _ I). rewrite forallb_forall in X. specialize (X _ J).
    cbn [fst snd] in X. rewrite String.eqb_refl in X. cbn [implb] in X. lia. }
  assert (T : forall x y, txt x = txt y -> x = y).
  { unfold txt. induction x as [|c x IH]; intros [|d y] H; cbn in H; try discriminate; [auto|].
    injection H as H1 H2. f_equal; [|auto]. apply N2Z.inj in H1. apply (f_equal Ascii.ascii_of_N) in H1.
    now rewrite !Ascii.ascii_N_embedding in H1. }
  intros a b s [(x & I & ->)|[_ X]] [(y & J & E)|[_ Y]].
  - injection E as E. apply T in E as ->. eauto.
  - now apply U in Y.
  - subst s. now apply U in X.
  - eapply hex_shown_inj; eauto.
Qed.
Print Assumptions C89_type_unique.

Example C89_type_case : resolve_attribute_type 0x80 = txt "$DATA" /\ resolve_attribute_type 0xF0 = txt "0xf0" /\
  resolve_attribute_type 0x100 = txt "$LOGGED_UTILITY_STREAM" /\ resolve_attribute_type 0xFFFFFFFF = txt "0xffffffff".
Proof. vm_compute. repeat split. Qed.

Lemma bits_text bits n : 0 <= n -> Forall (fun x => 0 <= fst x) bits ->
  bits_shown bits n (resolve_attributes (map (fun x => (2 ^ fst x, snd x)) bits) n).
Proof.
  intros H P. unfold bits_shown, resolve_attributes.
  replace (map (fun x => txt (snd x)) (filter (fun x => Z.testbit n (fst x)) bits))
    with (map (fun x => txt (snd x)) (filter (fun x => 0 <? Z.land n (fst x)) (map (fun x => (2 ^ fst x, snd x)) bits))); [apply joined_bars|].
  induction P as [|[k s] l Hk P IH]; [reflexivity|]. cbn [map filter fst snd]. cbn in Hk. rewrite land_bit by auto.
  destruct (Z.testbit n k); cbn [map snd]; rewrite IH; reflexivity.
Qed.

(** The text of the file attributes: each known bit by its name, in order. *)
Theorem C89_attributes : forall n, 0 <= n -> bits_shown fat_bits n (fat_attributes n) /\ bits_shown exfat_bits n (exfat_attributes n).
Proof.
  intros n H. split.
  - apply (bits_text fat_bits); [auto|]. repeat (constructor; [cbn; lia|]). constructor.
  - apply (bits_text exfat_bits); [auto|]. repeat (constructor; [cbn; lia|]). constructor.
Qed.
Print Assumptions C89_attributes.

(** Two values have the same text exactly if they agree in the six known bits:
    none of these is lost, all others are. *)
Lemma low_bits table n : Forall (fun x => Z.land 63 (fst x) = fst x) table ->
  resolve_attributes table n = resolve_attributes table (Z.land n 63).
Proof.
  intro F. unfold resolve_attributes. do 2 f_equal. apply filter_ext_in. intros x I. rewrite Forall_forall in F.
  now rewrite <- Z.land_assoc, (F x I).
Qed.

Definition distinct (table : list (Z * string)) : bool :=
  let l := map (fun k => (k, resolve_attributes table (Z.of_nat k))) (seq 0 64) in
  forallb (fun x => forallb (fun y => implb (zlist_eqb (snd x) (snd y)) (Nat.eqb (fst x) (fst y))) l) l.
Lemma distinct_inj table a b : distinct table = true -> 0 <= a < 64 -> 0 <= b < 64 ->
  resolve_attributes table a = resolve_attributes table b -> a = b.
Proof.
  unfold distinct. set (l := map _ _). intros D Ha Hb E.
  assert (I : forall c, 0 <= c < 64 -> In (Z.to_nat c, resolve_attributes table c) l).
  { intros c Hc. apply in_map_iff. exists (Z.to_nat c). split; [now rewrite Z2Nat.id by lia|]. apply in_seq. lia. }
  rewrite forallb_forall in D. specialize (D _ (I a Ha)). rewrite forallb_forall in D. specialize (D _ (I b Hb)).
  cbn [fst snd] in D. rewrite E, zlist_eqb_refl in D. cbn [implb] in D. apply Nat.eqb_eq in D. lia.
Qed.

Theorem C89_known_bits : forall n m, 0 <= n -> 0 <= m ->
  (fat_attributes n = fat_attributes m <-> n mod 64 = m mod 64) /\
  (exfat_attributes n = exfat_attributes m <-> n mod 64 = m mod 64).
Proof.
  assert (G : forall table, Forall (fun x => Z.land 63 (fst x) = fst x) table -> distinct table = true ->
    forall n m, resolve_attributes table n = resolve_attributes table m <-> n mod 64 = m mod 64).
  { intros table F D n m. rewrite (low_bits table n), (low_bits table m) by auto. change 63 with (Z.ones 6). rewrite !Z.land_ones by lia.
    change (2 ^ 6) with 64. split; [|now intros ->]. apply distinct_inj; auto using Z.mod_pos_bound; apply Z.mod_pos_bound; lia. }
  intros n m _ _. split; apply G; try (vm_compute; reflexivity); repeat (constructor; [reflexivity|]); constructor.
Qed.
Print Assumptions C89_known_bits.

Example C89_attributes_case : fat_attributes 0x23 = txt "READ_ONLY | HIDDEN | ARCHIVE" /\ fat_attributes 0 = [] /\ fat_attributes 0x48 = txt "VOLUME_ID" /\
  exfat_attributes 0x18 = txt "UNKNOWN8_MACOS | DIRECTORY".
Proof. vm_compute. repeat split. Qed.
