From Verif Require Import Base BaseLemmas Utf16 Utf8 Utf8Spec.

Ltac ranges := unfold scalar, follows, within, is_byte in *.

Ltac some E := match type of E with Some ?x = Some ?q => assert (q = x) by congruence; subst q; clear E end.

Lemma char_sequence c q : scalar c -> utf8_char c = Some q -> sequence q c.
Proof.
  intros H E. unfold utf8_char in E.
  destruct (Z.ltb_spec c 0x80).
  { some E. constructor. ranges. lia. }
  destruct (Z.ltb_spec c 0x800).
  { some E. set (x := 0xC0 + c / 64). set (y := 0x80 + c mod 64).
    assert (V : c = (x - 0xC0) * 64 + (y - 0x80)) by (unfold x, y; lia). 
    assert (X : 0xC2 <= x <= 0xDF /\ 0x80 <= y <= 0xBF) by (unfold x, y; lia). clearbody x y. rewrite V. apply seq_2; ranges; lia. }
  destruct ((0xD800 <=? c) && (c <=? 0xDFFF)) eqn:S; [discriminate|].
  destruct (Z.ltb_spec c 0x10000).
  { some E. assert (R : c < 0xD800 \/ 0xE000 <= c) by lia. clear S H.
    set (x := 0xE0 + c / 4096). set (y := 0x80 + c / 64 mod 64). set (z := 0x80 + c mod 64).
    assert (V : c = (x - 0xE0) * 4096 + (y - 0x80) * 64 + (z - 0x80)) by (unfold x, y, z; lia).
    assert (X : 0xE0 <= x <= 0xEF /\ 0x80 <= y <= 0xBF /\ 0x80 <= z <= 0xBF) by (unfold x, y, z; lia). clearbody x y z. rewrite V.
    apply seq_3; ranges; lia. }
  some E. assert (R : 0x10000 <= c < 0x110000) by (ranges; lia). clear S H.
  set (x := 0xF0 + c / 262144). set (y := 0x80 + c / 4096 mod 64). set (z := 0x80 + c / 64 mod 64). set (w := 0x80 + c mod 64).
  assert (V : c = (x - 0xF0) * 262144 + (y - 0x80) * 4096 + (z - 0x80) * 64 + (w - 0x80)) by (unfold x, y, z, w; lia).
  assert (X : 0xF0 <= x <= 0xF4 /\ 0x80 <= y <= 0xBF /\ 0x80 <= z <= 0xBF /\ 0x80 <= w <= 0xBF) by (unfold x, y, z, w; lia). clearbody x y z w. rewrite V.
  apply seq_4; ranges; lia.
Qed.

Lemma sequence_char q c : sequence q c -> scalar c /\ utf8_char c = Some q.
Proof.
  intro H. destruct H as [a Ha|a b Ha Hb|a b c Hab Hc|a b c d Hab Hc Hd]; ranges; unfold utf8_char.
  - split; [lia|]. destruct (Z.ltb_spec a 0x80); [reflexivity|lia].
  - set (v := (a - 0xC0) * 64 + (b - 0x80)). assert (V : 0x80 <= v < 0x800) by (unfold v; lia). split; [lia|].
    destruct (Z.ltb_spec v 0x80); [lia|]. destruct (Z.ltb_spec v 0x800); [|lia].
    assert (E1 : v / 64 = a - 0xC0) by (unfold v; lia). assert (E2 : v mod 64 = b - 0x80) by (unfold v; lia). rewrite E1, E2.
    do 2 f_equal; [lia|f_equal; lia].
  - set (v := (a - 0xE0) * 4096 + (b - 0x80) * 64 + (c - 0x80)).
    assert (B : 0x80 <= b <= 0xBF /\ 0xE0 <= a <= 0xEF) by lia.
    assert (V : 0x800 <= v < 0xD800 \/ 0xE000 <= v < 0x10000) by (unfold v; destruct Hab as [Q|[Q|[Q|Q]]]; lia). split; [lia|].
    destruct (Z.ltb_spec v 0x80); [lia|]. destruct (Z.ltb_spec v 0x800); [lia|].
    replace ((0xD800 <=? v) && (v <=? 0xDFFF)) with false by lia. destruct (Z.ltb_spec v 0x10000); [|lia].
    assert (E1 : v / 4096 = a - 0xE0) by (unfold v; lia). assert (E2 : v / 64 mod 64 = b - 0x80) by (unfold v; lia).
    assert (E3 : v mod 64 = c - 0x80) by (unfold v; lia). rewrite E1, E2, E3.
    do 2 f_equal; [lia|]. f_equal; [lia|]. f_equal; lia.
  - set (v := (a - 0xF0) * 262144 + (b - 0x80) * 4096 + (c - 0x80) * 64 + (d - 0x80)).
    assert (B : 0x80 <= b <= 0xBF /\ 0xF0 <= a <= 0xF4) by lia.
    assert (V : 0x10000 <= v < 0x110000) by (unfold v; destruct Hab as [Q|[Q|Q]]; lia). split; [lia|].
    destruct (Z.ltb_spec v 0x80); [lia|]. destruct (Z.ltb_spec v 0x800); [lia|].
    replace ((0xD800 <=? v) && (v <=? 0xDFFF)) with false by lia. destruct (Z.ltb_spec v 0x10000); [lia|].
    assert (E1 : v / 262144 = a - 0xF0) by (unfold v; lia). assert (E2 : v / 4096 mod 64 = b - 0x80) by (unfold v; lia).
    assert (E3 : v / 64 mod 64 = c - 0x80) by (unfold v; lia). assert (E4 : v mod 64 = d - 0x80) by (unfold v; lia). rewrite E1, E2, E3, E4.
    do 2 f_equal; [lia|]. f_equal; [lia|]. f_equal; [lia|]. f_equal; lia.
Qed.

Lemma scalar_char c : scalar c -> exists q, utf8_char c = Some q.
Proof.
  intro H. unfold utf8_char. destruct (c <? 0x80); [eauto|]. destruct (c <? 0x800); [eauto|].
  replace ((0xD800 <=? c) && (c <=? 0xDFFF)) with false by (ranges; lia). destruct (c <? 0x10000); eauto.
Qed.

Lemma scalar_text s : Forall scalar s -> exists b, utf8_text s = Some b.
Proof.
  induction 1 as [|c s H _ [b IH]]; cbn [utf8_text]; [eauto|]. destruct (scalar_char c H) as [q ->]. rewrite IH. eauto.
Qed.

Lemma text_holds s : Forall scalar s -> forall b, utf8_text s = Some b -> holds_text b s.
Proof.
  induction 1 as [|c s H _ IH]; intros b E; cbn [utf8_text] in E; [injection E as <-; constructor|].
  destruct (utf8_char c) as [q|] eqn:Q; [|discriminate]. destruct (utf8_text s) as [d|]; [|discriminate].
  injection E as <-. constructor; auto. now apply char_sequence.
Qed.

Lemma holds_scalar b s : holds_text b s -> Forall scalar s.
Proof. induction 1; constructor; auto. eapply sequence_char; eauto. Qed.

Lemma holds_encoded b s : holds_text b s -> utf8_text s = Some b.
Proof.
  induction 1 as [|q c b s Q _ IH]; [reflexivity|]. cbn [utf8_text]. apply sequence_char in Q as [_ ->]. now rewrite IH.
Qed.

(** No sequence is the beginning of another. *)
Lemma sequence_split q c q' c' b b' : sequence q c -> sequence q' c' -> q ++ b = q' ++ b' -> q = q' /\ c = c' /\ b = b'.
Proof.
  intros H H' E. destruct H, H'; cbn [app] in E; injection E; intros; subst; ranges; try (repeat split; reflexivity); lia.
Qed.

Lemma holds_unique b s : holds_text b s -> forall s', holds_text b s' -> s = s'.
Proof.
  induction 1 as [|q c b s Q _ IH]; intros s' H'.
  - inversion H' as [|q c b s Q T E]; [reflexivity|]. destruct Q; discriminate.
  - inversion H' as [E|q' c' b' t Q' T' E]; [destruct Q; discriminate|].
    apply (sequence_split q' c' q c) in E as (-> & -> & ->); auto. f_equal. auto.
Qed.

Lemma utf8_app a b : utf8_text (a ++ b) = match utf8_text a, utf8_text b with Some x, Some y => Some (x ++ y) | _, _ => None end.
Proof.
  induction a as [|c a IH]; cbn [utf8_text app]; [destruct (utf8_text b); auto|].
  rewrite IH. destruct (utf8_char c), (utf8_text a), (utf8_text b); auto. now rewrite app_assoc.
Qed.

(** Decoded names have no surrogates. *)
Lemma utf16le_scalar l : bytes_ok l -> Forall scalar (utf16le l).
Proof.
  remember (length l) as n eqn:N. assert (L : (length l <= n)%nat) by lia. clear N. revert l L.
  induction n as [|n IH]; intros l L B.
  { destruct l; [constructor|cbn [length] in L; lia]. }
  destruct l as [|a [|b t]]; cbn [utf16le]; [constructor|repeat constructor; ranges; lia|].
  inversion B as [|? ? Ba B1]; subst. inversion B1 as [|? ? Bb Bt]; subst. cbn [length] in L.
  assert (IHt : Forall scalar (utf16le t)) by (apply IH; [lia|exact Bt]).
  set (u := a + 256 * b). assert (U : 0 <= u < 65536) by (unfold u; ranges; lia). clearbody u.
  destruct ((55296 <=? u) && (u <=? 56319)) eqn:E1.
  - destruct t as [|c [|d t']]; try (constructor; [ranges; lia|constructor]).
    inversion Bt as [|? ? Bc B2]; subst. inversion B2 as [|? ? Bd Bt']; subst.
    set (w := c + 256 * d). destruct ((56320 <=? w) && (w <=? 57343)) eqn:E2.
    + constructor; [unfold scalar; lia|]. apply IH; [cbn [length] in L; lia|exact Bt'].
    + constructor; [unfold scalar; lia|exact IHt].
  - destruct ((56320 <=? u) && (u <=? 57343)) eqn:E2; (constructor; [unfold scalar; lia|exact IHt]).
Qed.
