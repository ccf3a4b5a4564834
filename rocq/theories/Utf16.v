(** UTF-16LE encoding of code points, and its round trip through the decoder. *)
From Verif Require Import Base BaseLemmas.

(** Unicode scalar values. *)
Definition scalar (c : Z) : Prop := 0 <= c < 55296 \/ 57344 <= c < 1114112.

Definition utf16_unit (u : Z) : list Z := le_bytes 2 u.

Definition utf16_char (c : Z) : list Z :=
  if c <? 65536 then utf16_unit c
  else utf16_unit (55296 + (c - 65536) / 1024) ++ utf16_unit (56320 + (c - 65536) mod 1024).

Definition utf16_encode (s : list Z) : list Z := flat_map utf16_char s.

Lemma utf16_round_trip s : Forall scalar s -> utf16le (utf16_encode s) = s.
Proof.
  induction 1 as [|c s H Hs IH]; [reflexivity|].
  cbn [utf16_encode flat_map]. fold (utf16_encode s). unfold utf16_char, utf16_unit.
  destruct (c <? 65536) eqn:E; bools.
  - red in H. cbn [le_bytes app utf16le]. replace (c mod 256 + 256 * (c / 256 mod 256)) with c by lia.
    replace (_ && _) with false by lia. replace (_ && _) with false by lia. now rewrite IH.
  - set (u := 55296 + (c - 65536) / 1024). set (w := 56320 + (c - 65536) mod 1024).
    assert (Hu : 55296 <= u <= 56319) by (red in H; lia).
    assert (Hw : 56320 <= w <= 57343) by lia.
    assert (Ec : 65536 + (u - 55296) * 1024 + (w - 56320) = c) by (unfold u, w; lia).
    clearbody u w. cbn [le_bytes app utf16le].
    replace (u mod 256 + 256 * (u / 256 mod 256)) with u by lia.
    replace (w mod 256 + 256 * (w / 256 mod 256)) with w by lia.
    replace (_ && _) with true by lia. replace (_ && _) with true by lia. now rewrite Ec, IH.
Qed.

Lemma utf16_encode_ok s : bytes_ok (utf16_encode s).
Proof.
  induction s as [|c s IH]; [constructor|]. cbn [utf16_encode flat_map]. apply bytes_ok_app. split; auto.
  unfold utf16_char, utf16_unit. destruct (c <? 65536); [apply le_bytes_ok|].
  apply bytes_ok_app. split; apply le_bytes_ok.
Qed.

Lemma utf16_encode_even s : zlen (utf16_encode s) mod 2 = 0.
Proof.
  induction s as [|c s IH]; [reflexivity|]. cbn [utf16_encode flat_map]. fold (utf16_encode s).
  rewrite zlen_app. unfold utf16_char, utf16_unit.
  destruct (c <? 65536); rewrite ?zlen_app, ?le_bytes_len; lia.
Qed.
