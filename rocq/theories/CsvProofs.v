(** Byte literals and comma-separated values can be read back. *)
From Verif Require Import Base BaseLemmas FieldLemmas Report LogReport ReportText ReportTextSpec.

(** ** Byte literals *)
Lemma hex_value_of v : 0 <= v < 16 -> hex_value (lower (hex_digit v)) v.
Proof.
  intros H. unfold hex_value, lower, hex_digit. destruct (Z.ltb_spec v 10).
  - destruct (Z.leb_spec 65 (48 + v)); lia.
  - destruct (Z.leb_spec 65 (55 + v)); lia.
Qed.
Lemma byte_text_ok quote c w b : quote = 39 \/ quote = 34 -> 0 <= c < 256 -> literal_body quote w b ->
  literal_body quote (byte_text quote c ++ w) (c :: b).
Proof.
  intros Q C B. unfold byte_text.
  destruct ((c =? quote) || (c =? 92)) eqn:E1.
  - apply lb_escape; [|exact B]. cbn [In]. assert (c = 39 \/ c = 34 \/ c = 92) as [->|[->| ->]] by lia; tauto.
  - destruct (Z.eqb_spec c 9) as [->|N9]; [apply lb_escape; [cbn [In]; tauto|exact B]|].
    destruct (Z.eqb_spec c 10) as [->|N10]; [apply lb_escape; [cbn [In]; tauto|exact B]|].
    destruct (Z.eqb_spec c 13) as [->|N13]; [apply lb_escape; [cbn [In]; tauto|exact B]|].
    destruct ((c <? 32) || (127 <=? c)) eqn:E2.
    + replace c with (16 * (c / 16) + c mod 16) at 3 by (symmetry; apply Z.div_mod; lia).
      apply lb_hex; [apply hex_value_of; lia|apply hex_value_of; lia|exact B].
    + apply lb_plain; [lia|lia|lia|exact B].
Qed.
Lemma bytes_text_ok b : bytes_ok b -> bytes_literal (bytes_text b) b.
Proof.
  intros B. unfold bytes_text. set (q := if _ && _ then 34 else 39). assert (Q : q = 39 \/ q = 34) by (unfold q; destruct (_ && _); auto).
  clearbody q. apply bl; [exact Q|]. induction B as [|c b C B IH]; [constructor|]. cbn [flat_map]. apply byte_text_ok; auto.
Qed.
Lemma hex_value_unique c v v' : hex_value c v -> hex_value c v' -> v = v'.
Proof. unfold hex_value. lia. Qed.
Lemma literal_body_unique q w b b' : literal_body q w b -> literal_body q w b' -> b = b'.
Proof.
  intros A. revert b'. induction A as [|c w b C N S A IH|c v w b I A IH|c1 c2 v1 v2 w b H1 H2 A IH]; intros b' B.
  - inversion B. reflexivity.
  - inversion B; subst; try congruence. f_equal. auto.
  - inversion B as [|c' w' x C' N' S' B'|c' v' w' x I' B'|c1' c2' v1' v2' w' x H1' H2' B']; subst; try congruence.
    + f_equal; [|auto]. cbn [In] in I, I'. repeat destruct I as [I|I]; try contradiction; injection I as <- <-;
      repeat destruct I' as [I'|I']; try contradiction; congruence.
    + exfalso. cbn [In] in I. repeat destruct I as [I|I]; try contradiction; discriminate.
  - inversion B as [|c' w' x C' N' S' B'|c' v' w' x I' B'|c1' c2' v1' v2' w' x H1' H2' B']; subst; try congruence.
    + exfalso. cbn [In] in I'. repeat destruct I' as [I'|I']; try contradiction; discriminate.
    + rewrite (hex_value_unique _ _ _ H1 H1'), (hex_value_unique _ _ _ H2 H2'). f_equal. auto.
Qed.
Lemma bytes_literal_unique s b b' : bytes_literal s b -> bytes_literal s b' -> b = b'.
Proof.
  intros A B. inversion A as [q w x Q L]; inversion B as [q' w' x' Q' L']; subst.
  match goal with K : _ = _ :> list Z |- _ => injection K as K1 K2 end. subst q'. apply app_inj_tail in K2 as [-> _].
  eapply literal_body_unique; eauto.
Qed.

(** ** Comma-separated values *)
Lemma csv_special_false c : csv_special c = false -> bare_char c.
Proof.
  unfold csv_special. intros H. assert (N : ~ In c [44; 34; 13; 10]) by (intros I; apply zin_In in I; congruence).
  cbn [In] in N. unfold bare_char. repeat split; intros ->; tauto.
Qed.
Lemma quoted_ok s : quoted_reads (flat_map (fun c => if c =? 34 then [34; 34] else [c]) s) s.
Proof.
  induction s as [|c s IH]; [constructor|]. cbn [flat_map]. destruct (Z.eqb_spec c 34) as [->|N]; cbn [app]; [apply q_quote; exact IH|apply q_char; auto].
Qed.
Lemma csv_field_ok s : field_reads (csv_field s) s.
Proof.
  unfold csv_field. destruct (existsb csv_special s) eqn:E; [apply f_quoted, quoted_ok|].
  apply f_bare. apply Forall_forall. intros c I. apply csv_special_false. destruct (csv_special c) eqn:K; [|reflexivity].
  exfalso. assert (existsb csv_special s = true) by (apply existsb_exists; eauto). congruence.
Qed.
Lemma joined_ok r : r <> [] -> record_reads (joined [44] (map csv_field r)) r.
Proof.
  induction r as [|f [|g r] IH]; intros N; [congruence|apply r_last, csv_field_ok|].
  change (record_reads (csv_field f ++ 44 :: joined [44] (map csv_field (g :: r))) (f :: g :: r)).
  apply r_more; [apply csv_field_ok|apply IH; discriminate].
Qed.
Lemma csv_row_ok r : r <> [] -> exists w, csv_row r = w ++ [13; 10] /\ record_reads w r.
Proof.
  intros N. unfold csv_row. eexists. split; [reflexivity|].
  destruct r as [|[|c f] [|g r]]; try (apply joined_ok; discriminate); [congruence|].
  apply r_last. change [34; 34] with (34 :: [] ++ [34]). apply f_quoted. constructor.
Qed.
Lemma csv_text_ok rows : Forall (fun r => r <> []) rows -> file_reads (csv_text rows) rows.
Proof.
  induction 1 as [|r rows N F IH]; [constructor|]. unfold csv_text. cbn [flat_map]. fold (csv_text rows).
  destruct (csv_row_ok r N) as (w & -> & R). rewrite <- app_assoc. cbn [app]. constructor; auto.
Qed.

(** The reading is unique. *)
Lemma quoted_unique a s b s' c t c' t' : quoted_reads a s -> quoted_reads b s' -> c <> 34 -> c' <> 34 ->
  a ++ 34 :: c :: t = b ++ 34 :: c' :: t' -> a = b /\ s = s'.
Proof.
  intros A. revert b s'. induction A as [|x a s X A IH|a s A IH]; intros b s' B C C' E.
  - inversion B; subst; [auto| |]; cbn [app] in E; injection E; congruence.
  - inversion B as [|x' b0 s0 X' B0|b0 s0 B0]; subst; cbn [app] in E; [injection E; congruence| |injection E; congruence].
    injection E as E1 E2. subst x'. destruct (IH _ _ B0 C C' E2) as [-> ->]. auto.
  - inversion B as [|x' b0 s0 X' B0|b0 s0 B0]; subst; cbn [app] in E; [injection E; congruence|injection E; congruence|].
    injection E as E. destruct (IH _ _ B0 C C' E) as [-> ->]. auto.
Qed.
Definition ends (c : Z) : Prop := c = 44 \/ c = 13.
Lemma bare_unique a b c t c' t' : Forall bare_char a -> Forall bare_char b -> ends c -> ends c' -> a ++ c :: t = b ++ c' :: t' -> a = b.
Proof.
  unfold ends, bare_char. intros A. revert b. induction A as [|x a X A IH]; intros b B C C' E.
  - inversion B; subst; [reflexivity|]. cbn [app] in E. injection E as E1 E2. lia.
  - inversion B; subst; cbn [app] in E; injection E as E1 E2; [lia|]. subst. f_equal. eapply IH; eauto.
Qed.
Lemma field_unique a f b g c t c' t' : field_reads a f -> field_reads b g -> ends c -> ends c' -> a ++ c :: t = b ++ c' :: t' -> a = b /\ f = g.
Proof.
  intros A B C C' E. inversion A as [s F|w s Q]; inversion B as [s' F'|w' s' Q']; subst.
  - pose proof (bare_unique _ _ _ _ _ _ F F' C C' E). auto.
  - exfalso. unfold ends, bare_char in *. destruct F as [|x ? X]; cbn [app] in E; injection E as E1 E2; lia.
  - exfalso. unfold ends, bare_char in *. destruct F' as [|x ? X]; cbn [app] in E; injection E as E1 E2; lia.
  - cbn [app] in E. injection E as E. rewrite <- !app_assoc in E. cbn [app] in E.
    assert (N : c <> 34) by (unfold ends in C; lia). assert (N' : c' <> 34) by (unfold ends in C'; lia).
    destruct (quoted_unique _ _ _ _ _ _ _ _ Q Q' N N' E) as [-> ->]. auto.
Qed.
Lemma record_unique a r b r' t t' : record_reads a r -> record_reads b r' -> a ++ 13 :: t = b ++ 13 :: t' -> a = b /\ r = r'.
Proof.
  intros A. revert b r'. induction A as [w f F|w f w0 fs F A IH]; intros b r' B E.
  - inversion B as [w' f' F'|w' f' w1 fs' F' B']; subst.
    + destruct (field_unique _ _ _ _ _ _ _ _ F F' (or_intror eq_refl) (or_intror eq_refl) E) as [-> ->]. auto.
    + exfalso. rewrite <- app_assoc in E. cbn [app] in E.
      destruct (field_unique _ _ _ _ _ _ _ _ F F' (or_intror eq_refl) (or_introl eq_refl) E) as [-> _]. apply app_inv_head in E. discriminate.
  - rewrite <- app_assoc in E. cbn [app] in E. inversion B as [w' f' F'|w' f' w1 fs' F' B']; subst.
    + exfalso. destruct (field_unique _ _ _ _ _ _ _ _ F F' (or_introl eq_refl) (or_intror eq_refl) E) as [-> _]. apply app_inv_head in E. discriminate.
    + rewrite <- app_assoc in E. cbn [app] in E.
      destruct (field_unique _ _ _ _ _ _ _ _ F F' (or_introl eq_refl) (or_introl eq_refl) E) as [-> ->].
      apply app_inv_head in E. injection E as E. destruct (IH _ _ B' E) as [-> ->]. auto.
Qed.
Lemma file_unique s rs rs' : file_reads s rs -> file_reads s rs' -> rs = rs'.
Proof.
  intros A. revert rs'. induction A as [|w r w' rs R A IH]; intros rs' B.
  - inversion B as [|w1 r1 w2 rs1 R1 B1 EQ]; [reflexivity|]. exfalso. destruct w1; discriminate.
  - inversion B as [EQ|w1 r1 w2 rs1 R1 B1 EQ]; subst; [exfalso; destruct w; discriminate|].
    symmetry in EQ. destruct (record_unique _ _ _ _ _ _ R R1 EQ) as [-> ->]. apply app_inv_head in EQ. injection EQ as ->. f_equal. auto.
Qed.
