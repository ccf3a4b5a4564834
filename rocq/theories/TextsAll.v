(** The rows of the report on a volume and its shadow copies hold no surrogates. *)
From Coq Require Import String.
From Verif Require Import Base BaseLemmas FileObject FragmentedFile Attributes Filetime FatDir Mft Report LogReport ReportText ReportFiles Utf8 TextsMft TextsReport
  Volume Shadow AllMft.
Local Open Scope Z_scope.

Lemma seek_read_bytes d off n out : bytes_ok d -> seek_read d off n = Ok out -> bytes_ok out.
Proof.
  intros Bd H. unfold seek_read in H. do 3 match type of H with (if ?c then _ else _) = _ => destruct c; [discriminate|] end. injection H as <-. now apply bytes_ok_slice.
Qed.
Lemma table_bytes vol voff t : bytes_ok vol -> table_of vol voff = Ok t -> bytes_ok t.
Proof.
  intros Bv H. unfold table_of in H. apply bind_ok in H as (v & V & H). eapply pread_bytes; [|exact H].
  unfold volume_open in V. do 8 apply bind_ok in V as (? & _ & V). apply bind_ok in V as (? & _ & V). apply bind_ok in V as (r & _ & V).
  destruct r as [runs|]; [|discriminate]. apply bind_ok in V as (s & _ & V). destruct s as [fs|]; [|discriminate]. apply bind_ok in V as (rs & _ & V). injection V as <-. exact Bv.
Qed.

Definition held (o : parser) : Prop := bytes_ok (v_data (sp_live o)) /\ bytes_ok (v_data (sp_store o)).
Lemma sectors_bytes o l : held o -> forall expect out, read_sectors o false expect l = Ok out -> bytes_ok out.
Proof.
  intros [BL BS]. induction l as [|x t IH]; intros expect out H; cbn [read_sectors] in H; [injection H as <-; constructor|]. cbv zeta in H. cbn [andb] in H.
  assert (D : forall v a, bytes_ok (v_data v) -> (let! d := seek_read (v_data v) (v_off v + a) 512 in if negb (zlen d =? 512) then Ok d else
      let! r := read_sectors o false (expect + 512) t in Ok (d ++ r)) = Ok out -> bytes_ok out).
  { intros v a Bv K. apply bind_ok in K as (d & E & K). apply seek_read_bytes in E; [|exact Bv]. destruct (negb _); [injection K as <-; exact E|].
    apply bind_ok in K as (r & R & K). injection K as <-. apply bytes_ok_app. split; [exact E|eauto]. }
  destruct x as [|a|a]; [|eauto|eauto]. apply bind_ok in H as (r & R & H). assert (out = zeros 512 ++ r) by congruence. subst out. apply bytes_ok_app. split; [apply bytes_ok_zeros|eauto].
Qed.
Lemma block_bytes o off out : held o -> read_block o false off = Ok out -> bytes_ok out.
Proof. intros Ho H. unfold read_block in H. apply bind_ok in H as (l & _ & H). destruct (_ =? 0); [injection H as <-; constructor|]. eapply sectors_bytes; eauto. Qed.
Lemma read_loop_bytes o vs fuel : held o -> forall pos left out, snd (read_loop fuel o false vs pos left) = Ok out -> bytes_ok out.
Proof.
  intros Ho. induction fuel as [|fuel IH]; intros pos left out H; cbn [read_loop] in H; [discriminate|]. destruct (negb _); [injection H as <-; constructor|].
  destruct (vs <=? pos); [injection H as <-; constructor|]. destruct (read_block o false _) as [b|] eqn:R; [|discriminate]. apply block_bytes in R; [|exact Ho]. cbv zeta in H.
  destruct (negb _); [injection H as <-; now apply bytes_ok_slice|]. destruct (read_loop fuel _ _ _ _ _) as [p r] eqn:L. cbn [snd] in H. apply bind_ok in H as (x & X & H). subst r.
  injection H as <-. apply bytes_ok_app. split; [now apply bytes_ok_slice|]. eapply IH. rewrite L. reflexivity.
Qed.
Lemma shadow_bytes_bytes o d : held o -> shadow_bytes o = Ok d -> bytes_ok d.
Proof.
  intros Ho H. unfold shadow_bytes in H. destruct (sp_seek o 0 0) as [o1 r] eqn:S. apply bind_ok in H as (x & X & H).
  assert (H1 : held o1).
  { unfold sp_seek in S. destruct (negb _); [injection S as <- <-; exact Ho|]. cbn in S. injection S as <- _. exact Ho. }
  unfold sp_read in H. destruct (_ && _); [discriminate|]. destruct (negb _); [discriminate|]. cbv zeta in H. destruct (_ || _); [injection H as <-; constructor|].
  destruct (read_block o1 false _) as [b|] eqn:R; [|discriminate]. apply block_bytes in R; [|exact H1].
  destruct (read_loop _ _ _ _ _ _) as [p q] eqn:L. cbn [snd] in H. apply bind_ok in H as (y & Y & H). subst q. injection H as <-. apply bytes_ok_app. split; [now apply bytes_ok_slice|].
  eapply (read_loop_bytes o1 _ _ H1). rewrite L. reflexivity.
Qed.
Lemma rows_fine t h tag : (forall x, t = Ok x -> bytes_ok x) -> sc tag -> gall row_fine (table_rows t h tag).
Proof.
  intros T S. unfold table_rows. apply gall_run. intros x E. apply T in E. apply process_mft_fine; assumption.
Qed.
Lemma shadow_reports_fine fuel depth l st : forall o, held o -> gall row_fine (shadow_reports fuel depth o l st).
Proof.
  induction l as [|s t IH]; intros o Ho; cbn [shadow_reports]; [constructor|]. destruct (select_shadow fuel depth o _) as [o1 r] eqn:S.
  assert (H1 : held o1).
  { unfold select_shadow in S. destruct (_ && _); [injection S as <- _; exact Ho|]. destruct (select _ _ _ _ _ _ _) as [x y]. injection S as <- _. exact Ho. }
  destruct r; [|constructor]. apply gall_seq; [|apply IH; exact H1]. apply rows_fine.
  - intros x E. apply bind_ok in E as (d & D & E). apply shadow_bytes_bytes in D; [|exact H1]. eapply table_bytes; eauto.
  - apply sc_app; [apply sc_txt|apply number_fine].
Qed.
Lemma all_mft_fine fuel depth vol voff : bytes_ok vol -> gall row_fine (process_all_mft fuel depth vol voff).
Proof.
  intros Bv. unfold process_all_mft. apply gall_seq.
  - apply rows_fine; [intros x; now apply table_bytes|apply sc_txt].
  - destruct (open_one fuel (mk_vol vol voff) None) as [o|e] eqn:O; [|destruct e; constructor]. destruct (shadows _) as [l st]. apply shadow_reports_fine.
    unfold open_one in O. do 3 apply bind_ok in O as (? & _ & O). injection O as <-. split; exact Bv.
Qed.
