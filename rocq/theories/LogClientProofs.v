From Verif Require Import Base BaseLemmas FieldLemmas FrsSpec FrsProofs UsaSpec LogPage LogFile LogSpec LogPageProofs LogFileProofs LogReadProofs.

Lemma slice_to_end {A} (l : list A) a : a <= zlen l -> slice l a (zlen l) = zdrop a l.
Proof. intro H. unfold slice. apply ztake_all. rewrite zlen_zdrop. pose proof (zlen_nonneg l). lia. Qed.

Section Client.
  Variable lf : log_file.
  Variable data : list Z.
  Hypothesis K : lf_ok lf.
  Hypothesis B : bytes_ok data.

  Lemma data_after_fun n left a : data_after lf data n left a -> forall b, data_after lf data n left b -> a = b.
  Proof.
    induction 1 as [n left H|n left H G|n left buf e rest H L _ IH]; intros b Hb; inversion Hb; subst; auto; try lia.
    - match goal with H : log_page_at _ _ _ _ _ |- _ => destruct (G _ _ H) end.
    - match goal with G : forall buf e, ~ log_page_at _ _ _ buf e |- _ => destruct (G _ _ L) end.
    - match goal with H : log_page_at _ _ _ ?b _ |- _ = slice ?b _ _ ++ _ => destruct (log_page_at_fun _ _ _ _ _ _ _ L H) as [-> _] end.
      f_equal. auto.
  Qed.

  Lemma record_data_fun n off h a b : record_data lf data n off h a -> record_data lf data n off h b -> a = b.
  Proof. intros (r & H & ->) (r' & H' & ->). f_equal. exact (data_after_fun _ _ _ H _ H'). Qed.

  (** The data is complete, or ends before a page that cannot be read. *)
  Lemma data_after_len n left out : data_after lf data n left out -> 8 <= lf_doff lf < 4096 -> 0 <= left ->
    zlen out <= left /\
    (zlen out = left \/ exists m, forall buf e, ~ log_page_at lf data m buf e).
  Proof.
    intros H D. induction H as [n left H|n left H G|n left buf e rest H L _ IH]; intro P.
    - change (zlen (@nil Z)) with 0. lia.
    - change (zlen (@nil Z)) with 0. split; [lia|]. eauto.
    - destruct (log_page_facts _ _ _ _ _ B L) as (_ & LB & _).
      rewrite zlen_app, zlen_slice, LB by lia. destruct (IH ltac:(lia)) as [I1 I2].
      split; [lia|]. destruct I2 as [I2|I2]; [left|auto]. lia.
  Qed.

  Lemma more_data_spec : 8 <= lf_doff lf < 4096 -> forall fuel n left buf,
    0 <= n -> (Z.to_nat left < fuel)%nat ->
    exists rest, more_data lf data fuel n left buf = Ok (buf ++ rest) /\ data_after lf data n left rest.
  Proof.
    intros D. induction fuel as [|fuel IH]; intros n left buf Hn HF; [lia|]. cbn [more_data].
    destruct (left <=? 0) eqn:E0.
    { exists []. rewrite app_nil_r. split; auto. apply after_done. lia. }
    apply Z.leb_gt in E0. pose proof (wrapped_page_spec lf K) as (W & W4).
    pose proof K as (Ep & _). rewrite Ep, W.
    assert (EN : (if lf_size lf <=? (n + 1) * 4096 then Ok (first_page lf) else Ok (n + 1)) = Ok (next_page lf n)).
    { unfold next_page. destruct (_ <=? _); reflexivity. }
    rewrite EN. cbn [bind].
    assert (Hn' : 0 <= next_page lf n) by (unfold next_page; destruct (_ <=? _); lia).
    pose proof (page_by_number_spec lf data (next_page lf n) K B Hn') as P.
    destruct (page_by_number lf data (next_page lf n)) as [[p|]|x]; cbn [bind]; [| |contradiction].
    2:{ exists []. rewrite app_nil_r. split; auto. apply after_gap; auto. }
    destruct P as (L & _). destruct (log_page_facts _ _ _ _ _ B L) as (_ & LB & _).
    assert (EM : (if 4096 - lf_doff lf <=? left then zdrop (lf_doff lf) (lp_buf p)
                  else slice (lp_buf p) (lf_doff lf) (lf_doff lf + left)) =
                 slice (lp_buf p) (lf_doff lf) (lf_doff lf + Z.min left (4096 - lf_doff lf))).
    { destruct (Z.leb_spec (4096 - lf_doff lf) left) as [E1|E1].
      - rewrite Z.min_r by lia. replace (lf_doff lf + (4096 - lf_doff lf)) with 4096 by lia.
        rewrite <- LB. symmetry. apply slice_to_end. lia.
      - rewrite Z.min_l by lia. reflexivity. }
    rewrite EM. set (more := slice _ _ _).
    assert (LM : zlen more = Z.min left (4096 - lf_doff lf)) by (unfold more; rewrite zlen_slice, LB by lia; lia).
    destruct (IH (next_page lf n) (left - zlen more) (buf ++ more)) as (rest & -> & DA); [auto|lia|].
    exists (more ++ rest). rewrite app_assoc. split; auto. eapply after_page; eauto. rewrite <- LM. exact DA.
  Qed.

  (** get_client_data of an LSN whose place holds a record header. *)
  Lemma get_client_data_ok cluster lsn n off h : lsn_pos lf lsn n off -> record_at lf data n off h ->
    exists out, record_data lf data n off h out /\
      get_client_data lf data cluster lsn =
        Ok {| cd_buf := out; cd_type := fld 4 h 32; cd_lsn := lsn; cd_tid := fld 4 h 36; cd_cluster := cluster |}.
  Proof.
    intros P R. unfold get_client_data. rewrite (proj2 (lsn_to_offset_iff lf lsn n off K) P).
    pose proof (lsn_pos_bounds _ _ _ _ K P) as (Hn & Ho & _).
    pose proof R as (b0 & e0 & L0 & _). destruct (page_by_number_some _ _ _ _ _ K B L0) as (p & -> & _ & _ & PS).
    cbn [bind]. pose proof (header_at_spec lf data n p off K B PS ltac:(lia)) as H.
    destruct (header_at p off (lf_hl lf)) as [h'|x]; [|destruct H as [_ H]; destruct (H _ R)].
    rewrite (record_at_fun _ _ _ _ _ _ H R). cbn [bind].
    destruct (header_fields _ _ _ _ _ K B R) as (_ & _ & _ & -> & _ & -> & -> & _ & _ & _ & BD). cbn [bind].
    pose proof (record_at_facts _ _ _ _ _ K B R) as (_ & LH & _ & Hd & _ & _ & Hoh & _).
    pose proof K as (Ep & Eh & _). rewrite Ep.
    set (dl := fld 4 h 24) in *.
    assert (M : exists out, record_data lf data n off h out /\
      (if dl <=? 4096 - off - lf_hl lf then Ok (slice h (lf_hl lf) (lf_hl lf + dl))
       else more_data lf data (S (Z.to_nat dl)) n (dl - zlen (zdrop (lf_hl lf) h)) (zdrop (lf_hl lf) h)) = Ok out).
    { unfold record_data. fold dl. destruct (dl <=? 4096 - off - lf_hl lf) eqn:E.
      - exists (slice h (lf_hl lf) (lf_hl lf + dl)). split; auto. exists []. rewrite Z.min_l by lia.
        split; [apply after_done; lia|]. rewrite app_nil_r. reflexivity.
      - rewrite Z.min_r by lia. assert (LZ : zlen (zdrop (lf_hl lf) h) = 4096 - off - lf_hl lf).
        { rewrite zlen_zdrop, LH. lia. }
        destruct (more_data_spec ltac:(lia) (S (Z.to_nat dl)) n (dl - zlen (zdrop (lf_hl lf) h)) (zdrop (lf_hl lf) h))
          as (rest & -> & DA); [auto|lia|].
        exists (zdrop (lf_hl lf) h ++ rest). split; auto. exists rest. rewrite LZ in DA. split; auto.
        f_equal. replace (lf_hl lf + (4096 - off - lf_hl lf)) with (zlen h) by lia. symmetry. apply slice_to_end. lia. }
    destruct M as (out & RD & EQ). exists out. split; auto. clearbody dl. rewrite EQ. reflexivity.
  Qed.

  (** Otherwise the method fails. *)
  Lemma get_client_data_err cluster lsn n off : lsn_pos lf lsn n off -> (forall h, ~ record_at lf data n off h) ->
    exists e, get_client_data lf data cluster lsn = Err e /\ (e = AttributeError_py \/ e = LogFileException).
  Proof.
    intros P R. unfold get_client_data. rewrite (proj2 (lsn_to_offset_iff lf lsn n off K) P).
    pose proof (lsn_pos_bounds _ _ _ _ K P) as (Hn & Ho & _).
    pose proof (page_by_number_spec lf data n K B Hn) as H.
    destruct (page_by_number lf data n) as [[p|]|x]; cbn [bind]; [|eauto|contradiction].
    pose proof (header_at_spec lf data n p off K B H ltac:(lia)) as H2.
    destruct (header_at p off (lf_hl lf)) as [h'|x]; [destruct (R _ H2)|]. destruct H2 as [-> _].
    exists LogFileException. auto.
  Qed.
End Client.
