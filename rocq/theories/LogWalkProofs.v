From Coq Require Import Permutation.
From Verif Require Import Base BaseLemmas FieldLemmas FrsSpec FrsProofs UsaSpec LogPage LogFile LogSpec LogPageProofs LogFileProofs LogReadProofs.

(** ** Sets *)

Lemma set_add_In x y s : In y (set_add x s) <-> y = x \/ In y s.
Proof.
  unfold set_add. destruct (zin x s) eqn:E.
  - apply zin_In in E. split; [auto|]. intros [->|H]; auto.
  - rewrite in_app_iff. cbn. intuition.
Qed.

Lemma set_add_NoDup x s : NoDup s -> NoDup (set_add x s).
Proof.
  unfold set_add. destruct (zin x s) eqn:E; auto. intro N.
  apply (Permutation_NoDup (l := x :: s)); [apply Permutation_cons_append|]. constructor; auto.
  intro H. apply zin_In in H. congruence.
Qed.

Lemma set_adds_In l : forall s y, In y (set_adds l s) <-> In y l \/ In y s.
Proof.
  induction l as [|x l IH]; intros s y; cbn; [intuition|]. unfold set_adds in IH. rewrite IH, set_add_In. intuition.
Qed.

Lemma set_adds_NoDup l : forall s, NoDup s -> NoDup (set_adds l s).
Proof. induction l as [|x l IH]; intros s N; cbn; auto. apply IH, set_add_NoDup, N. Qed.

Lemma set_remove_In x s y : In y (set_remove x s) <-> In y s /\ y <> x.
Proof. unfold set_remove. rewrite filter_In. destruct (Z.eqb_spec y x); cbn; intuition. Qed.

Lemma set_remove_NoDup x s : NoDup s -> NoDup (set_remove x s).
Proof. apply NoDup_filter. Qed.

(** ** Where LSNs may come from *)

Definition present (lf : log_file) (data : list Z) (lsn : Z) : Prop :=
  exists n off, 0 <= n /\ 0 <= off /\ holds lf data n off lsn.

Definition lsn_at (lf : log_file) (data : list Z) (p : nat) : Z :=
  match fetch lf data (Z.of_nat p / 4096) (Z.of_nat p mod 4096) with
  | Ok (Some h) => fld 8 h 0
  | _ => 0
  end.

Lemma present_listed lf data lsn : lf_ok lf -> bytes_ok data -> present lf data lsn ->
  In lsn (map (lsn_at lf data) (seq 0 (length data))).
Proof.
  intros K B (n & off & Hn & Ho & h & R & <-).
  pose proof (record_at_facts _ _ _ _ _ K B R) as (_ & _ & _ & _ & _ & _ & Hh & Hd).
  destruct K as (K1 & K2 & K'). assert (K : lf_ok lf) by (unfold lf_ok; tauto).
  apply in_map_iff. exists (Z.to_nat (4096 * n + off)). split.
  - unfold lsn_at. rewrite Z2Nat.id by lia.
    replace ((4096 * n + off) / 4096) with n by lia. replace ((4096 * n + off) mod 4096) with off by lia.
    apply (fetch_iff lf data n off h K B Hn Ho) in R. rewrite R. reflexivity.
  - apply in_seq. unfold zlen in Hd. lia.
Qed.

(** ** Walks *)

(** [t] is what following [step] from [cur] adds to the set [s]. *)
Inductive trail (step : Z -> result (option Z)) : Z -> list Z -> list Z -> Prop :=
| trail_end cur s : step cur = Ok None -> trail step cur s []
| trail_known cur s y : step cur = Ok (Some y) -> In y s -> trail step cur s []
| trail_more cur s y t : step cur = Ok (Some y) -> ~ In y s -> trail step y (s ++ [y]) t ->
    trail step cur s (y :: t).

Lemma trail_forall step (P : Z -> Prop) : (forall c y, step c = Ok (Some y) -> P y) ->
  forall cur s t, trail step cur s t -> Forall P t.
Proof. intros HP. induction 1; auto. constructor; eauto. Qed.

Lemma trail_NoDup step cur s t : trail step cur s t -> NoDup s -> NoDup (s ++ t).
Proof.
  induction 1 as [| |cur s y t E N _ IH]; rewrite ?app_nil_r; auto. intro H.
  change (y :: t) with ([y] ++ t). rewrite app_assoc. apply IH.
  apply (Permutation_NoDup (l := y :: s)); [apply Permutation_cons_append|]. constructor; auto.
Qed.

(** Everything met has its successor in the resulting set. *)
Lemma trail_closed step cur s t : trail step cur s t ->
  forall x y, x = cur \/ In x t -> step x = Ok (Some y) -> In y (s ++ t).
Proof.
  induction 1 as [cur s E|cur s y E I|cur s y t E N T IH]; intros x z H S; rewrite ?app_nil_r.
  - destruct H as [->|[]]. congruence.
  - destruct H as [->|[]]. rewrite E in S. injection S as <-. auto.
  - cbn in H. destruct H as [->|H].
    + rewrite E in S. injection S as <-. apply in_app_iff. right. now left.
    + change (y :: t) with ([y] ++ t). rewrite app_assoc. apply (IH x); [intuition|auto].
Qed.

Section Walk.
  Variable lf : log_file.
  Variable data : list Z.
  Hypothesis K : lf_ok lf.
  Hypothesis B : bytes_ok data.

  (** A step that always answers, and answers with LSNs of records. *)
  Definition good_step (step : Z -> result (option Z)) : Prop :=
    forall c, exists r, step c = Ok r /\ forall y, r = Some y -> present lf data y.

  Lemma walk_total step : good_step step -> forall fuel seen cur s,
    NoDup seen -> Forall (present lf data) seen -> incl seen s -> (length data < fuel + length seen)%nat ->
    exists t, walk fuel step cur s = Ok (s ++ t) /\ trail step cur s t.
  Proof.
    intros G. induction fuel as [|fuel IH]; intros seen cur s ND FA IN LE.
    - exfalso.
      assert (I : incl seen (map (lsn_at lf data) (seq 0 (length data)))).
      { intros x Hx. apply present_listed; auto. rewrite Forall_forall in FA. auto. }
      pose proof (NoDup_incl_length ND I) as L. rewrite map_length, seq_length in L. lia.
    - cbn [walk]. destruct (G cur) as (r & E & HP). rewrite E. cbn [bind].
      destruct r as [y|].
      2:{ exists []. rewrite app_nil_r. split; auto. apply trail_end; auto. }
      destruct (zin y s) eqn:EZ.
      { exists []. rewrite app_nil_r. split; auto. apply zin_In in EZ. eapply trail_known; eauto. }
      apply zin_false in EZ.
      destruct (IH (y :: seen) y (s ++ [y])) as (t & W & T).
      + constructor; auto.
      + constructor; auto.
      + intros x [->|Hx]; apply in_app_iff; [right; now left|left; auto].
      + cbn [length]. lia.
      + exists (y :: t). rewrite <- app_assoc in W. split; auto. eapply trail_more; eauto.
  Qed.

  Lemma walk_spec step cur s : good_step step ->
    exists t, walk (walk_fuel data) step cur s = Ok (s ++ t) /\ trail step cur s t.
  Proof.
    intro G. apply (walk_total step G _ []); [constructor|constructor|intros x []|]. unfold walk_fuel. cbn. lia.
  Qed.

  Lemma walk_all_spec step : (forall c, good_step (step c)) -> forall seeds s,
    exists t, walk_all data step seeds s = Ok (s ++ t) /\ (NoDup s -> NoDup (s ++ t)) /\
      (forall P : Z -> Prop, (forall c x y, step c x = Ok (Some y) -> P y) -> Forall P t).
  Proof.
    intros G. induction seeds as [|c seeds IH]; intros s; cbn [walk_all].
    - exists []. rewrite app_nil_r. auto.
    - destruct (walk_spec (step c) c s (G c)) as (t & -> & T). cbn [bind].
      destruct (IH (s ++ t)) as (t' & -> & N' & F'). exists (t ++ t').
      rewrite app_assoc. split; [reflexivity|]. split.
      + intro N. apply N'. eapply trail_NoDup; eauto.
      + intros P HP. apply Forall_app. split; [eapply trail_forall; eauto|]. eauto.
  Qed.

  (** Following [step], from every element of the set, leads to nothing new. *)
  Lemma walk_all_closed (step : Z -> result (option Z)) : good_step step -> forall seeds s s',
    walk_all data (fun _ => step) seeds s = Ok s' ->
    (forall x y, In x s -> step x = Ok (Some y) -> In x seeds \/ In y s) ->
    forall x y, In x s' -> step x = Ok (Some y) -> In y s'.
  Proof.
    intros G. induction seeds as [|c seeds IH]; intros s s' E H; cbn [walk_all] in E.
    - injection E as <-. intros x y Hx S. destruct (H x y Hx S) as [[]|]; auto.
    - destruct (walk_spec step c s G) as (t & W & T). cbv beta in E. rewrite W in E. cbn [bind] in E.
      apply (IH _ _ E). intros x y Hx S. apply in_app_iff in Hx as [Hx|Hx].
      + destruct (H x y Hx S) as [[->|I]|I]; [|auto|right; apply in_app_iff; auto].
        right. apply (trail_closed _ _ _ _ T x); auto.
      + right. apply (trail_closed _ _ _ _ T x); auto.
  Qed.
End Walk.

(** ** The steps *)

(** find_field (965-1027) finds the LSN in the field, if it is that of a record. *)
Notation linked := links (only parsing).

Lemma valid_holds lf data lsn n off : lf_ok lf -> lsn_pos lf lsn n off -> n <> 0 ->
  (valid_lsn lf data lsn <-> holds lf data n off lsn).
Proof.
  intros K P N. split.
  - intros (n' & off' & h & P' & _ & R & E). destruct (lsn_pos_fun _ _ _ _ _ _ P P') as [<- <-]. exists h. auto.
  - intros (h & R & E). exists n, off, h. auto.
Qed.

Lemma valid_present lf data lsn : lf_ok lf -> valid_lsn lf data lsn -> present lf data lsn.
Proof.
  intros K (n & off & h & P & N & R & E). pose proof (lsn_pos_bounds _ _ _ _ K P).
  exists n, off. repeat split; try lia. exists h. auto.
Qed.

Lemma find_field_spec lf data field foff : lf_ok lf -> bytes_ok data ->
  (forall n off h, record_at lf data n off h -> field h = Ok (fld 8 h foff)) ->
  forall x, exists r, find_field lf data field x = Ok r /\ forall y, r = Some y <-> linked lf data foff x y.
Proof.
  intros K B HF x. unfold find_field. pose proof (locate_spec lf data x K B) as L.
  destruct (locate lf data x) as [[h|]|e]; cbn [bind]; [| |contradiction].
  2:{ exists None. split; auto. intro y. split; [discriminate|]. intros (n & off & h & P & N & R & _).
      destruct (L _ _ _ P N R). }
  destruct L as (n & off & P & N & R). rewrite (HF _ _ _ R). cbn [bind].
  set (l := fld 8 h foff).
  assert (U : forall y, linked lf data foff x y -> y = l).
  { intros y (n' & off' & h' & P' & _ & R' & E & _). destruct (lsn_pos_fun _ _ _ _ _ _ P P') as [<- <-].
    rewrite (record_at_fun _ _ _ _ _ _ R' R) in E. auto. }
  pose proof (lsn_to_offset_spec lf l K) as P2. destruct (lsn_to_offset lf l) as [n2 off2]. cbn [fst snd] in P2.
  pose proof (lsn_pos_bounds _ _ _ _ K P2) as (Hn & Ho & _).
  destruct (Z.eqb_spec n2 0) as [E|E].
  { exists None. split; auto. intro y. split; [discriminate|]. intro LK. rewrite (U _ LK) in LK.
    destruct LK as (? & ? & ? & _ & _ & _ & _ & (n3 & off3 & ? & P3 & N3 & _)).
    destruct (lsn_pos_fun _ _ _ _ _ _ P2 P3). lia. }
  destruct (holds_lsn_spec lf data n2 off2 l K B Hn ltac:(lia)) as (b & -> & HB). cbn [bind].
  exists (if b then Some l else None). split; auto. intro y.
  rewrite <- (valid_holds lf data l n2 off2 K P2 E) in HB. split.
  - destruct b; intro X; [injection X as <-|discriminate]. exists n, off, h. split; [auto|]. do 3 (split; [auto|]).
    apply HB. reflexivity.
  - intro LK. pose proof (U _ LK) as ->. destruct LK as (? & ? & ? & _ & _ & _ & _ & V).
    apply HB in V. subst b. reflexivity.
Qed.

Lemma find_previous_spec lf data : lf_ok lf -> bytes_ok data ->
  forall x, exists r, find_previous lf data x = Ok r /\ forall y, r = Some y <-> linked lf data 8 x y.
Proof.
  intros K B. apply find_field_spec; auto. intros n off h R.
  destruct (header_fields _ _ _ _ _ K B R) as (_ & E & _). exact E.
Qed.

Lemma find_undo_spec lf data : lf_ok lf -> bytes_ok data ->
  forall x, exists r, find_undo lf data x = Ok r /\ forall y, r = Some y <-> linked lf data 16 x y.
Proof.
  intros K B. apply find_field_spec; auto. intros n off h R.
  destruct (header_fields _ _ _ _ _ K B R) as (_ & _ & E & _). exact E.
Qed.

Lemma linked_valid lf data f x y : linked lf data f x y -> valid_lsn lf data y.
Proof. intros (n & off & h & _ & _ & _ & _ & V). exact V. Qed.

Lemma find_previous_good lf data : lf_ok lf -> bytes_ok data -> good_step lf data (find_previous lf data).
Proof.
  intros K B c. destruct (find_previous_spec lf data K B c) as (r & E & H). exists r. split; auto.
  intros y Hy. apply valid_present; auto. apply H in Hy. eapply linked_valid; eauto.
Qed.

Lemma find_undo_good lf data : lf_ok lf -> bytes_ok data -> good_step lf data (find_undo lf data).
Proof.
  intros K B c. destruct (find_undo_spec lf data K B c) as (r & E & H). exists r. split; auto.
  intros y Hy. apply valid_present; auto. apply H in Hy. eapply linked_valid; eauto.
Qed.

(** ** The next record *)

(** The places find_next_lsn (866-963) looks at, in order: page, offset in it
    and the sequence number expected there. *)
Definition next_places (lf : log_file) (seq n off dl : Z) : list (Z * Z * Z) :=
  let size := lf_size lf in
  let room := 4096 - off - lf_hl lf in
  if dl <=? room then
    [(n, off + lf_hl lf + dl, seq);
     if size <=? (n + 1) * 4096 then (first_page lf, lf_doff lf, seq + 1) else (n + 1, lf_doff lf, seq)]
  else
    let body := 4096 - lf_doff lf in
    let n' := n + 1 + (dl - room) / body in
    let o' := lf_doff lf + (dl - room) mod body in
    if size <=? n' * 4096
    then [(first_page lf + n' - size / 4096, o', seq + 1); (first_page lf + n' - size / 4096 + 1, lf_doff lf, seq + 1)]
    else [(n', o', seq); (n' + 1, lf_doff lf, seq)].

Fixpoint first_held (lf : log_file) (data : list Z) (l : list (Z * Z * Z)) : result (option Z) :=
  match l with
  | [] => Ok None
  | (n, off, seq) :: t =>
    let! b := holds_lsn lf data n off (offset_to_lsn lf n off seq) in
    if b then Ok (Some (offset_to_lsn lf n off seq)) else first_held lf data t
  end.

Lemma next_places_ok lf data seq n off h : lf_ok lf -> bytes_ok data -> record_at lf data n off h ->
  n <> 0 -> off mod 8 = 0 -> 8 <= fld 4 h 24 -> fld 4 h 24 mod 8 = 0 ->
  Forall (fun p => let '(n', o', q) := p in 1 <= n' /\ 8 <= o' /\ o' mod 8 = 0 /\ (q = seq \/ q = seq + 1))
    (next_places lf seq n off (fld 4 h 24)).
Proof.
  intros K B R N A D1 D2. pose proof (record_at_facts _ _ _ _ _ K B R) as (_ & _ & Hn & Hd & Hd8 & Hh8 & Hoh & _).
  pose proof (wrapped_page_spec lf K) as (_ & W). destruct K as (_ & Eh & _ & _ & _ & ES).
  set (dl := fld 4 h 24) in *. clearbody dl. unfold next_places. cbv zeta.
  destruct (dl <=? 4096 - off - lf_hl lf) eqn:E1.
  { constructor; [cbv beta iota; lia|]. constructor; [|constructor]. destruct (lf_size lf <=? (n + 1) * 4096); cbv beta iota; lia. }
  apply Z.leb_gt in E1. set (left := dl - (4096 - off - lf_hl lf)) in *.
  assert (L8 : left mod 8 = 0) by lia. assert (L0 : 0 < left) by lia.
  assert (R0 : 0 < 4096 - lf_doff lf) by lia. clearbody left.
  assert (M8 : (left mod (4096 - lf_doff lf)) mod 8 = 0).
  { rewrite (Z.mod_eq left) by lia. set (q := left / (4096 - lf_doff lf)). clearbody q.
    assert (exists k, 4096 - lf_doff lf = 8 * k) as [k Ek] by (exists ((4096 - lf_doff lf) / 8); lia).
    rewrite Ek. replace (left - 8 * k * q) with (left + (0 - k * q) * 8) by lia.
    rewrite Z.mod_add by lia. exact L8. }
  assert (Q0 : 0 <= left / (4096 - lf_doff lf)) by (apply Z.div_pos; lia).
  assert (M0 : 0 <= left mod (4096 - lf_doff lf)) by (apply Z.mod_pos_bound; lia).
  set (q := left / (4096 - lf_doff lf)) in *. set (m := left mod (4096 - lf_doff lf)) in *. clearbody q m.
  destruct (_ <=? _) eqn:E2; (constructor; [cbv beta iota; lia|constructor; [cbv beta iota; lia|constructor]]).
Qed.

Lemma find_next_eq lf data seed cur : lf_ok lf -> bytes_ok data ->
  find_next lf data seed cur =
    let! h := locate lf data cur in
    match h with
    | None => Ok None
    | Some h =>
      if (8 <=? fld 4 h 24) && (fld 4 h 24 mod 8 =? 0)
      then first_held lf data (next_places lf (lsn_seq lf seed)
             (fst (lsn_to_offset lf cur)) (snd (lsn_to_offset lf cur)) (fld 4 h 24))
      else Ok None
    end.
Proof.
  intros K B. unfold find_next, locate. pose proof (lsn_to_offset_spec lf cur K) as P.
  destruct (lsn_to_offset lf cur) as [n off]. cbn [fst snd] in *.
  pose proof (lsn_pos_bounds _ _ _ _ K P) as (Hn & Ho & _).
  destruct (Z.eqb_spec n 0) as [E|E]; [reflexivity|].
  pose proof (fetch_spec lf data n off K B Hn ltac:(lia)) as F.
  destruct (fetch lf data n off) as [[h|]|x]; cbn [bind]; try reflexivity.
  destruct (header_fields _ _ _ _ _ K B F) as (_ & _ & _ & -> & _). cbn [bind].
  pose proof (record_at_facts _ _ _ _ _ K B F) as (_ & _ & _ & Hd & Hd8 & Hh8 & Hoh & _).
  pose proof (wrapped_page_spec lf K) as (W & W4). rewrite lsn_to_seqnum_spec by auto.
  destruct K as (Ep & Eh & _ & _ & _ & ES). rewrite Ep, W.
  set (dl := fld 4 h 24). clearbody dl.
  replace ((dl <? 8) || negb (dl mod 8 =? 0)) with (negb ((8 <=? dl) && (dl mod 8 =? 0))).
  2:{ rewrite negb_andb. f_equal. lia. }
  destruct ((8 <=? dl) && (dl mod 8 =? 0)) eqn:ED; cbn [negb]; [|reflexivity].
  apply andb_true_iff in ED as [ED1 ED2]. apply Z.leb_le in ED1.
  unfold next_places. cbv zeta. set (seq := lsn_seq lf seed). clearbody seq.
  destruct (dl <=? 4096 - off - lf_hl lf) eqn:E1.
  - cbn [first_held]. destruct (holds_lsn lf data n _ _) as [[|]|x]; cbn [bind]; try reflexivity.
    destruct (lf_size lf <=? (n + 1) * 4096) eqn:E2; cbn [bind first_held];
      destruct (holds_lsn _ _ _ _ _) as [[|]|x]; reflexivity.
  - apply Z.leb_gt in E1. set (left := dl - (4096 - off - lf_hl lf)).
    assert (R0 : 0 < 4096 - lf_doff lf) by lia. clearbody left.
    assert (Eo : lf_doff lf + left - (1 + left / (4096 - lf_doff lf) - 1) * (4096 - lf_doff lf) =
                 lf_doff lf + left mod (4096 - lf_doff lf)).
    { rewrite (Z.mod_eq left) by lia.
      generalize (left / (4096 - lf_doff lf)). intro q. rewrite (Z.mul_comm (4096 - lf_doff lf) q).
      replace (1 + q - 1) with q by lia. lia. }
    rewrite Eo. set (o' := lf_doff lf + left mod (4096 - lf_doff lf)).
    set (q := left / (4096 - lf_doff lf)). clearbody o' q.
    replace (n + (1 + q)) with (n + 1 + q) by lia.
    destruct (lf_size lf <=? (n + 1 + q) * 4096) eqn:E2; cbn [bind first_held].
    + replace (first_page lf + (1 + q - 1) - (lf_size lf / 4096 - (n + 1)))
        with (first_page lf + (n + 1 + q) - lf_size lf / 4096) by lia.
      destruct (holds_lsn _ _ _ o' _) as [[|]|x]; cbn [bind]; try reflexivity.
      destruct (holds_lsn _ _ _ _ _) as [[|]|x]; reflexivity.
    + destruct (holds_lsn _ _ _ o' _) as [[|]|x]; cbn [bind]; try reflexivity.
      destruct (holds_lsn _ _ _ _ _) as [[|]|x]; reflexivity.
Qed.

(** The first place that holds the LSN expected there. *)
Inductive first_place (lf : log_file) (data : list Z) : list (Z * Z * Z) -> option Z -> Prop :=
| fp_none : first_place lf data [] None
| fp_here n off q t : holds lf data n off (offset_to_lsn lf n off q) ->
    first_place lf data ((n, off, q) :: t) (Some (offset_to_lsn lf n off q))
| fp_later n off q t r : ~ holds lf data n off (offset_to_lsn lf n off q) ->
    first_place lf data t r -> first_place lf data ((n, off, q) :: t) r.

Lemma first_held_spec lf data l : lf_ok lf -> bytes_ok data ->
  Forall (fun p => let '(n, o, _) := p in 0 <= n /\ 0 <= o) l ->
  exists r, first_held lf data l = Ok r /\ first_place lf data l r.
Proof.
  intros K B. induction 1 as [|[[n o] q] l [Hn Ho] _ IH]; cbn [first_held].
  - exists None. split; auto. constructor.
  - destruct (holds_lsn_spec lf data n o (offset_to_lsn lf n o q) K B Hn Ho) as (b & -> & HB). cbn [bind].
    destruct b.
    + eexists. split; [reflexivity|]. apply fp_here. apply HB. reflexivity.
    + destruct IH as (r & -> & F). exists r. split; auto. apply fp_later; auto. intro X. apply HB in X. discriminate.
Qed.

Lemma first_place_In lf data l y : first_place lf data l (Some y) ->
  exists n off q, In (n, off, q) l /\ holds lf data n off y /\ y = offset_to_lsn lf n off q.
Proof.
  intro F. remember (Some y) as r. induction F as [|n off q t H|n off q t r H F IH].
  - discriminate.
  - injection Heqr as <-. exists n, off, q. split; [now left|]. auto.
  - destruct (IH Heqr) as (n' & o' & q' & I & ?). exists n', o', q'. split; [now right|]. auto.
Qed.

Lemma first_place_fun lf data l r r' : first_place lf data l r -> first_place lf data l r' -> r = r'.
Proof.
  intro F. revert r'. induction F; intros r' F'; inversion F'; subst; auto; contradiction.
Qed.

Lemma find_next_spec lf data seed cur : lf_ok lf -> bytes_ok data ->
  exists r, find_next lf data seed cur = Ok r /\
  match locate lf data cur with
  | Ok (Some h) =>
    if (8 <=? fld 4 h 24) && (fld 4 h 24 mod 8 =? 0)
    then exists n off, lsn_pos lf cur n off /\ n <> 0 /\ record_at lf data n off h /\
           first_place lf data (next_places lf (lsn_seq lf seed) n off (fld 4 h 24)) r
    else r = None
  | _ => r = None
  end.
Proof.
  intros K B. rewrite find_next_eq by auto. pose proof (locate_spec lf data cur K B) as L.
  destruct (locate lf data cur) as [[h|]|x]; cbn [bind]; [|eauto|contradiction].
  destruct L as (n & off & P & N & R). pose proof (proj2 (lsn_to_offset_iff lf cur n off K) P) as ->. cbn [fst snd].
  destruct ((8 <=? fld 4 h 24) && (fld 4 h 24 mod 8 =? 0)) eqn:E; [|eauto].
  apply andb_true_iff in E as [E1 E2]. pose proof (lsn_pos_bounds _ _ _ _ K P) as (_ & _ & A & _).
  pose proof (next_places_ok lf data (lsn_seq lf seed) n off h K B R N A ltac:(lia) ltac:(lia)) as NP.
  destruct (first_held_spec lf data (next_places lf (lsn_seq lf seed) n off (fld 4 h 24)) K B) as (r & -> & F).
  { eapply Forall_impl; [|exact NP]. intros [[a b] c]. lia. }
  exists r. split; auto. exists n, off. auto.
Qed.

(** What is found is the LSN of a record, at the expected place, with the
    sequence number of the seed or the next one. *)
Lemma find_next_sound lf data seed cur y : lf_ok lf -> bytes_ok data ->
  find_next lf data seed cur = Ok (Some y) ->
  exists n off q, 1 <= n /\ 8 <= off /\ off mod 8 = 0 /\ (q = lsn_seq lf seed \/ q = lsn_seq lf seed + 1) /\
    holds lf data n off y /\ y = offset_to_lsn lf n off q.
Proof.
  intros K B E. destruct (find_next_spec lf data seed cur K B) as (r & E' & H). rewrite E in E'. injection E' as <-.
  destruct (locate lf data cur) as [[h|]|x]; try discriminate.
  destruct (_ && _) eqn:D; [|discriminate]. apply andb_true_iff in D as [D1 D2].
  destruct H as (n & off & P & N & R & F). apply first_place_In in F as (n' & o' & q' & I & HO & EQ).
  pose proof (lsn_pos_bounds _ _ _ _ K P) as (_ & _ & A & _).
  pose proof (next_places_ok lf data (lsn_seq lf seed) n off h K B R N A ltac:(lia) ltac:(lia)) as NP.
  rewrite Forall_forall in NP. apply NP in I. exists n', o', q'. tauto.
Qed.

Lemma find_next_good lf data seed : lf_ok lf -> bytes_ok data -> good_step lf data (find_next lf data seed).
Proof.
  intros K B c. destruct (find_next_spec lf data seed c K B) as (r & E & _). exists r. split; auto.
  intros y ->. destruct (find_next_sound lf data seed c y K B E) as (n & off & q & H1 & H2 & _ & _ & HO & _).
  exists n, off. repeat split; try lia. exact HO.
Qed.

Lemma find_next_valid lf data seed cur y : lf_ok lf -> bytes_ok data -> addressable lf data ->
  find_next lf data seed cur = Ok (Some y) -> valid_lsn lf data y.
Proof.
  intros K B AD E. destruct (find_next_sound lf data seed cur y K B E) as (n & off & q & H1 & H2 & H3 & _ & HO & EQ).
  destruct HO as (h & R & L). pose proof (record_at_facts _ _ _ _ _ K B R) as (_ & _ & _ & _ & _ & _ & Hh & Hd).
  unfold addressable in AD. assert (0 < lf_hl lf) by (destruct K as (_ & ? & _); lia).
  exists n, off, h. split; [|split; [lia|auto]]. subst y. rewrite EQ.
  apply offset_to_lsn_pos; auto; lia.
Qed.
