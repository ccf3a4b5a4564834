(** The texts in the reports on the metadata files hold no surrogates: every
    name comes from [utf16le]. *)
From Coq Require Import String.
From Verif Require Import Base BaseLemmas MappingPairs Frs FrsSpec FrsProofs FileRecord FileRecordSpec FileRecordProofs FragmentedFile Filetime Attributes
  Usa Mft MftProofs Carve Wsl Usn Utf16 Report LogReport ReportText ReportFiles Utf8 Utf8Proofs.

Definition sc (s : list Z) : Prop := Forall scalar s.

Lemma sc_app a b : sc a -> sc b -> sc (a ++ b).
Proof. intros. apply Forall_app. auto. Qed.
Lemma sc_txt s : sc (txt s).
Proof.
  unfold txt, sc. apply Forall_forall. intros c H. apply in_map_iff in H as (a & <- & _).
  pose proof (Ascii.N_ascii_bounded a) as B. unfold scalar. lia.
Qed.
Lemma sc_small s : Forall (fun c => 0 <= c < 55296) s -> sc s.
Proof. apply Forall_impl. unfold scalar. lia. Qed.

(** ** Generators *)
Definition gall {A} (P : A -> Prop) (g : gen A) : Prop := Forall P (fst g).
Lemma gall_nil {A} (P : A -> Prop) st : gall P ([], st).
Proof. constructor. Qed.
Lemma gall_one {A} (P : A -> Prop) a st : P a -> gall P ([a], st).
Proof. repeat constructor. auto. Qed.
Lemma gall_cons {A} (P : A -> Prop) a g : P a -> gall P g -> gall P (gcons a g).
Proof. intros. constructor; auto. Qed.
Lemma gall_app {A} (P : A -> Prop) l g : Forall P l -> gall P g -> gall P (gapp l g).
Proof. intros. apply Forall_app. auto. Qed.
Lemma gall_run {A B} (P : B -> Prop) (r : result A) k : (forall x, r = Ok x -> gall P (k x)) -> gall P (grun r k).
Proof. intro H. destruct r; [now apply H|constructor]. Qed.
Lemma gall_seq {B} (P : B -> Prop) (g h : gen B) : gall P g -> gall P h -> gall P (gseq g h).
Proof. intros G H. destruct g as [r [|e]]; [apply gall_app; auto|exact G]. Qed.
Lemma gall_rows {A B} (Q : A -> Prop) (P : B -> Prop) f (g : gen A) : gall Q g -> (forall a, Q a -> gall P (f a)) -> gall P (grows f g).
Proof.
  intros G F. unfold grows, gall in *. destruct g as [l st]. cbn [fst snd] in *.
  induction G as [|a l H _ IH]; cbn [grows_in]; [constructor|].
  specialize (F a H). destruct (f a) as [r [|e]]; [apply gall_app; auto|exact F].
Qed.
Lemma gall_map {A B} (Q : A -> Prop) (P : B -> Prop) f (g : gen A) : gall Q g -> (forall a, Q a -> P (f a)) -> gall P (gmap f g).
Proof. intros G F. unfold gall, gmap in *. cbn [fst]. apply Forall_map. eapply Forall_impl; eauto. Qed.

(** ** Names *)
Lemma sc_fn_name v n : bytes_ok v -> fn_name v = Ok n -> sc n.
Proof. intros B H. unfold fn_name in H. apply bind_ok in H as (k & _ & H). injection H as <-. now apply utf16le_scalar, bytes_ok_slice. Qed.
Lemma sc_fna_name v n : bytes_ok v -> fna_name v = Ok n -> sc n.
Proof. intros B H. unfold fna_name in H. apply bind_ok in H as (k & _ & H). injection H as <-. now apply utf16le_scalar, bytes_ok_slice. Qed.

(** ** Attributes of file records *)
Definition name_fine (n : option (list Z)) : Prop := match n with Some n => sc n | None => True end.
Definition attr_fine (a : attr) : Prop :=
  name_fine (a_name a) /\ match a with Resident _ _ v => bytes_ok v | _ => True end.

Lemma attr_seq_fine d ff pos l e : bytes_ok d -> attr_seq d ff shows pos l e -> Forall attr_fine l.
Proof.
  intros B. induction 1 as [|pos len ty name c a l e H1 H2 H3 H4 IH]; [constructor|]. constructor; auto.
  assert (N : name_fine (option_map utf16le name)).
  { assert (K : forall nl no, name_at d pos nl no name -> name_fine (option_map utf16le name)).
    { intros nl no K. destruct K; [exact I|]. now apply utf16le_scalar, bytes_ok_slice. }
    destruct H2; eauto. }
  destruct a as [t n v|t n mp runs lo hi sz], c as [v'|[[mp' [lo' hi']] sz']]; cbn [shows] in H3; try contradiction.
  - destruct H3 as (_ & -> & ->). split; [exact N|]. inversion H2; subst. now apply bytes_ok_slice.
  - destruct H3 as (_ & -> & _). split; [exact N|exact I].
Qed.
Lemma frs_gen_fine f : opened f -> gall attr_fine (frs_gen f).
Proof.
  intros O. pose proof (opened_bytes f O) as B. destruct O as (raw & ap & sug & Hb & H).
  pose proof (frs_attributes_spec raw ap sug f Hb H) as P; cbn zeta in P.
  destruct P as (_ & _ & e & P & _). eapply attr_seq_fine; [|exact P]; auto.
Qed.
Lemma attributes_fine fr : opened_record fr -> gall attr_fine (fr_attributes fr).
Proof.
  intros [O C]. apply gconcat_Forall. constructor; [now apply frs_gen_fine|].
  apply Forall_map. eapply Forall_impl; [|exact C]. intros f. apply frs_gen_fine.
Qed.
Lemma Forall_filter {A} (P : A -> Prop) f l : Forall P l -> Forall P (filter f l).
Proof. induction 1 as [|x l H _ IH]; cbn [filter]; [constructor|]. destruct (f x); auto. Qed.
Lemma merge_fine bases exts : Forall attr_fine bases -> gall attr_fine (merge_loop bases exts).
Proof.
  induction 1 as [|b t H _ IH]; cbn [merge_loop]; [constructor|]. cbv zeta.
  destruct (rev _) as [|x y]; [apply gall_cons; auto|].
  match goal with |- gall _ (match ?r with Ok _ => _ | Err _ => _ end) => destruct r end; [|constructor].
  apply gall_cons; auto. split; [apply H|exact I].
Qed.
Lemma merged_fine fr : opened_record fr -> gall attr_fine (fr_attributes_merged fr).
Proof.
  intros O. apply attributes_fine in O. unfold fr_attributes_merged, gall in *. cbv zeta.
  destruct (snd (fr_attributes fr)); [|now apply Forall_filter].
  apply gall_app; [now apply Forall_filter|]. apply merge_fine. now apply Forall_filter, Forall_filter.
Qed.
Lemma slack_fine fr : opened_record fr -> gall bytes_ok (fr_slack fr).
Proof.
  intros [O C]. assert (G : forall f, opened f -> gall bytes_ok (slack_gen f)).
  { intros f Of. pose proof (opened_bytes f Of) as B. unfold slack_gen, frs_slack. cbv zeta. destruct (ar_status _); [|constructor].
    destruct (ar_real_size _); [|constructor]. apply gall_one. now apply bytes_ok_zdrop. }
  apply gconcat_Forall. constructor; [now apply G|]. apply Forall_map. eapply Forall_impl; [|exact C]. auto.
Qed.

(** ** The table *)
Section Table.
Variable p : mft.
Hypothesis B : bytes_ok (m_data p).

Lemma by_number_opened n f : frs_by_number p n = Ok f -> opened f.
Proof.
  unfold frs_by_number. cbv zeta. destruct (_ <? _); [discriminate|]. intros H. apply bind_ok in H as (buf & R & H).
  unfold read_at in R. destruct (_ <? 0); [discriminate|]. injection R as <-. do 3 eexists. split; [|exact H]. now apply bytes_ok_slice.
Qed.
Lemma children_opened l ch : open_children p l = Ok ch -> Forall opened ch.
Proof.
  revert ch. induction l as [|n l IH]; intros ch H; cbn [open_children] in H; [injection H as <-; constructor|].
  apply bind_ok in H as (f & F & H). apply bind_ok in H as (r & R & H). injection H as <-. constructor; [eapply by_number_opened; eauto|auto].
Qed.
Lemma with_children_opened f fr : opened f -> with_children p f = Ok fr -> opened_record fr.
Proof.
  intros O H. unfold with_children in H. destruct (frs_mft_number f); [|discriminate]. destruct (cache_get _ _).
  - apply bind_ok in H as (ch & C & H). injection H as <-. split; [exact O|]. eapply children_opened; eauto.
  - injection H as <-. split; [exact O|constructor].
Qed.
Lemma by_number_base_opened n s fr : by_number_base p n s = Ok fr -> opened_record fr.
Proof.
  unfold by_number_base. intros H. apply bind_ok in H as (f & F & H). apply by_number_opened in F.
  destruct (h_is_base _); [|discriminate]. destruct (seq_mismatch _ _); [discriminate|]. eapply with_children_opened; eauto.
Qed.
Lemma record_opened n s a fr : by_number p n s a = Ok fr -> opened_record fr.
Proof.
  unfold by_number. intros H. apply bind_ok in H as (f & F & H). apply by_number_opened in F.
  destruct (h_is_base _); [destruct (seq_mismatch _ _); [discriminate|]; eapply with_children_opened; eauto|].
  destruct a; [|discriminate]. destruct (seq_mismatch _ _); [discriminate|]. destruct (parent_in_cache _ _); [|discriminate].
  eapply by_number_base_opened; eauto.
Qed.
Lemma records_opened u : gall opened_record (file_records p u).
Proof.
  unfold file_records. generalize 0. generalize (S (List.length (m_data p))). induction n as [|n IH]; intros pos; cbn [file_records_loop]; [constructor|].
  destruct (_ <? _); [|constructor]. cbv zeta. destruct (negb _); [constructor|].
  destruct (frs_open _ _ _) as [f|e] eqn:O; [|destruct (is_frs_exn e); [apply IH|constructor]].
  destruct (_ && _); [apply IH|]. destruct (h_is_base _); [|apply IH].
  destruct (with_children p f) as [fr|e] eqn:W; [|constructor]. apply gall_cons; [|apply IH].
  eapply with_children_opened; eauto. do 3 eexists. split; [|exact O]. now apply bytes_ok_slice.
Qed.

Lemma collect_fine {C} (f : attr -> result (option C)) (Q : C -> Prop) g l : gall attr_fine g ->
  (forall a c, attr_fine a -> f a = Ok (Some c) -> Q c) -> gcollect f g = Ok l -> Forall Q l.
Proof.
  unfold gcollect, gall. destruct g as [as_ st]. cbn [fst snd]. intros G F. revert l.
  induction G as [|a t H _ IH]; intros l E; cbn [collect_in] in E.
  { destruct st; [|discriminate]. injection E as <-. constructor. }
  apply bind_ok in E as (r & R & E). apply bind_ok in E as (rest & K & E).
  destruct r as [c|]; injection E as <-; [|auto]. constructor; eauto.
Qed.
Lemma value_fine ty a v : attr_fine a -> value_of_type ty a = Ok (Some v) -> bytes_ok v.
Proof.
  intros [_ H] E. destruct a as [t n w|]; cbn [value_of_type] in E; [|discriminate].
  destruct (t =? _); [discriminate|]. destruct (t =? ty); [|discriminate]. injection E as <-. exact H.
Qed.

Lemma sc_preferred fr x : opened_record fr -> preferred_name fr = Ok x -> sc (fst x).
Proof.
  intros O H. unfold preferred_name in H. apply bind_ok in H as (names & N & H).
  assert (F : Forall (fun y => sc (fst (snd y))) names).
  { eapply collect_fine; [apply attributes_fine; exact O| |exact N]. intros a c Fa E.
    apply bind_ok in E as (v & V & E). destruct v as [v|]; [|discriminate]. apply (value_fine _ _ _ Fa) in V.
    apply bind_ok in E as (fl & _ & E). apply bind_ok in E as (n & Nm & E). apply bind_ok in E as (r & _ & E). injection E as <-. cbn [fst snd].
    eapply sc_fn_name; eauto. }
  destruct names as [|[k first] t]; [discriminate|]. destruct (find _ _) as [[k' y]|] eqn:Fd.
  - injection H as <-. apply find_some in Fd as [I _]. rewrite Forall_forall in F. exact (F _ I).
  - injection H as <-. inversion F; auto.
Qed.
Lemma sc_unknown : sc UNKNOWN_PATH_PLACEHOLDER.
Proof. apply sc_small. unfold UNKNOWN_PATH_PLACEHOLDER. repeat (constructor; [lia|]). constructor. Qed.
Lemma sc_climb fuel : forall track fr comps l, opened_record fr -> Forall sc comps -> climb fuel p track fr comps = Ok l -> Forall sc l.
Proof.
  induction fuel as [|fuel IH]; intros track fr comps l O C H; cbn [climb] in H; [discriminate|].
  apply bind_ok in H as ([name ref] & N & H). apply sc_preferred in N; [|exact O]. cbn [fst] in N. cbv zeta in H.
  assert (C' : Forall sc (comps ++ [name])) by (apply Forall_app; auto).
  assert (U : Forall sc ((comps ++ [name]) ++ [UNKNOWN_PATH_PLACEHOLDER])).
  { apply Forall_app. split; [exact C'|]. constructor; [apply sc_unknown|constructor]. }
  destruct (zin _ track); [injection H as <-; exact U|].
  destruct (by_number p _ _ false) as [fr'|e] eqn:K.
  - destruct (_ =? FILE_NUMBER_ROOT); [injection H as <-; apply Forall_app; split; [exact C'|repeat constructor]|].
    destruct (negb _); [injection H as <-; exact U|]. apply record_opened in K. exact (IH _ _ _ _ K C' H).
  - destruct (is_mft_exn e); [injection H as <-; exact U|discriminate].
Qed.
Lemma sc_join sep l : scalar sep -> Forall sc l -> sc (join sep l).
Proof.
  intros S. induction 1 as [|x t H T IH]; cbn [join]; [constructor|]. destruct t; [exact H|].
  apply sc_app; [exact H|]. constructor; auto.
Qed.
Lemma sc_path v s : bytes_ok v -> path_for p v = Ok s -> sc s.
Proof.
  intros Bv H. unfold path_for in H. apply bind_ok in H as (name & N & H). apply (sc_fn_name _ _ Bv) in N.
  apply bind_ok in H as (ref & _ & H). apply bind_ok in H as (comps & C & H). injection H as <-.
  apply sc_join; [unfold scalar, PATH_SEPARATOR; lia|]. apply Forall_rev.
  assert (U : Forall sc [name; UNKNOWN_PATH_PLACEHOLDER]) by (constructor; [exact N|constructor; [apply sc_unknown|constructor]]).
  destruct (_ =? FILE_NUMBER_ROOT); [injection C as <-; repeat constructor; exact N|].
  destruct (by_number p _ _ false) as [fr|e] eqn:K.
  - destruct (negb _); [injection C as <-; exact U|]. apply record_opened in K. eapply sc_climb; [exact K| |exact C]. repeat constructor. exact N.
  - destruct (is_mft_exn e); [injection C as <-; exact U|discriminate].
Qed.
Definition path_fine (x : list Z * list Z) : Prop := sc (fst x) /\ bytes_ok (snd x).
Lemma order_fine l : Forall (fun x : Z * list Z => bytes_ok (snd x)) l -> Forall bytes_ok (order_names l).
Proof.
  unfold order_names. intros H. cut (forall acc, Forall bytes_ok acc ->
    Forall bytes_ok (fold_left (fun acc x => if preferred (fst x) then snd x :: acc else acc ++ [snd x]) l acc)); [intro K; apply K; constructor|].
  induction H as [|x l Hx _ IH]; intros acc A; cbn [fold_left]; [exact A|]. apply IH. destruct (preferred _); [constructor; auto|apply Forall_app; auto].
Qed.
Lemma paths_fine fr l : opened_record fr -> build_full_paths p fr = Ok l -> Forall path_fine l.
Proof.
  intros O H. unfold build_full_paths in H. apply bind_ok in H as (names & N & H).
  assert (F : Forall bytes_ok (order_names names)).
  { apply order_fine. eapply collect_fine; [apply attributes_fine; exact O| |exact N]. intros a c Fa E.
    apply bind_ok in E as (v & V & E). destruct v as [v|]; [|discriminate]. apply (value_fine _ _ _ Fa) in V.
    apply bind_ok in E as (fl & _ & E). injection E as <-. exact V. }
  revert l H. induction F as [|v t Bv _ IH]; intros l H; cbn [paths_for] in H; [injection H as <-; constructor|].
  apply bind_ok in H as (s & S & H). apply bind_ok in H as (r & R & H). injection H as <-. constructor; [|auto].
  split; [eapply sc_path; eauto|exact Bv].
Qed.
Lemma first_path_fine l : Forall path_fine l -> name_fine (first_path l).
Proof. intros H. destruct H as [|x l [X _] _]; [exact I|exact X]. Qed.
Lemma lookup_fine n s o : lookup_path p n s = Ok o -> name_fine o.
Proof.
  unfold lookup_path. destruct (let! fr := _ in _) as [l|e] eqn:E.
  - intros H. injection H as <-. apply bind_ok in E as (fr & R & E). apply record_opened in R. apply first_path_fine. eapply paths_fine; eauto.
  - destruct (is_mft_exn e); [|discriminate]. intros H. injection H as <-. exact I.
Qed.
End Table.
