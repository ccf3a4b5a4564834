(** The cells of the reports of /repo/ntfs_parser, and the texts made of them,
    hold no surrogates. *)
From Coq Require Import String.
From Verif Require Import Base BaseLemmas MappingPairs Frs FrsSpec FrsProofs FileRecord FileRecordSpec FileRecordProofs FileObject FragmentedFile Filetime Attributes
  Usa Mft MftProofs Carve Wsl Usn Utf16 Report LogReport ReportText ReportFiles Utf8 Utf8Proofs TextsMft.

Definition cell_fine (c : cell) : Prop := match c with Txt s => sc s | _ => True end.
Definition row_fine (r : row) : Prop := Forall cell_fine r.

Ltac fine := repeat first [assumption | apply sc_txt | exact I | constructor | apply Forall_app; split ].

Lemma fine_stamp e t : cell_fine (format_timestamp e t).
Proof. destruct t; [exact I|apply sc_txt]. Qed.
Lemma fine_source s tag : sc s -> name_fine tag -> cell_fine (format_source s tag).
Proof. intros S T. unfold format_source. destruct tag as [[|c t]|]; auto. repeat apply sc_app; auto using sc_txt. Qed.
Lemma fine_yes b : cell_fine (yes_no b).
Proof. destruct b; apply sc_txt. Qed.
Lemma fine_opt o : cell_fine (opt_num o).
Proof. destruct o; exact I || constructor. Qed.
Lemma fine_unsure : cell_fine unsure.
Proof. apply sc_txt. Qed.
Lemma fine_blank : cell_fine blank.
Proof. constructor. Qed.
Lemma fine_num n : cell_fine (Num n).
Proof. exact I. Qed.
#[local] Hint Resolve fine_stamp fine_source fine_yes fine_opt fine_unsure fine_blank fine_num sc_txt : texts.
Ltac cells := repeat first [assumption | apply Forall_app; split | constructor; [auto with texts|] | constructor]; auto with texts.

Lemma si_fine si l : si_cells si = Ok l -> row_fine l.
Proof.
  unfold si_cells. destruct si as [v|]; intros H; [|injection H as <-; cells].
  apply bind_ok in H as (m & _ & H). apply bind_ok in H as (a & _ & H). apply bind_ok in H as (c & _ & H).
  apply bind_ok in H as (e & _ & H). apply bind_ok in H as (u & _ & H). injection H as <-. cells; apply fine_stamp.
Qed.
Lemma fn_fine v l : fn_cells v = Ok l -> row_fine l.
Proof.
  unfold fn_cells. intros H.
  apply bind_ok in H as (m & _ & H). apply bind_ok in H as (a & _ & H). apply bind_ok in H as (c & _ & H).
  apply bind_ok in H as (e & _ & H). injection H as <-. cells; apply fine_stamp.
Qed.

Definition facts_fine (s : facts) : Prop := Forall sc (fa_ads s).
Lemma facts_step_fine s a s' : facts_fine s -> attr_fine a -> facts_step s a = Ok s' -> facts_fine s'.
Proof.
  intros F [N _] H. unfold facts_fine in *.
  assert (A : forall n l, sc n -> Forall sc l -> Forall sc (set_add n l)).
  { intros n l Sn Sl. unfold set_add. destruct (lin n l); [exact Sl|]. apply Forall_app. auto. }
  destruct a as [ty name v|ty name mp runs lo hi size]; cbn [facts_step a_name] in H, N.
  - destruct (ty =? ATTR_TYPE_INDEX_ALLOCATION); [discriminate|]. cbv zeta in H.
    apply bind_ok in H as (oid & _ & H). apply bind_ok in H as (wsl & _ & H). injection H as <-. cbn [fa_ads].
    destruct name as [n|]; [|exact F]. destruct (ty =? ATTR_TYPE_DATA); auto.
  - injection H as <-. cbn [fa_ads]. destruct name as [n|]; [|exact F]. destruct (ty =? ATTR_TYPE_DATA); auto.
Qed.
Lemma facts_of_fine g s : gall attr_fine g -> facts_of g = Ok s -> facts_fine s.
Proof.
  unfold facts_of, gall. destruct g as [l st]. cbn [fst snd]. intros G.
  assert (F0 : facts_fine (mk_facts None None [] None None)) by constructor. revert F0. generalize (mk_facts None None [] None None).
  induction G as [|a t A _ IH]; intros s0 F H; cbn [facts_in] in H.
  - destruct st; [|discriminate]. injection H as <-. exact F.
  - apply bind_ok in H as (s1 & E & H). eapply IH; [|exact H]. eapply facts_step_fine; eauto.
Qed.
Lemma sort_fine l : Forall sc l -> Forall sc (text_sort l).
Proof.
  assert (I : forall x l, sc x -> Forall sc l -> Forall sc (text_insert x l)).
  { intros x k Sx. induction 1 as [|y t Hy Ht IH]; cbn [text_insert]; [repeat constructor; auto|]. destruct (text_leb x y); repeat constructor; auto. }
  induction 1; cbn [text_sort]; [constructor|auto].
Qed.
Lemma tail_fine s : facts_fine s -> row_fine (tail_cells s).
Proof.
  intros F. unfold tail_cells. constructor; [destruct (fa_objid s); [exact I|constructor]|].
  constructor; [destruct (fa_size s); [exact I|apply sc_txt]|].
  constructor; [apply sc_join; [unfold scalar; lia|apply sort_fine; exact F]|].
  destruct (fa_wsl s) as [[[m a] c]|]; cells.
Qed.

Section Table.
Variable p : mft.
Hypothesis B : bytes_ok (m_data p).
Variable tag : option (list Z).
Hypothesis T : name_fine tag.

Lemma record_rows_fine fr paths : opened_record fr -> Forall path_fine paths -> gall row_fine (record_rows tag fr paths).
Proof.
  intros O P. unfold record_rows. apply gall_run. intros fa F. apply facts_of_fine in F; [|now apply attributes_fine]. apply tail_fine in F.
  apply gall_run. intros si S. apply si_fine in S. apply gall_run. intros ref _. cbv zeta.
  set (head := [_; _; _; _; _]). assert (H : row_fine head) by (unfold head; cells). clearbody head. unfold row_fine in *.
  destruct paths as [|x t]; [apply gall_one; cells|]. apply (gall_rows path_fine); [exact P|].
  intros y [Y _]. apply gall_run. intros fn N. apply fn_fine in N. unfold row_fine in *. apply gall_one. cells.
Qed.
Lemma under_fine d n : name_fine d -> sc n -> sc (under d n).
Proof.
  intros D N. unfold under. destruct d as [d|]; (apply sc_join; [unfold scalar, PATH_SEPARATOR; lia|]).
  - constructor; [destruct (zlist_eqb _ _); [constructor|exact D]|constructor; [exact N|constructor]].
  - constructor; [apply sc_txt|constructor; [exact N|constructor]].
Qed.
Lemma name_row_fine src ref path v r : cell_fine src -> cell_fine ref -> (forall s, path = Ok s -> sc s) -> name_row src ref path v = Ok r -> row_fine r.
Proof.
  intros S R P H. unfold name_row in H. apply bind_ok in H as (s & E & H). apply P in E. apply bind_ok in H as (d & _ & H).
  apply bind_ok in H as (fn & F & H). apply fn_fine in F. apply bind_ok in H as (n & _ & H). injection H as <-. unfold row_fine in *.
  cells.
Qed.
Lemma attribute_fine e v : bytes_ok e -> ie_attribute e = Ok (Some v) -> bytes_ok v.
Proof.
  intros Be H. unfold ie_attribute in H. apply bind_ok in H as (n & _ & H). apply bind_ok in H as (f & _ & H).
  destruct (_ && _); [|discriminate]. injection H as <-. now apply bytes_ok_slice.
Qed.
Lemma root_entry_fine paths e : Forall path_fine paths -> bytes_ok e -> gall row_fine (root_entry_rows tag paths e).
Proof.
  intros P Be. unfold root_entry_rows. apply gall_run. intros [v|] V; [|constructor]. apply attribute_fine in V; [|exact Be].
  apply gall_run. intros r H. apply gall_one. apply bind_ok in H as (n & N & H). apply sc_fna_name in N; [|exact V].
  apply bind_ok in H as (ref & _ & H). eapply name_row_fine; [| | |exact H]; auto with texts.
  intros s E. injection E as <-. apply under_fine; [now apply first_path_fine|exact N].
Qed.
Lemma index_loop_fine fuel stop v lim : bytes_ok v -> forall pos, gall bytes_ok (index_loop fuel stop v lim pos).
Proof.
  intros Bv. induction fuel as [|fuel IH]; intros pos; cbn [index_loop]; [constructor|]. destruct (negb _); [constructor|]. cbv zeta.
  destruct (ie_length _); [|constructor]. destruct (_ <? 16); [constructor|]. destruct (ie_attribute_length _); [|constructor].
  destruct (_ =? 0); [constructor|]. apply gall_cons; [now apply bytes_ok_zdrop|].
  destruct stop; [|apply IH]. destruct (ie_flags _); [|constructor]. destruct (0 <? _); [constructor|apply IH].
Qed.
Lemma index_entries_fine hb stop v : bytes_ok v -> gall bytes_ok (index_entries_at hb stop v).
Proof.
  intros Bv. unfold index_entries_at. cbv zeta. destruct (let! a := _ in _) as [[a b]|]; [|constructor]. now apply index_loop_fine.
Qed.
Lemma first_in_fine {C} (f : attr -> result (option C)) (Q : C -> Prop) g c : gall attr_fine g ->
  (forall a c, attr_fine a -> f a = Ok (Some c) -> Q c) -> gfirst f g = Ok (Some c) -> Q c.
Proof.
  unfold gfirst, gall. destruct g as [l st]. cbn [fst snd]. intros G F.
  induction G as [|a t H _ IH]; cbn [first_in]; intros E; [destruct st; discriminate|].
  apply bind_ok in E as (r & R & E). destruct r as [x|]; [injection E as ->; eauto|auto].
Qed.
Lemma index_rows_fine fr paths : opened_record fr -> Forall path_fine paths -> gall row_fine (index_rows tag fr paths).
Proof.
  intros O P. unfold index_rows. destruct (fr_directory fr); [|constructor]. apply gall_run. intros [v|] V; [|constructor].
  assert (Bv : bytes_ok v).
  { eapply first_in_fine; [apply attributes_fine; exact O| |exact V]. intros a w Fa E. apply bind_ok in E as (x & X & E).
    destruct x as [x|]; [|discriminate]. apply value_fine in X; [|exact Fa]. apply bind_ok in E as (ty & _ & E).
    destruct (ty =? _); [|discriminate]. injection E as <-. exact X. }
  apply (gall_rows bytes_ok); [now apply index_entries_fine|]. intros e Be. now apply root_entry_fine.
Qed.

Definition carved_fine (c : carved) : Prop := match c with CName v => bytes_ok v | CPartial n => sc n end.
Lemma slack_loop_fine fuel v : bytes_ok v -> forall pos l, slack_loop fuel v pos = Ok l -> Forall (fun x => bytes_ok (snd x)) l.
Proof.
  intros Bv. induction fuel as [|fuel IH]; intros pos l H; cbn [slack_loop] in H; [discriminate|].
  destruct (negb _); [injection H as <-; constructor|]. cbv zeta in H. destruct (negb _); [injection H as <-; constructor|].
  destruct (forallb _ _); [|eauto]. destruct (slack_candidate v pos) as [[apos abuf]|] eqn:C; [|eauto].
  destruct (slack_name abuf); [|eauto]. destruct (valid_file_name _); [|eauto]. apply bind_ok in H as (r & R & H). injection H as <-.
  constructor; [|eauto]. cbn [snd].
  assert (F8 : bytes_ok ff8) by (apply bytes_okb_ok; reflexivity). cut (exists n, abuf = zdrop n v \/ abuf = ff8 ++ zdrop n v \/ abuf = ff8 ++ v).
  { intros (n & [->|[->| ->]]); [now apply bytes_ok_zdrop| |]; apply bytes_ok_app; (split; [exact F8|]); [now apply bytes_ok_zdrop|exact Bv]. }
  unfold slack_candidate in C. destruct (8 <=? pos); [|destruct (pos =? 4); [|destruct (pos =? 0); [|discriminate]]].
  - assert (abuf = zdrop (pos - 8) v) by congruence. eauto.
  - assert (abuf = ff8 ++ zdrop 4 v) by congruence. eauto.
  - assert (abuf = ff8 ++ v) by congruence. exists 0. auto.
Qed.
Lemma partial_fine fuel s : forall pos acc r, sc acc -> partial_name fuel s pos acc = Ok r -> sc r.
Proof.
  induction fuel as [|fuel IH]; intros pos acc r A H; cbn [partial_name] in H; [discriminate|].
  destruct (negb _); [injection H as <-; exact A|]. apply bind_ok in H as (b1 & _ & H). apply bind_ok in H as (b2 & _ & H).
  destruct (_ && _) eqn:C.
  - eapply IH; [|exact H]. apply sc_app; [exact A|]. constructor; [|constructor]. apply andb_true_iff in C as [C _]. unfold printable in C.
    unfold scalar. destruct (zin b1 _) eqn:Z.
    + apply zin_In in Z. cbn [In] in Z. lia.
    + lia.
  - destruct (5 <=? zlen acc); [injection H as <-; exact A|]. eapply IH; [|exact H]. constructor.
Qed.
Lemma carve_internal_fine v y : bytes_ok v -> gall carved_fine (carve_internal v y).
Proof.
  intros Bv. unfold carve_internal. destruct (negb _); [constructor|]. destruct (slack_loop _ _ _) as [l|e] eqn:S; [|constructor].
  apply slack_loop_fine in S; [|exact Bv]. cbv zeta.
  assert (N : Forall carved_fine (map (fun x => CName (snd x)) l)) by (apply Forall_map; exact S).
  set (names := map _ l) in *. clearbody names. destruct l as [|[first b] t]; [exact N|]. destruct (_ && _); [|exact N].
  match goal with |- gall _ (match ?r with Ok _ => _ | Err _ => _ end) => destruct r as [acc|e] eqn:E end; [|exact N].
  destruct (5 <=? zlen acc); [|exact N]. apply Forall_app. split; [exact N|]. constructor; [|constructor]. apply Forall_rev.
  apply bind_ok in E as (q & _ & E). destruct (0 <? q); [eapply partial_fine; [|exact E]; constructor|injection E as <-; constructor].
Qed.
Lemma carve_fine l y : Forall bytes_ok l -> gall carved_fine (carve l y).
Proof.
  induction 1 as [|v t Bv _ IH]; cbn [carve]; [constructor|]. pose proof (carve_internal_fine v y Bv) as C.
  destruct (carve_internal v y) as [a [|e]]; [apply gall_app; auto|exact C].
Qed.
Lemma slack_item_fine item : carved_fine item -> gall row_fine (slack_item_rows p tag item).
Proof.
  intros C. unfold slack_item_rows. cbv zeta. destruct item as [v|n]; cbn [carved_fine] in C.
  - apply gall_run. intros r H. apply gall_one. eapply name_row_fine; [| | |exact H]; auto with texts.
    intros s E. apply bind_ok in E as (ref & _ & E). apply bind_ok in E as (dir & D & E). apply lookup_fine in D; [|exact B].
    apply bind_ok in E as (name & N & E). injection E as <-. apply under_fine; [exact D|]. eapply sc_fna_name; eauto.
  - apply gall_one. assert (P : sc (join PATH_SEPARATOR [txt "<Unknown, likely the same as above>";
              txt "<Can be partially overwritten or start with a wrong character>" ++ n])).
    { apply sc_join; [unfold scalar, PATH_SEPARATOR; lia|]. constructor; [apply sc_txt|]. constructor; [apply sc_app; [apply sc_txt|exact C]|constructor]. }
    set (t := join _ _) in *. clearbody t. cells.
Qed.
Lemma slack_rows_fine fr : opened_record fr -> gall row_fine (slack_rows p tag fr).
Proof.
  intros O. unfold slack_rows. apply (gall_rows bytes_ok); [now apply slack_fine|]. intros s Bs.
  apply (gall_rows carved_fine); [apply carve_fine; constructor; auto|]. apply slack_item_fine.
Qed.
Lemma mft_record_fine fr : opened_record fr -> gall row_fine (mft_record_rows p tag fr).
Proof.
  intros O. unfold mft_record_rows. destruct (build_full_paths p fr) as [l|e] eqn:P; [|destruct (is_mft_exn e); constructor].
  apply paths_fine in P; [|exact B|exact O]. apply gall_seq; [now apply record_rows_fine|]. apply gall_seq; [now apply index_rows_fine|now apply slack_rows_fine].
Qed.

(** Index buffers *)
Lemma ff_bytes f n : bytes_ok (ff_volume f) -> forall out, fst (ff_read f n) = Ok out -> bytes_ok out.
Proof.
  intros Bv.
  assert (VC : forall k c, read_virtual_cluster f k = Ok c -> bytes_ok c).
  { intros k c. unfold read_virtual_cluster. generalize 0. induction (ff_runs f) as [|[o n0] t IH]; intros q H; cbn [read_cluster_loop] in H; [discriminate|].
    destruct (_ <=? k); [eauto|]. destruct o as [o|]; [|injection H as <-; apply bytes_ok_zeros]. apply bind_ok in H as (d & D & H).
    destruct (_ =? 0); [discriminate|]. destruct (negb _); [discriminate|]. injection H as <-. unfold seek_read in D. destruct (_ <? 0); [discriminate|].
    destruct (_ <=? _); [discriminate|]. destruct (_ <=? _); [discriminate|]. injection D as <-. now apply bytes_ok_slice. }
  assert (PC : forall pos w c, read_piece f pos w = Ok c -> bytes_ok c).
  { intros pos w c H. unfold read_piece in H. destruct (_ =? 0); [discriminate|]. apply bind_ok in H as (d & D & H). injection H as <-.
    apply bytes_ok_slice. eauto. }
  assert (LP : forall fuel pos size data out, bytes_ok data -> fst (read_loop fuel f pos size data) = Ok out -> bytes_ok out).
  { induction fuel as [|fuel IH]; intros pos size data out D H; cbn [read_loop] in H; [discriminate|]. cbv zeta in H.
    destruct (0 <? _); [|injection H as <-; exact D]. destruct (_ <=? pos); [injection H as <-; exact D|].
    destruct (read_piece f pos _) eqn:R; [|discriminate]. eapply IH; [|exact H]. apply bytes_ok_app. split; [exact D|eauto]. }
  intros out H. unfold ff_read in H. cbv zeta in H. destruct (_ || _); [injection H as <-; constructor|].
  destruct (read_piece f _ _) as [d|] eqn:R; [|discriminate]. destruct (read_loop _ _ _ _ _) as [r q] eqn:L. cbn [fst] in H.
  eapply LP; [eapply PC; exact R|]. rewrite L. exact H.
Qed.
Lemma pread_bytes f off n out : bytes_ok (ff_volume f) -> ff_pread f off n = Ok out -> bytes_ok out.
Proof. intros Bv. unfold ff_pread. apply ff_bytes. exact Bv. Qed.
Lemma usa_loop_bytes fuel seqn uo us : forall buf i out, bytes_ok buf -> usa_loop fuel seqn uo us buf i = Ok (Some out) -> bytes_ok out.
Proof.
  induction fuel as [|fuel IH]; intros buf i out Bb H; cbn [usa_loop] in H; [discriminate|].
  destruct (i <? us); [|injection H as <-; exact Bb]. cbv zeta in H. destruct (negb _); [discriminate|].
  apply bind_ok in H as (b0 & E0 & H). apply bind_ok in H as (b1 & E1 & H).
  assert (X : forall l k b, bytes_ok l -> index l k = Ok b -> is_byte b).
  { intros l k b Bl E. unfold index in E. destruct (znth l k) eqn:Z; [|discriminate]. destruct (k <? 0); [discriminate|]. injection E as <-. eapply bytes_ok_znth; eauto. }
  eapply IH; [|exact H]. apply zset_bytes_ok; [apply zset_bytes_ok; [exact Bb|]|]; (eapply X; [|eassumption]); now apply bytes_ok_slice.
Qed.
Lemma unprotect_bytes buf out : bytes_ok buf -> unprotect_index buf = Ok (Some out) -> bytes_ok out.
Proof.
  intros Bb H. unfold unprotect_index in H. destruct (_ || _); [discriminate|]. apply bind_ok in H as (uo & _ & H). apply bind_ok in H as (us & _ & H).
  destruct (_ || _); [discriminate|]. destruct (_ || _); [discriminate|]. destruct (_ <=? _); [discriminate|].
  apply bind_ok in H as (r & R & H). destruct r as [x|]; [|discriminate]. destruct (zlist_eqb _ _); [|discriminate]. injection H as <-.
  eapply usa_loop_bytes; [|exact R]. exact Bb.
Qed.
Lemma buffers_bytes f : bytes_ok (ff_volume f) -> gall (fun b : Z * list Z => bytes_ok (snd b)) (ia_index_buffers f).
Proof.
  intros Bv. unfold ia_index_buffers. destruct (ia_buffer_size f) as [[size|]|]; [|constructor|constructor].
  generalize 0. generalize (S (S (Z.to_nat (ff_size f)))). induction n as [|n IH]; intros i; cbn [ia_loop]; [constructor|].
  destruct (ff_pread f _ _) as [raw|] eqn:R; [|constructor]. destruct (negb _); [constructor|]. apply pread_bytes in R; [|exact Bv].
  destruct (unprotect_index raw) as [[b|]|] eqn:U; [|apply IH|constructor]. apply gall_cons; [|apply IH]. eapply unprotect_bytes; eauto.
Qed.
Lemma ia_slack_bytes f l : bytes_ok (ff_volume f) -> ia_slack f = Ok l -> Forall bytes_ok l.
Proof.
  intros Bv H. apply buffers_bytes in Bv. unfold ia_slack, gall in *. destruct (ia_index_buffers f) as [bs st]. cbn [fst] in Bv.
  apply bind_ok in H as (r & R & H). assert (E : l = r) by (destruct st; congruence). subst l. clear H. revert r R.
  induction Bv as [|[i b] t Hb _ IH]; intros r R; cbn [ia_slack_loop] in R; [injection R as <-; constructor|]. cbn [snd] in Hb.
  apply bind_ok in R as (s & S & R). apply bind_ok in R as (r' & R' & R). specialize (IH _ R').
  assert (Bs : bytes_ok s) by (unfold ib_slack in S; apply bind_ok in S as (k & _ & S); injection S as <-; now apply bytes_ok_zdrop).
  destruct (_ <=? _); injection R as <-; auto.
Qed.

Lemma indx_row_fine n seq paths source ref v r : Forall path_fine paths -> sc source -> bytes_ok v -> (forall c, ref = Ok c -> cell_fine c) ->
  indx_row p n seq paths source ref v = Ok r -> row_fine r.
Proof.
  intros P S Bv R H. unfold indx_row in H. apply bind_ok in H as (s & E & H). apply bind_ok in H as (c & C & H). apply R in C.
  apply bind_ok in H as (d & _ & H). apply bind_ok in H as (fn & F & H). apply fn_fine in F. apply bind_ok in H as (k & _ & H). injection H as <-.
  assert (T' : sc s).
  { unfold indx_path in E. apply bind_ok in E as (par & _ & E). apply bind_ok in E as (dir & D & E). apply bind_ok in E as (name & N & E). injection E as <-.
    apply under_fine; [|eapply sc_fna_name; eauto]. destruct (par =? _); [injection D as <-; now apply first_path_fine|]. eapply lookup_fine; eauto. }
  unfold row_fine in *. cells.
Qed.
Lemma indx_attr_fine vol voff cs n seq paths a : bytes_ok vol -> Forall path_fine paths -> gall row_fine (indx_attr_rows vol voff cs p n seq paths a).
Proof.
  intros Bv P. unfold indx_attr_rows. destruct a as [|ty name mp runs lo hi size]; [constructor|]. destruct (_ && _); [|constructor]. cbv zeta.
  set (f := ff_open _ _ _ _ _). assert (Bf : bytes_ok (ff_volume f)) by exact Bv. clearbody f. apply gall_seq.
  - apply (gall_rows (fun b : Z * list Z => bytes_ok (snd b))); [now apply buffers_bytes|]. intros [i b] Bb. cbn [snd] in *.
    apply (gall_rows bytes_ok); [now apply index_entries_fine|]. intros e Be. unfold indx_entry_rows. apply gall_run. intros [v|] V; [|constructor].
    apply attribute_fine in V; [|exact Be]. destruct (_ <=? _); [constructor|]. apply gall_run. intros r R. apply gall_one.
    eapply indx_row_fine; [exact P|apply sc_txt|exact V| |exact R]. intros c C. apply bind_ok in C as (k & _ & C). injection C as <-. exact I.
  - apply gall_run. intros l L. apply ia_slack_bytes in L; [|exact Bf]. apply (gall_rows carved_fine); [now apply carve_fine|]. intros c C.
    unfold indx_slack_rows. destruct c as [v|]; [|constructor]. apply gall_run. intros r R. apply gall_one.
    eapply indx_row_fine; [exact P|apply sc_txt|exact C| |exact R]. intros c E. injection E as <-. apply fine_unsure.
Qed.
Lemma indx_record_fine vol voff cs fr : bytes_ok vol -> opened_record fr -> gall row_fine (indx_record_rows vol voff cs p fr).
Proof.
  intros Bv O. unfold indx_record_rows. destruct (build_full_paths p fr) as [l|e] eqn:P; [|destruct (is_mft_exn e); constructor].
  apply paths_fine in P; [|exact B|exact O]. destruct (frs_mft_number _); [|constructor].
  apply (gall_rows attr_fine); [now apply merged_fine|]. intros a _. now apply indx_attr_fine.
Qed.

(** The change journal *)
Lemma ur_bytes b r : bytes_ok b -> get_usn_record b = Ok r -> bytes_ok (ur_raw r).
Proof.
  intros Bb H. unfold get_usn_record in H. destruct (_ <? 8); [discriminate|]. apply bind_ok in H as (n & _ & H). apply bind_ok in H as (m & _ & H).
  assert (Bs : bytes_ok (slice b 0 n)) by now apply bytes_ok_slice.
  assert (K : forall x y, ur_check x = Ok y -> y = x).
  { intros x y E. unfold ur_check in E. apply bind_ok in E as (q & _ & E). do 2 match type of E with (if ?c then _ else _) = _ => destruct c; [discriminate|] end.
    apply bind_ok in E as (q' & _ & E). destruct (negb _); [discriminate|congruence]. }
  destruct (n <? 8); [discriminate|]. unfold usn_v23_open, usn_v4_open in H. cbv zeta in H.
  repeat match type of H with (if ?c then _ else _) = _ => destruct c end; try discriminate; apply K in H; subst r; exact Bs.
Qed.
Lemma sc_ur_name r n : bytes_ok (ur_raw r) -> ur_file_name r = Ok n -> sc n.
Proof.
  intros Br H. unfold ur_file_name in H. apply bind_ok in H as (o & _ & H). apply bind_ok in H as (l & _ & H). cbv zeta in H.
  destruct (negb _); [discriminate|]. injection H as <-. now apply utf16le_scalar, bytes_ok_slice.
Qed.
Definition usn_row_fine (r : usn_row) : Prop := cell_fine (uw_time r) /\ sc (uw_name r) /\ sc (uw_path r).
Lemma journal_fine j : bytes_ok j -> gall (fun x : Z * usn_rec => bytes_ok (ur_raw (snd x))) (usn_records j).
Proof.
  intros Bj. unfold usn_records. generalize 0. generalize (S (List.length j)). induction n as [|n IH]; intros pos; cbn [usn_loop]; [constructor|].
  destruct (negb _); [constructor|]. cbv zeta. destruct (forallb _ _); [apply IH|].
  set (q := if pos mod 8 =? 0 then pos else pos - pos mod 8). clearbody q. destruct (get_usn_record _) as [r|e] eqn:G.
  - apply ur_bytes in G; [|now apply bytes_ok_slice]. destruct (ur_record_length r); [apply gall_cons; [exact G|apply IH]|apply gall_one; exact G].
  - destruct e; try constructor; apply IH.
Qed.
Lemma usn_row_of_fine r w : bytes_ok (ur_raw r) -> usn_row_of p r = Ok w -> usn_row_fine w.
Proof.
  intros Br H. unfold usn_row_of in H. apply bind_ok in H as (a1 & _ & H). apply bind_ok in H as (a2 & _ & H). apply bind_ok in H as (a3 & _ & H).
  apply bind_ok in H as (a4 & _ & H). apply bind_ok in H as (a5 & _ & H). apply bind_ok in H as ([t n] & E & H). apply bind_ok in H as (s & S & H). injection H as <-.
  unfold usn_row_fine. cbn [uw_time uw_name uw_path].
  assert (X : cell_fine t /\ sc n).
  { destruct (ur_version r =? 4); [injection E as <- <-; split; constructor|]. apply bind_ok in E as (t' & _ & E). apply bind_ok in E as (n' & N & E). injection E as <- <-.
    split; [apply fine_stamp|]. eapply sc_ur_name; eauto. }
  destruct X. split; [assumption|]. split; [assumption|]. unfold usn_path in S. apply bind_ok in S as (o & O & S). apply lookup_fine in O; [|exact B].
  injection S as <-. destruct o; [exact O|constructor].
Qed.
End Table.

(** ** Texts *)
Lemma dec_fine fuel : forall n acc, 0 <= n -> sc acc -> sc (dec_digits fuel n acc).
Proof.
  induction fuel as [|fuel IH]; intros n acc N A; cbn [dec_digits]; [exact A|]. destruct (n <? 10) eqn:E.
  - constructor; [unfold scalar; lia|exact A].
  - apply IH; [apply Z.div_pos; lia|]. constructor; [|exact A]. pose proof (Z.mod_pos_bound n 10 ltac:(lia)). unfold scalar. lia.
Qed.
Lemma number_fine n : sc (number_text n).
Proof.
  unfold number_text, digits_text. destruct (n <? 0) eqn:E; [constructor; [unfold scalar; lia|]|]; (apply dec_fine; [lia|constructor]).
Qed.
Lemma fixed_fine w : forall n, sc (fixed w n).
Proof.
  induction w as [|w IH]; intros n; cbn [fixed]; [constructor|]. apply sc_app; [apply IH|]. constructor; [|constructor].
  pose proof (Z.mod_pos_bound n 10 ltac:(lia)). unfold scalar. lia.
Qed.
Lemma sc_one c : scalar c -> sc [c].
Proof. intros S. constructor; [exact S|constructor]. Qed.
Ltac scs := repeat match goal with |- sc (_ ++ _) => apply sc_app end; try apply fixed_fine; try (apply sc_one; unfold scalar; lia).
Lemma date_fine d : sc (date_text d).
Proof. destruct d as [[y m] d]. unfold date_text. scs. Qed.
Lemma clock_fine h m s : sc (clock_text h m s).
Proof. unfold clock_text. scs. Qed.
Lemma datetime_fine d h m s us : sc (datetime_text d h m s us).
Proof. unfold datetime_text. scs; [apply date_fine|apply clock_fine]. Qed.
Lemma stamp_fine us : sc (stamp_text us).
Proof. unfold stamp_text. destruct (stamp_parts us) as [d [[[h m] s] f]]. apply datetime_fine. Qed.
Lemma stamp_str_fine us : sc (stamp_str us).
Proof.
  unfold stamp_str. destruct (stamp_parts us) as [d [[[h m] s] f]]. destruct (f =? 0); [|apply datetime_fine]. scs; [apply date_fine|apply clock_fine].
Qed.
Lemma cell_text_fine time c : (forall us, sc (time us)) -> cell_fine c -> sc (cell_text time c).
Proof. intros T C. destruct c; [exact C|apply number_fine|apply T]. Qed.
Lemma row_texts_fine r : row_fine r -> Forall sc (row_texts r).
Proof. intros R. unfold row_texts. apply Forall_map. eapply Forall_impl; [|exact R]. intros c. apply cell_text_fine, stamp_fine. Qed.
Lemma plain_texts_fine r : row_fine r -> Forall sc (plain_texts r).
Proof. intros R. unfold plain_texts. apply Forall_map. eapply Forall_impl; [|exact R]. intros c. apply cell_text_fine, stamp_str_fine. Qed.
Lemma sc_flat {A} (f : A -> list Z) l : Forall (fun a => sc (f a)) l -> sc (flat_map f l).
Proof. induction 1; cbn [flat_map]; [constructor|apply sc_app; auto]. Qed.
Lemma sc_joined sep l : sc sep -> Forall sc l -> sc (joined sep l).
Proof.
  intros S. induction 1 as [|x t H T IH]; cbn [joined]; [constructor|]. destruct t; [exact H|]. repeat apply sc_app; auto.
Qed.
Lemma csv_field_fine s : sc s -> sc (csv_field s).
Proof.
  intros S. unfold csv_field. destruct (existsb _ _); [|exact S]. constructor; [unfold scalar; lia|]. apply sc_app; [|apply sc_one; unfold scalar; lia].
  apply sc_flat. eapply Forall_impl; [|exact S]. intros c C. cbn beta in C.
  assert (Q : scalar 34) by (unfold scalar; lia). destruct (c =? 34); repeat (constructor; [assumption|]); constructor.
Qed.
Lemma csv_fine rows : Forall (Forall sc) rows -> sc (csv_text rows).
Proof.
  intros R. apply sc_flat. eapply Forall_impl; [|exact R]. intros r F. unfold csv_row. apply sc_app; [|apply sc_small; repeat (constructor; [lia|]); constructor].
  assert (J : sc (joined [44] (map csv_field r))).
  { apply sc_joined; [apply sc_one; unfold scalar; lia|]. apply Forall_map. eapply Forall_impl; [|exact F]. apply csv_field_fine. }
  assert (Q : sc [34; 34]) by (apply sc_small; repeat (constructor; [lia|]); constructor).
  destruct r as [|[|] []]; assumption.
Qed.
Lemma hex_digit_fine n : 48 <= hex_digit (n mod 16) <= 70.
Proof. pose proof (Z.mod_pos_bound n 16 ltac:(lia)). unfold hex_digit. destruct (_ <? 10) eqn:E; lia. Qed.
Definition hexes (s : list Z) : Prop := Forall (fun c => 48 <= c <= 70) s.
Lemma hex_digits_fine fuel : forall n acc, hexes acc -> hexes (hex_digits fuel n acc).
Proof.
  induction fuel as [|fuel IH]; intros n acc A; cbn [hex_digits]; [exact A|].
  assert (A' : hexes (hex_digit (n mod 16) :: acc)) by (constructor; [apply hex_digit_fine|exact A]). destruct (_ =? 0); auto.
Qed.
Lemma hex_fine n : hexes (hex n).
Proof. apply hex_digits_fine. constructor. Qed.
Lemma zfill_fine w s : hexes s -> hexes (zfill w s).
Proof. intros H. apply Forall_app. split; [|exact H]. apply Forall_forall. intros c I. apply repeat_spec in I. lia. Qed.
Lemma int2hex_fine n : hexes (int2hex n).
Proof. apply zfill_fine, hex_fine. Qed.
Lemma hexes_sc s : hexes s -> sc s.
Proof. apply Forall_impl. unfold scalar. lia. Qed.
Lemma lower_fine s : hexes s -> sc (map lower s).
Proof. intros H. apply Forall_map. eapply Forall_impl; [|exact H]. intros c C. cbn beta in C. unfold lower, scalar. destruct (65 <=? c); lia. Qed.
Lemma py_hex_fine n : sc (py_hex n).
Proof. apply sc_app; [apply sc_txt|apply lower_fine, hex_fine]. Qed.
Lemma codes_fine l : sc (codes_text l).
Proof. apply sc_joined; [apply sc_txt|]. apply Forall_map, Forall_forall. intros [s|n] _; [apply sc_txt|apply py_hex_fine]. Qed.
Lemma usn_texts_fine r : usn_row_fine r -> Forall sc (usn_texts r).
Proof.
  intros (T & N & P). unfold usn_texts. repeat (constructor; [auto using number_fine, codes_fine|]); [apply cell_text_fine; [apply stamp_fine|exact T]|].
  repeat constructor; assumption.
Qed.

(** ** The files *)
Lemma opened_data data b p : bytes_ok data -> mft_open data b = Ok p -> m_data p = data.
Proof. intros Bd O. apply mft_open_spec in O as [O _]; [|exact Bd]. apply O. Qed.
Lemma txts_fine l : Forall sc (map txt l).
Proof. apply Forall_map, Forall_forall. intros s _. apply sc_txt. Qed.
Lemma process_mft_fine data header tag : bytes_ok data -> name_fine tag -> gall row_fine (process_mft data header tag).
Proof.
  intros Bd T. unfold process_mft. apply gall_run. intros p O.
  apply opened_data in O; [|exact Bd]. apply gall_seq.
  - destruct header; [|constructor]. apply gall_one. apply Forall_map, Forall_forall. intros s _. apply sc_txt.
  - apply (gall_rows opened_record); [apply records_opened; now rewrite O|]. intros fr. apply mft_record_fine; [now rewrite O|exact T].
Qed.
Lemma mft_file_fine data header tag : bytes_ok data -> name_fine tag -> gall (Forall sc) (mft_file data header tag).
Proof. intros Bd T. unfold mft_file. apply (gall_map row_fine); [now apply process_mft_fine|apply row_texts_fine]. Qed.
Lemma usn_file_fine j data : bytes_ok j -> bytes_ok data -> gall (Forall sc) (usn_file j data).
Proof.
  intros Bj Bd. unfold usn_file. apply gall_run. intros p O. apply gall_cons; [apply txts_fine|]. apply (gall_map usn_row_fine); [|apply usn_texts_fine].
  unfold process_usn. apply gall_run. intros p' O'. apply opened_data in O'; [|exact Bd].
  apply (gall_rows (fun x : Z * usn_rec => bytes_ok (ur_raw (snd x)))); [now apply journal_fine|]. intros x X. apply gall_run. intros w W. apply gall_one.
  eapply usn_row_of_fine; [|exact X|exact W]. now rewrite O'.
Qed.
Lemma indx_file_fine vol voff cs data : bytes_ok vol -> bytes_ok data -> gall (Forall sc) (indx_file vol voff cs data).
Proof.
  intros Bv Bd. unfold indx_file. apply gall_run. intros p O. apply gall_cons; [apply txts_fine|]. apply (gall_map row_fine); [|apply row_texts_fine].
  unfold process_indx. apply gall_run. intros p' O'. apply opened_data in O'; [|exact Bd].
  apply (gall_rows opened_record); [apply records_opened; now rewrite O'|]. intros fr F. apply indx_record_fine; [now rewrite O'|exact Bv|exact F].
Qed.
Lemma mem_file_fine data : gall (Forall sc) (mem_file data).
Proof.
  unfold mem_file. apply gall_cons; [apply txts_fine|]. apply (gall_map row_fine); [|apply plain_texts_fine]. unfold process_mem, gall.
  destruct (fst (carve_fcb data None)) as [l st]. cbn [fst]. apply Forall_map, Forall_forall. intros x _. unfold row_fine.
  constructor; [exact I|]. repeat (constructor; [unfold plain_time; match goal with |- cell_fine (match ?t with _ => _ end) => destruct t end; [exact I|constructor]|]). constructor.
Qed.
