(** C52 and C65: carving. *)
From Verif Require Import Base BaseLemmas FieldLemmas Filetime Attributes Carve CarveSpec CarveProofs CarveFcb.
From Coq Require Import Lia.
Local Set Warnings "-abstract-large-number".

Lemma scan_fun P skip s l : scan P skip s l -> forall l', scan P skip s l' -> l = l'.
Proof.
  induction 1 as [s H|s p l H1 H2 H3 H4 H5 IH]; intros l' H'.
  - inversion H' as [|? p l K1 K2 K3]; subst; [auto|]. destruct (H p K1 K2 K3).
  - inversion H' as [? K|? q r K1 K2 K3 K4 K5]; subst; [destruct (K p H1 H2 H3)|].
    assert (p = q).
    { destruct (Z.lt_trichotomy p q) as [X|[X|X]]; [|auto|]; [destruct (K4 p ltac:(lia) ltac:(lia) H3)|destruct (H4 q ltac:(lia) ltac:(lia) K3)]. }
    subst q. f_equal. auto.
Qed.

Lemma scan_In P skip s l : scan P skip s l -> (forall p, skip p mod 2 = 0 /\ 0 <= skip p) ->
  forall p, In p l -> P p /\ s <= p /\ p mod 2 = s mod 2.
Proof.
  induction 1 as [s H|s p l H1 H2 H3 H4 H5 IH]; intros E q; [intros []|]. intros [<-|I]; [auto|].
  destruct (IH E q I) as (A & B & C). specialize (E p). split; [auto|]. lia.
Qed.

Lemma scan_complete P s l : scan P (fun _ => 68) s l -> forall p, P p -> s <= p -> p mod 2 = s mod 2 ->
  exists q, In q l /\ q <= p < q + 68.
Proof.
  induction 1 as [s H|s q l H1 H2 H3 H4 H5 IH]; intros p A B C; [destruct (H p B C A)|].
  destruct (Z.lt_ge_cases p q) as [X|X]; [destruct (H4 p ltac:(lia) C A)|].
  destruct (Z.lt_ge_cases p (q + 68)) as [Y|Y]; [exists q; cbn; auto|].
  destruct (IH p A Y ltac:(lia)) as (r & R & L). exists r. cbn. auto.
Qed.

Lemma partial_fun v ps n n' : Forall (fun p => p <= zlen v) ps -> partial_for v ps n -> partial_for v ps n' -> n = n'.
Proof.
  intros F (p & r & E & L & N) (p' & r' & E' & L' & N'). rewrite E in E'. injection E' as <- <-. subst ps. inversion F; subst.
  destruct (partial_spec v (p - 8) (S (length v)) ltac:(lia) ltac:(lia)) as (acc & _ & _ & U). cbv zeta in U.
  replace (p - 8 - 2) with (p - 10) in U by lia. rewrite <- (U n N), <- (U n' N'). auto.
Qed.

Lemma plausible_le v ps s : scan (plausible v) (fun _ => 68) s ps -> Forall (fun p => p <= zlen v) ps.
Proof.
  intro S. apply Forall_forall. intros p I. apply (scan_In _ _ _ _ S) in I as ((_ & _ & L & _) & _); [lia|]. intros. lia.
Qed.

Theorem slack_items_fun v yp l l' : slack_items v yp l -> slack_items v yp l' -> l = l'.
Proof.
  intros (ps & t & S & -> & T) (ps' & t' & S' & -> & T'). pose proof (scan_fun _ _ _ _ S _ S'). subst ps'. f_equal.
  pose proof (plausible_le _ _ _ S) as F.
  destruct T as [(n & Y & N & ->)|[-> N]], T' as [(n' & Y' & N' & ->)|[-> N']]; auto.
  - rewrite (partial_fun _ _ _ _ F N N'). auto.
  - destruct (N' n Y N).
  - destruct (N n' Y' N').
Qed.

Lemma internal_spec v yp : exists l, carve_internal v yp = (l, Done) /\ slack_items v yp l.
Proof.
  unfold carve_internal. destruct (Z.leb_spec 8 (zlen v)) as [L|L]; cbn [negb].
  2:{ exists []. split; [auto|]. exists [], []. split; [|split; [auto|]].
      - constructor. intros q Q _ (_ & _ & X & _). lia.
      - right. split; [auto|]. intros n _ (p & r & X & _). discriminate. }
  destruct (slack_loop_spec v (S (length v)) (zlen v mod 2)) as (ps & -> & S); [lia|unfold zlen; lia|lia|].
  pose proof (plausible_le _ _ _ S) as F. rewrite map_map.
  replace (map (fun x => CName (snd (found_at v x))) ps) with (map (fun p => CName (attribute_at v p)) ps) by reflexivity.
  destruct ps as [|p r].
  { exists []. split; [auto|]. exists [], []. split; [auto|]. split; [auto|]. right. split; [auto|].
    intros n _ (q & r & X & _). discriminate. }
  set (names := map (fun p => CName (attribute_at v p)) (p :: r)).
  cbn [map]. unfold found_at at 1. cbn [fst snd].
  destruct (yp && (10 <=? Z.max 0 (p - 8))) eqn:E.
  - apply andb_true_iff in E as [-> E]. assert (P : 18 <= p) by lia. replace (Z.max 0 (p - 8)) with (p - 8) by lia.
    inversion F; subst. destruct (partial_spec v (p - 8) (Datatypes.S (length v)) ltac:(lia) ltac:(lia)) as (acc & -> & A & B).
    cbv zeta in A, B. replace (p - 8 - 2) with (p - 10) in A, B by lia.
    destruct (Z.leb_spec 5 (zlen acc)) as [C|C].
    + exists (names ++ [CPartial (rev acc)]). split; [auto|]. exists (p :: r), [CPartial (rev acc)]. split; [auto|]. split; [auto|].
      left. exists acc. split; [auto|]. split; [|auto]. exists p, r. auto.
    + exists names. split; [auto|]. exists (p :: r), []. split; [auto|]. split; [now rewrite app_nil_r|]. right. split; [auto|].
      intros n _ (p' & r' & X & _ & N). injection X as <- <-. rewrite (B n N) in C.
      destruct N as (? & ? & run & ? & _ & _ & _ & _ & _ & Q & _ & ->). rewrite zlen_map in C. lia.
  - exists names. split; [auto|]. exists (p :: r), []. split; [auto|]. split; [now rewrite app_nil_r|]. right. split; [auto|].
    intros n -> (p' & r' & X & Q & _). injection X as <- <-. cbn [andb] in E. lia.
Qed.

(** C52. Carving always ends without an exception, and what is reported is
    exactly what the specification wants, value by value. *)
Theorem C52_carve vs yp : exists ls, carve vs yp = (concat ls, Done) /\ Forall2 (fun v l => slack_items v yp l) vs ls.
Proof.
  induction vs as [|v vs (ls & E & F)]; cbn [carve]; [exists []; split; [auto|constructor]|].
  destruct (internal_spec v yp) as (l & -> & I). rewrite E. exists (l :: ls). split; [reflexivity|constructor; auto].
Qed.

Theorem C52_unique v yp l : carve [v] yp = (l, Done) <-> slack_items v yp l.
Proof.
  destruct (C52_carve [v] yp) as (ls & E & F). inversion F as [|? l' ? ? I1 I2]; subst. inversion I2; subst.
  cbn [concat] in E. rewrite app_nil_r in E. rewrite E. split; [intro Q; injection Q as <-; auto|].
  intro J. rewrite (slack_items_fun _ _ _ _ J I1). reflexivity.
Qed.

(** Every name reported is plausible, and its four timestamps decode. *)
Theorem C52_only_plausible v yp l buf : carve [v] yp = (l, Done) -> In (CName buf) l ->
  exists p, plausible v p /\ p mod 2 = zlen v mod 2 /\ buf = attribute_at v p /\
    fna_name buf = Ok (name_field v p (fld 1 v (p + 56))).
Proof.
  intros E I. apply C52_unique in E as (ps & t & S & -> & T). apply in_app_or in I as [I|I].
  - apply in_map_iff in I as (p & Q & I). injection Q as <-. exists p.
    destruct (scan_In _ _ _ _ S ltac:(intros; lia) p I) as (A & B & C). split; [auto|]. split; [lia|]. split; [auto|].
    destruct A as (A1 & _ & A2 & _). pose proof (slack_name_spec v p ltac:(lia) ltac:(lia)) as N.
    replace (p + 57 <=? zlen v) with true in N by lia. unfold slack_name in N.
    destruct (fna_mtime _); cbn [bind] in N; [|discriminate]. destruct (fna_atime _); cbn [bind] in N; [|discriminate].
    destruct (fna_ctime _); cbn [bind] in N; [|discriminate]. destruct (fna_etime _); cbn [bind] in N; [|discriminate]. exact N.
  - destruct T as [(n & _ & _ & ->)|[-> _]]; [destruct I as [I|[]]; discriminate|destruct I].
Qed.

(** Nothing plausible is lost, except less than 68 bytes after an attribute
    that was reported. *)
Theorem C52_complete v yp l p : carve [v] yp = (l, Done) -> plausible v p -> p mod 2 = zlen v mod 2 ->
  exists q, plausible v q /\ q <= p < q + 68 /\ In (CName (attribute_at v q)) l.
Proof.
  intros E P M. apply C52_unique in E as (ps & t & S & -> & T).
  assert (0 <= p) by (destruct P; lia).
  destruct (scan_complete _ _ _ S p P ltac:(lia) ltac:(lia)) as (q & I & L). exists q.
  destruct (scan_In _ _ _ _ S ltac:(intros; lia) q I) as (A & _). split; [auto|]. split; [auto|].
  apply in_or_app. left. apply in_map_iff. eauto.
Qed.

(** Witnesses: the content of a $FILE_NAME attribute. *)
Definition wide (n : list Z) : list Z := concat (map (fun c => [c; 0]) n).
Definition fn_content (len type : Z) (name : list Z) : list Z :=
  le_bytes 8 5 ++ concat (repeat (le_bytes 8 130000000000000000) 4) ++ zeros 24 ++ [len; type] ++ wide name.
Definition a_txt : list Z := [97; 46; 116; 120; 116].
Definition hello : list Z := [104; 101; 108; 108; 111].

Example C52_example :
  carve [wide [65; 66; 67] ++ [1; 2] ++ wide hello ++ [0; 0; 0; 0] ++ fn_content 5 1 a_txt ++ zeros 20] true =
  ([CName (fn_content 5 1 a_txt ++ zeros 20); CPartial hello], Done).
Proof. vm_compute. reflexivity. Qed.

Example C52_example_name : fna_name (fn_content 5 1 a_txt ++ zeros 20) = Ok a_txt.
Proof. vm_compute. reflexivity. Qed.

(** The type of the name is not checked, and its length is not checked
    against the end of the slack: such a name is reported, cut. *)
Theorem C52_type_and_length_refuted : exists v buf, carve [v] false = ([CName buf], Done) /\
  fna_flags buf = Ok 77 /\ fna_name_length buf = Ok 200 /\ fna_name buf = Ok a_txt.
Proof. exists (fn_content 200 77 a_txt), (fn_content 200 77 a_txt). repeat split; vm_compute; reflexivity. Qed.

(** An attribute at a position of the other parity is not found. *)
Theorem C52_parity_refuted : exists v p, plausible v p /\ carve [v] true = ([], Done).
Proof.
  exists (0 :: fn_content 5 1 a_txt ++ [0]), 9. split; [|vm_compute; reflexivity].
  unfold plausible. split; [lia|]. split.
  - intros k K. assert (k = 0 \/ k = 1 \/ k = 2 \/ k = 3) as [->|[->|[->| ->]]] by lia; vm_compute; split; discriminate.
  - split; [vm_compute; discriminate|]. vm_compute. split; [split; discriminate|].
    split; intros H; repeat (destruct H as [H|H]; [discriminate H|]); exact H.
Qed.

(** C65. Without exception, the carver finds the blocks of the image page by
    page; [None] or a guess made before is fine. *)
Theorem C65_blocks data g : guess_ok g ->
  exists l, fcb_all data g = (l, Done) /\ forall l', image_items data g 0 l' <-> l' = l.
Proof.
  intro G. destruct (all_spec data g G) as (l & E & I). exists l. split; [auto|]. intro l'. split; [|intros ->; auto].
  intro I'. eapply image_fun; eauto.
Qed.

(** ... and [carve_fcb_timestamps] reports those at the positions that are
    most frequent among the first hundred candidates, or raises ValueError if
    there are too few. *)
Theorem C65_carve data g l : guess_ok g -> image_items data g 0 l ->
  let first := ztake 100 l in
  (zlen first < 25 -> carve_fcb data g = (([], Raised ValueError), g)) /\
  (25 <= zlen first -> exists kd ka, favourite (map fc_dup first) kd /\ favourite (map fc_atime_pos first) ka /\
     guess_ok (Some (kd, ka)) /\ snd (carve_fcb data g) = Some (kd, ka) /\
     (occurs kd (map fc_dup first) < 20 \/ occurs ka (map fc_atime_pos first) < 20 ->
        fst (carve_fcb data g) = ([], Raised ValueError)) /\
     (20 <= occurs kd (map fc_dup first) -> 20 <= occurs ka (map fc_atime_pos first) ->
        exists r, fst (carve_fcb data g) = (r, Done) /\ image_items data (Some (kd, ka)) 0 r)).
Proof.
  intros G I. cbv zeta. destruct (carve_fcb_spec data g G) as (l' & I' & H). pose proof (image_fun _ _ _ _ I _ I'). subst l'. cbv zeta in H.
  destruct (Z.ltb_spec (zlen (ztake 100 l)) 25) as [L|L]; [split; [auto|lia]|]. split; [lia|]. intros _.
  destruct H as (kd & ka & F1 & F2 & G' & H). exists kd, ka. split; [auto|]. split; [auto|]. split; [auto|].
  destruct ((occurs kd _ <? 20) || (occurs ka _ <? 20)) eqn:E.
  - rewrite H. split; [auto|]. split; [auto|]. lia.
  - destruct H as (r & J & ->). split; [auto|]. split; [lia|]. intros _ _. exists r. auto.
Qed.

(** The guess is the only one possible. *)
Theorem C65_guess l k k' : favourite l k -> favourite l k' -> k = k'.
Proof. apply favourite_fun. Qed.

(** Every item reported has all five timestamps in range at the guessed
    positions, which are the same for all. *)
Theorem C65_only_in_range data g l : guess_ok g -> carve_fcb data g = ((l, Done), snd (carve_fcb data g)) ->
  exists kd ka, snd (carve_fcb data g) = Some (kd, ka) /\
  forall x, In x l -> fc_dup x = kd /\ fc_atime_pos x = ka /\ 0 <= fc_pos x /\
    fc_reference x = fld 8 data (fc_pos x + 8) /\
    (forall k, 0 <= k < 4 -> in_range (fld 8 data (fc_pos x + kd + 8 * k))) /\ in_range (fld 8 data (fc_pos x + ka)) /\
    fc_pos x + kd + 32 <= zlen data /\ fc_pos x + ka + 8 <= zlen data.
Proof.
  intros G E. destruct (C65_blocks data g G) as (l0 & _ & U). pose proof (proj2 (U l0) eq_refl) as I.
  destruct (C65_carve data g l0 G I) as [A B]. cbv zeta in A, B.
  destruct (Z.lt_ge_cases (zlen (ztake 100 l0)) 25) as [L|L]; [rewrite (A L) in E; discriminate|].
  destruct (B L) as (kd & ka & F1 & F2 & G' & S & X & Y). exists kd, ka. split; [auto|].
  destruct (Z.lt_ge_cases (occurs kd (map fc_dup (ztake 100 l0))) 20) as [Q|Q].
  { rewrite E in X. specialize (X (or_introl Q)). discriminate. }
  destruct (Z.lt_ge_cases (occurs ka (map fc_atime_pos (ztake 100 l0))) 20) as [R|R].
  { rewrite E in X. specialize (X (or_intror R)). discriminate. }
  destruct (Y Q R) as (r & Z1 & J). rewrite E in Z1. cbn [fst] in Z1. injection Z1 as <-. clear - J G'.
  assert (H0 : 0 <= 0) by lia. revert J H0. generalize 0 at 1 3. intros fp J.
  induction J as [|fp l r H1 H2 H3 IH]; intros H0 x; [intros []|]. intro I. apply in_app_or in I as [I|I]; [|apply IH; auto; lia].
  clear IH H3 r. assert (S0 : 0 <= 0) by lia. revert H2 S0 I. generalize 0 at 1 3. intros s H2. revert x.
  set (page := slice data fp (fp + 4096)) in *.
  assert (LP : zlen page <= zlen data - fp) by (unfold page; rewrite zlen_slice by lia; lia).
  assert (FL : forall k, 0 <= k -> k + 8 <= zlen page -> fld 8 page k = fld 8 data (fp + k)).
  { intros k K1 K2. unfold page in K2 |- *. apply fld_sub; try lia. rewrite zlen_slice in K2 by lia. lia. }
  induction H2 as [|s p d a x l K1 K2 K3 K4 K5 K6 IH]; intros y S0; [intros []|]. destruct (block_bounds _ _ _ _ _ G' K3) as (B1 & B2 & B3 & B4).
  intros [<-|I]; [|apply IH; auto; lia].
  destruct K5 as (-> & -> & -> & -> & _). destruct K3 as (_ & -> & -> & K3 & K7 & K8 & K9).
  split; [auto|]. split; [auto|]. split; [lia|]. split; [rewrite FL by lia; f_equal; lia|].
  split; [|split; [|lia]].
  - intros k K. specialize (K3 k K). rewrite FL in K3 by lia. replace (fp + p + kd + 8 * k) with (fp + (p + kd + 8 * k)) by lia. exact K3.
  - rewrite FL in K8 by lia. replace (fp + p + ka) with (fp + (p + ka)) by lia. exact K8.
Qed.

(** Witness: blocks of 80 bytes in two pages. *)
Definition fcb_block : list Z :=
  [2; 7] ++ zeros 6 ++ le_bytes 8 1234 ++ concat (repeat (le_bytes 8 130000000000000000) 4) ++ zeros 24 ++
  le_bytes 8 130000010000000000.
Definition fcb_dump : list Z := concat (repeat fcb_block 51) ++ zeros 16 ++ concat (repeat fcb_block 6) ++ zeros 32.
Definition fcb_summary (data : list Z) : list Z * bool * guess :=
  let (g, h) := carve_fcb data None in
  (map fc_pos (fst g), forallb (fun x => fc_reference x =? 1234) (fst g) && match snd g with Done => true | _ => false end, h).
Example C65_example : fcb_summary fcb_dump =
  (map (fun k => 80 * Z.of_nat k) (seq 0 51) ++ map (fun k => 4096 + 80 * Z.of_nat k) (seq 0 6), true, Some (16, 72)).
Proof. vm_compute. reflexivity. Qed.

(** A block that crosses the end of a page is not found: the pages are looked
    at one by one. *)
Theorem C65_page_crossing_refuted : exists data, zlen data = 52 * zlen fcb_block /\
  (forall k, 0 <= k < 52 -> slice data (80 * k) (80 * k + 80) = fcb_block) /\
  map fc_pos (fst (fst (carve_fcb data None))) = map (fun k => 80 * Z.of_nat k) (seq 0 51).
Proof.
  exists (concat (repeat fcb_block 52)). split; [vm_compute; reflexivity|]. split; [|vm_compute; reflexivity].
  intros k K.
  assert (F : forallb (fun k => zlist_eqb (slice (concat (repeat fcb_block 52)) (80 * k) (80 * k + 80)) fcb_block)
    (map Z.of_nat (seq 0 52)) = true) by (vm_compute; reflexivity).
  rewrite forallb_forall in F. apply zlist_eqb_eq. apply F. apply in_map_iff. exists (Z.to_nat k).
  split; [lia|]. apply in_seq. lia.
Qed.

Print Assumptions C52_carve.
Print Assumptions C52_unique.
Print Assumptions C52_only_plausible.
Print Assumptions C52_complete.
Print Assumptions C52_type_and_length_refuted.
Print Assumptions C52_parity_refuted.
Print Assumptions C65_blocks.
Print Assumptions C65_carve.
Print Assumptions C65_guess.
Print Assumptions C65_only_in_range.
Print Assumptions C65_page_crossing_refuted.
