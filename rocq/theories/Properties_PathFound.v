(** Property C15 (continued): the listed paths can be looked up. *)
From Verif Require Import Base BaseLemmas Frs FrsSpec FileRecord Mft MftSpec MftProofs MftPathProofs MftSamples Properties_Mft
  PathSpec PathFound WitnessMft.

(** Every line that [build_full_paths] lists for a record in use and that does
    not start with "<Orphan>" is found, when all records can be decoded, no
    record has the same name twice and names are not empty and contain no "/".
    The record found is one reached by the path, in the same or in an earlier
    slot.  ("." and ".." in front of the last name are refused by the tool.) *)
Theorem C15_listed_found : forall data b p upper (cs dir : bool) k fr lines comps c v,
  let t := known data b in let size := fld 4 data 28 in
  bytes_ok data -> fits data -> mft_open data b = Ok p ->
  all_clean t data size -> names_differ t data size upper cs -> names_plain t data size ->
  record_at t data size k None fr -> in_use (fr_base fr) -> (dir = true -> is_directory fr) ->
  build_full_paths p fr = Ok lines -> In (path_text (comps ++ [c]), v) lines ->
  Forall component (comps ++ [c]) -> no_dots comps ->
  exists fr' k', by_path upper p (path_text (comps ++ [c]) ++ (if dir then [47] else [])) cs = Ok (Some fr') /\
    0 <= k' <= k /\ resolves t data size upper cs dir (c :: rev comps) k' fr'.
Proof.
  intros data b p upper cs dir k fr lines comps c v t size B F O AC ND NP R U D BF HI HC HD.
  apply (C13_paths data b p k None fr lines B F O R) in BF as (vs & HN & F2).
  assert (X : exists w, In w (rev (filter long_name vs) ++ filter (fun v => negb (long_name v)) vs) /\
    path_line t data size w (path_text (comps ++ [c]), v)).
  { clear - F2 HI. induction F2 as [|a s l l' H1 H2 IH]; [contradiction|]. destruct HI as [->|HI].
    - exists a. split; [now left|exact H1].
    - destruct (IH HI) as (w & W1 & W2). exists w. split; [now right|exact W2]. }
  destruct X as (w & HW & (_ & names & e & PO & ET)). cbn [fst] in ET.
  assert (IW : In w vs).
  { apply in_app_or in HW as [HW|HW]; [apply in_rev in HW|]; now apply filter_In in HW. }
  pose proof (path_plain t data size NP w names e (NP _ _ _ _ _ R HN IW) PO) as PN.
  assert (EE : e = []).
  { destruct (path_end t data size w names e PO) as [->| ->]; [reflexivity|exfalso].
    destruct comps; cbn in ET; discriminate. }
  subst e. cbn [app] in ET.
  apply path_text_inj in ET; [|exact HC|now apply Forall_rev].
  assert (EN : names = c :: rev comps) by (rewrite <- (rev_involutive names), <- ET, rev_app_distr; reflexivity).
  destruct (path_leads t data size upper cs ND w names PO) as (rest & ER & LE).
  rewrite EN in ER. injection ER as EC <-.
  assert (RS : resolves t data size upper cs dir (c :: rev comps) k fr).
  { exists c, (rev comps), w. split; [reflexivity|]. split; [exact R|]. split; [exact U|]. split; [exact D|]. split; [|exact LE].
    rewrite EC. apply first_named_once with (vs := vs); [exact HN|exact (ND _ _ _ _ R HN)|exact IW]. }
  destruct (C15_clean_lookup_partial data b p upper cs dir comps c B F O HC HD AC) as (r & ER & FR).
  assert (K : 0 <= k) by (destruct R as (? & ? & [K _] & _); exact K).
  destruct r as [fr'|].
  - destruct FR as (k' & K' & RS' & MIN). exists fr', k'. split; [exact ER|]. split; [|exact RS'].
    split; [exact K'|]. destruct (Z.le_gt_cases k' k) as [L|L]; [exact L|]. exfalso. exact (MIN k fr (conj K L) RS).
  - exfalso. exact (FR k fr K RS).
Qed.
Print Assumptions C15_listed_found.

(** When no other record is reached by it, the path leads back to the record. *)
Theorem C15_round_trip : forall data b p upper (cs dir : bool) k fr lines comps c v,
  let t := known data b in let size := fld 4 data 28 in
  bytes_ok data -> fits data -> mft_open data b = Ok p ->
  all_clean t data size -> names_differ t data size upper cs -> names_plain t data size ->
  record_at t data size k None fr -> in_use (fr_base fr) -> (dir = true -> is_directory fr) ->
  build_full_paths p fr = Ok lines -> In (path_text (comps ++ [c]), v) lines ->
  Forall component (comps ++ [c]) -> no_dots comps ->
  (forall k' fr', resolves t data size upper cs dir (c :: rev comps) k' fr' -> k' = k) ->
  by_path upper p (path_text (comps ++ [c]) ++ (if dir then [47] else [])) cs = Ok (Some fr).
Proof.
  intros data b p upper cs dir k fr lines comps c v t size B F O AC ND NP R U D BF HI HC HD UN.
  destruct (C15_listed_found data b p upper cs dir k fr lines comps c v B F O AC ND NP R U D BF HI HC HD)
    as (fr' & k' & E & _ & RS).
  rewrite E. pose proof (UN _ _ RS) as ->. destruct RS as (? & ? & ? & _ & R' & _).
  now rewrite (C12_unique t data size k None fr fr' B R R').
Qed.
Print Assumptions C15_round_trip.

(** ** A table with a hard link *)

(** The file in slot 8 is "/a/x" and "/b/y". *)
Definition link_table : list Z :=
  mk_record 1024 0 1 1 0 (mk_attr 0x30 (mk_name 5 5 3 [36; 77])) ++ zeros 2048 ++ mk_volume 1024 ++ zeros 1024 ++
  mk_record 1024 5 5 3 0 (mk_attr 0x30 (mk_name 5 5 3 [46])) ++
  mk_record 1024 6 2 3 0 (mk_attr 0x30 (mk_name 5 5 3 [97])) ++
  mk_record 1024 7 1 3 0 (mk_attr 0x30 (mk_name 5 5 3 [98])) ++
  mk_record 1024 8 1 1 0 (mk_attr 0x30 (mk_name 6 2 3 [120]) ++ mk_attr 0x30 (mk_name 7 1 3 [121])).

(** The conditions, checked by computation. *)
Fixpoint differb (l : list (list Z)) : bool :=
  match l with [] => true | x :: l => negb (existsb (zlist_eqb x) l) && differb l end.
Definition namesb (data : list Z) (size : Z) : bool :=
  basesb data size &&
  forallb (fun kf => let vs := name_values (fst (fr_attributes (mk_fr (snd kf) []))) in
    differb (map name_field vs) &&
    forallb (fun v => negb (zlist_eqb (name_field v) []) && negb (zin 47 (name_field v))) vs) (table data size).

Lemma differb_ok l : differb l = true -> NoDup l.
Proof.
  induction l as [|x l IH]; cbn [differb]; intro H; [constructor|]. apply andb_prop in H as [H1 H2]. constructor; [|auto].
  intro I. apply negb_true_iff in H1. assert (X : existsb (zlist_eqb x) l = true); [|congruence].
  apply existsb_exists. exists x. split; [exact I|]. now apply zlist_eqb_eq.
Qed.

Lemma namesb_ok data size : namesb data size = true ->
  names_differ (table data size) data size same true /\ names_plain (table data size) data size.
Proof.
  unfold namesb. intro H. apply andb_prop in H as [HB H]. rewrite forallb_forall in H.
  assert (X : forall k seq fr vs, record_at (table data size) data size k seq fr -> has_names fr vs ->
    differb (map name_field vs) = true /\
    forallb (fun v => negb (zlist_eqb (name_field v) []) && negb (zin 47 (name_field v))) vs = true).
  { intros k seq fr vs R (items & EI & _ & -> & _). destruct (record_of data size k seq fr HB R) as (f & I & ->).
    specialize (H _ I). cbn [snd] in H. rewrite EI in H. cbn [fst] in H. now apply andb_prop in H. }
  split.
  - intros k seq fr vs R N. destruct (X k seq fr vs R N) as [X1 _]. now apply differb_ok.
  - intros k seq fr vs v R N I. destruct (X k seq fr vs R N) as [_ X2]. rewrite forallb_forall in X2. specialize (X2 v I).
    apply andb_prop in X2 as [X2 X3]. apply negb_true_iff in X2, X3. split.
    + intro J. apply zin_In in J. congruence.
    + intro E. rewrite E in X2. discriminate.
Qed.

Lemma two_lines (l : list (list Z * list Z)) a b :
  match map fst l with [x; y] => zlist_eqb x a && zlist_eqb y b | _ => false end = true -> exists v1 v2, l = [(a, v1); (b, v2)].
Proof.
  destruct l as [|[t1 v1] [|[t2 v2] [|? ?]]]; try discriminate. cbn [map fst]. intro X.
  apply andb_prop in X as [X1 X2]. apply zlist_eqb_eq in X1, X2. subst. eauto.
Qed.

Local Opaque link_table.
(** Both paths lead back to the file in slot 8. *)
Example C15_round_trip_example : exists p fr lines, mft_open link_table true = Ok p /\
  record_at (known link_table true) link_table (fld 4 link_table 28) 8 None fr /\
  build_full_paths p fr = Ok lines /\ map fst lines = [[47; 98; 47; 121]; [47; 97; 47; 120]] /\
  exists fr1 fr2, by_path same p [47; 98; 47; 121] true = Ok (Some fr1) /\ by_path same p [47; 97; 47; 120] true = Ok (Some fr2).
Proof.
  assert (B : bytes_ok link_table) by (apply bytes_okb_ok; vm_compute; reflexivity).
  assert (F : fits link_table) by (unfold fits; vm_compute; discriminate).
  assert (T : tableb link_table (fld 4 link_table 28) = true) by (vm_compute; reflexivity).
  assert (N : namesb link_table (fld 4 link_table 28) = true) by (vm_compute; reflexivity).
  assert (X : match mft_open link_table true with
    | Ok p => match by_number p 8 None false with
      | Ok fr => fr_in_use fr && match build_full_paths p fr with
        | Ok l => match map fst l with
          | [x; y] => zlist_eqb x [47; 98; 47; 121] && zlist_eqb y [47; 97; 47; 120] | _ => false end
        | Err _ => false end
      | Err _ => false end
    | Err _ => false end = true) by (vm_compute; reflexivity).
  assert (U : match mft_open link_table true with
    | Ok p => match by_number p 8 None false with
      | Ok fr => Z.odd (fld 2 (frs_data (fr_base fr)) 22) | Err _ => false end | Err _ => false end = true) by (vm_compute; reflexivity).
  destruct (mft_open link_table true) as [p|] eqn:O; [|discriminate].
  destruct (by_number p 8 None false) as [fr|] eqn:R; [|discriminate].
  apply (C12_lookup link_table true p 8 None fr B F O ltac:(lia)) in R.
  apply andb_prop in X as [_ X]. destruct (build_full_paths p fr) as [lines|] eqn:L; [|discriminate].
  destruct (two_lines lines _ _ X) as (v1 & v2 & ->). clear X.
  destruct (namesb_ok _ _ N) as [ND NP].
  assert (AC : all_clean (known link_table true) link_table (fld 4 link_table 28)) by (apply tableb_clean; exact T).
  exists p, fr, [([47; 98; 47; 121], v1); ([47; 97; 47; 120], v2)]. split; [reflexivity|]. split; [exact R|]. split; [exact L|].
  split; [reflexivity|].
  assert (C : forall x, x <> 47 -> component [x]) by (intros x Hx; split; [intros [E|[]]; auto|discriminate]).
  assert (D : forall x, x <> 46 -> no_dots [[x]]) by (intros x Hx; split; intros [E|[]]; injection E as E; auto).
  destruct (C15_listed_found link_table true p same true false 8 fr _ [[98]] [121] v1 B F O AC ND NP R U ltac:(discriminate) L
    ltac:(left; reflexivity) ltac:(constructor; [apply C; lia|constructor; [apply C; lia|constructor]]) ltac:(apply D; lia)) as (fr1 & _ & E1 & _).
  destruct (C15_listed_found link_table true p same true false 8 fr _ [[97]] [120] v2 B F O AC ND NP R U ltac:(discriminate) L
    ltac:(right; left; reflexivity) ltac:(constructor; [apply C; lia|constructor; [apply C; lia|constructor]]) ltac:(apply D; lia)) as (fr2 & _ & E2 & _).
  exists fr1, fr2. split; [exact E1|exact E2].
Qed.
