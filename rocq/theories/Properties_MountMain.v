(** C88: what vsc_mount does when it is started. *)
From Coq Require Import String Lia.
From Verif Require Import Base BaseLemmas Shadow ShadowImages Report LogReport Mount MountSpec Properties_Mount MountMain MountMainSpec MountMainProofs.
From Verif Require Main Properties_Main.
Local Open Scope Z_scope.

Definition data_at (m : Main.machine) (path : list Z) : option (list Z) := Main.m_data m (Main.m_file m path).

Section Program.
Variable int_of : list Z -> option Z.
Variable is_dir : list Z -> bool.
Variables fuel depth : nat.
Notation vsc := (vsc_main int_of is_dir fuel depth).
Notation asks := (wants int_of).

(** A command line has one meaning. *)
Theorem C88_one_wish : forall argv q q', asks argv q -> asks argv q' -> q = q'.
Proof.
  intros argv q q' A A'. destruct A; inversion A'; subst; try congruence;
    repeat match goal with H : int_of ?x = Some ?a, G : int_of ?x = Some ?b |- _ => rewrite H in G; injection G as G; subst end; reflexivity.
Qed.

(** ** What is done *)
Lemma show_run m argv a n k fill z : asks argv (Show (a, n) k fill z) -> vsc m argv =
  if is_dir z then match data_at m a with None => NoVolume | Some d => start z (mount_one fuel depth (mk_vol d n) k fill) end else NoPoint.
Proof.
  intros A. inversion A as [p a' o n' s k' z' N K|p a' o n' s k' z' N K| |]; subst; unfold vsc_main; cbn [List.length Nat.ltb Nat.leb Main.arg nth];
    (match goal with |- context [vsc_mode (txt ?s)] => let k := eval vm_compute in (vsc_mode (txt s)) in change (vsc_mode (txt s)) with k end);
    cbn [Nat.eqb negb]; unfold number; rewrite N, K; unfold opened, data_at; destruct (is_dir z); cbn [negb]; reflexivity.
Qed.
Lemma two_run m argv a n b i k z : asks argv (ShowTwo (a, n) (b, i) k z) -> vsc m argv =
  if is_dir z then match data_at m a, data_at m b with Some d, Some s => start z (mount_two fuel depth (mk_vol d n) (mk_vol s i) k) | _, _ => NoVolume end else NoPoint.
Proof.
  intros A. inversion A as [| |p a' b' o n' q i' s k' z' N I K|]; subst. unfold vsc_main. cbn [List.length Nat.ltb Nat.leb Main.arg nth].
  change (vsc_mode (txt "--mount-two")) with (Some V_two). cbn [Nat.eqb negb]. unfold number. rewrite N, I, K. unfold opened, data_at.
  destruct (is_dir z); cbn [negb]; [|reflexivity]. destruct (Main.m_data m (Main.m_file m a)); [|reflexivity]. reflexivity.
Qed.
Lemma list_run m argv a n : asks argv (List (a, n)) -> vsc m argv =
  match data_at m a with None => NoVolume | Some d => Lists (list_shadows fuel (mk_vol d n)) end.
Proof.
  intros A. inversion A as [| | |p a' o n' N]; subst. unfold vsc_main. cbn [List.length Nat.ltb Nat.leb Main.arg nth].
  change (vsc_mode (txt "--list")) with (Some V_list). cbn [Nat.eqb negb]. unfold number. rewrite N. reflexivity.
Qed.

Lemma vsc_mode_text s k : vsc_mode s = Some k ->
  s = txt (match k with V_mount false => "--mount" | V_mount true => "--mount-altfill" | V_two => "--mount-two" | V_list => "--list" end).
Proof.
  unfold vsc_mode. intros H.
  repeat match type of H with (if zlist_eqb s ?t then _ else _) = _ =>
    let X := fresh in destruct (zlist_eqb s t) eqn:X; [apply zlist_eqb_eq in X; injection H as <-; exact X|clear X] end.
  discriminate.
Qed.
Lemma asked_or_usage m argv : (exists q, asks argv q) \/ vsc m argv = Usage.
Proof.
  unfold vsc_main. destruct (Nat.ltb _ 2); [right; reflexivity|]. destruct (vsc_mode (Main.arg argv 1)) as [k|] eqn:MO; [|right; reflexivity].
  apply vsc_mode_text in MO. destruct k as [altfill| |].
  - destruct (negb _) eqn:L; [right; reflexivity|]. apply negb_false_iff, Nat.eqb_eq in L.
    destruct argv as [|p [|c [|a [|o [|s [|z [|]]]]]]]; try discriminate. cbn [Main.arg nth] in *. unfold number.
    destruct (int_of o) as [n|] eqn:N; [|right; reflexivity]. destruct (int_of s) as [k|] eqn:K; [|right; reflexivity].
    left. subst c. destruct altfill; eexists; constructor; eassumption.
  - destruct (negb _) eqn:L; [right; reflexivity|]. apply negb_false_iff, Nat.eqb_eq in L.
    destruct argv as [|p [|c [|a [|b [|o [|q [|s [|z [|]]]]]]]]]; try discriminate. cbn [Main.arg nth] in *. unfold number.
    destruct (int_of o) as [n|] eqn:N; [|right; reflexivity]. destruct (int_of q) as [i|] eqn:I; [|right; reflexivity].
    destruct (int_of s) as [k|] eqn:K; [|right; reflexivity]. left. subst c. eexists. constructor; eassumption.
  - destruct (negb _) eqn:L; [right; reflexivity|]. apply negb_false_iff, Nat.eqb_eq in L.
    destruct argv as [|p [|c [|a [|o [|]]]]]; try discriminate. cbn [Main.arg nth] in *. unfold number.
    destruct (int_of o) as [n|] eqn:N; [|right; reflexivity]. left. subst c. eexists. constructor; eassumption.
Qed.
Lemma start_cases z r : (exists fs, r = Ok fs /\ start z r = Mounts fs z) \/ (r = Err ValueError /\ start z r = NoVolume) \/
  (exists e, r = Err e /\ e <> ValueError /\ start z r = Fails e).
Proof.
  destruct r as [fs|e]; [left; eauto|]. destruct e; (right; left; split; reflexivity) || (right; right; eexists; split; [reflexivity|split; [discriminate|reflexivity]]).
Qed.

(** The usage is shown if, and only if, nothing is asked for. *)
Theorem C88_usage : forall m argv, vsc m argv = Usage <-> forall q, ~ asks argv q.
Proof.
  intros m argv. split.
  - intros E q A. destruct q as [[a n] k fill z|[a n] [b i] k z|[a n]].
    + rewrite (show_run _ _ _ _ _ _ _ A) in E. destruct (is_dir z); [|discriminate]. destruct (data_at m a); [|discriminate].
      destruct (start_cases z (mount_one fuel depth (mk_vol l n) k fill)) as [(fs & _ & X)|[(_ & X)|(e & _ & _ & X)]]; rewrite X in E; discriminate.
    + rewrite (two_run _ _ _ _ _ _ _ _ A) in E. destruct (is_dir z); [|discriminate]. destruct (data_at m a) as [d|]; [|discriminate]. destruct (data_at m b) as [s|]; [|discriminate].
      destruct (start_cases z (mount_two fuel depth (mk_vol d n) (mk_vol s i) k)) as [(fs & _ & X)|[(_ & X)|(e & _ & _ & X)]]; rewrite X in E; discriminate.
    + rewrite (list_run _ _ _ _ A) in E. destruct (data_at m a); discriminate.
  - intros N. destruct (asked_or_usage m argv) as [[q A]|E]; [elim (N _ A)|exact E].
Qed.

(** A shadow copy is mounted if the mount point is a directory, the file
    exists, and the copy at that position of the volume at that offset can be
    selected; what is shown then is that copy.  The message that there is no
    file appears in two cases. *)
Theorem C88_mount : forall m argv a n k fill z, Properties_Main.machine_ok m -> asks argv (Show (a, n) k fill z) ->
  (vsc m argv = NoPoint <-> is_dir z = false) /\
  (vsc m argv = NoVolume <-> is_dir z = true /\ (data_at m a = None \/ n < 0)) /\
  (forall fs p, vsc m argv = Mounts fs p <-> p = z /\ is_dir z = true /\ mo_fill fs = fill /\ exists d o,
     data_at m a = Some d /\ open_one fuel (mk_vol d n) None = Ok o /\ select_shadow fuel depth o (ByPos k) = (mo_vss fs, Ok tt)) /\
  (forall l, vsc m argv <> Lists l).
Proof.
  intros m argv a n k fill z M A. rewrite (show_run _ _ _ _ _ _ _ A). clear A. destruct (is_dir z); [|intuition discriminate].
  destruct (data_at m a) as [d|] eqn:D; [|intuition (try discriminate); match goal with H : exists _, _ |- _ => destruct H as (? & ? & ? & _); discriminate end].
  assert (B : bytes_ok (v_data (mk_vol d n))) by exact (M _ _ D).
  pose proof (mount_one_calm fuel depth (mk_vol d n) k fill B) as CV. cbn [v_off] in CV.
  assert (CM : forall fs, mount_one fuel depth (mk_vol d n) k fill = Ok fs <-> mo_fill fs = fill /\ exists o, open_one fuel (mk_vol d n) None = Ok o /\
    select_shadow fuel depth o (ByPos k) = (mo_vss fs, Ok tt)).
  { intros fs. unfold mount_one. split.
    - intros E. apply bind_ok in E as (o & O & E). destruct (select_shadow fuel depth o (ByPos k)) as [o' r] eqn:S. apply bind_ok in E as ([] & -> & E). injection E as <-.
      split; [reflexivity|]. exists o. split; [exact O|exact S].
    - intros (F & o & O & S). rewrite O. cbn [bind]. rewrite S. cbn [bind]. destruct fs as [vs fl]. cbn [mo_fill mo_vss] in *. now subst. }
  destruct (start_cases z (mount_one fuel depth (mk_vol d n) k fill)) as [(fs & E & X)|[(E & X)|(e & E & NE & X)]]; rewrite X; rewrite E in CV, CM.
  - split; [intuition discriminate|]. split; [split; [discriminate|intros (_ & [H|H]); [discriminate|apply CV in H; discriminate]]|]. split; [|discriminate]. intros fs' p. split.
    + intros H. injection H as <- <-. destruct (proj1 (CM fs) eq_refl) as (F & o & O & S). repeat split; eauto.
    + intros (-> & _ & F & d' & o & D' & O & S). injection D' as <-. assert (Y : Ok fs = Ok fs') by (apply CM; eauto). now injection Y as <-.
  - split; [intuition discriminate|]. split; [split; [intros _; split; [reflexivity|right; now apply CV]|reflexivity]|]. split; [|discriminate]. intros fs' p. split; [discriminate|].
    intros (_ & _ & F & d' & o & D' & O & S). injection D' as <-. assert (Y : Err ValueError = Ok fs') by (apply CM; eauto). discriminate Y.
  - split; [intuition discriminate|]. split; [split; [discriminate|intros (_ & [H|H]); [discriminate|apply CV in H; congruence]]|]. split; [|discriminate]. intros fs' p. split; [discriminate|].
    intros (_ & _ & F & d' & o & D' & O & S). injection D' as <-. assert (Y : Err e = Ok fs') by (apply CM; eauto). discriminate Y.
Qed.

(** Requests to it are then answered from that copy. *)
Theorem C88_shown : forall m argv a n k fill z fs p, Properties_Main.machine_ok m -> asks argv (Show (a, n) k fill z) -> vsc m argv = Mounts fs p ->
  forall qs, Forall2 (right (mo_vss fs) fill) qs (snd (serve_all fs qs)).
Proof.
  intros m argv a n k fill z fs p M A E. rewrite (show_run _ _ _ _ _ _ _ A) in E. destruct (is_dir z); [|discriminate]. destruct (data_at m a) as [d|] eqn:D; [|discriminate].
  destruct (start_cases z (mount_one fuel depth (mk_vol d n) k fill)) as [(fs' & R & X)|[(_ & X)|(e & _ & _ & X)]]; rewrite X in E; try discriminate.
  injection E as -> _. destruct (C83_mounted fuel depth (mk_vol d n) k fill fs (M _ _ D) R) as (MO & F & _). intros qs. rewrite <- F. now apply C83_answers.
Qed.

(** The same for a copy whose store is on another volume. *)
Theorem C88_mount_two : forall m argv a n b i k z, Properties_Main.machine_ok m -> asks argv (ShowTwo (a, n) (b, i) k z) ->
  (vsc m argv = NoPoint <-> is_dir z = false) /\
  (vsc m argv = NoVolume <-> is_dir z = true /\ (data_at m a = None \/ data_at m b = None \/ n < 0 \/ (n < 2 ^ 63 /\ i < 0))) /\
  (forall fs p, vsc m argv = Mounts fs p <-> p = z /\ is_dir z = true /\ mo_fill fs = false /\ exists d s o,
     data_at m a = Some d /\ data_at m b = Some s /\ open_two fuel (mk_vol d n) (mk_vol s i) None = Ok o /\ select_shadow fuel depth o (ByPos k) = (mo_vss fs, Ok tt)) /\
  (forall fs p qs, vsc m argv = Mounts fs p -> Forall2 (right (mo_vss fs) false) qs (snd (serve_all fs qs))) /\
  (forall l, vsc m argv <> Lists l).
Proof.
  intros m argv a n b i k z M A. rewrite (two_run _ _ _ _ _ _ _ _ A). clear A. destruct (is_dir z); [|intuition discriminate].
  destruct (data_at m a) as [d|] eqn:D; [|intuition (try discriminate); match goal with H : exists _, _ |- _ => destruct H as (? & ? & ? & ? & _); discriminate end].
  destruct (data_at m b) as [s|] eqn:S'; [|intuition (try discriminate); match goal with H : exists _, _ |- _ => destruct H as (? & ? & ? & ? & ? & _); discriminate end].
  assert (B : bytes_ok (v_data (mk_vol d n))) by exact (M _ _ D). assert (BW : bytes_ok (v_data (mk_vol s i))) by exact (M _ _ S').
  pose proof (mount_two_calm fuel depth (mk_vol d n) (mk_vol s i) k B BW) as CV. cbn [v_off] in CV.
  assert (CM : forall fs, mount_two fuel depth (mk_vol d n) (mk_vol s i) k = Ok fs <-> mo_fill fs = false /\ exists o, open_two fuel (mk_vol d n) (mk_vol s i) None = Ok o /\
    select_shadow fuel depth o (ByPos k) = (mo_vss fs, Ok tt)).
  { intros fs. unfold mount_two. split.
    - intros E. apply bind_ok in E as (o & O & E). destruct (select_shadow fuel depth o (ByPos k)) as [o' r] eqn:S. apply bind_ok in E as ([] & -> & E). injection E as <-.
      split; [reflexivity|]. exists o. split; [exact O|exact S].
    - intros (F & o & O & S). rewrite O. cbn [bind]. rewrite S. cbn [bind]. destruct fs as [vs fl]. cbn [mo_fill mo_vss] in *. now subst. }
  assert (CA : forall fs qs, mount_two fuel depth (mk_vol d n) (mk_vol s i) k = Ok fs -> Forall2 (right (mo_vss fs) false) qs (snd (serve_all fs qs))).
  { intros fs qs R. destruct (C83_mounted_two fuel depth (mk_vol d n) (mk_vol s i) k fs BW R) as (MO & F & _). rewrite <- F. now apply C83_answers. }
  destruct (start_cases z (mount_two fuel depth (mk_vol d n) (mk_vol s i) k)) as [(fs & E & X)|[(E & X)|(e & E & NE & X)]]; rewrite X; rewrite E in CV, CM, CA.
  - split; [intuition discriminate|]. split; [split; [discriminate|intros (_ & [H|[H|H]]); [discriminate|discriminate|apply CV in H; discriminate]]|].
    split; [|split; [|discriminate]]. 2:{ intros fs' p qs H. injection H as <- <-. now apply CA. } intros fs' p. split.
    + intros H. injection H as <- <-. destruct (proj1 (CM fs) eq_refl) as (F & o & O & S). split; [reflexivity|]. split; [reflexivity|]. split; [exact F|]. exists d, s, o. auto.
    + intros (-> & _ & F & d' & s' & o & D' & S'' & O & S). injection D' as <-. injection S'' as <-. assert (Y : Ok fs = Ok fs') by (apply CM; eauto). now injection Y as <-.
  - split; [intuition discriminate|]. split; [split; [intros _; split; [reflexivity|right; right; now apply CV]|reflexivity]|]. split; [|split; discriminate]. intros fs' p. split; [discriminate|].
    intros (_ & _ & F & d' & s' & o & D' & S'' & O & S). injection D' as <-. injection S'' as <-. assert (Y : Err ValueError = Ok fs') by (apply CM; eauto). discriminate Y.
  - split; [intuition discriminate|]. split; [split; [discriminate|intros (_ & [H|[H|H]]); [discriminate|discriminate|apply CV in H; congruence]]|].
    split; [|split; discriminate]. intros fs' p. split; [discriminate|].
    intros (_ & _ & F & d' & s' & o & D' & S'' & O & S). injection D' as <-. injection S'' as <-. assert (Y : Err e = Ok fs') by (apply CM; eauto). discriminate Y.
Qed.

(** The copies of a volume are listed (see C83_list) without a mount. *)
Theorem C88_list : forall m argv a n, asks argv (List (a, n)) ->
  (vsc m argv = NoVolume <-> data_at m a = None) /\
  (forall l, vsc m argv = Lists l <-> exists d, data_at m a = Some d /\ l = list_shadows fuel (mk_vol d n)) /\
  (forall fs p, vsc m argv <> Mounts fs p).
Proof.
  intros m argv a n A. rewrite (list_run _ _ _ _ A). destruct (data_at m a) as [d|].
  - split; [split; discriminate|]. split; [|discriminate]. intros l. split; [intros H; injection H as <-; eauto|]. intros (d' & D & ->). now injection D as <-.
  - split; [tauto|]. split; [|discriminate]. intros l. split; [discriminate|]. intros (d' & D & _). discriminate.
Qed.
End Program.

Print Assumptions C88_one_wish.
Print Assumptions C88_usage.
Print Assumptions C88_mount.
Print Assumptions C88_shown.
Print Assumptions C88_mount_two.
Print Assumptions C88_list.

(** ** A machine *)
(** "v" is the sample volume, "m" is a directory. *)
Definition bench : Main.machine := Main.mk_machine
  (fun p => match p with [118] => 1 | _ => 2 end)
  (fun i => if i =? 1 then Some (v_data sh_good) else None) (fun _ => true).
Definition one_dir (p : list Z) : bool := match p with [109] => true | _ => false end.
Definition digit (s : list Z) : option Z :=
  match s with [c] => if (48 <=? c) && (c <=? 57) then Some (c - 48) else None | [45; c] => if (48 <=? c) && (c <=? 57) then Some (48 - c) else None | _ => None end.
Notation vsc_bench := (vsc_main digit one_dir 5 5 bench).

(** "The message that the image does not exist is shown only if it does not
    exist" is false. *)
Theorem C88_no_volume_refuted : exists argv a d, data_at bench a = Some d /\ wants digit argv (Show (a, -1) 1 false [109]) /\ vsc_bench argv = NoVolume.
Proof.
  exists [txt "vsc_mount"; txt "--mount"; txt "v"; txt "-1"; txt "1"; txt "m"], (txt "v"), (v_data sh_good). split; [reflexivity|].
  assert (A : wants digit [txt "vsc_mount"; txt "--mount"; txt "v"; txt "-1"; txt "1"; txt "m"] (Show (txt "v", -1) 1 false [109])) by (apply w_show; reflexivity).
  split; [exact A|]. rewrite (show_run _ _ _ _ _ _ _ _ _ _ _ A). change (one_dir [109]) with true. cbv iota. change (data_at bench (txt "v")) with (Some (v_data sh_good)). cbv iota.
  unfold mount_one, open_one, FileObject.seek_read. reflexivity.
Qed.
Print Assumptions C88_no_volume_refuted.

Example C88_example : v_off sh_good = 0 /\
  vsc_bench [txt "vsc_mount"; txt "--mount"; txt "v"; txt "0"; txt "1"; txt "m"] = Mounts (small sh_good false) (txt "m") /\
  vsc_bench [txt "vsc_mount"; txt "--mount"; txt "v"; txt "0"; txt "1"; txt "x"] = NoPoint /\
  vsc_bench [txt "vsc_mount"; txt "--mount"; txt "w"; txt "0"; txt "1"; txt "m"] = NoVolume /\
  vsc_bench [txt "vsc_mount"; txt "--mount"; txt "v"; txt "0"; txt "one"; txt "m"] = Usage /\
  vsc_bench [txt "vsc_mount"; txt "--list"; txt "v"; txt "0"; txt "m"] = Usage.
Proof.
  split; [reflexivity|]. split; [|split; [|split; [|split]]]; [|reflexivity|reflexivity|reflexivity|reflexivity].
  assert (A : wants digit [txt "vsc_mount"; txt "--mount"; txt "v"; txt "0"; txt "1"; txt "m"] (Show (txt "v", 0) 1 false (txt "m"))) by (apply w_show; reflexivity).
  rewrite (show_run _ _ _ _ _ _ _ _ _ _ _ A). change (one_dir (txt "m")) with true. cbv iota. change (data_at bench (txt "v")) with (Some (v_data sh_good)). cbv iota.
  change (mk_vol (v_data sh_good) 0) with sh_good. now rewrite (proj1 C83_example).
Qed.
