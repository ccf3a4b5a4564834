(** Reading a list of clusters. *)
From Verif Require Import Base BaseLemmas ClusterRead ClusterReadSpec FatProofs.

Lemma read_cluster_spec g c b : 0 < g_cs g -> (read_cluster g c = Ok b <-> readable g c /\ b = cluster_data g (Some c)).
Proof.
  intro C. unfold read_cluster, readable, cluster_data, read_at. cbv zeta.
  replace (g_voff g + g_data g + (c - 2) * g_cs g) with (g_voff g + (g_data g + (c - 2) * g_cs g)) by lia.
  set (off := g_data g + (c - 2) * g_cs g). clearbody off.
  destruct (Z.ltb_spec (g_voff g + off) 0) as [L|L]; [split; [discriminate|lia]|].
  cbn [bind]. destruct (g_vsize g) as [n|].
  - destruct (Z.ltb_spec n (off + g_cs g)); [split; [discriminate|lia]|]. cbn [bind]. rewrite zlen_slice by lia.
    destruct (Z.eqb_spec (Z.max 0 (Z.min (g_voff g + off + g_cs g - (g_voff g + off)) (zlen (g_vol g) - (g_voff g + off)))) (g_cs g)) as [E|E]; cbn [negb].
    + split; [intro X; injection X as <-; split; [split; [lia|lia]|reflexivity]|intros [_ ->]; reflexivity].
    + split; [discriminate|lia].
  - cbn [bind]. rewrite zlen_slice by lia.
    destruct (Z.eqb_spec (Z.max 0 (Z.min (g_voff g + off + g_cs g - (g_voff g + off)) (zlen (g_vol g) - (g_voff g + off)))) (g_cs g)) as [E|E]; cbn [negb].
    + split; [intro X; injection X as <-; split; [split; [lia|split; [lia|auto]]|reflexivity]|intros [_ ->]; reflexivity].
    + split; [discriminate|lia].
Qed.

Lemma read_cluster_err g c e : read_cluster g c = Err e -> e = ValueError.
Proof.
  unfold read_cluster, read_at. cbv zeta. destruct (_ <? 0) eqn:L; [congruence|]. cbn [bind].
  destruct (match g_vsize g with Some n => _ | None => _ end); [congruence|]. cbn [bind]. destruct (negb _); congruence.
Qed.

Lemma cluster_data_len g c : 0 < g_cs g -> (forall x, c = Some x -> readable g x) -> zlen (cluster_data g c) = g_cs g.
Proof.
  intros C R. destruct c as [c|]; cbn [cluster_data]; [|rewrite zlen_zeros; lia].
  specialize (R c eq_refl). unfold readable in R. rewrite zlen_slice by lia. lia.
Qed.

Definition need (g : geometry) (size : option Z) (read : Z) (cl : list (option Z)) : list (option Z) :=
  match size with None => cl | Some n => ztake ((n - read + g_cs g - 1) / g_cs g) cl end.

Lemma need_cons g size read c r : 0 < g_cs g ->
  need g size read (c :: r) = if match size with Some n => n <=? read | None => false end then [] else c :: need g size (read + g_cs g) r.
Proof.
  intro C. destruct size as [n|]; cbn [need]; [|reflexivity]. destruct (Z.leb_spec n read) as [L|L].
  - apply ztake_nonpos. assert ((n - read + g_cs g - 1) / g_cs g < 1) by (apply Z.div_lt_upper_bound; lia). lia.
  - replace (n - read + g_cs g - 1) with ((n - (read + g_cs g) + g_cs g - 1) + 1 * g_cs g) by lia. rewrite Z.div_add by lia.
    assert (0 <= (n - (read + g_cs g) + g_cs g - 1) / g_cs g) by (apply Z.div_pos; lia).
    set (k := (n - (read + g_cs g) + g_cs g - 1) / g_cs g) in *. clearbody k.
    destruct (Z.eq_dec k 0) as [->|N]; [rewrite (ztake_nonpos r 0) by lia; destruct r; reflexivity|].
    cbn [ztake]. replace (k + 1 <=? 0) with false by lia. f_equal. f_equal. lia.
Qed.

Lemma clusters_loop_spec g size cl : 0 < g_cs g -> forall read b,
  clusters_loop g size read cl = Ok b <->
  (forall c, In (Some c) (need g size read cl) -> readable g c) /\ b = concat (map (cluster_data g) (need g size read cl)).
Proof.
  intro C. induction cl as [|c r IH]; intros read b; cbn [clusters_loop].
  - assert (E : need g size read [] = []) by (destruct size; reflexivity).
    rewrite E. cbn [map concat]. split; [intro X; injection X as <-; split; auto; intros ? []|intros [_ ->]; reflexivity].
  - rewrite need_cons by auto. destruct (match size with Some n => n <=? read | None => false end).
    + cbn [map concat]. split; [intro X; injection X as <-; split; auto; intros ? []|intros [_ ->]; reflexivity].
    + cbn [map concat]. destruct c as [c|].
      * destruct (read_cluster g c) as [d|e] eqn:E; cbn [bind].
        -- apply read_cluster_spec in E as [R ->]; auto. destruct (clusters_loop g size (read + g_cs g) r) as [d|e] eqn:EL; cbn [bind].
           ++ apply IH in EL as [R2 ->]. split.
              ** intro X. injection X as <-. split; auto. intros x [X|X]; [injection X as <-; auto|auto].
              ** intros [_ ->]. reflexivity.
           ++ split; [discriminate|]. intros [R2 ->]. assert (X : clusters_loop g size (read + g_cs g) r = Ok (concat (map (cluster_data g) (need g size (read + g_cs g) r)))).
              { apply IH. split; auto. intros x I. apply R2. now right. }
              congruence.
        -- split; [discriminate|]. intros [R2 _]. assert (X : read_cluster g c = Ok (cluster_data g (Some c))).
           { apply read_cluster_spec; auto. split; auto. apply R2. now left. }
           congruence.
      * cbn [bind]. destruct (clusters_loop g size (read + g_cs g) r) as [d|e] eqn:EL; cbn [bind].
        -- apply IH in EL as [R2 ->]. split.
           ++ intro X. injection X as <-. split; auto. intros x [X|X]; [discriminate|auto].
           ++ intros [_ ->]. reflexivity.
        -- split; [discriminate|]. intros [R2 ->]. assert (X : clusters_loop g size (read + g_cs g) r = Ok (concat (map (cluster_data g) (need g size (read + g_cs g) r)))).
           { apply IH. split; auto. intros x I. apply R2. now right. }
           congruence.
Qed.

Lemma clusters_loop_err g size cl : forall read e, clusters_loop g size read cl = Err e -> e = ValueError.
Proof.
  induction cl as [|c r IH]; intros read e; cbn [clusters_loop]; [discriminate|].
  destruct (match size with Some n => n <=? read | None => false end); [discriminate|].
  destruct c as [c|].
  - destruct (read_cluster g c) as [d|x] eqn:E; cbn [bind]; [|intro X; injection X as <-; eauto using read_cluster_err].
    destruct (clusters_loop g size (read + g_cs g) r) as [d'|x] eqn:EL; cbn [bind]; [discriminate|]. intro X. injection X as <-. eauto.
  - cbn [bind]. destruct (clusters_loop g size (read + g_cs g) r) as [d'|x] eqn:EL; cbn [bind]; [discriminate|]. intro X. injection X as <-. eauto.
Qed.

Lemma need_0 g size cl : need g size 0 cl = needed g size cl.
Proof. destruct size as [n|]; cbn [need needed]; [|reflexivity]. now rewrite Z.sub_0_r. Qed.

Theorem read_clusters_iff g size cl d : 0 < g_cs g -> (read_clusters g size cl = Ok d <-> holds g size cl d).
Proof.
  intro C. unfold read_clusters, holds. destruct cl as [|c r].
  - assert (E : needed g size [] = []) by (destruct size; reflexivity).
    rewrite E. cbn [map concat]. split.
    + intro X. injection X as <-. split; [intros ? []|]. destruct size; [|reflexivity]. symmetry. reflexivity.
    + intros [_ ->]. destruct size; reflexivity.
  - set (cl := c :: r). clearbody cl. destruct (clusters_loop g size 0 cl) as [b|e] eqn:E; cbn [bind].
    + apply clusters_loop_spec in E as [R ->]; auto. rewrite need_0 in *. split.
      * intro X. injection X as <-. split; auto. destruct size; [apply slice_0|reflexivity].
      * intros [_ ->]. destruct size; [now rewrite slice_0|reflexivity].
    + split; [discriminate|]. intros [R _].
      assert (X : clusters_loop g size 0 cl = Ok (concat (map (cluster_data g) (need g size 0 cl)))).
      { apply clusters_loop_spec; auto. rewrite need_0. auto. }
      congruence.
Qed.

Theorem read_clusters_err g size cl e : read_clusters g size cl = Err e -> e = ValueError.
Proof.
  unfold read_clusters. destruct cl as [|c r]; [discriminate|].
  destruct (clusters_loop g size 0 (c :: r)) as [b|x] eqn:E; cbn [bind]; [discriminate|].
  intro X. injection X as <-. eauto using clusters_loop_err.
Qed.

(** Lengths and bytes. *)
Lemma concat_len g cl : 0 < g_cs g -> (forall c, In (Some c) cl -> readable g c) -> zlen (concat (map (cluster_data g) cl)) = g_cs g * zlen cl.
Proof.
  intros C. induction cl as [|c r IH]; intro R; [cbn; lia|]. cbn [map concat]. rewrite zlen_app, zlen_cons.
  rewrite cluster_data_len, IH; auto; [lia| |]; intros x X; apply R; [now right|left; auto].
Qed.

Lemma concat_nth g cl k i c : 0 < g_cs g -> (forall c, In (Some c) cl -> readable g c) -> znth cl k = Some c -> 0 <= i < g_cs g ->
  znth (concat (map (cluster_data g) cl)) (g_cs g * k + i) = znth (cluster_data g c) i.
Proof.
  intros C. revert k. induction cl as [|x r IH]; intros k R K Hi; [destruct (znth_Some_range _ _ _ K); cbn in *; lia|].
  pose proof (znth_Some_range _ _ _ K) as KR. cbn [map concat].
  assert (LX : zlen (cluster_data g x) = g_cs g) by (apply cluster_data_len; auto; intros y ->; apply R; now left).
  cbn [znth] in K. destruct (Z.eqb_spec k 0) as [->|N].
  - injection K as ->. rewrite Z.mul_0_r, Z.add_0_l. apply znth_app1. lia.
  - rewrite znth_app2 by nia. rewrite LX. replace (g_cs g * k + i - g_cs g) with (g_cs g * (k - 1) + i) by lia. apply IH; auto.
    intros y Y. apply R. now right.
Qed.

Theorem holds_length g size cl d : 0 < g_cs g -> holds g size cl d ->
  zlen d = match size with None => g_cs g * zlen cl | Some n => Z.max 0 (Z.min n (g_cs g * zlen cl)) end.
Proof.
  intros C [R ->]. destruct size as [n|].
  - rewrite zlen_ztake, concat_len by auto. cbn [needed]. rewrite zlen_ztake.
    set (k := (n + g_cs g - 1) / g_cs g). assert (K : g_cs g * k <= n + g_cs g - 1 < g_cs g * k + g_cs g).
    { unfold k. pose proof (Z.mul_div_le (n + g_cs g - 1) (g_cs g) C). pose proof (Z.mul_succ_div_gt (n + g_cs g - 1) (g_cs g) C). lia. }
    clearbody k. clear R. pose proof (zlen_nonneg cl) as L. generalize dependent (zlen cl). intros z L.
    assert (M : Z.max 0 (Z.min k z) = 0 /\ k <= 0 \/ Z.max 0 (Z.min k z) = k /\ 0 < k <= z \/ Z.max 0 (Z.min k z) = z /\ z < k) by lia.
    destruct M as [[-> M]|[[-> M]|[-> M]]].
    + assert (n <= 0) by nia. lia.
    + assert (n <= g_cs g * k <= g_cs g * z) by nia. lia.
    + lia.
  - apply concat_len; auto.
Qed.

Theorem holds_byte g size cl d p c : 0 < g_cs g -> holds g size cl d -> 0 <= p < zlen d -> znth cl (p / g_cs g) = Some c ->
  znth d p = znth (cluster_data g c) (p mod g_cs g).
Proof.
  intros C H P N. pose proof (holds_length g size cl d C H) as L. destruct H as [R ->].
  assert (PQ : p = g_cs g * (p / g_cs g) + p mod g_cs g) by (apply Z.div_mod; lia).
  assert (PM : 0 <= p mod g_cs g < g_cs g) by (apply Z.mod_pos_bound; lia).
  destruct size as [n|].
  - rewrite L in P. rewrite znth_ztake by lia. rewrite PQ at 1. apply concat_nth; auto. cbn [needed]. rewrite znth_ztake; auto.
    apply Z.div_lt_upper_bound; [lia|]. pose proof (Z.mul_succ_div_gt (n + g_cs g - 1) (g_cs g) C). lia.
  - rewrite PQ at 1. apply concat_nth; auto.
Qed.
