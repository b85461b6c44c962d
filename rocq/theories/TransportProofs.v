(** Anomalous diffusion. *)

From Coq Require Import List Bool ZArith Reals Lra Lia String.
From Verif Require Import StateMonad StateMonadProofs ParallelModel ParallelSpec ParallelProofs DiffusionModel DiffusionSpec PerpModel PerpSpec
  PerpProofs PerpLaws MetricModel MetricProofs DiffusionProofs2 TransportModel TransportSpec.
Import ListNotations.
Open Scope R_scope.

Lemma z_sum_zsum n f : z_sum n f = zsum 0 n f.
Proof.
  unfold z_sum. induction n as [|n IH]; [reflexivity|]. rewrite seq_S, fold_left_app. cbn [fold_left zsum Nat.add]. rewrite IH.
  replace (0 + Z.of_nat n)%Z with (Z.of_nat n) by lia. reflexivity.
Qed.
Lemma DC_mean nzn f i j : (0 < nzn)%nat -> DC (Z.of_nat nzn) f i j = z_mean nzn (f i j).
Proof. intros H. unfold DC, z_mean. rewrite Nat2Z.id, z_sum_zsum, <- INR_IZR_INZ. reflexivity. Qed.
Lemma zsum_const lo n a : zsum lo n (fun _ => a) = INR n * a.
Proof. induction n as [|n IH]; [cbn [zsum INR]; ring|]. cbn [zsum]. rewrite IH, S_INR. ring. Qed.
Lemma DC_const nzn v i j : (0 < nzn)%nat -> DC (Z.of_nat nzn) (fun _ _ _ => v) i j = v.
Proof.
  intros H. rewrite DC_mean by exact H. unfold z_mean. rewrite zsum_const. field. apply not_0_INR. lia.
Qed.

Lemma zminus_in nzn k : (0 <= k < Z.of_nat nzn)%Z -> (0 <= zminus (Z.of_nat nzn) k < Z.of_nat nzn)%Z.
Proof. intros H. unfold zminus. apply Z.mod_pos_bound. lia. Qed.
Lemma zplus_in nzn k : (0 <= k < Z.of_nat nzn)%Z -> (0 <= zplus (Z.of_nat nzn) k < Z.of_nat nzn)%Z.
Proof. intros H. unfold zplus. apply Z.mod_pos_bound. lia. Qed.

Section Axisymmetric.
  Context (toFA fromFA : field -> field) (m : pmesh) (c : pcoords) (nx ny nzn : nat).
  Hypothesis M : pmesh_ok m nx ny nzn.
  Hypothesis P : pcoords_ok c.
  Hypothesis HT : keeps_axisymmetric nzn toFA.
  Hypothesis HF : keeps_axisymmetric nzn fromFA.

  Lemma poloidal_up a f i j k : (0 <= k < Z.of_nat nzn)%Z ->
    y_upwind_up c (pm_nz m) (toFA (flat a)) (toFA (flat f)) i j k = poloidal c a f i (j + 1).
  Proof using M P HT.
    intros Hk. destruct M as (_ & _ & _ & _ & Hz). unfold y_upwind_up. rewrite Hz.
    rewrite !(HT (flat f) f), !(HT (flat a) a) by (intros; (reflexivity || assumption || now apply zplus_in || now apply zminus_in)).
    unfold poloidal, y_coef. replace (j + 1 - 1)%Z with j by lia.
    destruct (P i j) as (A1 & A2 & A3 & A4). destruct (P i (j + 1)%Z) as (B1 & B2 & B3 & B4).
    replace 0.25 with (/ 4) by lra. replace 0.5 with (/ 2) by lra.
    set (q := p_g_23 c i j / _). set (q' := p_g_23 c i (j + 1)%Z / _). field. lra.
  Qed.
  Lemma poloidal_down a f i j k : (0 <= k < Z.of_nat nzn)%Z ->
    y_upwind_down c (pm_nz m) (toFA (flat a)) (toFA (flat f)) i j k = poloidal c a f i j.
  Proof using M P HT.
    intros Hk. destruct M as (_ & _ & _ & _ & Hz). unfold y_upwind_down. rewrite Hz.
    rewrite !(HT (flat f) f), !(HT (flat a) a) by (intros; (reflexivity || assumption || now apply zplus_in || now apply zminus_in)).
    unfold poloidal, y_coef.
    destruct (P i j) as (A1 & A2 & A3 & A4). destruct (P i (j - 1)%Z) as (B1 & B2 & B3 & B4).
    replace 0.25 with (/ 4) by lra. replace 0.5 with (/ 2) by lra.
    set (q := p_g_23 c i j / _). set (q' := p_g_23 c i (j - 1)%Z / _). field. lra.
  Qed.
  Lemma z_flux_flat a f i j k k' : (0 <= k < Z.of_nat nzn)%Z -> (0 <= k' < Z.of_nat nzn)%Z ->
    z_upwind c (pm_nz m) (toFA (flat a)) (toFA (flat f)) i j k = z_upwind c (pm_nz m) (toFA (flat a)) (toFA (flat f)) i j k'.
  Proof using M HT.
    intros Hk Hk'. destruct M as (_ & _ & _ & _ & Hz). unfold z_upwind, z_gradient. rewrite Hz.
    rewrite !(HT (flat f) f), !(HT (flat a) a) by (intros; (reflexivity || assumption || now apply zplus_in || now apply zminus_in)).
    reflexivity.
  Qed.

  Lemma axisymmetric_result a f i j k : (xstart (pm_x m) <= i < xstart (pm_x m) + Z.of_nat nx)%Z -> (0 <= k < Z.of_nat nzn)%Z ->
    source (Div_a_Grad_perp_upwind_flows toFA fromFA m c (flat a) (flat f)) i j k = cell_rate c (radial c a f) (poloidal c a f) i j.
  Proof using M P HT HF.
    intros Hi Hk. pose proof M as (MX & _ & _ & Hnz & Hz). unfold source, Div_a_Grad_perp_upwind_flows. cbn [fst snd].
    rewrite (HF _ (fun i j => (poloidal c a f i (j + 1) - poloidal c a f i j) / (p_dy c i j * p_J c i j))).
    - rewrite (x_cell (pm_x m) nx) by assumption. unfold cell_rate, radial.
      rewrite <- !(x_upwind_spec c (flat a) (flat f)) by exact P. replace (i + 1 - 1)%Z with i by lia. reflexivity.
    - intros i' j' k' Hk'. rewrite Hz at 1. rewrite z_loop_cell by (assumption || lia). rewrite <- Hz.
      rewrite (z_flux_flat a f i' j' (zminus (pm_nz m) k') k'); [|rewrite Hz; now apply zminus_in|exact Hk'].
      unfold y_result. rewrite poloidal_up, poloidal_down by exact Hk'. destruct (P i' j') as (A1 & A2 & A3 & A4). unfold Rdiv. ring.
    - exact Hk.
  Qed.
End Axisymmetric.

Lemma radial_scale c s a a' f i j : (forall i j, a' i j = s * a i j) -> radial c a' f i j = s * radial c a f i j.
Proof. intros E. unfold radial, upwind_x, flat. rewrite !E. destruct (Rlt_dec 0 _); unfold slope_x; ring. Qed.
Lemma poloidal_scale c s a a' f i j : (forall i j, a' i j = s * a i j) -> poloidal c a' f i j = s * poloidal c a f i j.
Proof. intros E. unfold poloidal. rewrite !E. unfold Rdiv. ring. Qed.
Lemma radial_const c a f v i j : (forall i j, f i j = v) -> radial c a f i j = 0.
Proof.
  intros E. unfold radial, upwind_x, slope_x, flat. rewrite !E. replace (v - v) with 0 by ring.
  replace ((p_J c (i - 1)%Z j * p_g11 c (i - 1)%Z j + p_J c i j * p_g11 c i j) / 2 * (0 / ((p_dx c (i - 1)%Z j + p_dx c i j) / 2))) with 0
    by (unfold Rdiv; ring). ring.
Qed.
Lemma poloidal_const c a f v i j : (forall i j, f i j = v) -> poloidal c a f i j = 0.
Proof. intros E. unfold poloidal. rewrite !E. replace (v - v) with 0 by ring. unfold Rdiv. ring. Qed.
Lemma rate_scale c s X Y X' Y' i j : (forall i j, X' i j = s * X i j) -> (forall i j, Y' i j = s * Y i j) ->
  cell_rate c X' Y' i j = s * cell_rate c X Y i j.
Proof. intros EX EY. unfold cell_rate. rewrite !EX, !EY. unfold Rdiv. ring. Qed.
Lemma rate_zero c X Y i j : (forall i j, X i j = 0) -> (forall i j, Y i j = 0) -> cell_rate c X Y i j = 0.
Proof. intros EX EY. unfold cell_rate. rewrite !EX, !EY. unfold Rdiv. ring. Qed.

(** ** The sources of the component *)

Section Anomalous.
  Context (toFA fromFA : field -> field) (m : pmesh) (c : pcoords) (nx ny nzn : nat).
  Hypothesis M : pmesh_ok m nx ny nzn.
  Hypothesis P : pcoords_ok c.
  Hypothesis HT : keeps_axisymmetric nzn toFA.
  Hypothesis HF : keeps_axisymmetric nzn fromFA.
  Context (o : anomalous) (AA : R) (N : field) (T V : option field) (t : transport).
  Hypothesis Ht : anomalous_transform toFA fromFA m c o (Some AA) N T V = Ok t.

  Let n2 := profile m o N.
  Let t2 := profile_or_zero m o T.
  Let v2 := profile_or_zero m o V.
  Let D := snd (anomalous_D o).
  Let chi := snd (anomalous_chi o).
  Let nu := snd (anomalous_nu o).
  Let uD := fst (anomalous_D o).
  Let uchi := fst (anomalous_chi o).
  Let unu := fst (anomalous_nu o).
  Let op a f := Div_a_Grad_perp_upwind_flows toFA fromFA m c (flat a) (flat f).

  Lemma source_add a b i j k : source (add_flows a b) i j k = source a i j k + source b i j k.
  Proof using. reflexivity. Qed.

  Lemma sources_are : forall i j k,
    source (t_particles t) i j k = on uD (source (op D n2) i j k) /\
    source (t_momentum t) i j k = on uD (source (op (fun i j => AA * v2 i j * D i j) n2) i j k)
      + on unu (source (op (fun i j => nu i j * AA * n2 i j) v2) i j k) /\
    source (t_energy t) i j k = on uD (source (op (fun i j => 3 / 2 * t2 i j * D i j) n2) i j k)
      + on uchi (source (op (fun i j => chi i j * n2 i j) t2) i j k).
  Proof using Ht.
    intros i j k. unfold anomalous_transform in Ht. injection Ht as <-. fold n2 t2 v2 D chi nu uD uchi unu.
    destruct uD, uchi, unu; cbn [t_particles t_momentum t_energy on]; rewrite ?source_add; unfold op;
      repeat split; unfold no_flows, source; cbn [fst snd]; lra.
  Qed.

  Lemma anomalous_cell i j k : (xstart (pm_x m) <= i < xstart (pm_x m) + Z.of_nat nx)%Z -> (0 <= k < Z.of_nat nzn)%Z ->
    source (t_particles t) i j k = on uD (cell_rate c (radial c D n2) (poloidal c D n2) i j) /\
    source (t_momentum t) i j k
      = on uD (cell_rate c (radial c (fun i j => AA * v2 i j * D i j) n2) (poloidal c (fun i j => AA * v2 i j * D i j) n2) i j)
      + on unu (cell_rate c (radial c (fun i j => nu i j * AA * n2 i j) v2) (poloidal c (fun i j => nu i j * AA * n2 i j) v2) i j) /\
    source (t_energy t) i j k
      = on uD (cell_rate c (radial c (fun i j => 3 / 2 * t2 i j * D i j) n2) (poloidal c (fun i j => 3 / 2 * t2 i j * D i j) n2) i j)
      + on uchi (cell_rate c (radial c (fun i j => chi i j * n2 i j) t2) (poloidal c (fun i j => chi i j * n2 i j) t2) i j).
  Proof using M P HT HF Ht.
    intros Hi Hk. destruct (sources_are i j k) as (E1 & E2 & E3). unfold op in *.
    rewrite !(axisymmetric_result toFA fromFA m c nx ny nzn M P HT HF) in E1 by assumption.
    rewrite !(axisymmetric_result toFA fromFA m c nx ny nzn M P HT HF) in E2 by assumption.
    rewrite !(axisymmetric_result toFA fromFA m c nx ny nzn M P HT HF) in E3 by assumption. auto.
  Qed.

  (** Uniform temperature and velocity. *)
  Lemma profile_const v i j : profile m o (fun _ _ _ => v) i j = v.
  Proof using M.
    destruct M as (_ & _ & _ & Hnz & Hz). unfold profile, neumann_y. rewrite Hz.
    destruct (anomalous_sheath_flux o); [now apply DC_const|].
    destruct (_ && Z.eqb j (ystart (pm_y m) - 1))%bool; [now apply DC_const|].
    destruct (_ && Z.eqb j (yend (pm_y m) + 1))%bool; now apply DC_const.
  Qed.
  Lemma uniform_temperature T0 i j k : T = Some (fun _ _ _ => T0) ->
    (xstart (pm_x m) <= i < xstart (pm_x m) + Z.of_nat nx)%Z -> (0 <= k < Z.of_nat nzn)%Z ->
    source (t_energy t) i j k = 3 / 2 * T0 * source (t_particles t) i j k.
  Proof using M P HT HF Ht.
    intros ET Hi Hk. destruct (anomalous_cell i j k Hi Hk) as (E1 & _ & E3). rewrite E1, E3.
    assert (C : forall i j, t2 i j = T0) by (intros; unfold t2, profile_or_zero; rewrite ET; apply profile_const).
    rewrite (rate_scale c (3 / 2 * T0) (radial c D n2) (poloidal c D n2)).
    - rewrite (rate_zero c (radial c (fun i j => chi i j * n2 i j) t2)).
      + unfold on. destruct uD, uchi; ring.
      + intros. apply (radial_const c _ t2 T0). exact C.
      + intros. apply (poloidal_const c _ t2 T0). exact C.
    - intros. apply radial_scale. intros. rewrite C. ring.
    - intros. apply poloidal_scale. intros. rewrite C. ring.
  Qed.
  Lemma uniform_velocity V0 i j k : V = Some (fun _ _ _ => V0) ->
    (xstart (pm_x m) <= i < xstart (pm_x m) + Z.of_nat nx)%Z -> (0 <= k < Z.of_nat nzn)%Z ->
    source (t_momentum t) i j k = AA * V0 * source (t_particles t) i j k.
  Proof using M P HT HF Ht.
    intros EV Hi Hk. destruct (anomalous_cell i j k Hi Hk) as (E1 & E2 & _). rewrite E1, E2.
    assert (C : forall i j, v2 i j = V0) by (intros; unfold v2, profile_or_zero; rewrite EV; apply profile_const).
    rewrite (rate_scale c (AA * V0) (radial c D n2) (poloidal c D n2)).
    - rewrite (rate_zero c (radial c (fun i j => nu i j * AA * n2 i j) v2)).
      + unfold on. destruct uD, unu; ring.
      + intros. apply (radial_const c _ v2 V0). exact C.
      + intros. apply (poloidal_const c _ v2 V0). exact C.
    - intros. apply radial_scale. intros. rewrite C. ring.
    - intros. apply poloidal_scale. intros. rewrite C. ring.
  Qed.
  (** The sources do not depend on z. *)
  Lemma anomalous_flat i j k k' : (xstart (pm_x m) <= i < xstart (pm_x m) + Z.of_nat nx)%Z -> (0 <= k < Z.of_nat nzn)%Z -> (0 <= k' < Z.of_nat nzn)%Z ->
    source (t_particles t) i j k = source (t_particles t) i j k' /\ source (t_momentum t) i j k = source (t_momentum t) i j k' /\
    source (t_energy t) i j k = source (t_energy t) i j k'.
  Proof using M P HT HF Ht.
    intros Hi Hk Hk'. destruct (anomalous_cell i j k Hi Hk) as (E1 & E2 & E3). destruct (anomalous_cell i j k' Hi Hk') as (F1 & F2 & F3).
    rewrite E1, E2, E3, F1, F2, F3. auto.
  Qed.

  (** ** Totals when nothing crosses the targets *)

  Hypothesis G : tensor_grid c.
  Hypothesis HC : firstY (pm_y m) = true /\ lastY (pm_y m) = true /\ periodicY (pm_y m) = false.
  Hypothesis HS : anomalous_sheath_flux o = false.
  Let x0 := xstart (pm_x m).
  Let y0 := ystart (pm_y m).

  Lemma profile_low f i : profile m o f i (y0 - 1)%Z = profile m o f i y0.
  Proof using HC HS M.
    destruct HC as (H1 & H2 & H3). unfold profile, neumann_y. rewrite HS, H1, H2, H3. cbn [andb negb]. unfold y0.
    destruct M as (_ & Hny & Hy & _ & _).
    rewrite Z.eqb_refl. replace (Z.eqb (ystart (pm_y m)) (ystart (pm_y m) - 1)) with false by (symmetry; apply Z.eqb_neq; lia).
    replace (Z.eqb (ystart (pm_y m)) (yend (pm_y m) + 1)) with false by (symmetry; apply Z.eqb_neq; lia). reflexivity.
  Qed.
  Lemma profile_high f i : profile m o f i (y0 + Z.of_nat ny)%Z = profile m o f i (y0 + Z.of_nat ny - 1)%Z.
  Proof using HC HS M.
    destruct HC as (H1 & H2 & H3). unfold profile, neumann_y. rewrite HS, H1, H2, H3. cbn [andb negb]. unfold y0.
    destruct M as (_ & Hny & Hy & _ & _).
    replace (Z.eqb (ystart (pm_y m) + Z.of_nat ny) (ystart (pm_y m) - 1)) with false by (symmetry; apply Z.eqb_neq; lia).
    replace (Z.eqb (ystart (pm_y m) + Z.of_nat ny) (yend (pm_y m) + 1)) with true by (symmetry; apply Z.eqb_eq; lia).
    replace (Z.eqb (ystart (pm_y m) + Z.of_nat ny - 1) (ystart (pm_y m) - 1)) with false by (symmetry; apply Z.eqb_neq; lia).
    replace (Z.eqb (ystart (pm_y m) + Z.of_nat ny - 1) (yend (pm_y m) + 1)) with false by (symmetry; apply Z.eqb_neq; lia).
    f_equal. lia.
  Qed.
  Lemma profile_inside f i j : (y0 <= j < y0 + Z.of_nat ny)%Z -> profile m o f i j = z_mean nzn (f i j).
  Proof using HS M.
    intros Hj. unfold y0 in *. destruct M as (_ & Hny & Hy & Hnz & Hz). unfold profile, neumann_y. rewrite HS, Hz.
    replace (Z.eqb j (ystart (pm_y m) - 1)) with false by (symmetry; apply Z.eqb_neq; lia).
    replace (Z.eqb j (yend (pm_y m) + 1)) with false by (symmetry; apply Z.eqb_neq; lia). rewrite !andb_false_r. now apply DC_mean.
  Qed.
  Lemma poloidal_ends a f : forall i,
    poloidal c a (profile m o f) i y0 = 0 /\ poloidal c a (profile m o f) i (y0 + Z.of_nat ny)%Z = 0.
  Proof using HC HS M.
    intros i. unfold poloidal. rewrite profile_low, profile_high.
    split; match goal with |- context [?x - ?x] => replace (x - x) with 0 by ring end; unfold Rdiv; ring.
  Qed.

  Lemma total_rate X Y : (forall i, Y i y0 = 0 /\ Y i (y0 + Z.of_nat ny)%Z = 0) ->
    total3 x0 nx y0 ny nzn (volume c) (fun i j _ => cell_rate c X Y i j) = radial_edges x0 nx y0 ny nzn c X.
  Proof using P G.
    intros HY. destruct G as (G1 & G2 & G3). unfold total3, radial_edges.
    transitivity (zsum x0 nx (fun i => zsum y0 ny (fun j =>
        INR nzn * (p_dy c x0 j * p_dz c x0 y0 * (X (i + 1)%Z j - X i j))
        + INR nzn * (p_dx c i y0 * p_dz c x0 y0 * (Y i (j + 1)%Z - Y i j))))).
    - apply zsum_ext. intros i _. apply zsum_ext. intros j _. rewrite zsum_const. destruct (P i j) as (A1 & A2 & A3 & A4).
      unfold volume, cell_rate. rewrite (G1 x0 i j), (G2 i y0 j), (G3 x0 i y0 j). field. lra.
    - rewrite (zsum_ext x0 nx _ (fun i => zsum y0 ny (fun j => INR nzn * (p_dy c x0 j * p_dz c x0 y0 * (X (i + 1)%Z j - X i j))))).
      + rewrite zsum_swap. apply zsum_ext. intros j _.
        rewrite (zsum_ext x0 nx _ (fun i => INR nzn * (p_dy c x0 j * p_dz c x0 y0) * (X (i + 1)%Z j - X i j))) by (intros; ring).
        rewrite zsum_scal, (zsum_telescope x0 nx (fun i => X i j)). ring.
      + intros i _. rewrite zsum_plus.
        rewrite (zsum_ext y0 ny (fun j => INR nzn * (p_dx c i y0 * p_dz c x0 y0 * (Y i (j + 1)%Z - Y i j)))
                   (fun j => INR nzn * (p_dx c i y0 * p_dz c x0 y0) * (Y i (j + 1)%Z - Y i j))) by (intros; ring).
        rewrite (zsum_scal y0 ny (INR nzn * (p_dx c i y0 * p_dz c x0 y0))), (zsum_telescope y0 ny (fun j => Y i j)). destruct (HY i) as [E1 E2]. rewrite E1, E2. ring.
  Qed.
  Lemma total_on b r : total3 x0 nx y0 ny nzn (volume c) (fun i j k => on b (r i j k)) = on b (total3 x0 nx y0 ny nzn (volume c) r).
  Proof using.
    destruct b; [reflexivity|]. unfold total3, on.
    rewrite (zsum_ext x0 nx _ (fun _ => 0)); [rewrite zsum_const; ring|].
    intros i _. rewrite (zsum_ext y0 ny _ (fun _ => 0)); [rewrite zsum_const; ring|].
    intros j _. rewrite (zsum_ext 0 nzn _ (fun _ => 0)); [rewrite zsum_const; ring|]. intros. ring.
  Qed.
  Lemma total_plus r s :
    total3 x0 nx y0 ny nzn (volume c) (fun i j k => r i j k + s i j k)
    = total3 x0 nx y0 ny nzn (volume c) r + total3 x0 nx y0 ny nzn (volume c) s.
  Proof using.
    unfold total3. rewrite <- zsum_plus. apply zsum_ext. intros i _. rewrite <- zsum_plus. apply zsum_ext. intros j _.
    rewrite <- zsum_plus. apply zsum_ext. intros k _. ring.
  Qed.
  Lemma total_same r s : (forall i j k, (x0 <= i < x0 + Z.of_nat nx)%Z -> (y0 <= j < y0 + Z.of_nat ny)%Z -> (0 <= k < Z.of_nat nzn)%Z -> r i j k = s i j k) ->
    total3 x0 nx y0 ny nzn (volume c) r = total3 x0 nx y0 ny nzn (volume c) s.
  Proof using.
    intros E. apply zsum_ext. intros i Hi. apply zsum_ext. intros j Hj. apply zsum_ext. intros k Hk. rewrite E by lia. reflexivity.
  Qed.
  Lemma edges_same X X' : (forall i j, (y0 <= j < y0 + Z.of_nat ny)%Z -> X i j = X' i j) ->
    radial_edges x0 nx y0 ny nzn c X = radial_edges x0 nx y0 ny nzn c X'.
  Proof using. intros E. apply zsum_ext. intros j Hj. rewrite !E by lia. reflexivity. Qed.

  Let zn i j := z_mean nzn (N i j).
  Let zt i j := match T with Some T => z_mean nzn (T i j) | None => 0 end.
  Let zv i j := match V with Some V => z_mean nzn (V i j) | None => 0 end.
  Lemma inside_n i j : (y0 <= j < y0 + Z.of_nat ny)%Z -> n2 i j = zn i j.
  Proof using HS M. apply profile_inside. Qed.
  Lemma zero_mean i j : z_mean nzn ((fun _ _ _ : Z => 0) i j) = 0.
  Proof using. unfold z_mean. rewrite zsum_const. unfold Rdiv. ring. Qed.
  Lemma option_mean (f : option field) i j :
    z_mean nzn ((match f with Some f => f | None => fun _ _ _ => 0 end) i j) = match f with Some f => z_mean nzn (f i j) | None => 0 end.
  Proof using. destruct f; [reflexivity|exact (zero_mean i j)]. Qed.
  Lemma inside_t i j : (y0 <= j < y0 + Z.of_nat ny)%Z -> t2 i j = zt i j.
  Proof using HS M. intros H. unfold t2, zt, profile_or_zero. rewrite profile_inside by exact H. apply option_mean. Qed.
  Lemma inside_v i j : (y0 <= j < y0 + Z.of_nat ny)%Z -> v2 i j = zv i j.
  Proof using HS M. intros H. unfold v2, zv, profile_or_zero. rewrite profile_inside by exact H. apply option_mean. Qed.

  Lemma anomalous_totals :
    total3 x0 nx y0 ny nzn (volume c) (source (t_particles t)) = on uD (radial_edges x0 nx y0 ny nzn c (radial c D zn)) /\
    total3 x0 nx y0 ny nzn (volume c) (source (t_momentum t))
      = on uD (radial_edges x0 nx y0 ny nzn c (radial c (fun i j => AA * zv i j * D i j) zn))
      + on unu (radial_edges x0 nx y0 ny nzn c (radial c (fun i j => nu i j * AA * zn i j) zv)) /\
    total3 x0 nx y0 ny nzn (volume c) (source (t_energy t))
      = on uD (radial_edges x0 nx y0 ny nzn c (radial c (fun i j => 3 / 2 * zt i j * D i j) zn))
      + on uchi (radial_edges x0 nx y0 ny nzn c (radial c (fun i j => chi i j * zn i j) zt)).
  Proof using M P HT HF Ht G HC HS.
    assert (R1 : forall a a' f f', (forall i j, (y0 <= j < y0 + Z.of_nat ny)%Z -> a i j = a' i j /\ f i j = f' i j) ->
               radial_edges x0 nx y0 ny nzn c (radial c a f) = radial_edges x0 nx y0 ny nzn c (radial c a' f')).
    { intros a a' f f' E. apply edges_same. intros i j Hj. unfold radial, upwind_x, slope_x, flat.
      destruct (E i j Hj) as [-> ->]. destruct (E (i - 1)%Z j Hj) as [-> ->]. reflexivity. }
    split; [|split].
    - rewrite (total_same _ (fun i j k => on uD (cell_rate c (radial c D n2) (poloidal c D n2) i j)))
        by (intros i j k Hi Hj Hk; apply (anomalous_cell i j k Hi Hk)).
      rewrite (total_on uD (fun i j _ => cell_rate c (radial c D n2) (poloidal c D n2) i j)), total_rate by apply poloidal_ends.
      f_equal. apply R1. intros i j Hj. split; [reflexivity|now apply inside_n].
    - erewrite total_same by (intros i j k Hi Hj Hk; apply (anomalous_cell i j k Hi Hk)).
      rewrite (total_plus (fun i j k => on uD _) (fun i j k => on unu _)).
      rewrite (total_on uD (fun i j _ => cell_rate c _ _ i j)), (total_on unu (fun i j _ => cell_rate c _ _ i j)).
      rewrite !total_rate by apply poloidal_ends.
      f_equal; f_equal; apply R1; intros i j Hj; rewrite ?inside_v, ?inside_n by exact Hj; split; reflexivity.
    - erewrite total_same by (intros i j k Hi Hj Hk; apply (anomalous_cell i j k Hi Hk)).
      rewrite (total_plus (fun i j k => on uD _) (fun i j k => on uchi _)).
      rewrite (total_on uD (fun i j _ => cell_rate c _ _ i j)), (total_on uchi (fun i j _ => cell_rate c _ _ i j)).
      rewrite !total_rate by apply poloidal_ends.
      f_equal; f_equal; apply R1; intros i j Hj; rewrite ?inside_t, ?inside_n by exact Hj; split; reflexivity.
  Qed.
End Anomalous.

(** ** No new maximum of the temperature across the field *)

Section Maximum.
  Context (c : pcoords).
  Hypothesis P : pcoords_ok c.

  Lemma radial_maximum_x a f T2 i j : (forall i j, 0 <= a i j) -> T2 (i + 1)%Z j <= T2 i j -> T2 (i - 1)%Z j <= T2 i j ->
    (radial c (fun i j => 3 / 2 * T2 i j * a i j) f (i + 1) j - radial c (fun i j => 3 / 2 * T2 i j * a i j) f i j)
    <= 3 / 2 * T2 i j * (radial c a f (i + 1) j - radial c a f i j).
  Proof.
    intros Ha H1 H2. unfold radial, upwind_x, flat. replace (i + 1 - 1)%Z with i by lia.
    set (s1 := slope_x _ _ (i + 1) _ _). set (s0 := slope_x _ _ i _ _).
    assert (A1 : s1 * (if Rlt_dec 0 s1 then 3 / 2 * T2 (i + 1)%Z j * a (i + 1)%Z j else 3 / 2 * T2 i j * a i j)
                 <= 3 / 2 * T2 i j * (s1 * (if Rlt_dec 0 s1 then a (i + 1)%Z j else a i j))).
    { destruct (Rlt_dec 0 s1) as [p|p]; [|lra]. pose proof (Rmult_le_pos _ _ (Rlt_le _ _ p) (Ha (i + 1)%Z j)).
      assert (0 <= (s1 * a (i + 1)%Z j) * (T2 i j - T2 (i + 1)%Z j)) by (apply Rmult_le_pos; lra). lra. }
    assert (A0 : 3 / 2 * T2 i j * (s0 * (if Rlt_dec 0 s0 then a i j else a (i - 1)%Z j))
                 <= s0 * (if Rlt_dec 0 s0 then 3 / 2 * T2 i j * a i j else 3 / 2 * T2 (i - 1)%Z j * a (i - 1)%Z j)).
    { destruct (Rlt_dec 0 s0) as [p|p]; [lra|]. apply Rnot_lt_le in p. pose proof (Ha (i - 1)%Z j) as Hb.
      assert (s0 * a (i - 1)%Z j <= 0) by (clear - p Hb; nra).
      assert (0 <= (- (s0 * a (i - 1)%Z j)) * (T2 i j - T2 (i - 1)%Z j)) by (apply Rmult_le_pos; lra). lra. }
    lra.
  Qed.
  Lemma conduction_maximum_x a f i j : (forall i j, 0 <= a i j) -> (forall i j, 0 <= p_g11 c i j) -> f (i + 1)%Z j <= f i j -> f (i - 1)%Z j <= f i j ->
    radial c a f (i + 1) j - radial c a f i j <= 0.
  Proof.
    intros Ha Hg H1 H2. unfold radial, upwind_x, flat. replace (i + 1 - 1)%Z with i by lia.
    assert (S1 : slope_x c (fun i j (_ : Z) => f i j) (i + 1) j 0 <= 0).
    { unfold slope_x. replace (i + 1 - 1)%Z with i by lia.
      destruct (P i j) as (J & X & _). destruct (P (i + 1)%Z j) as (J' & X' & _). pose proof (Hg i j). pose proof (Hg (i + 1)%Z j).
      pose proof (Rmult_le_pos _ _ (Rlt_le _ _ J) (Hg i j)). pose proof (Rmult_le_pos _ _ (Rlt_le _ _ J') (Hg (i + 1)%Z j)).
      assert (0 < / ((p_dx c i j + p_dx c (i + 1)%Z j) / 2)) by (apply Rinv_0_lt_compat; lra).
      unfold Rdiv at 2. set (d := / _) in *. set (w := (_ + _) / 2). assert (0 <= w) by (unfold w; lra).
      assert (W : 0 <= w * d) by (apply Rmult_le_pos; lra). clear - W H1 H2. nra. }
    assert (S0 : 0 <= slope_x c (fun i j (_ : Z) => f i j) i j 0).
    { unfold slope_x.
      destruct (P i j) as (J & X & _). destruct (P (i - 1)%Z j) as (J' & X' & _).
      pose proof (Rmult_le_pos _ _ (Rlt_le _ _ J) (Hg i j)). pose proof (Rmult_le_pos _ _ (Rlt_le _ _ J') (Hg (i - 1)%Z j)).
      assert (0 < / ((p_dx c (i - 1)%Z j + p_dx c i j) / 2)) by (apply Rinv_0_lt_compat; lra).
      unfold Rdiv at 2. set (d := / _) in *. set (w := (_ + _) / 2). assert (0 <= w) by (unfold w; lra).
      assert (W : 0 <= w * d) by (apply Rmult_le_pos; lra). clear - W H1 H2. nra. }
    set (s1 := slope_x _ _ (i + 1) _ _) in *. set (s0 := slope_x _ _ i _ _) in *.
    pose proof (Ha i j). pose proof (Ha (i + 1)%Z j). pose proof (Ha (i - 1)%Z j).
    assert (A1 : s1 * (if Rlt_dec 0 s1 then a (i + 1)%Z j else a i j) <= 0) by (destruct (Rlt_dec 0 s1); nra).
    assert (A0 : 0 <= s0 * (if Rlt_dec 0 s0 then a i j else a (i - 1)%Z j)) by (destruct (Rlt_dec 0 s0); nra).
    lra.
  Qed.
End Maximum.
