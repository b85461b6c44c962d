(** The neutral model: diffusion coefficient, walls and balances (C61), and independence of earlier evaluations (C75). *)

From Coq Require Import List Bool ZArith Reals Lra Lia.
From Verif Require Import StateMonad StateMonadProofs LimitersModel ParallelModel ParallelSpec ParallelLaws ParallelHeating DiffusionModel
  PerpModel WallsModel NeutralModel NeutralSpec NeutralProofs.
Import ListNotations.
Open Scope R_scope.

(** The diffusion coefficient is not negative, the diffusive speed D |grad log P| is at most flux_limit times the thermal speed, the coefficient is at
    most the configured limit, at most lmax times the thermal speed, and at most the collisional one. *)
Theorem C61_diffusion_limits : forall s T nu g, 0 < AA s -> 0 < neutral_lmax s -> 0 <= T -> 0 <= nu ->
  let D := Dnn_at s T nu g in
  0 <= D /\ D <= neutral_lmax s * thermal T (AA s)
  /\ (0 < flux_limit s -> D * Rabs g <= flux_limit s * thermal T (AA s))
  /\ (0 < diffusion_limit s -> D <= diffusion_limit s)
  /\ D * nu <= T / AA s.
Proof. exact Dnn_bounds. Qed.
Print Assumptions C61_diffusion_limits.
Example C61_diffusion_case : 0 < AA (plain 2 true) /\ 0 < neutral_lmax (plain 2 true) /\ 0 < flux_limit (plain 2 true) /\ 0 < diffusion_limit (plain 2 true)
  /\ Dnn_at (plain 2 true) 2 0 1 = 1 / 2.
Proof.
  cbn [plain AA neutral_lmax flux_limit diffusion_limit]. repeat split; try lra. unfold Dnn_at, Rnn. cbn [plain AA neutral_lmax flux_limit diffusion_limit].
  rewrite !(Rltb_true 0 1) by lra. rewrite (floor_same 2) by lra. replace (2 / 2) with 1 by field. rewrite sqrt_1, (Rabs_right 1) by lra.
  replace (1 / (0 + 1 / 1)) with 1 by field. replace (1 * 1 / (1 + 1 / 1)) with (1 / 2) by field.
  unfold BOUTMIN. rewrite (Rltb_false 1 (1 / 2)) by lra. rewrite (Rltb_true (1 / 2) 1) by lra. reflexivity.
Qed.

(** The density on a wall is the linear extrapolation, or zero where that is negative. *)
Theorem C61_wall_density_low : forall m n, mesh_ok m n -> forall N up, closed_low m = true ->
  (wall_density m true up N (ystart m - 1) + wall_density m true up N (ystart m)) / 2 = Rmax 0 (N (ystart m) + (N (ystart m) - N (ystart m + 1)%Z) / 2).
Proof. exact wall_low. Qed.
Print Assumptions C61_wall_density_low.
Theorem C61_wall_density_high : forall m n, mesh_ok m n -> forall N down, closed_high m = true -> (down && closed_low m = true -> ystart m < yend m)%Z ->
  (wall_density m down true N (yend m + 1) + wall_density m down true N (yend m)) / 2 = Rmax 0 (N (yend m) + (N (yend m) - N (yend m - 1)%Z) / 2).
Proof. exact wall_high. Qed.
Print Assumptions C61_wall_density_high.
Example C61_wall_case : (wall_density mesh2 true true (values [0; 2; 3; 0]) 0 + wall_density mesh2 true true (values [0; 2; 3; 0]) 1) / 2 = 3 / 2
  /\ (wall_density mesh2 true true (values [0; 2; 3; 0]) 3 + wall_density mesh2 true true (values [0; 2; 3; 0]) 2) / 2 = 7 / 2.
Proof.
  split.
  - assert (H := C61_wall_density_low mesh2 2 mesh2_ok (values [0; 2; 3; 0]) true eq_refl). cbn [mesh2 ystart yend] in H.
    change (1 - 1)%Z with 0%Z in H. change (1 + 1)%Z with 2%Z in H. transitivity (Rmax 0 (values [0; 2; 3; 0] 1 + (values [0; 2; 3; 0] 1 - values [0; 2; 3; 0] 2) / 2)); [ exact H | ].
    vals. rewrite Rmax_right by lra. lra.
  - assert (H := C61_wall_density_high mesh2 2 mesh2_ok (values [0; 2; 3; 0]) true eq_refl). cbn [mesh2 ystart yend] in H.
    change (2 - 1)%Z with 1%Z in H. change (2 + 1)%Z with 3%Z in H. transitivity (Rmax 0 (values [0; 2; 3; 0] 2 + (values [0; 2; 3; 0] 2 - values [0; 2; 3; 0] 1) / 2)); [ apply H; intros; lia | ].
    vals. rewrite Rmax_right by lra. lra.
Qed.
(** The density handed to other components in the guard cell can be negative, although the cells are not. *)
Theorem C61_wall_guard_refuted : exists m n N, mesh_ok m n /\ (forall j, (ystart m <= j <= yend m)%Z -> 0 <= N j) /\ wall_density m true true N (ystart m - 1) < 0.
Proof.
  exists mesh2, 2%nat, (values [0; 1; 3; 0]). split; [ exact mesh2_ok | ]. split.
  - cbn [mesh2 ystart yend]. intros j Hj. assert (H : (j = 1 \/ j = 2)%Z) by lia. destruct H as [ -> | -> ]; vals; lra.
  - unfold wall_density, at_lower, at_upper. cbn [mesh2 ystart yend firstY lastY periodicY negb andb]. unfold upd. zify_idx. cbn [Z.eqb Pos.eqb].
    unfold nnwall. vals. rewrite (Rltb_false _ 0) by lra. lra.
Qed.
Print Assumptions C61_wall_guard_refuted.

(** Nothing diffuses through the target walls: the coefficients cancel on the face, so the flux across the field through it is zero whatever
    the differentiated field and the metric; along the field the operators leave the face out. *)
Theorem C61_no_diffusion_through_walls : forall s m n, mesh_ok m n -> forall D f,
  (closed_low m = true -> forall c nz a g i k, (forall j, a i j k = with_D s m D f j) -> y_flows_down c nz a g i (ystart m) k = 0) /\
  (closed_high m = true -> forall c nz a g i k, (forall j, a i j k = with_D s m D f j) -> y_flows_up c nz a g i (yend m) k = 0).
Proof.
  intros s m n M D f. split; intros C c nz a g i k E.
  - apply y_down_zero. rewrite !E. rewrite Rplus_comm. exact (with_D_low s m n M D f C).
  - apply y_up_zero. rewrite !E. rewrite Rplus_comm. exact (with_D_high s m n M D f C).
Qed.
Print Assumptions C61_no_diffusion_through_walls.
(** The same in the radial direction for a guard cell set to the negative of the cell (Dirichlet, the default for Dnn). *)
Theorem C61_no_radial_diffusion : forall c a f i j k, a (i + 1)%Z j k = - a i j k -> x_flows c a f i j k = 0.
Proof. intros c a f i j k H. apply x_zero. lra. Qed.
Print Assumptions C61_no_radial_diffusion.
Example C61_no_diffusion_case : closed_low mesh2 = true /\ closed_high mesh2 = true /\ with_D (plain 2 true) mesh2 (fun _ => 2) (values [7; 1; 3; 7]) 3 = -6.
Proof.
  split; [ reflexivity | ]. split; [ reflexivity | ].
  assert (H := with_D_high (plain 2 true) mesh2 2 mesh2_ok (fun _ => 2) (values [7; 1; 3; 7]) eq_refl).
  rewrite (with_D_inside (plain 2 true) mesh2 2 mesh2_ok _ _ (yend mesh2)) in H by (cbn [mesh2 ystart yend]; lia). cbn [mesh2 yend] in H.
  change (2 + 1)%Z with 3%Z in H. replace (values [7; 1; 3; 7] 2) with 3 in H by (vals; reflexivity).
  change (mkMesh 1 2 4 true true false) with mesh2 in H. lra.
Qed.

(** With walls at both ends the particles on a line change only by flux across the field and by sources ... *)
Theorem C61_particles : forall s m n c, mesh_ok m n -> positive_metric c -> closed_low m = true -> closed_high m = true ->
  sheath_ydown s = true -> sheath_yup s = true -> forall o D e src,
  exists r, ddt_N s o m c D (transform s m e) src = Some r
    /\ integral c (ystart m) n r = integral c (ystart m) n (Perp o (with_D s m D (Nnlim (transform s m e))) (fun j => logarithm o (Pnlim (transform s m e) j)))
                                  + integral c (ystart m) n (S_n src).
Proof. exact particles_balance. Qed.
Print Assumptions C61_particles.
(** ... momentum, where the fluxes across the field balance, only by the pressure gradient and sources: parallel advection and viscosity conserve it ... *)
Theorem C61_momentum : forall s m n c, mesh_ok m n -> positive_metric c -> closed_low m = true -> closed_high m = true ->
  sheath_ydown s = true -> sheath_yup s = true -> forall o D e src, let l := transform s m e in (forall a f, integral c (ystart m) n (Perp o a f) = 0) ->
    exists r, ddt_NV s o m c D l src = Some r
    /\ integral c (ystart m) n r = - integral c (ystart m) n (Grad_par o (Pn l)) + integral c (ystart m) n (S_nv src).
Proof. exact momentum_balance. Qed.
Print Assumptions C61_momentum.
(** ... and thermal energy only by compression, sources and viscous heating. *)
Theorem C61_heat : forall s m n c, mesh_ok m n -> positive_metric c -> closed_low m = true -> closed_high m = true ->
  sheath_ydown s = true -> sheath_yup s = true -> forall o D e src, let l := transform s m e in (forall a f, integral c (ystart m) n (Perp o a f) = 0) ->
    exists r, ddt_P s o m c D l src = Some r
    /\ 3 / 2 * integral c (ystart m) n r
       = - integral c (ystart m) n (fun j => Pn l j * Div_par o (Vn l) j) + 3 / 2 * integral c (ystart m) n (S_p src)
         - (if neutral_viscosity s then integral c (ystart m) n (fun j => Vn l j * viscosity_source s o m c D l j) else 0).
Proof. exact heat_balance. Qed.
Print Assumptions C61_heat.
(** What viscosity takes out of the flow is heat, at every point ("not (yet) balanced" in the comment is out of date) ... *)
Theorem C61_viscous_energy : forall s o m c D l j,
  energy_change (Vn l j) (- (2 / 3) * Vn l j * viscosity_source s o m c D l j) (viscosity_source s o m c D l j) = 0.
Proof. exact viscous_energy. Qed.
Print Assumptions C61_viscous_energy.
(** ... and parallel viscosity takes energy out of the flow on each line between walls. *)
Theorem C61_viscosity_slows : forall s m n c, mesh_ok m n -> positive_metric c -> closed_low m = true -> closed_high m = true ->
  forall D e, let l := transform s m e in 0 <= AA s -> 0 <= density_floor s -> (forall j, 0 <= D j) ->
    integral c (ystart m) n (fun j => Vn l j * (AA s * fst (Div_par_K_Grad_par_mod m c (eta_n s m D (Nnlim l)) (Vn l) false j))) <= 0.
Proof. exact viscous_heating_nonneg. Qed.
Print Assumptions C61_viscosity_slows.
(** An empty cell does not lose particles by parallel flow. *)
Theorem C61_empty_cell : forall s m n c e ws, mesh_ok m n -> positive_metric c -> sheath_ydown s = true -> sheath_yup s = true ->
  let l := transform s m e in exists r w, Div_par_mod upwind_edges m c (Nn l) (Vn l) ws true = Some (r, w)
    /\ forall j, (ystart m <= j <= yend m)%Z -> e_N e j <= 0 -> 0 <= - r j.
Proof. exact empty_cell. Qed.
Print Assumptions C61_empty_cell.
(** All hypotheses hold for two cells between walls, with sheared flow in deuterium, where the viscous force on the first cell is not zero. *)
Example C61_line_case : mesh_ok mesh2 2 /\ positive_metric unit_coords /\ closed_low mesh2 = true /\ closed_high mesh2 = true
  /\ sheath_ydown (plain 2 true) = true /\ sheath_yup (plain 2 true) = true /\ 0 <= AA (plain 2 true) /\ 0 <= density_floor (plain 2 true)
  /\ (forall c lo n a f, integral c lo n (Perp no_ops a f) = 0)
  /\ viscosity_source (plain 2 true) no_ops mesh2 unit_coords (fun _ => 1) (transform (plain 2 true) mesh2 shear) 1 = -4.
Proof.
  split; [ exact mesh2_ok | ]. split; [ exact unit_positive | ]. cbn [plain sheath_ydown sheath_yup AA density_floor].
  split; [ reflexivity | ]. split; [ reflexivity | ]. split; [ reflexivity | ]. split; [ reflexivity | ]. split; [ lra | ]. split; [ lra | ].
  split; [ exact (proj2 (proj2 (proj2 no_ops_ok))) | ].
  unfold viscosity_source. fold (plain 2 true). rewrite shear_force. cbn [no_ops Perp plain AA]. lra.
Qed.

(** The viscosity eta_n = (2/5) m kappa_n already contains the mass, and is multiplied by it again: the force is not the divergence of eta grad V. *)
Theorem C61_viscosity_mass_refuted : exists s o m c D l j, l = transform s m shear /\ 0 < AA s
  /\ viscosity_source s o m c D l j <> Perp o (eta_n s m D (Nnlim l)) (Vn l) j + fst (Div_par_K_Grad_par_mod m c (eta_n s m D (Nnlim l)) (Vn l) false j).
Proof.
  exists (plain 2 true), no_ops, mesh2, unit_coords, (fun _ => 1), (transform (plain 2 true) mesh2 shear), 1%Z. split; [ reflexivity | ].
  split; [ cbn [plain AA]; lra | ]. unfold viscosity_source. rewrite shear_force. cbn [no_ops Perp plain AA]. lra.
Qed.
Print Assumptions C61_viscosity_mass_refuted.

(** Below one hundredth of the floor nothing decreases; elsewhere nothing is changed. *)
Theorem C61_hold : forall floor f ddt, ddt <= hold floor f ddt /\ (f < floor * 1e-2 -> 0 <= hold floor f ddt) /\ (floor * 1e-2 <= f -> hold floor f ddt = ddt)
  /\ (0 <= ddt -> hold floor f ddt = ddt).
Proof. exact hold_range. Qed.
Print Assumptions C61_hold.
(** But this creates particles: an empty hot cell next to a dense cold one.  The flux between them conserves, the held rates do not. *)
Theorem C61_hold_conserves_refuted : exists m c a logP N floor,
  let rate i := fst (x_loop m c (x_flows c a logP) 0 0) i in
  rate 1%Z + rate 2%Z = 0 /\ hold floor (N 1%Z) (rate 1%Z) + hold floor (N 2%Z) (rate 2%Z) > 0.
Proof.
  exists pair_x, flat_p, (fun i _ _ => hot_a i), (fun i _ _ => ln (hot_P i)), hot_N, (1 / 10). cbv zeta. destruct hot_rates as [ H1 H2 ]. unfold hot_rate in H1, H2. rewrite H1, H2. split; [ lra | ]. unfold hold, hot_N. vals.
  rewrite (Rltb_true 0 (1 / 10 * 1e-2)) by lra. rewrite (Rltb_true (- (11 / 20)) 0) by lra. rewrite (Rltb_false 1 (1 / 10 * 1e-2)) by lra. cbn [andb]. lra.
Qed.
Print Assumptions C61_hold_conserves_refuted.

(** Time derivatives in the cells do not depend on what earlier evaluations left in the guard cells beyond the walls (Nn and Nnlim are never given a
    boundary condition before they are used), for any operators that read neighbouring cells. *)
Theorem C75_independent : forall s m n c o D src e e', mesh_ok m n -> positive_metric c -> sheath_ydown s = true -> sheath_yup s = true ->
  reads_neighbours (Div_par o) -> reads_neighbours (Grad_par o) -> reads_neighbours2 (Perp o) ->
  same_inside m (e_N e) (e_N e') -> same_inside m (e_P e) (e_P e') -> same_inside m (e_NV e) (e_NV e') ->
  let l := transform s m e in let l' := transform s m e' in
  (exists r r', ddt_N s o m c D l src = Some r /\ ddt_N s o m c D l' src = Some r' /\ same_cells m r r') /\
  (exists r r', ddt_P s o m c D l src = Some r /\ ddt_P s o m c D l' src = Some r' /\ same_cells m r r') /\
  (exists r r', ddt_NV s o m c D l src = Some r /\ ddt_NV s o m c D l' src = Some r' /\ same_cells m r r').
Proof.
  exact (fun s m n c o D src e e' M P Hd Hu O1 O2 O3 SN SP SV =>
    conj (history_N s m n c o D src e e' M P Hd Hu O3 SN SP SV)
      (conj (history_P s m n c o D src e e' M P Hd Hu O1 O3 SN SP SV) (history_NV s m n c o D src e e' M P Hd Hu O2 O3 SN SP SV))).
Qed.
Print Assumptions C75_independent.
Example C75_case : reads_neighbours (Div_par no_ops) /\ reads_neighbours (Grad_par no_ops) /\ reads_neighbours2 (Perp no_ops)
  /\ same_inside mesh1 (e_N (stale 0)) (e_N (stale 2)) /\ e_N (stale 0) 0%Z <> e_N (stale 2) 0%Z.
Proof.
  destruct no_ops_ok as (O1 & O2 & O3 & _). split; [ exact O1 | ]. split; [ exact O2 | ]. split; [ exact O3 | ]. split.
  - intros j H1 H2. cbn [mesh1 ystart yend] in *. specialize (H1 eq_refl). specialize (H2 eq_refl). assert (j = 1%Z) by lia. subst j. reflexivity.
  - cbn [stale e_N]. vals. lra.
Qed.
(** Without walls (sheath_ydown = false) at an end of the domain they do: the flux through the end uses the stale guard cell. *)
Theorem C75_without_walls_refuted : exists s m n c o D src e e' r r' j, mesh_ok m n /\ positive_metric c
  /\ same_inside m (e_N e) (e_N e') /\ same_inside m (e_P e) (e_P e') /\ same_inside m (e_NV e) (e_NV e')
  /\ ddt_N s o m c D (transform s m e) src = Some r /\ ddt_N s o m c D (transform s m e') src = Some r' /\ (ystart m <= j <= yend m)%Z /\ r j <> r' j.
Proof.
  destruct (stale_rate 0 ltac:(lra)) as (r & E & H). destruct (stale_rate 2 ltac:(lra)) as (r' & E' & H').
  exists (plain 1 false), mesh1, 1%nat, unit_coords, no_ops, (fun _ => 0), no_sources, (stale 0), (stale 2), r, r', 1%Z.
  split; [ exact mesh1_ok | ]. split; [ exact unit_positive | ]. destruct C75_case as (_ & _ & _ & S & _). split; [ exact S | ].
  split; [ intros j _ _; reflexivity | ]. split; [ intros j _ _; reflexivity | ]. split; [ exact E | ]. split; [ exact E' | ].
  split; [ cbn [mesh1 ystart yend]; lia | ]. rewrite H, H'. lra.
Qed.
Print Assumptions C75_without_walls_refuted.
