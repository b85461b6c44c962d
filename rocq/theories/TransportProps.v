(** Anomalous diffusion (C81), parallel diffusion of neutrals (C82), SOL-KiT neutrals (C83), simple heat conduction (C84) and the
    stellarator two point model (C85). *)

From Coq Require Import List Bool ZArith Reals Lra Lia String Permutation.
From Verif Require Import StateMonad StateMonadProofs ParallelModel ParallelSpec ParallelProofs ParallelHeating DiffusionModel DiffusionSpec DiffusionProofs
  PerpModel PerpSpec PerpProofs PerpLaws MetricModel MetricProofs TransportModel TransportSpec TransportProofs TransportLaws TransportLaws2 TransportWit.
Import ListNotations.
Open Scope R_scope.

(** C81: with closed targets and no sheath flux, particles, momentum and energy change only by what crosses the radial edges. *)
Theorem C81_no_target_flux : forall toFA fromFA m c nx ny nzn, pmesh_ok m nx ny nzn -> pcoords_ok c ->
  keeps_axisymmetric nzn toFA -> keeps_axisymmetric nzn fromFA ->
  forall o AA N T V t, anomalous_transform toFA fromFA m c o (Some AA) N T V = Ok t ->
  tensor_grid c -> firstY (pm_y m) = true /\ lastY (pm_y m) = true /\ periodicY (pm_y m) = false -> anomalous_sheath_flux o = false ->
  let x0 := xstart (pm_x m) in let y0 := ystart (pm_y m) in
  let n := fun i j => z_mean nzn (N i j) in
  let t2 := fun i j => match T with Some T => z_mean nzn (T i j) | None => 0 end in
  let v := fun i j => match V with Some V => z_mean nzn (V i j) | None => 0 end in
  let D := snd (anomalous_D o) in let chi := snd (anomalous_chi o) in let nu := snd (anomalous_nu o) in
  total3 x0 nx y0 ny nzn (volume c) (source (t_particles t)) = on (fst (anomalous_D o)) (radial_edges x0 nx y0 ny nzn c (radial c D n)) /\
  total3 x0 nx y0 ny nzn (volume c) (source (t_momentum t))
    = on (fst (anomalous_D o)) (radial_edges x0 nx y0 ny nzn c (radial c (fun i j => AA * v i j * D i j) n))
    + on (fst (anomalous_nu o)) (radial_edges x0 nx y0 ny nzn c (radial c (fun i j => nu i j * AA * n i j) v)) /\
  total3 x0 nx y0 ny nzn (volume c) (source (t_energy t))
    = on (fst (anomalous_D o)) (radial_edges x0 nx y0 ny nzn c (radial c (fun i j => 3 / 2 * t2 i j * D i j) n))
    + on (fst (anomalous_chi o)) (radial_edges x0 nx y0 ny nzn c (radial c (fun i j => chi i j * n i j) t2)).
Proof. exact anomalous_totals. Qed.
Print Assumptions C81_no_target_flux.
Example C81_no_target_flux_case : exists t, anomalous_transform identity identity closed_box straight diffuse (Some 2) rising None None = Ok t /\
  total3 1 2 1 3 4 (volume straight) (source (t_particles t)) = 48.
Proof.
  destruct (anomalous_transform identity identity closed_box straight diffuse (Some 2) rising None None) as [t| |] eqn:H;
    [|discriminate H|discriminate H]. exists t. split; [reflexivity|]. now apply rising_total.
Qed.

(** Particles carry 3/2 T0 where the temperature is uniform, and the momentum AA V0 where the velocity is. *)
Theorem C81_uniform_temperature : forall toFA fromFA m c nx ny nzn, pmesh_ok m nx ny nzn -> pcoords_ok c ->
  keeps_axisymmetric nzn toFA -> keeps_axisymmetric nzn fromFA ->
  forall o AA N T V t, anomalous_transform toFA fromFA m c o (Some AA) N T V = Ok t ->
  forall T0 i j k, T = Some (fun _ _ _ => T0) -> (xstart (pm_x m) <= i < xstart (pm_x m) + Z.of_nat nx)%Z -> (0 <= k < Z.of_nat nzn)%Z ->
  source (t_energy t) i j k = 3 / 2 * T0 * source (t_particles t) i j k.
Proof. exact uniform_temperature. Qed.
Print Assumptions C81_uniform_temperature.
Theorem C81_uniform_velocity : forall toFA fromFA m c nx ny nzn, pmesh_ok m nx ny nzn -> pcoords_ok c ->
  keeps_axisymmetric nzn toFA -> keeps_axisymmetric nzn fromFA ->
  forall o AA N T V t, anomalous_transform toFA fromFA m c o (Some AA) N T V = Ok t ->
  forall V0 i j k, V = Some (fun _ _ _ => V0) -> (xstart (pm_x m) <= i < xstart (pm_x m) + Z.of_nat nx)%Z -> (0 <= k < Z.of_nat nzn)%Z ->
  source (t_momentum t) i j k = AA * V0 * source (t_particles t) i j k.
Proof. exact uniform_velocity. Qed.
Print Assumptions C81_uniform_velocity.
Example C81_uniform_case : exists t, anomalous_transform identity identity box (sheared 1) diffuse (Some 2) peak (Some peak) None = Ok t /\
  source (t_particles t) 1%Z 2%Z 0%Z = -2.
Proof.
  destruct (anomalous_transform identity identity box (sheared 1) diffuse (Some 2) peak (Some peak) None) as [t| |] eqn:H;
    [|discriminate H|discriminate H]. exists t. split; [reflexivity|]. now apply peak_sources.
Qed.

(** The sources are the same at every z. *)
Theorem C81_axisymmetric : forall toFA fromFA m c nx ny nzn, pmesh_ok m nx ny nzn -> pcoords_ok c ->
  keeps_axisymmetric nzn toFA -> keeps_axisymmetric nzn fromFA ->
  forall o AA N T V t, anomalous_transform toFA fromFA m c o (Some AA) N T V = Ok t ->
  forall i j k k', (xstart (pm_x m) <= i < xstart (pm_x m) + Z.of_nat nx)%Z -> (0 <= k < Z.of_nat nzn)%Z -> (0 <= k' < Z.of_nat nzn)%Z ->
  source (t_particles t) i j k = source (t_particles t) i j k' /\ source (t_momentum t) i j k = source (t_momentum t) i j k' /\
  source (t_energy t) i j k = source (t_energy t) i j k'.
Proof. exact anomalous_flat. Qed.
Print Assumptions C81_axisymmetric.

(** No new maximum of the temperature (3/2 N dT/dt = E - 3/2 T S <= 0 where T is largest) when the grid is orthogonal ... *)
Theorem C81_no_new_maximum_partial : forall toFA fromFA m c nx ny nzn o AA N T V t i j k,
  pmesh_ok m nx ny nzn -> pcoords_ok c -> keeps_axisymmetric nzn toFA -> keeps_axisymmetric nzn fromFA ->
  anomalous_transform toFA fromFA m c o (Some AA) N (Some T) V = Ok t ->
  (forall i j, p_g23 c i j = 0) -> (forall i j, 0 <= p_g11 c i j) ->
  (forall i j, 0 <= snd (anomalous_D o) i j) -> (forall i j, 0 <= snd (anomalous_chi o) i j) -> (forall i j k, 0 <= N i j k) ->
  (xstart (pm_x m) <= i < xstart (pm_x m) + Z.of_nat nx)%Z -> (ystart (pm_y m) <= j < ystart (pm_y m) + Z.of_nat ny)%Z -> (0 <= k < Z.of_nat nzn)%Z ->
  z_mean nzn (T (i + 1)%Z j) <= z_mean nzn (T i j) -> z_mean nzn (T (i - 1)%Z j) <= z_mean nzn (T i j) ->
  source (t_energy t) i j k <= 3 / 2 * z_mean nzn (T i j) * source (t_particles t) i j k.
Proof. exact anomalous_maximum. Qed.
Print Assumptions C81_no_new_maximum_partial.
Example C81_no_new_maximum_case : exists t,
  anomalous_transform identity identity closed_box straight (mkAnomalous used used unused false) (Some 2) hill (Some hill) None = Ok t /\
  source (t_particles t) 1%Z 1%Z 0%Z = - 4 /\ source (t_energy t) 1%Z 1%Z 0%Z = - 30.
Proof. exact hill_case. Qed.
(** ... but not in a field-aligned grid (g23 not zero): flux across Y faces carries the mean of T on both sides of the face, not the value
    of the side it comes from, so a peak of density and temperature loses particles with less than its own energy and gets hotter. *)
Theorem C81_no_new_maximum_refuted :
  exists m c nx ny nzn o AA N T t i j k,
    pmesh_ok m nx ny nzn /\ pcoords_ok c /\ anomalous_transform identity identity m c o (Some AA) N (Some T) None = Ok t /\
    (forall i j, 0 <= p_g11 c i j) /\ (forall i j, 0 <= snd (anomalous_D o) i j) /\ (forall i j, 0 <= snd (anomalous_chi o) i j) /\ (forall i j k, 0 <= N i j k) /\
    (forall i' j', z_mean nzn (T i' j') <= z_mean nzn (T i j)) /\
    3 / 2 * z_mean nzn (T i j) * source (t_particles t) i j k < source (t_energy t) i j k.
Proof. exact poloidal_maximum. Qed.
Print Assumptions C81_no_new_maximum_refuted.

(** Kinetic energy lost to anomalous viscosity does not become heat: the total energy of a closed box falls. *)
Theorem C81_energy_refuted :
  exists m c nx ny nzn o AA N T V t,
    pmesh_ok m nx ny nzn /\ pcoords_ok c /\ tensor_grid c /\ anomalous_transform identity identity m c o (Some AA) N (Some T) (Some V) = Ok t /\
    (forall i j k, N i j k = 1 /\ T i j k = 1) /\
    (forall j k, V (xstart (pm_x m) - 1)%Z j k = V (xstart (pm_x m)) j k /\ V (xstart (pm_x m) + Z.of_nat nx)%Z j k = V (xstart (pm_x m) + Z.of_nat nx - 1)%Z j k) /\
    (forall i j k, source (t_particles t) i j k = 0) /\
    total3 (xstart (pm_x m)) nx (ystart (pm_y m)) ny nzn (volume c) (fun i j k => V i j k * source (t_momentum t) i j k + source (t_energy t) i j k) < 0.
Proof. exact anomalous_energy_lost. Qed.
Print Assumptions C81_energy_refuted.

(** C82: on a closed line neutrals flow from high to low pressure through the faces between the cells, and not through the ends. *)
Theorem C82_down_pressure : forall m n c, mesh_ok m n -> positive_metric c -> closed_low m = true -> closed_high m = true ->
  forall o s, (forall j, (ystart m <= j < ystart m + Z.of_nat n)%Z -> 0 <= n_N s j /\ 0 <= n_T s j /\ 0 < n_nu s j) -> 0 <= dneut o -> 0 < n_AA s ->
  exists G, (forall j, (ystart m <= j < ystart m + Z.of_nat n)%Z -> cell_volume (c_J c) (c_dy c) j * npd_S m c o s j = G (j + 1)%Z - G j) /\
    G (ystart m) = 0 /\ G (ystart m + Z.of_nat n)%Z = 0 /\
    forall j, (ystart m < j < ystart m + Z.of_nat n)%Z ->
      (npd_P s j <= npd_P s (j - 1)%Z -> G j <= 0) /\ (npd_P s (j - 1)%Z <= npd_P s j -> 0 <= G j).
Proof. exact npd_down. Qed.
Print Assumptions C82_down_pressure.
Theorem C82_particles_conserved : forall m n c, mesh_ok m n -> positive_metric c -> closed_low m = true -> closed_high m = true ->
  forall o s, total (cell_volume (c_J c) (c_dy c)) (ystart m) n (npd_S m c o s) = 0.
Proof. exact npd_particles. Qed.
Print Assumptions C82_particles_conserved.
Example C82_down_pressure_case :
  npd_S mesh2 unit_coords plain_npd gas 1%Z = 9 / 4 * (ln 6 - ln 3) /\ npd_S mesh2 unit_coords plain_npd gas 2%Z = - (9 / 4 * (ln 6 - ln 3)).
Proof. exact gas_source. Qed.
(** Nothing moves at uniform pressure. *)
Theorem C82_isobaric : forall m n c, mesh_ok m n -> positive_metric c -> closed_low m = true -> closed_high m = true ->
  forall o s j, (ystart m <= j < ystart m + Z.of_nat n)%Z ->
  (forall i, (ystart m <= i < ystart m + Z.of_nat n)%Z -> npd_P s i = npd_P s (ystart m)) -> npd_S m c o s j = 0.
Proof. exact npd_isobaric. Qed.
Print Assumptions C82_isobaric.
(** At uniform temperature each particle carries 5/2 T (3/2 T without the fix), at uniform velocity AA V. *)
Theorem C82_isothermal : forall m n c, mesh_ok m n -> positive_metric c ->
  forall o s T0 j, (ystart m <= j < ystart m + Z.of_nat n)%Z -> (forall i, n_T s i = T0) -> (forall i, npd_P s i = n_N s i * T0) ->
  npd_E m c o s j = advection_factor o * T0 * npd_S m c o s j.
Proof. exact npd_isothermal. Qed.
Print Assumptions C82_isothermal.
Theorem C82_uniform_flow : forall m n c, mesh_ok m n -> positive_metric c ->
  forall o s V V0 j F, (ystart m <= j < ystart m + Z.of_nat n)%Z ->
  n_V s = Some V -> (forall i, V i = V0) -> (forall i, n_NV s i = n_AA s * n_N s i * V0) -> npd_F m c o s = Some F ->
  F j = n_AA s * V0 * npd_S m c o s j.
Proof. exact npd_uniform_flow. Qed.
Print Assumptions C82_uniform_flow.
Example C82_uniform_case : (forall i, n_T gas i = 3) /\ (forall i, npd_P gas i = n_N gas i * 3) /\ (forall i, n_NV gas i = n_AA gas * n_N gas i * 5) /\
  advection_factor plain_npd = 5 / 2 /\ exists F, npd_F mesh2 unit_coords plain_npd gas = Some F.
Proof. repeat split; eexists; reflexivity. Qed.
(** Energy changes only by conduction through the ends, driven by the temperature in the guard cells. *)
Theorem C82_energy : forall m n c, mesh_ok m n -> positive_metric c -> closed_low m = true -> closed_high m = true ->
  forall o s, total (cell_volume (c_J c) (c_dy c)) (ystart m) n (npd_E m c o s)
  = if thermal_conduction o
    then line_conduction c (npd_kappa m o s) (n_T s) (ystart m + Z.of_nat n) - line_conduction c (npd_kappa m o s) (n_T s) (ystart m)
    else 0.
Proof. exact npd_energy. Qed.
Print Assumptions C82_energy.
(** The viscosity should be (2/5) m kappa (docs/sphinx/components.rst 698-706): it is for a species of mass one ... *)
Theorem C82_viscosity_partial : forall m n c o s V F j, mesh_ok m n -> positive_metric c -> closed_low m = true -> closed_high m = true ->
  (ystart m <= j < ystart m + Z.of_nat n)%Z -> n_V s = Some V -> npd_F m c o s = Some F ->
  (forall i, (ystart m <= i < ystart m + Z.of_nat n)%Z -> npd_P s i = npd_P s (ystart m)) -> n_AA s = 1 ->
  F j = K_Div m c (fun j => 2 / 5 * n_AA s * npd_kappa m o s j) V j.
Proof. exact npd_viscosity_unit_mass. Qed.
Print Assumptions C82_viscosity_partial.
Example C82_viscosity_case : exists F, npd_F mesh2 unit_coords plain_npd (sliding 1) = Some F /\ F 1%Z = - 1 /\ F 2%Z = 1.
Proof.
  destruct (npd_F mesh2 unit_coords plain_npd (sliding 1)) as [F|] eqn:H; [|discriminate H].
  exists F. split; [reflexivity|]. apply (sliding_force 1); [lra|exact H].
Qed.
(** ... and the mass is missing for any other species: deuterium has half the viscosity. *)
Theorem C82_viscosity_refuted : exists m n c o s V F j, mesh_ok m n /\ positive_metric c /\ closed_low m = true /\ closed_high m = true /\
  (ystart m <= j < ystart m + Z.of_nat n)%Z /\ n_V s = Some V /\ npd_F m c o s = Some F /\
  (forall i, npd_P s i = npd_P s (ystart m)) /\ F j <> K_Div m c (fun j => 2 / 5 * n_AA s * npd_kappa m o s j) V j.
Proof. exact npd_viscosity_mass. Qed.
Print Assumptions C82_viscosity_refuted.
(** Viscosity takes kinetic energy which does not become heat. *)
Theorem C82_viscous_heating_refuted : exists m n c o s V F, mesh_ok m n /\ positive_metric c /\ closed_low m = true /\ closed_high m = true /\
  n_V s = Some V /\ npd_F m c o s = Some F /\ V (ystart m - 1)%Z = V (ystart m) /\ V (ystart m + Z.of_nat n)%Z = V (ystart m + Z.of_nat n - 1)%Z /\
  (forall j, (ystart m <= j < ystart m + Z.of_nat n)%Z -> npd_S m c o s j = 0) /\
  total (cell_volume (c_J c) (c_dy c)) (ystart m) n F = 0 /\
  total (cell_volume (c_J c) (c_dy c)) (ystart m) n (fun j => V j * F j + npd_E m c o s j) < 0.
Proof. exact npd_heating_missing. Qed.
Print Assumptions C82_viscous_heating_refuted.
(** thermal_conduction = false in the input does nothing: the option is read as "thermal_conducton"
    (include/neutral_parallel_diffusion.hxx 40). *)
Theorem C82_switch_refuted : exists section, List.In ("thermal_conduction"%string, false) section /\ thermal_conduction (npd_options 1 section) = true.
Proof. exact switch_ignored. Qed.
Print Assumptions C82_switch_refuted.

(** C83: the diffusion coefficient, in m^2/s, is the thermal speed over twice the sum of cross-section times density of all species. *)
Theorem C83_SI : forall Nnorm rho_s0 Omega Tnorm qe Mp T AA all,
  0 < Nnorm -> 0 < rho_s0 -> 0 < Omega -> 0 < Tnorm -> 0 < qe -> 0 < Mp -> 0 < T -> 0 < AA ->
  rho_s0 * Omega = sqrt (qe * Tnorm / Mp) ->
  (forall s, List.In s all -> 0 <= pt_density s) -> (exists s, List.In s all /\ 0 < pt_density s) ->
  rho_s0 * rho_s0 * Omega * solkit_D (solkit_area Nnorm rho_s0) (T / Tnorm) AA all
  = sqrt (2 * (qe * T) / (AA * Mp)) / (2 * collision_sum Nnorm all).
Proof. exact solkit_SI. Qed.
Print Assumptions C83_SI.
(** Deuterons, electrons and atoms: 3e-19 x 1e20 + 8.8e-21 x 3e20 per metre. *)
Example C83_SI_case : collision_sum 1e20 [deuterons; electrons_; atoms] = 32.64.
Proof. exact solkit_sum. Qed.
(** It does not depend on the order of the species. *)
Theorem C83_order : forall area T AA all all', 0 < area -> Permutation all all' -> solkit_D area T AA all = solkit_D area T AA all'.
Proof. exact solkit_order. Qed.
Print Assumptions C83_order.
(** Atoms flow from high to low density, and not through the ends. *)
Theorem C83_down_density : forall m n c, mesh_ok m n -> positive_metric c -> closed_low m = true -> closed_high m = true ->
  forall area T AA all Nn, 0 < area -> 0 < T ->
  (forall j, (ystart m <= j < ystart m + Z.of_nat n)%Z -> 0 <= Nn j /\ forall s, List.In s (all j) -> 0 <= pt_density s) ->
  exists G, (forall j, (ystart m <= j < ystart m + Z.of_nat n)%Z ->
              cell_volume (c_J c) (c_dy c) j * solkit_S m c area T AA all Nn j = G (j + 1)%Z - G j) /\
    G (ystart m) = 0 /\ G (ystart m + Z.of_nat n)%Z = 0 /\
    forall j, (ystart m < j < ystart m + Z.of_nat n)%Z -> (Nn j <= Nn (j - 1)%Z -> G j <= 0) /\ (Nn (j - 1)%Z <= Nn j -> 0 <= G j).
Proof. exact solkit_down. Qed.
Print Assumptions C83_down_density.
Example C83_down_density_case : mesh_ok mesh2 2 /\ positive_metric unit_coords /\ closed_low mesh2 = true /\ closed_high mesh2 = true /\
  (forall s, List.In s [deuterons; electrons_; atoms] -> 0 <= pt_density s).
Proof.
  split; [exact mesh2_ok|]. split; [exact unit_positive|]. split; [reflexivity|]. split; [reflexivity|].
  intros s [<-|[<-|[<-|[]]]]; cbn [pt_density deuterons electrons_ atoms]; lra.
Qed.

(** C84: the coefficient is Braginskii's: with n, T, m and the Coulomb logarithm in SI units, tau the collision time and
    kappa = coef n T tau / m. *)
Theorem C84_braginskii : forall si (electrons : bool) coef Tnorm Nnorm rho_s0 Omega fixed_T fixed_N AA N T,
  0 < si_Mp si -> 0 < si_qe si -> 0 < si_e0 si -> 0 < Tnorm -> 0 < Nnorm -> 0 < rho_s0 -> 0 < Omega -> 0 < AA -> 0 < N -> 0 < T ->
  fixed_T <= 0 -> fixed_N <= 0 ->
  rho_s0 * rho_s0 * (Omega * Omega) = si_qe si * Tnorm / si_Mp si ->
  let lnL := 6.6 - 0.5 * ln (N * Nnorm / 1e20) + 1.5 * ln (T * Tnorm) in
  lnL <> 0 ->
  Nnorm * (rho_s0 * rho_s0) * Omega * kappa_par (kappa0 si electrons coef Tnorm Nnorm Omega) Nnorm Tnorm fixed_T fixed_N AA N T
  = conductivity coef (N * Nnorm) (si_qe si * Tnorm * T)
      (tau si electrons lnL (AA * si_Mp si) (N * Nnorm) (si_qe si * Tnorm * T)) (AA * si_Mp si).
Proof. exact conduction_SI. Qed.
Print Assumptions C84_braginskii.
Example C84_braginskii_case : (1 * 1 * (1 * 1) = 1 * 10 / 10) /\ 6.6 - 0.5 * ln (1 * 1e20 / 1e20) + 1.5 * ln (exp 2 * 1) = 9.6.
Proof. split; [field|]. replace (1 * 1e20 / 1e20) with 1 by lra. rewrite ln_1, Rmult_1_r, ln_exp. lra. Qed.
(** Heat flows from hot to cold, and not through the ends, above 1 eV and below 1e25 m^-3 ... *)
Theorem C84_downhill_partial : forall m n c si (electrons : bool) coef Tnorm Nnorm Omega AA (N T : Z -> R),
  mesh_ok m n -> positive_metric c -> closed_low m = true -> closed_high m = true ->
  0 < si_Mp si -> 0 < si_qe si -> 0 < si_e0 si -> 0 < coef -> 0 < Tnorm -> 0 < Nnorm -> 0 < Omega -> 0 < AA ->
  (forall j, (ystart m <= j < ystart m + Z.of_nat n)%Z -> 0 < N j /\ N j * Nnorm <= 1e25 /\ 1 <= T j * Tnorm) ->
  exists G, (forall j, (ystart m <= j < ystart m + Z.of_nat n)%Z -> cell_volume (c_J c) (c_dy c) j
      * conduction_source m c (kappa0 si electrons coef Tnorm Nnorm Omega) Nnorm Tnorm (-1 / Tnorm) (-1 / Nnorm) AA false N T j = G (j + 1)%Z - G j) /\
    G (ystart m) = 0 /\ G (ystart m + Z.of_nat n)%Z = 0 /\
    forall j, (ystart m < j < ystart m + Z.of_nat n)%Z -> (T j <= T (j - 1)%Z -> G j <= 0) /\ (T (j - 1)%Z <= T j -> 0 <= G j).
Proof. exact conduction_downhill. Qed.
Print Assumptions C84_downhill_partial.
Example C84_downhill_case : forall j, (1 <= j < 3)%Z -> 0 < 1 /\ 1 * 1e19 <= 1e25 /\ 1 <= values [1; 1; 2; 2] j * 10.
Proof. intros j Hj. assert (C : j = 1%Z \/ j = 2%Z) by lia. destruct C as [-> | ->]; vals; lra. Qed.
(** ... but from cold to hot below 0.01 eV at 1e20 m^-3, where the formula for the Coulomb logarithm is negative. *)
Theorem C84_downhill_refuted : exists m n c k0 AA (N T : Z -> R), mesh_ok m n /\ positive_metric c /\ closed_low m = true /\ closed_high m = true /\ 0 < k0 /\ 0 < AA /\
  (forall j, (ystart m <= j < ystart m + Z.of_nat n)%Z -> 0 < N j /\ 0 < T j) /\ T (ystart m) < T (ystart m + 1)%Z /\
  conduction_source m c k0 1e20 1 (-1) (-1) AA false N T (ystart m) < 0 /\ 0 < conduction_source m c k0 1e20 1 (-1) (-1) AA false N T (ystart m + 1)%Z.
Proof. exact cold_conduction. Qed.
Print Assumptions C84_downhill_refuted.

(** C85: with a constant pitch, closed ends conserve particles, momentum and energy ... *)
Theorem C85_conserves_partial : forall m n c o AA N T NV Theta, mesh_ok m n -> positive_metric c -> closed_low m = true -> closed_high m = true ->
  (forall j, st_Theta o j = Theta) -> Theta <> 0 ->
  let '(Sn, F, E) := stpm_transform m c o AA N T NV in
  let W := cell_volume (c_J c) (c_dy c) in
  total W (ystart m) n Sn = 0 /\ total W (ystart m) n F = 0 /\ total W (ystart m) n E = 0.
Proof. exact stpm_constant. Qed.
Print Assumptions C85_conserves_partial.
(** ... in general what is conserved is the integral weighted with the pitch ... *)
Theorem C85_weighted : forall m n c, mesh_ok m n -> positive_metric c -> closed_low m = true -> closed_high m = true ->
  forall o AA N T NV, (forall j, st_Theta o j <> 0) ->
  let '(Sn, F, E) := stpm_transform m c o AA N T NV in
  let W := fun j => st_Theta o j * cell_volume (c_J c) (c_dy c) j in
  total W (ystart m) n Sn = 0 /\ total W (ystart m) n F = 0 /\ total W (ystart m) n E = 0.
Proof. exact stpm_weighted. Qed.
Print Assumptions C85_weighted.
(** ... so that particles are created or lost where the pitch varies: 1 / Theta is outside of the divergence. *)
Theorem C85_conserves_refuted : exists m n c o AA N T NV, mesh_ok m n /\ positive_metric c /\ closed_low m = true /\ closed_high m = true /\
  (forall j, (ystart m <= j < ystart m + Z.of_nat n)%Z -> 0 < st_Theta o j) /\
  total (cell_volume (c_J c) (c_dy c)) (ystart m) n (fst (fst (stpm_transform m c o AA N T NV))) <> 0.
Proof. exact stpm_varying. Qed.
Print Assumptions C85_conserves_refuted.
(** What is added, for constant coefficients: the documented terms (docs/sphinx/components.rst 1648-1654) over Theta, the momentum times AA.
    They agree for Theta = 1 and AA = 1 ... *)
Theorem C85_documented_partial : forall m n c D nu chi Theta AA N T NV j, mesh_ok m n -> positive_metric c -> (ystart m <= j < ystart m + Z.of_nat n)%Z -> Theta <> 0 ->
  let '(Sn, F, E) := stpm_transform m c (constant_stpm D nu chi Theta) AA N T NV in
  let '(Sd, Fd, Ed) := documented_stpm m c D nu chi Theta N T NV j in
  Sn j = Sd / Theta /\ F j = AA * Fd / Theta /\ E j = Ed / Theta.
Proof. exact stpm_scaled. Qed.
Print Assumptions C85_documented_partial.
Example C85_documented_case : (1 <= 1 < 1 + Z.of_nat 2)%Z /\ 0.001 <> 0 /\ st_Theta (constant_stpm 1 1 3 0.001) 1%Z = 0.001.
Proof. split; [lia|]. split; [lra|reflexivity]. Qed.
(** ... but not for any other pitch: the code has D / Theta^2, the documentation D / Theta ... *)
Theorem C85_documented_refuted : exists m n c D nu chi Theta AA N T NV j, mesh_ok m n /\ positive_metric c /\ (ystart m <= j < ystart m + Z.of_nat n)%Z /\ 0 < Theta /\
  0 < D /\ AA = 1 /\
  fst (fst (stpm_transform m c (constant_stpm D nu chi Theta) AA N T NV)) j <> fst (fst (documented_stpm m c D nu chi Theta N T NV j)).
Proof. exact stpm_documented_not. Qed.
Print Assumptions C85_documented_refuted.
(** ... and momentum, which already contains the mass, diffuses with AA nu, not nu. *)
Theorem C85_momentum_refuted : exists m n c D nu chi Theta AA N T NV j, mesh_ok m n /\ positive_metric c /\ (ystart m <= j < ystart m + Z.of_nat n)%Z /\ Theta = 1 /\
  0 < nu /\ AA = 2 /\
  snd (fst (stpm_transform m c (constant_stpm D nu chi Theta) AA N T NV)) j <> snd (fst (documented_stpm m c D nu chi Theta N T NV j)).
Proof. exact stpm_mass_not. Qed.
Print Assumptions C85_momentum_refuted.
(** Particles diffuse without their energy: where density arrives at uniform temperature, the temperature falls. *)
Theorem C85_isothermal_refuted : exists m n c o AA N T NV j, mesh_ok m n /\ positive_metric c /\ (ystart m <= j < ystart m + Z.of_nat n)%Z /\
  (forall j, st_Theta o j = 1) /\ (forall j, T j = 1) /\ (forall j, 0 < N j) /\
  snd (stpm_transform m c o AA N T NV) j < 3 / 2 * T j * fst (fst (stpm_transform m c o AA N T NV)) j.
Proof. exact stpm_isothermal_not. Qed.
Print Assumptions C85_isothermal_refuted.
