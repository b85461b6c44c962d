(** Property theorems for the equations of density, pressure, energy and momentum, and for the viscosities. *)

From Coq Require Import List Bool ZArith Reals String Lra Lia.
From Coquelicot Require Import Coquelicot.
From Verif Require Import StateMonad StateMonadProofs ParallelModel ParallelSpec ParallelProofs ParallelHeating LimitersModel DiffusionModel DiffusionSpec WallsModel WallsSpec WallsProofs EvolveModel EvolveSpec EvolveProofs EvolveLaws.
Import ListNotations.
Open Scope R_scope.

(** ** C45 *)

(** Whatever the solver holds, the density handed on is not negative; nor are pressure and temperature, and P = N T.  Values within bounds
    are handed on unchanged. *)
Theorem C45_density : forall N, 0 <= density_out N /\ (0 <= N -> density_out N = N).
Proof. exact density_out_ok. Qed.
Print Assumptions C45_density.
Theorem C45_pressure : forall nf N P, 0 < nf -> 0 <= N ->
  let '(P', T) := pressure_out nf N P in
  0 <= P' /\ 0 <= T /\ P' = N * T /\ P' <= Rmax P 0 /\ (nf <= N -> 0 <= P -> P' = P).
Proof. exact pressure_out_ok. Qed.
Print Assumptions C45_pressure.
Example C45_pressure_case : 0 < 1e-5 /\ density_out (-3) = 0 /\ pressure_out 1 (density_out 2) 6 = (2 * (6 / 2), 6 / 2).
Proof.
  split; [lra|]. split; [exact (rfloor_below (-3) 0 ltac:(lra))|]. unfold pressure_out. cbv zeta. unfold density_out. rewrite !(rfloor_above 2) by lra. rewrite (rfloor_above 6) by lra. reflexivity.
Qed.
(** The term added to ddt(P) vanishes within bounds, and otherwise pulls P towards the value handed on: up when negative, down when positive. *)
Theorem C45_relaxation : forall nf N P, 0 < nf -> 0 <= N ->
  let '(P', _) := pressure_out nf N P in
  (nf <= N -> 0 <= P -> P' - P = 0) /\ (P <= 0 -> P' - P = - P) /\ (0 <= P -> P' - P <= 0 /\ 0 <= P').
Proof. exact relaxation_sign. Qed.
Print Assumptions C45_relaxation.
(** Evolving energy: the same for the floored pressure, ... *)
Theorem C45_energy : forall nf Cv AA N V E, 0 < nf -> 0 <= N ->
  let P := pressure_of_energy Cv AA N V E in
  let '(P', T) := energy_out nf N P in
  0 <= P' /\ 0 <= T /\ P' = N * T /\ P' <= P /\ (nf <= N -> P' = P).
Proof. intros nf Cv AA N V E Hf HN. exact (energy_out_ok nf N _ Hf HN (pressure_of_energy_nonneg Cv AA N V E)). Qed.
Print Assumptions C45_energy.
Example C45_energy_case : pressure_of_energy (3 / 2) 2 1 1 4 = 2 /\ pressure_of_energy (3 / 2) 2 1 1 0 = 0.
Proof.
  unfold pressure_of_energy, SQ. cbv zeta. split.
  - rewrite Rltb_false by lra. lra.
  - rewrite Rltb_true by lra. reflexivity.
Qed.
(** ... but the boundary condition with the Z average comes after the floor, and makes the pressure and temperature handed on negative in
    the radial guard cells.  (EvolvePressure floors after it: C45_pressure holds for the guard cells as well.) *)
Theorem C45_energy_with_average_refuted : exists l x, List.Forall (fun p => 0 <= p) l /\ In x l /\
  let '(P, T) := energy_out 1e-5 1 (average_guard l x) in P < 0 /\ T < 0.
Proof. exact negative_guard. Qed.
Print Assumptions C45_energy_with_average_refuted.
(** That condition sets the face to the average. *)
Theorem C45_average_boundary : forall l x, (average_guard l x + x) / 2 = z_average l.
Proof. exact guard_average. Qed.
Print Assumptions C45_average_boundary.
Example C45_average_case : z_average [1; 3] = 2 /\ average_guard [1; 3] 1 = 3.
Proof. unfold average_guard, z_average. cbn [lsum List.length INR]. split; lra. Qed.
(** Momentum: NV = A N V, unchanged at or above the density floor, otherwise reduced but not reversed; the correction opposes NV. *)
Theorem C45_momentum : forall nf AA N NV, 0 < nf -> 0 < AA -> 0 <= N ->
  let '(V, NV', err) := momentum_out nf AA N NV in
  NV' = AA * N * V /\ NV' = NV + err /\ (nf <= N -> NV' = NV /\ err = 0) /\ Rabs NV' <= Rabs NV /\ 0 <= NV' * NV /\ err * NV <= 0.
Proof. exact momentum_out_ok. Qed.
Print Assumptions C45_momentum.
Example C45_momentum_case : fst (momentum_out 2 1 1 4) = (2, 2).
Proof. unfold momentum_out. cbn [fst]. rewrite (rfloor_below 1 2) by lra. f_equal; lra. Qed.

(** ** C70 *)

(** The diffusion at low density: its coefficient is not negative, zero at or above the density floor, and bounded. *)
Theorem C70_low_density_diffusion : forall dy g nf N, 0 < nf -> 0 <= g ->
  0 <= low_n_coeff dy g nf N /\ (nf <= N -> low_n_coeff dy g nf N = 0) /\ low_n_coeff dy g nf N <= SQ dy * g * ln 1000.
Proof. exact low_n_coeff_ok. Qed.
Print Assumptions C70_low_density_diffusion.
Example C70_case : low_n_coeff 2 3 1 5 = 0.
Proof. exact (proj1 (proj2 (C70_low_density_diffusion 2 3 1 5 ltac:(lra) ltac:(lra))) ltac:(lra)). Qed.

(** ** C46 *)

(** The limited heat flux, for a limiter alpha > 0: bounded by alpha times free streaming (at least 1e-10) and by the collisional flux; not
    reversed; the harmonic mean of the two; and near the collisional value when that is small beside the limit. *)
Theorem C46_heat_flux_limited : forall alpha kappa gradT N T AA, 0 < alpha ->
  let f := kappa_limited alpha kappa gradT N T AA * gradT in
  let q := Rmax (alpha * free_streaming AA N T) 1e-10 in
  Rabs f <= q /\ Rabs f <= Rabs (kappa * gradT) /\ 0 <= f * (kappa * gradT) /\
  (kappa * gradT <> 0 -> / Rabs f = / Rabs (kappa * gradT) + / q) /\ Rabs (kappa * gradT) - Rabs f <= Rabs (kappa * gradT) * (Rabs (kappa * gradT) / q).
Proof. exact kappa_flux. Qed.
Print Assumptions C46_heat_flux_limited.
Theorem C46_conductivity : forall alpha kc P nu AA gradT N T, 0 <= kc -> 0 <= P -> 0 < AA ->
  0 <= kappa_limited alpha (kappa_braginskii kc P nu AA) gradT N T AA <= kappa_braginskii kc P nu AA.
Proof. intros alpha kc P nu AA gradT N T H1 H2 H3. exact (kappa_nonneg alpha _ gradT N T AA (kappa_braginskii_nonneg kc P nu AA H1 H2 H3)). Qed.
Print Assumptions C46_conductivity.
Example C46_case : kappa_limited 1 3 1 1 1 1 * 1 = 3 / 4.
Proof.
  unfold kappa_limited. rewrite (Rltb_true 0 1) by lra. cbv zeta. replace (1 / 1) with 1 by lra. rewrite sqrt_1. rewrite (rfloor_above (1 * 1 * 1 * 1) 1e-10) by lra.
  rewrite Rabs_right by (apply Rle_ge; lra). lra.
Qed.
(** Free streaming itself is exceeded in a cold plasma, because of the 1e-10; ... *)
Theorem C46_cold_plasma_refuted : exists alpha kappa gradT N T AA, 0 < alpha /\ 0 < T /\ 0 < N /\ 0 < AA /\ 0 < kappa /\
  alpha * free_streaming AA N T < Rabs (kappa_limited alpha kappa gradT N T AA * gradT).
Proof. exact cold_limit. Qed.
Print Assumptions C46_cold_plasma_refuted.
(** ... and by the flux through a face between cells, since the limiter sees the gradient at the centre of the cells: a temperature that
    alternates from cell to cell is not limited. *)
Theorem C46_flux_through_faces_refuted : exists m alpha T j, 0 < alpha /\ (forall i, (0 <= i <= 5)%Z -> 0 < T i) /\
  let kappa := kappa_line m alpha 1 (fun j => kappa_braginskii 3.16 (T j) 1e-3 1) (central 1 T) (fun _ => 1) T in
  alpha * free_streaming 1 1 (T j) < Rabs (K_upper unit_coords kappa T j) /\
  alpha * free_streaming 1 1 (T (j + 1)%Z) < Rabs (K_upper unit_coords kappa T j).
Proof.
  exists zig_mesh, (1 / 5), zig, 2%Z. split; [lra|]. split; [|exact zig_flux]. intros i Hi. unfold zig.
  assert (C : (i = 0 \/ i = 1 \/ i = 2 \/ i = 3 \/ i = 4 \/ i = 5)%Z) by lia. decompose [or] C; subst; vals; lra.
Qed.
Print Assumptions C46_flux_through_faces_refuted.
(** Viscosity. *)
Theorem C46_viscous_stress_limited : forall alpha eta gradV P, 0 < alpha -> 0 < P ->
  exists e, eta_limited alpha eta gradV P = Some e /\ 
  Rabs (e * gradV) <= alpha * P /\ Rabs (e * gradV) <= Rabs (eta * gradV) /\ 0 <= e * gradV * (eta * gradV) /\
  Rabs (eta * gradV) - Rabs (e * gradV) <= Rabs (eta * gradV) * (Rabs (eta * gradV) / (alpha * P)).
Proof. exact eta_stress. Qed.
Print Assumptions C46_viscous_stress_limited.
Example C46_viscous_case : eta_limited 1 1 1 1 = Some (1 / (1 + Rabs (1 * 1 / (1 * 1)))).
Proof. unfold eta_limited. rewrite (Rltb_true 0 1) by lra. cbv zeta. rewrite Reqb_false by lra. reflexivity. Qed.
(** Where the pressure has fallen to zero - which EvolvePressure hands on for any P <= 0 - the limiter divides zero by zero. *)
Theorem C46_vanished_pressure_refuted : exists N P, let '(P', _) := pressure_out 1e-5 N P in eta_limited 0.5 (eta_ion P' 1) 1 P' = None.
Proof. exact vanished_pressure. Qed.
Print Assumptions C46_vanished_pressure_refuted.

(** ** C47 *)

(** The energy computed from pressure, density and momentum gives the pressure back; and conversely if the energy is at least the kinetic
    energy. *)
Theorem C47_roundtrip : forall Cv AA N V P, 0 < Cv -> 0 < AA -> 0 < N -> 0 <= P ->
  pressure_of_energy Cv AA N V (energy_density Cv AA P N (AA * N * V)) = P.
Proof. intros Cv AA N V P HC HA HN HP. rewrite energy_density_code by assumption. exact (energy_roundtrip Cv AA N V P HC HP). Qed.
Print Assumptions C47_roundtrip.
Theorem C47_roundtrip_back : forall Cv AA N V E, 0 < Cv -> 0.5 * AA * N * SQ V <= E -> Cv * pressure_of_energy Cv AA N V E + 0.5 * AA * N * SQ V = E.
Proof. exact energy_roundtrip_back. Qed.
Print Assumptions C47_roundtrip_back.
Example C47_roundtrip_case : 0 < heat_capacity (5 / 3) /\ energy_density (3 / 2) 2 2 1 (2 * 1 * 1) = 4.
Proof. unfold heat_capacity, energy_density. split; lra. Qed.
(** Guard cells: the face gets the energy of the pressure, density and velocity there. *)
Theorem C47_boundary_energy : forall Cv AA Pg Pi Ng Ni Vg Vi Ei,
  (energy_guard Cv AA Pg Pi Ng Ni Vg Vi Ei + Ei) / 2 = Cv * ((Pg + Pi) / 2) + 1 / 2 * AA * ((Ng + Ni) / 2) * SQ ((Vg + Vi) / 2).
Proof. exact energy_guard_face. Qed.
Print Assumptions C47_boundary_energy.

(** energy_rate is what the energy density does when pressure, density and momentum change. *)
Theorem C47_energy_rate : forall C A (P N M : R -> R) t dP dN dM, 0 < A -> 0 < N t ->
  is_derive P t dP -> is_derive N t dN -> is_derive M t dM ->
  is_derive (fun t => energy_density C A (P t) (N t) (M t)) t (energy_rate C A (M t / (A * N t)) dP dN dM).
Proof. exact energy_rate_is_derivative. Qed.
Print Assumptions C47_energy_rate.
(** Sources of pressure, energy, momentum and density in EvolvePressure, EvolveMomentum and EvolveDensity change the energy as the sources
    in EvolveEnergy do if and only if A V^2 times the density source vanishes. *)
Theorem C47_sources_agree_iff : forall AA V psrc es ms ns,
  energy_sources (3 / 2 * psrc) es ms V = energy_rate (3 / 2) AA V (psrc + 2 / 3 * es) ns ms <-> AA * (V * V) * ns = 0.
Proof. exact energy_sources_iff. Qed.
Print Assumptions C47_sources_agree_iff.
Example C47_sources_case : energy_sources (3 / 2 * 2) 1 3 2 = energy_rate (3 / 2) 2 2 (2 + 2 / 3 * 1) 0 3.
Proof. apply (C47_sources_agree_iff 2 2 2 1 3 0). lra. Qed.
(** So not for a flowing plasma with a source of particles. *)
Theorem C47_particle_source_refuted : exists AA V psrc es ms ns, 0 < AA /\
  energy_sources (3 / 2 * psrc) es ms V <> energy_rate (3 / 2) AA V (psrc + 2 / 3 * es) ns ms.
Proof. exists 1, 1, 0, 0, 0, 1. split; [lra|]. intros H. apply C47_sources_agree_iff in H. lra. Qed.
Print Assumptions C47_particle_source_refuted.

(** Work: the energy gained by pressure and lost by the pressure force cancel up to the divergence of the flow of energy.  With V Grad P
    exactly at each point, for any value of the gradient; ... *)
Theorem C47_work_at_a_point : forall t P N T, p_scale t = 1 ->
  3 / 2 * ddt_P false t P N T + p_V t * - p_gradP t
  = - (3 / 2 * p_exb t) - 5 / 2 * p_adv t + 3 / 2 * p_nvh t + p_cond t + 3 / 2 * p_source t + p_energy_source t + 3 / 2 * (N * T - P).
Proof. exact work_V_grad_P. Qed.
Print Assumptions C47_work_at_a_point.
(** ... and so, on a line with no flow through its ends, nothing is lost, whatever the limiter, wave speeds, grid and gradient. *)
Theorem C47_work_on_a_line : forall edges m c n P V ws, mesh_ok m n -> positive_metric c -> closed_low m = true -> closed_high m = true ->
  forall gradP, let P' := noflow_scalar m true true P in let V' := noflow_flow m true true V in
  exists r w, Div_par_mod edges m c P' V' ws true = Some (r, w) /\
  integral c (ystart m) n (fun j => 3 / 2 * ddt_P false (line_terms (r j) 0 (gradP j) (V' j)) (P' j) (P' j) 1 + V' j * - gradP j) = 0.
Proof. exact thermal_and_kinetic. Qed.
Print Assumptions C47_work_on_a_line.
(** With P Div V the same holds for central differences and a uniform grid. *)
Theorem C47_work_p_div_v : forall edges m c n P V ws, mesh_ok m n -> positive_metric c -> closed_low m = true -> closed_high m = true ->
  let P' := noflow_scalar m true true P in let V' := noflow_flow m true true V in
  forall h, h <> 0 -> (forall j, cell_volume (c_J c) (c_dy c) j = h) -> (forall j, 0 <= P' j) ->
  exists r w, Div_par_mod edges m c P' V' ws true = Some (r, w) /\
  integral c (ystart m) n (fun j => 3 / 2 * ddt_P true (line_terms (r j) (central h V' j) (central h P' j) (V' j)) (P' j) (P' j) 1 + V' j * - central h P' j) = 0.
Proof. exact thermal_and_kinetic_div. Qed.
Print Assumptions C47_work_p_div_v.
Example C47_line_case : mesh_ok mesh2 2 /\ positive_metric unit_coords /\ closed_low mesh2 = true /\ closed_high mesh2 = true /\
  (forall j, cell_volume (c_J unit_coords) (c_dy unit_coords) j = 1) /\ noflow_scalar mesh2 true true (values [0; 1; 2; 0]) 3 = 2.
Proof. split; [exact mesh2_ok|]. split; [exact unit_positive|]. split; [reflexivity|]. split; [reflexivity|]. split; [exact unit_volume|reflexivity]. Qed.

(** ** C63 *)

(** Parallel viscosity of ions on a line whose ends exert no stress: it heats in total, by what the flow loses. *)
Theorem C63_parallel_viscosity : forall m n c eta Bxy V, mesh_ok m n -> positive_metric c -> (forall j, 0 <= eta j) -> (forall j, 0 < Bxy j) ->
  closed_low m = true -> closed_high m = true ->
  let d j := sqrt (Bxy j) * fst (Div_par_K_Grad_par_mod m c (fun j => eta j / Bxy j) (fun j => sqrt (Bxy j) * V j) false j) in
  0 <= DiffusionSpec.total (cell_volume (c_J c) (c_dy c)) (ystart m) n (fun j => snd (ion_parallel_viscosity (V j) (d j))) /\
  DiffusionSpec.total (cell_volume (c_J c) (c_dy c)) (ystart m) n (fun j => V j * fst (ion_parallel_viscosity (V j) (d j)) + snd (ion_parallel_viscosity (V j) (d j))) = 0.
Proof. exact viscous_heating. Qed.
Print Assumptions C63_parallel_viscosity.
(** Electron viscosity takes energy from the flow and gives no heat. *)
Theorem C63_electron_viscosity_refuted : exists V d, V * fst (electron_parallel_viscosity V d) + snd (electron_parallel_viscosity V d) < 0.
Proof. exists 1, (-1). cbn [electron_parallel_viscosity fst snd]. lra. Qed.
Print Assumptions C63_electron_viscosity_refuted.
(** Perpendicular viscosity conserves energy summed over Z, not at each point. *)
Theorem C63_perpendicular_viscosity : forall Vs d, Vs <> [] ->
  lsum (map (fun '(V, (ms, es)) => V * ms + es) (combine Vs (ion_perpendicular_viscosity Vs d))) = 0.
Proof. exact perpendicular_viscosity_conserves. Qed.
Print Assumptions C63_perpendicular_viscosity.
Theorem C63_perpendicular_pointwise_refuted : exists Vs d V ms es, In (V, (ms, es)) (combine Vs (ion_perpendicular_viscosity Vs d)) /\ V * ms + es <> 0.
Proof. exact perpendicular_pointwise. Qed.
Print Assumptions C63_perpendicular_pointwise_refuted.
(** Each part of the stress is limited to the pressure, keeps its sign, and is left alone below; the sum only to twice the pressure. *)
Theorem C63_stress_limited : forall P Pi, 0 <= P -> Rabs (stress_limited P Pi) <= P /\ (Rabs Pi <= P -> stress_limited P Pi = Pi) /\ 0 <= stress_limited P Pi * Pi.
Proof. exact stress_bound. Qed.
Print Assumptions C63_stress_limited.
Theorem C63_total_stress_partial : forall P a b, 0 <= P -> Rabs (total_stress P a b) <= 2 * P.
Proof. exact total_stress_bound. Qed.
Print Assumptions C63_total_stress_partial.
Theorem C63_total_stress_refuted : exists P a b, 0 < P /\ P < Rabs (total_stress P a b).
Proof. exact total_stress_exceeds. Qed.
Print Assumptions C63_total_stress_refuted.
(** The boundary condition on the stress is right with two guard cells, and overwrites a cell of the domain with one. *)
Theorem C63_stress_boundary_partial : forall m n Pi, mesh_ok m n -> ystart m = 2%Z -> closed_low m = true -> closed_high m = true ->
  stress_boundary m Pi (ystart m - 1) = Pi (ystart m) /\ stress_boundary m Pi (yend m + 1) = Pi (yend m) /\ forall j, (ystart m <= j <= yend m)%Z -> stress_boundary m Pi j = Pi j.
Proof. exact stress_boundary_two. Qed.
Print Assumptions C63_stress_boundary_partial.
Example C63_stress_boundary_case : mesh_ok (mkMesh 2 3 6 true true false) 2.
Proof. unfold mesh_ok, guards_ok. cbn. lia. Qed.
Theorem C63_stress_boundary_refuted : exists m n Pi j, mesh_ok m n /\ closed_low m = true /\ (ystart m <= j <= yend m)%Z /\ stress_boundary m Pi j <> Pi j.
Proof. exact stress_boundary_one. Qed.
Print Assumptions C63_stress_boundary_refuted.
(** The transfer of energy by the ExB flow drops the bracket: its factor 1 / 3 is a division of integers. *)
Theorem C63_exb_transfer : forall curv brk, exb_energy_transfer curv brk = - (0.5 * curv).
Proof. intros curv brk. unfold exb_energy_transfer. change (1 / 3)%Z with 0%Z. lra. Qed.
Print Assumptions C63_exb_transfer.
Theorem C63_exb_transfer_refuted : exists curv brk, exb_energy_transfer curv brk <> - (0.5 * curv - 1 / 3 * brk).
Proof. exists 0, 3. rewrite C63_exb_transfer. lra. Qed.
Print Assumptions C63_exb_transfer_refuted.
