(** C93: the neutral gas with full velocity.  C94: SNB heat conduction. *)

From Coq Require Import List Bool ZArith Reals.
From Verif Require Import StateMonad ParallelModel WallsModel FullVelModel FullVelSpec FullVelProofs FullVelWit.
Open Scope R_scope.

(** ** Coordinates *)

(** Velocities go to cylindrical components and back unchanged, on every regular grid. *)
Theorem C93_there_and_back :
  forall ystart yend LocalNx g i j, regular ystart yend LocalNx g i j ->
    let t := transformation_at ystart yend LocalNx g i j in
    forall vx vy, Urx t * v_r t vx vy + Uzx t * v_z t vx vy = vx /\ Ury t * v_r t vx vy + Uzy t * v_z t vx vy = vy.
Proof. exact there_and_back. Qed.
Print Assumptions C93_there_and_back.

(** The basis vectors have the lengths of BOUT++'s tokamak coordinates: hthe, and 1 / (R Bp cos beta). *)
Theorem C93_lengths :
  forall ystart yend LocalNx g i j, regular ystart yend LocalNx g i j ->
    let t := transformation_at ystart yend LocalNx g i j in
    Ury t ^ 2 + Uzy t ^ 2 = hthe g i j ^ 2 /\ Urx t ^ 2 + Uzx t ^ 2 = (/ (Rxy g i j * Bpxy g i j * cosbeta g i j)) ^ 2.
Proof. exact lengths. Qed.
Print Assumptions C93_lengths.

(** On orthogonal grids |Grad x| = R Bp, |Grad y| = 1 / hthe and the two are orthogonal. *)
Theorem C93_gradients :
  forall ystart yend LocalNx g i j, regular ystart yend LocalNx g i j ->
    let t := transformation_at ystart yend LocalNx g i j in
    dot (tangent_x LocalNx g i j) (tangent_y ystart yend g i j) = 0 -> etaxy g i j = 0 ->
    Txr t ^ 2 + Txz t ^ 2 = (Rxy g i j * Bpxy g i j) ^ 2 /\ Tyr t ^ 2 + Tyz t ^ 2 = (/ hthe g i j) ^ 2 /\ Txr t * Tyr t + Txz t * Tyz t = 0.
Proof. exact gradients. Qed.
Print Assumptions C93_gradients.

Example C93_grid_case : regular 0 3 3 square_grid 1 1 /\ dot (tangent_x 3 square_grid 1 1) (tangent_y 0 3 square_grid 1 1) = 0 /\ etaxy square_grid 1%Z 1%Z = 0.
Proof. exact grid_case. Qed.

(** The transformation in a cell depends on where the processors divide the grid: the first and last cell of each use one-sided differences. *)
Theorem C93_split_refuted :
  exists g LocalNx ystart ystart' yend i j, (ystart <= j <= yend)%Z /\ (ystart' <= j <= yend)%Z /\
    Ury (transformation_at ystart yend LocalNx g i j) <> Ury (transformation_at ystart' yend LocalNx g i j).
Proof. exact split_witness. Qed.
Print Assumptions C93_split_refuted.

(** Guard cells next to another processor are never set, while derivatives of the cylindrical velocity read them. *)
Theorem C93_guard_cells_refuted :
  exists m LocalNx g i j, (ystart m <= j <= yend m)%Z /\ stored m LocalNx g i (j - 1) = None.
Proof. exact guard_witness. Qed.
Print Assumptions C93_guard_cells_refuted.
Theorem C93_inside_is_set :
  forall m LocalNx g i j, (ystart m <= j <= yend m)%Z -> stored m LocalNx g i j = Some (transformation_at (ystart m) (yend m) LocalNx g i j).
Proof. exact inside_set. Qed.
Print Assumptions C93_inside_is_set.

(** ** transform *)

(** Gas may leave through an outflow boundary but not enter: the velocity on the face is the smaller of zero and the velocity in the cell.
    Everything else has zero gradient there, and no other cell changes. *)
Theorem C93_outflow :
  forall m c, at_lower m = true ->
    let c' := outflow m true c in let s := ystart m in
    (Vy c' (s - 1)%Z + Vy c' s) / 2 = Rmin 0 (Vy c s) /\ Nn2D c' (s - 1)%Z = Nn2D c' s /\ Pn2D c' (s - 1)%Z = Pn2D c' s /\ Vx c' (s - 1)%Z = Vx c' s /\ Vz c' (s - 1)%Z = Vz c' s /\
    (forall j, j <> (s - 1)%Z -> Vy c' j = Vy c j /\ Nn2D c' j = Nn2D c j /\ Pn2D c' j = Pn2D c j /\ Vx c' j = Vx c j /\ Vz c' j = Vz c j).
Proof. exact outflow_law. Qed.
Print Assumptions C93_outflow.
Example C93_outflow_case : at_lower whole = true. Proof. reflexivity. Qed.

(** The temperature used at the target is that of before the outflow boundary. *)
Theorem C93_outflow_temperature_refuted :
  exists m AA Tnorm J B c, at_lower m = true /\ (forall j, 0 < Nn2D c j) /\
    (let '(T, c', _) := transform m true AA Tnorm J B c in T (ystart m - 1)%Z <> Pn2D c' (ystart m - 1)%Z / Nn2D c' (ystart m - 1)%Z).
Proof. exact temperature_witness. Qed.
Print Assumptions C93_outflow_temperature_refuted.

(** What is published: floors on density and temperature, momentum and parallel velocity. *)
Theorem C93_published :
  forall m b AA Tnorm J B c, let '(T, c', p) := transform m b AA Tnorm J B c in
    forall j, 1e-8 <= p_density p j /\ 0.01 / Tnorm <= p_temperature p j /\ p_momentum p j = AA * p_density p j * p_velocity p j /\
      p_velocity p j * (J j * B j) = Vy c' j * (J j * B j / (J j * B j)) /\ p_pressure p j = Pn2D c' j /\ T j = Pn2D c j / Nn2D c j.
Proof. exact published_law. Qed.
Print Assumptions C93_published.
Theorem C93_pressure_above_floors :
  forall m AA Tnorm J B c, let '(T, c', p) := transform m false AA Tnorm J B c in
    forall j, 1e-8 <= Nn2D c j -> 0.01 / Tnorm <= Pn2D c j / Nn2D c j -> p_pressure p j = p_density p j * p_temperature p j.
Proof. exact pressure_consistent. Qed.
Print Assumptions C93_pressure_above_floors.
Example C93_floors_case : 1e-8 <= Nn2D warm 3%Z /\ 0.01 / 10 <= Pn2D warm 3%Z / Nn2D warm 3%Z. Proof. exact warm_case. Qed.

(** Below a floor the published pressure is not density times temperature. *)
Theorem C93_pressure_refuted :
  exists m AA Tnorm J B c j, 0 < Tnorm /\ (let '(_, _, p) := transform m false AA Tnorm J B c in p_pressure p j <> p_density p j * p_temperature p j).
Proof. exact pressure_witness. Qed.
Print Assumptions C93_pressure_refuted.

(** ** finally *)

(** In cylindrical components: pressure gradient, advection and viscosity, each component as a scalar. *)
Theorem C93_cylindrical :
  forall ystart yend LocalNx g i j AA gamma op N P, regular ystart yend LocalNx g i j ->
    let t := transformation_at ystart yend LocalNx g i j in let d := fluid AA gamma t op N P in let f := - / (AA * rfloor N 1e-2) in
    v_r t (d_Vx d) (d_Vy d) = f * v_r t (gradP_x op) (gradP_y op) - adv_vr op + lap_vr op /\
    v_z t (d_Vx d) (d_Vy d) = f * v_z t (gradP_x op) (gradP_y op) - adv_vz op + lap_vz op.
Proof. exact cylindrical_law. Qed.
Print Assumptions C93_cylindrical.

(** Work: thermal and kinetic energy together change by the divergence of the enthalpy flux, for contravariant velocity u. *)
Theorem C93_energy :
  forall AA gamma t gx gy gz ux uy uz DV DVN N P, 0 < AA -> gamma <> 1 -> 1e-2 <= N ->
    let DVP := ux * gx + uy * gy + uz * gz + P * DV in
    let d := fluid AA gamma t (mkOperators DVN gx gy gz 0 0 0 0 DV DVP 0) N P in
    d_P d / (gamma - 1) + AA * N * (ux * d_Vx d + uy * d_Vy d + uz * d_Vz d) = - (gamma / (gamma - 1)) * DVP.
Proof. exact energy_law. Qed.
Print Assumptions C93_energy.

(** Targets take energy, gamma n T^(3/2) times the area of the face, from the cell next to them; nothing elsewhere; both ends alike. *)
Theorem C93_target :
  forall gamma Ng Nc Tg Tc Jg Jc g22g g22c dy, 0 <= gamma -> 0 < Jg -> 0 < Jc -> 0 < g22g -> 0 < g22c -> 0 < dy ->
    let P := target_power gamma Ng Nc Tg Tc Jg Jc g22g g22c in
    0 <= P /\ 3 / 2 * target_loss P dy Jc * (dy * Jc) = P /\
    (let n := (Nc + Ng) / 2 in let T := (Tc + Tg) / 2 in 0 <= n -> 0 <= T -> P = gamma * n * T * sqrt T * ((Jc + Jg) / (sqrt g22c + sqrt g22g))).
Proof. exact target_law. Qed.
Print Assumptions C93_target.
Example C93_target_case : 0 <= 7 /\ 0 < 1 /\ 0 < 2 /\ 0 < 0.1 /\ 0 <= (1 + 3) / 2 /\ target_power 1 1 1 1 1 1 1 1 1 = 1. Proof. exact target_case. Qed.
Theorem C93_targets_elsewhere :
  forall m gamma N T J g22 dy dP j, (at_lower m = true -> j <> ystart m) -> (at_upper m = true -> j <> yend m) -> with_targets m gamma N T J g22 dy dP j = dP j.
Proof. exact targets_elsewhere. Qed.
Print Assumptions C93_targets_elsewhere.
Theorem C93_targets_mirror :
  forall m gamma N T J g22 dy dP j, open_ended m ->
    with_targets m gamma (mirror m N) (mirror m T) (mirror m J) (mirror m g22) (mirror m dy) (mirror m dP) j = mirror m (with_targets m gamma N T J g22 dy dP) j.
Proof. exact targets_mirror. Qed.
Print Assumptions C93_targets_mirror.
Example C93_targets_case : open_ended whole. Proof. exact ends_case. Qed.

(** The speed in the heat flux to the target does not depend on the mass of the species, as a sound speed does. *)
Theorem C93_target_speed_refuted :
  exists gamma AA N T J g, 0 < AA /\ target_power gamma N N T T J J g g <> gamma * N * T * sqrt (T / AA) * (J / sqrt g).
Proof. exact speed_witness. Qed.
Print Assumptions C93_target_speed_refuted.

(** Each source acts on its own quantity. *)
Theorem C93_sources :
  forall AA J B N sn sm se d, 0 < AA -> J * B <> 0 -> 1e-2 <= N ->
    let d' := with_sources AA J B N (Some sn) (Some sm) (Some se) d in
    d_N d' = d_N d + sn /\ AA * N * ((d_Vy d' - d_Vy d) / (J * B)) = sm /\ 3 / 2 * (d_P d' - d_P d) = se /\ d_Vx d' = d_Vx d /\ d_Vz d' = d_Vz d.
Proof. exact sources_law. Qed.
Print Assumptions C93_sources.
Example C93_sources_case : 0 < 2 /\ 1.5 * 2 <> 0 /\ 1e-2 <= 1 /\ d_N (with_sources 2 1.5 2 1 (Some 3) (Some 1) (Some 1) (mkDerivatives 1 0 0 0 0)) = 4. Proof. exact source_case. Qed.
Theorem C93_no_sources :
  forall AA J B N d, 1e-8 <= N -> with_sources AA J B N None None None d = d.
Proof. exact no_sources. Qed.
Print Assumptions C93_no_sources.
Theorem C93_density_stops :
  forall AA J B N sn sm se d, N < 1e-8 -> 0 <= d_N (with_sources AA J B N sn sm se d).
Proof. exact density_stops. Qed.
Print Assumptions C93_density_stops.

(** Momentum carried away by lost particles is counted twice: the equation of the velocity takes the momentum source without subtracting the
    velocity times the particle source. *)
Theorem C93_momentum_refuted :
  exists AA J B N V r, 0 < AA /\ 0 < J /\ 0 < B /\ 1e-2 <= N /\
    (let d := with_sources AA J B N (Some (- r)) (Some (- (r * AA * V))) None (mkDerivatives 0 0 0 0 0) in
     momentum_rate AA J B N V (d_N d) (d_Vy d) <> - (r * AA * V)).
Proof. exact momentum_witness. Qed.
Print Assumptions C93_momentum_refuted.
Theorem C93_momentum_twice :
  forall AA J B N V r, 0 < AA -> J * B <> 0 -> 1e-2 <= N ->
    let d := with_sources AA J B N (Some (- r)) (Some (- (r * AA * V))) None (mkDerivatives 0 0 0 0 0) in
    momentum_rate AA J B N V (d_N d) (d_Vy d) = 2 * - (r * AA * V).
Proof. exact momentum_twice. Qed.
Print Assumptions C93_momentum_twice.

(** ** SNB heat conduction *)

(** The heat flux is found in SI units and eV; the energy source is minus its divergence, the outputs convert to W / m^3, and the mesh is as before. *)
Theorem C94_snb :
  forall rho_s0 Tnorm Nnorm seconds heat src Te Ne dy snb sh qe, 0 < Tnorm -> 0 < Nnorm -> 0 < seconds ->
    heat (dy * rho_s0) (Te * Tnorm) (Ne * Nnorm) = Some (snb, sh) ->
    exists r, snb_transform rho_s0 Tnorm Nnorm seconds heat src Te Ne dy = (dy, Some r) /\
      snb_conversion qe Tnorm Nnorm (1 / seconds) * Div_Q_SNB r = qe * snb /\ snb_conversion qe Tnorm Nnorm (1 / seconds) * Div_Q_SH r = qe * sh /\
      energy_source r = (match src with Some s => s | None => 0 end) - Div_Q_SNB r.
Proof. exact snb_law. Qed.
Print Assumptions C94_snb.
Example C94_case : exists heat : R -> R -> R -> option (R * R), heat (2 * 3) (1 * 10) (1 * 5) = Some (7, 8). Proof. exact snb_case. Qed.

(** If the heat flux throws, the grid spacing of the mesh stays multiplied by rho_s0. *)
Theorem C94_restore_refuted :
  exists rho_s0 Tnorm Nnorm seconds heat src Te Ne dy, 0 < rho_s0 /\ 0 < dy /\ fst (snb_transform rho_s0 Tnorm Nnorm seconds heat src Te Ne dy) <> dy.
Proof. exact snb_throw. Qed.
Print Assumptions C94_restore_refuted.
