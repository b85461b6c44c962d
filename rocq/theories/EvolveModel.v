(** The equations for density, pressure, energy and momentum of a species, and the viscosities, at one grid point unless said
    otherwise.  The values of the spatial operators enter as arbitrary numbers. *)

From Coq Require Import List Bool ZArith Reals String.
From Verif Require Import StateMonad ReactionsModel ParallelModel.
Import ListNotations.
Open Scope R_scope.

(** ** EvolveDensity *)

(** Density handed on, src/evolve_density.cxx 135-138, 177. *)
Definition density_out (N : R) : R := rfloor N 0.
Definition density_from_log (logN : R) : R := exp logN.
(** low_n_coeff, 183-193 (clamp is include/hermes_utils.hxx 11-25). *)
Definition low_n_coeff (dy g_22 density_floor N : R) : R :=
  SQ dy * g_22 * ln (density_floor / clip N (1e-3 * density_floor) density_floor).
(** Radial boundary with the Z average, 142-174 (the same code in src/evolve_pressure.cxx 173-205 and src/evolve_energy.cxx
    149-181): the average over the values in a list, and the value of both guard cells. *)
Fixpoint lsum (l : list R) : R := match l with [] => 0 | x :: l => x + lsum l end.
Definition z_average (l : list R) : R := lsum l / INR (List.length l).
Definition average_guard (l : list R) (x : R) : R := 2 * z_average l - x.

(** ** EvolvePressure *)

(** transform, src/evolve_pressure.cxx 207-218: pressure and temperature handed on, from the density N handed on and the evolved P. *)
Definition pressure_out (density_floor N P : R) : R * R :=
  let Pfloor := rfloor P 0 in
  let T := Pfloor / rfloor N density_floor in
  (N * T, T).
(** Conduction coefficient, 321-350. *)
Definition kappa_braginskii (kappa_coefficient Pfloor collision_frequency AA : R) : R :=
  let tau := 1 / rfloor collision_frequency 1e-10 in
  kappa_coefficient * Pfloor * tau / AA.
Definition kappa_limited (alpha kappa gradT N T AA : R) : R :=
  if Rltb 0 alpha then
    let q_SH := kappa * gradT in
    let q_fl := alpha * N * T * sqrt (T / AA) in
    kappa / (1 + Rabs (q_SH / rfloor q_fl 1e-10))
  else kappa.
(** kappa_par on a line along the field: the limiter in every cell, then the guard cells, 331-368. *)
Definition kappa_line (m : mesh) (alpha AA : R) (kappa gradT N T : Z -> R) : Z -> R :=
  let k j := kappa_limited alpha (kappa j) (gradT j) (N j) (T j) AA in
  let k := if (firstY m && negb (periodicY m))%bool then upd k (ystart m - 1) (k (ystart m)) else k in
  if (lastY m && negb (periodicY m))%bool then upd k (yend m + 1) (k (yend m)) else k.

(** What goes into ddt(P), 236-430, without magnetic flutter and the diffusion terms at low density: values at the point of the ExB
    divergence; of Div_par_mod(P, V), Div_par(V) and Grad_par(P) (if a velocity is set); of the numerical viscous heating Sp_nvh; of
    Div_par_K_Grad_par_mod(kappa_par, T); of the external source and energy_source. *)
Record p_terms := mkPterms {
  p_exb : R; p_adv : R; p_divV : R; p_gradP : R; p_V : R; p_nvh : R; p_cond : R; p_source : R; p_energy_source : R; p_scale : R
}.
Definition ddt_P (p_div_v : bool) (t : p_terms) (P N T : R) : R :=
  let ddt := - p_exb t in
  let ddt := if p_div_v then ddt - p_adv t - (2 / 3) * rfloor P 0 * p_divV t
             else ddt - (5 / 3) * p_adv t + (2 / 3) * p_V t * p_gradP t in
  let ddt := ddt + p_nvh t in
  let ddt := ddt + (2 / 3) * p_cond t in
  let ddt := ddt + (p_source t + (2 / 3) * p_energy_source t) in
  let ddt := ddt + (N * T - P) in
  ddt * p_scale t.

(** ** EvolveEnergy *)

(** Cv, src/evolve_energy.cxx 23-27. *)
Definition heat_capacity (adiabatic_index : R) : R := 1 / (adiabatic_index - 1).
(** 138-146: the pressure, floored. *)
Definition pressure_of_energy (Cv AA N V E : R) : R :=
  let P := (E - 0.5 * AA * N * SQ V) / Cv in
  if Rltb P 0 then 0 else P.
(** 183-188, from the pressure after the boundary conditions 147-181. *)
Definition energy_out (density_floor N P : R) : R * R :=
  let T := P / rfloor N density_floor in
  (N * T, T).
(** E in a guard cell, 204-231, with P, N and V in the last cell and the guard cell. *)
Definition energy_guard (Cv AA Pg Pi Ng Ni Vg Vi Ei : R) : R :=
  let psheath := 0.5 * (Pg + Pi) in
  let nsheath := 0.5 * (Ng + Ni) in
  let vsheath := 0.5 * (Vg + Vi) in
  let Esheath := Cv * psheath + 0.5 * AA * nsheath * SQ vsheath in
  2 * Esheath - Ei.
(** ddt(E), 236-374, without magnetic flutter: values of the ExB divergence, Div_par_mod(E + P, V), low density diffusion, conduction,
    hyper-diffusion; Se. *)
Definition energy_sources (source energy_source momentum_source V : R) : R := source + energy_source + V * momentum_source.
Definition ddt_E (exb adv low_n cond hyper Se scale : R) : R := (- exb - adv + low_n + cond - hyper + Se) * scale.

(** ** EvolveMomentum *)

(** transform, src/evolve_momentum.cxx 72-85, inside the domain: velocity, momentum handed on, NV_err. *)
Definition momentum_out (density_floor AA N NV : R) : R * R * R :=
  let V := NV / (AA * rfloor N density_floor) in
  let NV' := AA * N * V in
  (V, NV', NV' - NV).
(** ddt(NV), 115-226, without electromagnetic terms and low-density diffusion: values of the ExB divergence (charged species with phi),
    Grad_par(phi), Div_par_fvv(Nlim, V), Grad_par(P), momentum_source, NV_err. *)
Definition ddt_NV (exb Z N gradphi AA fvv gradP momentum_source NV_err scale : R) : R :=
  (- exb - Z * N * gradphi - AA * fvv - gradP + momentum_source + NV_err) * scale.
(** ddt(N), src/evolve_density.cxx 219-288, without the diffusion terms: ExB divergence, Div_par_mod(N, V), density_source. *)
Definition ddt_N (exb adv density_source scale : R) : R := (- exb - adv + density_source) * scale.
(** ** Viscosities *)

(** Coefficients, src/ion_viscosity.cxx 95-100, src/electron_viscosity.cxx 33-42. *)
Definition eta_ion (P collision_frequency : R) : R := 1.28 * P * (1 / collision_frequency).
Definition eta_electron (P collision_frequency : R) : R := (4 / 3) * 0.73 * P * (1 / collision_frequency).
(** Limiter, src/ion_viscosity.cxx 102-109 and src/electron_viscosity.cxx 44-51.  Where alpha * P vanishes so does eta (95-100), and the
    quotient is 0 / 0, not a number: None. *)
Definition eta_limited (alpha eta gradV P : R) : option R :=
  if Rltb 0 alpha then
    let q_cl := eta * gradV in
    let q_fl := alpha * P in
    if Reqb q_fl 0 then None else Some (eta / (1 + Rabs (q_cl / q_fl)))
  else Some eta.
(** What ion viscosity adds to momentum_source and energy_source at a point: 117-120, with d the value of
    sqrtB * Div_par_K_Grad_par(eta / Bxy, sqrtB * V). *)
Definition ion_parallel_viscosity (V d : R) : R * R := (d, - (V * d)).
(** src/electron_viscosity.cxx 57-59. *)
Definition electron_parallel_viscosity (V d : R) : R * R := (d, 0).
(** Perpendicular part at the points (in Z) of one (x, y): 204-208, with d the value of the axisymmetric div_Pi_ciperp, and V_av the
    average of V (DC, 159). *)
Definition ion_perpendicular_viscosity (Vs : list R) (d : R) : list (R * R) := map (fun _ => (d, - (z_average Vs * d))) Vs.
(** Limit on the stress, 177-184; BOUT++ SIGN. *)
Definition sign_of (a : R) : R := if Rleb 0 a then 1 else -1.
Definition stress_limited (P_av Pi : R) : R := if Rltb P_av (Rabs Pi) then sign_of Pi * P_av else Pi.
(** Pi_ci, 211. *)
Definition total_stress (P_av Pi_par Pi_perp : R) : R := stress_limited P_av Pi_par + stress_limited P_av Pi_perp.
(** Parallel boundary of the stress, 190-200: the lower end writes index 1 whatever the number of guard cells. *)
Definition stress_boundary (m : mesh) (Pi : Z -> R) : Z -> R :=
  let Pi := if (firstY m && negb (periodicY m))%bool then upd Pi 1 (Pi (1 + 1)%Z) else Pi in
  let jy := (yend m + 1)%Z in
  if (lastY m && negb (periodicY m))%bool then upd Pi jy (Pi (jy - 1)%Z) else Pi.
(** Transfer of energy with the ExB flow, 231-234: curv = Pi_ci * Curlb_B * Grad(phi_av + P_av), brk = bracket(Pi_ci, phi_av + P_av);
    the factor 1 / 3 is a division of integers. *)
Definition exb_energy_transfer (curv brk : R) : R := - (0.5 * curv - IZR (1 / 3)%Z * brk).
