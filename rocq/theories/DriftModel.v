(** Drifts across the field: the diamagnetic drift (src/diamagnetic_drift.cxx), the polarisation drift (src/polarisation_drift.cxx), the
    diamagnetic, collisional and damping terms of the vorticity equation (src/vorticity.cxx) and the relaxing potential
    (src/relax_potential.cxx). *)

From Coq Require Import List Bool ZArith Reals.
From Verif Require Import StateMonad MetricModel.
Import ListNotations.
Open Scope R_scope.

(** A field: one value per cell, the cells of the processor numbered by Z.  Differential operators belong to BOUT++ and are arguments. *)
Definition field := Z -> R.

(** What the state may hold for one species.  Missing entries are None. *)
Record species := mkSpecies { charge : option R; AA : option R; temperature : option field; density : option field; pressure : option field;
                              momentum : option field; collision_frequency : option field }.

(** Charged: the charge is set and not nearly zero (src/diamagnetic_drift.cxx 67-74, src/polarisation_drift.cxx 80-86, 147-149, 193-196,
    src/vorticity.cxx 247-250, 500-503, 609-611). *)
Definition charged (s : species) : option R :=
  match charge s with Some q => if Rltb (Rabs q) 1e-5 then None else Some q | None => None end.

(** DiamagneticDrift::transform, src/diamagnetic_drift.cxx 64-105.  [div_f_v f w]: FV::Div_f_v(f, w * Curlb_B, bndry_flux);
    [curl_grad f]: Curlb_B * Grad(f); [form]: diamag_form.  Result: what is subtracted from the source of f. *)
Definition drift_of (div_f_v : field -> field -> field) (curl_grad : field -> field) (form : field) (q : R) (T f : field) : field :=
  let div_form := div_f_v f (fun i => T i / q) in
  let grad_form := curl_grad (fun i => f i * T i / q) in
  fun i => form i * div_form i + (1 - form i) * grad_form i.
Record sources := mkSources { density_source : field; energy_source : field; momentum_source : field }.
Definition zero : field := fun _ => 0.
Definition no_sources : sources := mkSources zero zero zero.
Definition diamagnetic_drift (div_f_v : field -> field -> field) (curl_grad : field -> field) (form : field) (s : species) : sources :=
  match charged s, temperature s with
  | Some q, Some T =>
      let d f := drift_of div_f_v curl_grad form q T f in
      mkSources (match density s with Some N => fun i => - d N i | None => zero end)
                (match pressure s with Some P => fun i => - ((5 / 2) * d P i) | None => zero end)
                (match momentum s with Some NV => fun i => - d NV i | None => zero end)
  | _, _ => no_sources
  end.
(** The Y component of the drift velocity in the last cell and in the guard cell behind the sheath: 52-57 (the guard cell of Curlb_B.y is minus
    the last cell) with 78. *)
Definition drift_y_last (q curl_y T_last : R) : R := T_last / q * curl_y.
Definition drift_y_guard (q curl_y T_guard : R) : R := T_guard / q * (- curl_y).

(** PolarisationDrift::transform, src/polarisation_drift.cxx 60-216. *)
Record polset := mkPol { boussinesq : bool; average_atomic_mass : R; density_floor : R; advection : bool; diamagnetic_polarisation : bool }.
(** Defaults, 33-54. *)
Definition pol_default : polset := mkPol true 2 1e-5 true true.
(** 70-93: divergence of the diamagnetic and parallel currents.  None: get<BoutReal>(species["AA"]) throws. *)
Definition par_current (div_par : field -> field) (acc : option field) (s : species) : option field :=
  match acc, charged s, momentum s with
  | None, _, _ => None
  | Some j, Some Z, Some NV =>
      match AA s with None => None | Some A => Some (fun i => j i + div_par (fun k => (Z / A) * NV k) i) end
  | Some j, _, _ => Some j
  end.
Definition div_j (div_par : field -> field) (DivJdia : option field) (l : list species) : option field :=
  fold_left (par_current div_par) l (Some (match DivJdia with Some j => j | None => zero end)).
(** 105-126: energy of the species, for the polarisation by the diamagnetic flow. *)
Definition polarisation_heat (set : polset) (DivJ : field) (s : species) : field :=
  match pressure s, charged s, AA s with
  | Some P, Some q, Some A => fun i => P i * (A / average_atomic_mass set / q) * DivJ i
  | _, _, _ => zero
  end.
(** 136-158.  None: GET_NOBOUNDARY of a density which is not set throws. *)
Definition add_mass (acc : option field) (s : species) : option field :=
  match acc, charged s, AA s with
  | None, _, _ => None
  | Some m, Some _, Some A => match density s with None => None | Some N => Some (fun i => m i + A * N i) end
  | Some m, _, _ => Some m
  end.
Definition mass_density (set : polset) (l : list species) : option field :=
  if boussinesq set then Some (fun _ => average_atomic_mass set)
  else match fold_left add_mass l (Some zero) with None => None | Some m => Some (fun i => rfloor (m i) (density_floor set)) end.
(** 160-165. *)
Definition plus_opt (f : field) (g : option field) : field := match g with Some g => fun i => f i + g i | None => f end.
(** 187-215, sources of one species; [div_a_grad a f]: FV::Div_a_Grad_perp(a, f). *)
Definition polarisation_of (div_a_grad : field -> field -> field) (Bsq phi_pol : field) (s : species) : sources :=
  match charged s, AA s with
  | Some Z, Some A =>
      let d f := div_a_grad (fun i => f i * (A / Z / Bsq i)) phi_pol in
      mkSources (match density s with Some N => d N | None => zero end)
                (match pressure s with Some P => fun i => (5 / 2) * d P i | None => zero end)
                (match momentum s with Some NV => d NV | None => zero end)
  | _, _ => no_sources
  end.
(** The whole transform: for each species the heat of 124-125 and the sources of 204-214; Exc: an exception is thrown.
    [solve C rhs]: phiSolver->solve with coefficient C, 170-181 with the boundary condition. *)
Definition polarisation_drift (set : polset) (div_par : field -> field) (div_a_grad solve : field -> field -> field) (Bsq : field)
    (DivJdia DivJextra DivJcol : option field) (l : list species) : option (list (field * sources)) :=
  match div_j div_par DivJdia l with
  | None => None
  | Some DivJ =>
      if (diamagnetic_polarisation set && negb (boussinesq set))%bool then None (* 99-101 *)
      else
        let heat s := if diamagnetic_polarisation set then polarisation_heat set DivJ s else zero in
        if advection set then
          match mass_density set l with
          | None => None
          | Some rho =>
              let J := plus_opt (plus_opt DivJ DivJextra) DivJcol in
              let phi_pol := solve (fun i => rho i / Bsq i) (fun i => J i * Bsq i / rho i) in
              Some (map (fun s => (heat s, polarisation_of div_a_grad Bsq phi_pol s)) l)
          end
        else Some (map (fun s => (heat s, no_sources)) l)
  end.

(** Vorticity::transform, src/vorticity.cxx 484-591, one coordinate direction: cells i of the line, J and d (grid spacing) of the coordinate system,
    [curl] the component of Curlb_B.  DDX etc. are second order central differences, Div(V) is 1/J sum of DDX(J V.x), as in BOUT++. *)
Definition DD (d f : field) (i : Z) : R := (f (i + 1)%Z - f (i - 1)%Z) / (2 * d i).
Definition Jdia_of (curl : field) (s : species) : field :=
  match pressure s, charged s with Some P, Some _ => fun i => P i * curl i | _, _ => zero end.
Definition dia_heat (curl d phi : field) (s : species) : field := fun i => - (Jdia_of curl s i * DD d phi i).
Definition Jdia (curl : field) (l : list species) : field := fun i => fold_left (fun acc s => acc + Jdia_of curl s i) l 0.
Definition div_jdia (J curl d : field) (l : list species) : field := fun i => DD d (fun k => J k * Jdia curl l k) i / J i.
(** 551-557, 564-573: phi in the guard cell is extrapolated: 2 phi(last) - phi(last but one). *)
Definition free_phi (last before : R) : R := 2 * last - before.

(** Vorticity::transform 231-256: Pi_hat; src/relax_potential.cxx 85, 133-149, 200-252. *)
Definition add_pi (average : R) (acc : field) (s : species) : field :=
  match pressure s, charged s, AA s with Some P, Some q, Some A => fun i => acc i + P i * (A / average / q) | _, _, _ => acc end.
Definition Pi_hat (average : R) (l : list species) : field := fold_left (add_pi average) l zero.
(** RelaxPotential, 38-41: defaults of lambda_1 and lambda_2. *)
Definition lambda_1_default : R := 1.
Definition lambda_2_default : R := 10.
(** 85. *)
Definition scaled_phi (lambda_2 : R) (phi1 : field) : field := fun i => phi1 i / lambda_2.
(** 200-223: Boussinesq.  None: AA of a charged species with pressure is not set, get throws.  The terms are added to ddt(phi1) one by one. *)
Definition relax_dia (div_a_grad : field -> field -> field) (lambda_1 : R) (Bsq : field) (acc : option field) (s : species) : option field :=
  match acc, charged s, pressure s with
  | None, _, _ => None
  | Some a, Some _, Some P =>
      match AA s with None => None | Some A => Some (fun i => a i + lambda_1 * div_a_grad (fun k => A / Bsq k) P i) end
  | Some a, _, _ => Some a
  end.
Definition ddt_phi1 (div_a_grad : field -> field -> field) (lambda_1 average : R) (dia_pol : bool) (Bsq phi Vort : field) (l : list species) : option field :=
  let start : field := fun i => lambda_1 * (div_a_grad (fun k => average / Bsq k) phi i - Vort i) in
  if dia_pol then fold_left (relax_dia div_a_grad lambda_1 Bsq) l (Some start) else Some start.
(** 133-149: energy given to each species with pressure, charge (also zero) and mass. *)
Definition relax_heat (DivJdia : field) (s : species) : field :=
  match pressure s, charge s, AA s with Some P, Some _, Some _ => fun i => (3 / 2) * P i * DivJdia i | _, _, _ => zero end.

(** Vorticity::transform 593-621 at one point: collision frequency weighted by mass.  Only species which are charged and have a mass; None: the
    density is not set (exception).  Result: the sum of A n nu and the sum of A n. *)
Definition add_friction (i : Z) (acc : option (R * R)) (s : species) : option (R * R) :=
  match acc, charged s, AA s with
  | None, _, _ => None
  | Some (a, b), Some _, Some A =>
      match density s with
      | None => None
      | Some N => Some (match collision_frequency s with Some nu => a + A * N i * nu i | None => a end, b + A * N i)
      end
  | Some ab, _, _ => Some ab
  end.
Definition friction_sums (i : Z) (l : list species) : option (R * R) := fold_left (add_friction i) l (Some (0, 0)).
(** 621: the quotient; a division by zero (inf or nan) is None. *)
Definition weighted_collision_frequency (i : Z) (l : list species) : option R :=
  match friction_sums i l with Some (a, b) => if Reqb b 0 then None else Some (a / b) | None => None end.

(** Vorticity::finally 735-756: added to ddt(Vort) in the cell next to a sheath. *)
Definition sheath_dissipation (phi_last phi_guard : R) : R :=
  let phisheath := 0.5 * (phi_last + phi_guard) in - rfloor (- phisheath) 0.
(** 758-772: one row next to the core, Vort at Nz points in z. *)
Definition damp_core (Nz : nat) (Vort ddt : Z -> R) : Z -> R :=
  let vort_avg := z_sum Nz Vort / INR Nz in fun k => ddt k - 0.01 * vort_avg.
