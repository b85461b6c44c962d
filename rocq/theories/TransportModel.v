(** Transport with given or simple coefficients: anomalous diffusion (src/anomalous_diffusion.cxx), the stellarator two point model
    (src/binormal_stpm.cxx), parallel diffusion of neutrals (src/neutral_parallel_diffusion.cxx, include/neutral_parallel_diffusion.hxx,
    src/solkit_neutral_parallel_diffusion.cxx) and simple heat conduction (include/simple_conduction.hxx).

    Simplifications: exact reals.  FV::Div_par_K_Grad_par belongs to BOUT++; it is taken to be Hermes' own Div_par_K_Grad_par_mod
    (src/div_ops.cxx 1534-1602), which was made from it. *)

From Coq Require Import List Bool ZArith Reals String.
From Verif Require Import StateMonad ParallelModel DiffusionModel PerpModel MetricModel.
Import ListNotations.
Open Scope R_scope.

(** ** AnomalousDiffusion *)

(** Constructor, src/anomalous_diffusion.cxx 20-43: whether a coefficient is used, and its value: from the mesh (None: not there) or
    the option (None: not set), divided by diffusion_norm. *)
Definition coefficient (in_mesh in_options : option (Z -> Z -> R)) (diffusion_norm : R) : bool * (Z -> Z -> R) :=
  let value := match in_mesh with Some d => d | None => fun _ _ => 0 end in
  let value := match in_options with Some d => d | None => value end in
  (((if in_mesh then true else false) || (if in_options then true else false))%bool, fun i j => value i j / diffusion_norm).

(** DC(f), BOUT++: the average over z (of the nz points). *)
Definition DC (nz : Z) (f : field) (i j : Z) : R := z_sum (Z.to_nat nz) (f i j) / IZR nz.
(** A Field2D used as a Field3D. *)
Definition flat (f : Z -> Z -> R) : field := fun i j _ => f i j.

(** 74-88: zero gradient at the ends of the domain in Y (iterateBndryLowerY and iterateBndryUpperY; the same at all i here). *)
Definition neumann_y (m : mesh) (f : Z -> Z -> R) (i j : Z) : R :=
  if (firstY m && negb (periodicY m) && Z.eqb j (ystart m - 1))%bool then f i (ystart m)
  else if (lastY m && negb (periodicY m) && Z.eqb j (yend m + 1))%bool then f i (yend m)
  else f i j.

(** What is added to a source and to its flows through the lower X and Y faces. *)
Definition flows := (field * field * field)%type.
Definition no_flows : flows := (fun _ _ _ => 0, fun _ _ _ => 0, fun _ _ _ => 0).
Definition add_flows (a b : flows) : flows :=
  (fun i j k => fst (fst a) i j k + fst (fst b) i j k, fun i j k => snd (fst a) i j k + snd (fst b) i j k,
   fun i j k => snd a i j k + snd b i j k).
Record transport := mkTransport { t_particles : flows; t_momentum : flows; t_energy : flows }.

Record anomalous := mkAnomalous {
  anomalous_D : bool * (Z -> Z -> R); anomalous_chi : bool * (Z -> Z -> R); anomalous_nu : bool * (Z -> Z -> R);
  anomalous_sheath_flux : bool
}.

(** The profiles which are diffused, 58-88. *)
Definition profile (m : pmesh) (o : anomalous) (f : field) : Z -> Z -> R :=
  if anomalous_sheath_flux o then DC (pm_nz m) f else neumann_y (pm_y m) (DC (pm_nz m) f).
Definition profile_or_zero (m : pmesh) (o : anomalous) (f : option field) : Z -> Z -> R :=
  profile m o (match f with Some f => f | None => fun _ _ _ => 0 end).

(** transform, 52-136, for a species whose density is set; AA: None if it is not set (get throws).  The operators convert to and from
    field-aligned coordinates (toFA, fromFA). *)
Definition anomalous_transform (toFA fromFA : field -> field) (m : pmesh) (c : pcoords) (o : anomalous) (AA : option R)
    (N : field) (T V : option field) : res transport :=
  let N2D := profile m o N in
  let T2D := profile_or_zero m o T in
  let V2D := profile_or_zero m o V in
  let Div := fun a f => Div_a_Grad_perp_upwind_flows toFA fromFA m c (flat a) (flat f) in
  let D := snd (anomalous_D o) in
  let chi := snd (anomalous_chi o) in
  let nu := snd (anomalous_nu o) in
  match AA, (fst (anomalous_D o) || fst (anomalous_nu o))%bool with
  | None, true => Exc
  | _, _ =>
      let A := match AA with Some A => A | None => 0 end in
      let none := mkTransport no_flows no_flows no_flows in
      let t := if fst (anomalous_D o)
               then mkTransport (Div D N2D) (Div (fun i j => A * V2D i j * D i j) N2D)
                      (Div (fun i j => 3 / 2 * T2D i j * D i j) N2D)
               else none in
      let t := if fst (anomalous_chi o)
               then mkTransport (t_particles t) (t_momentum t) (add_flows (t_energy t) (Div (fun i j => chi i j * N2D i j) T2D))
               else t in
      let t := if fst (anomalous_nu o)
               then mkTransport (t_particles t) (add_flows (t_momentum t) (Div (fun i j => nu i j * A * N2D i j) V2D)) (t_energy t)
               else t in
      Ok t
  end.

(** ** BinormalSTPM *)

Record stpm := mkStpm { st_Theta : Z -> R; st_chi : Z -> R; st_D : Z -> R; st_nu : Z -> R }.
(** transform, src/binormal_stpm.cxx 47-75, for one species on a line: density, momentum and energy source. *)
Definition stpm_transform (m : mesh) (c : coords) (o : stpm) (AA : R) (N T NV : Z -> R) : (Z -> R) * (Z -> R) * (Z -> R) :=
  let Div := fun K f j => 1 / st_Theta o j * fst (Div_par_K_Grad_par_mod m c K f false j) in
  (Div (fun j => st_D o j / st_Theta o j) N,
   Div (fun j => AA * (st_nu o j / st_Theta o j)) NV,
   Div (fun j => st_chi o j / st_Theta o j * N j) T).

(** ** NeutralParallelDiffusion *)

(** applyBoundary("neumann") and applyBoundary("dirichlet_o2") (value zero at the boundary) on a line, BOUT++: the guard cell next to each
    end of the domain. *)
Definition end_low (m : mesh) (j : Z) : bool := (firstY m && negb (periodicY m) && Z.eqb j (ystart m - 1))%bool.
Definition end_high (m : mesh) (j : Z) : bool := (lastY m && negb (periodicY m) && Z.eqb j (yend m + 1))%bool.
Definition neumann (m : mesh) (f : Z -> R) (j : Z) : R :=
  if end_low m j then f (ystart m) else if end_high m j then f (yend m) else f j.
Definition dirichlet_o2 (m : mesh) (f : Z -> R) (j : Z) : R :=
  if end_low m j then - f (ystart m) else if end_high m j then - f (yend m) else f j.

Record npd := mkNpd { dneut : R; equation_fix : bool; thermal_conduction : bool; viscosity : bool }.
(** Constructor, include/neutral_parallel_diffusion.hxx 26-47, from the settings of the section (the switches; dneut is as given). *)
Definition setting (section : list (string * bool)) (key : string) (default : bool) : bool :=
  match find (fun kv => String.eqb (fst kv) key) section with Some kv => snd kv | None => default end.
Definition npd_options (dneut : R) (section : list (string * bool)) : npd :=
  mkNpd dneut (setting section "equation_fix" true) (setting section "thermal_conducton" true) (setting section "viscosity" true).

(** A neutral species on a line: the optional entries are None if they are not set. *)
Record neutral := mkNeutral {
  n_AA : R; n_nu : Z -> R; n_N : Z -> R; n_T : Z -> R; n_P : option (Z -> R); n_V : option (Z -> R); n_NV : Z -> R
}.
(** src/neutral_parallel_diffusion.cxx 24-25 and 39-42. *)
Definition npd_P (s : neutral) (j : Z) : R := match n_P s with Some P => P j | None => n_N s j * n_T s j end.
Definition npd_D (m : mesh) (o : npd) (s : neutral) : Z -> R := dirichlet_o2 m (fun j => dneut o * n_T s j / (n_AA s * n_nu s j)).
(** 44-47. *)
Definition npd_logP (m : mesh) (s : neutral) : Z -> R := neumann m (fun j => ln (rfloor (npd_P s j) 1e-7)).
(** 27-36. *)
Definition advection_factor (o : npd) : R := if equation_fix o then 5 / 2 else 3 / 2.
Definition kappa_factor (o : npd) : R := if equation_fix o then 5 / 2 else 1.
(** 53-54. *)
Definition npd_kappa (m : mesh) (o : npd) (s : neutral) : Z -> R := neumann m (fun j => kappa_factor o * n_N s j * npd_D m o s j).
(** 50: density source; 57-62: energy source; 65-80: momentum source, if any. *)
Definition K_Div (m : mesh) (c : coords) (K f : Z -> R) (j : Z) : R := fst (Div_par_K_Grad_par_mod m c K f true j).
Definition npd_S (m : mesh) (c : coords) (o : npd) (s : neutral) : Z -> R := K_Div m c (fun j => npd_D m o s j * n_N s j) (npd_logP m s).
Definition npd_E (m : mesh) (c : coords) (o : npd) (s : neutral) (j : Z) : R :=
  let E := K_Div m c (fun j => npd_D m o s j * advection_factor o * npd_P s j) (npd_logP m s) j in
  if thermal_conduction o then E + K_Div m c (npd_kappa m o s) (n_T s) j else E.
Definition npd_F (m : mesh) (c : coords) (o : npd) (s : neutral) : option (Z -> R) :=
  match n_V s, viscosity o with
  | Some V, true => Some (fun j => K_Div m c (fun j => n_NV s j * npd_D m o s j) (npd_logP m s) j
                                   + K_Div m c (fun j => 2 / 5 * npd_kappa m o s j) V j)
  | _, _ => None
  end.

(** ** SOLKITNeutralParallelDiffusion *)

(** A species: name, charge (None: not set) and density. *)
Record particle := mkParticle { pt_name : string; pt_charge : option R; pt_density : R }.
Definition charged (s : particle) : bool := match pt_charge s with Some q => negb (Reqb q 0) | None => false end.
(** src/solkit_neutral_parallel_diffusion.cxx 24-45: the inverse mean free path at one point. *)
Definition inv_mfp_step (area_norm : R) (value : R) (s : particle) : R :=
  if String.eqb (pt_name s) "e" then value + 8.8e-21 / area_norm * pt_density s
  else if charged s then value + 3e-19 / area_norm * pt_density s
  else value + 8.8e-21 / area_norm * pt_density s.
Definition inv_mfp (area_norm : R) (all : list particle) : R := fold_left (inv_mfp_step area_norm) all 0.
(** 47-52; the constructor (include/solkit_neutral_parallel_diffusion.hxx 23-33) divides the temperature by Tnorm and sets area_norm. *)
Definition solkit_area (Nnorm rho_s0 : R) : R := 1 / (Nnorm * rho_s0).
Definition solkit_D (area_norm neutral_temperature AA : R) (all : list particle) : R :=
  sqrt (2 * neutral_temperature / AA) / (2 * inv_mfp area_norm all).
(** 53-62: density source on a line. *)
Definition solkit_S (m : mesh) (c : coords) (area_norm neutral_temperature AA : R) (all : Z -> list particle) (Nn : Z -> R) : Z -> R :=
  let Dn := dirichlet_o2 m (fun j => solkit_D area_norm neutral_temperature AA (all j)) in
  let logPn := neumann m (fun j => ln (rfloor (Nn j * neutral_temperature) 1e-7)) in
  K_Div m c (fun j => Dn j * Nn j) logPn.

(** ** SimpleConduction *)

(** Constants of nature (bout/constants.hxx, BOUT++): any values. *)
Record constants := mkConstants { si_Mp : R; si_qe : R; si_e0 : R }.
(** Constructor, include/simple_conduction.hxx 25-40; x^1.5 by Rpower. *)
Definition default_kappa (electrons : bool) : R := if electrons then 3.16 else 3.9.
Definition kappa0 (si : constants) (electrons : bool) (kappa_coefficient Tnorm Nnorm Omega_ci : R) : R :=
  if electrons
  then kappa_coefficient * 6 * sqrt (2 * si_Mp si) * Rpower (PI * si_qe si * Tnorm) 1.5
       * SQ (si_e0 si) / (SQ (SQ (si_qe si)) * Nnorm) * Omega_ci
  else kappa_coefficient * 12 * sqrt (si_Mp si) * Rpower (PI * si_qe si * Tnorm) 1.5
       * SQ (si_e0 si) / (SQ (SQ (si_qe si)) * Nnorm) * Omega_ci.
(** transform, 59-88, at one point: [fixed_T], [fixed_N] as divided by the normalisation in the constructor. *)
Definition coefficient_value (fixed value : R) : R := if Rltb 0 fixed then fixed else value.
Definition coulomb_log (Nnorm Tnorm N T : R) : R := 6.6 - 0.5 * ln (N * Nnorm / 1e20) + 1.5 * ln (T * Tnorm).
Definition kappa_par (k0 Nnorm Tnorm fixed_T fixed_N AA N T : R) : R :=
  let Tcoef := coefficient_value fixed_T T in
  let N := coefficient_value fixed_N N in
  k0 * Rpower Tcoef 2.5 / (coulomb_log Nnorm Tnorm N Tcoef * sqrt AA).
(** ... and on a line: the energy source. *)
Definition conduction_source (m : mesh) (c : coords) (k0 Nnorm Tnorm fixed_T fixed_N AA : R) (boundary_flux : bool) (N T : Z -> R) (j : Z) : R :=
  fst (Div_par_K_Grad_par_mod m c (fun j => kappa_par k0 Nnorm Tnorm fixed_T fixed_N AA (N j) (T j)) T boundary_flux j).
