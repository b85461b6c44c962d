(** Normalisation constants, Hermes::init in hermes-3.cxx, and the tables of conversion factors which components use for what they write and
    read. *)

From Coq Require Import List Bool ZArith Reals String.
Import ListNotations.
Open Scope R_scope.

(** Constants SI::qe, SI::Mp and the settings Nnorm, Tnorm, Bnorm, hermes-3.cxx 180-182. *)
Record norms := mkNorms { qe : R; Mp : R; Nnorm : R; Tnorm : R; Bnorm : R }.
(** 184-186. *)
Definition Cs0 (n : norms) : R := sqrt (qe n * Tnorm n / Mp n).
Definition Omega_ci (n : norms) : R := qe n * Bnorm n / Mp n.
Definition rho_s0 (n : norms) : R := Cs0 n / Omega_ci n.

(** Expressions for conversion factors, as written in the code. *)
Inductive cexpr := C1 | CN | CT | CB | COmega | CRho | CCs | Cqe | CMp | CMul (a b : cexpr) | CDiv (a b : cexpr) | CSQ (a : cexpr).
Fixpoint ceval (n : norms) (e : cexpr) : R :=
  match e with
  | C1 => 1 | CN => Nnorm n | CT => Tnorm n | CB => Bnorm n | COmega => Omega_ci n | CRho => rho_s0 n | CCs => Cs0 n | Cqe => qe n | CMp => Mp n
  | CMul a b => ceval n a * ceval n b
  | CDiv a b => ceval n a / ceval n b
  | CSQ a => ceval n a * ceval n a
  end.
(** units["meters"] and units["seconds"], 192-193. *)
Definition u_meters : cexpr := CRho.
Definition u_seconds : cexpr := CDiv C1 COmega.
(** Pressure normalisation, e.g. src/evolve_pressure.cxx 465; the same expression in every component which has a Pnorm. *)
Definition Pnorm : cexpr := CMul (CMul Cqe CT) CN.

(** One entry: file, line of the "conversion" attribute, the "units" attribute, whether the quantity counts particles, the factor. *)
Record entry := mkEntry { e_file : string; e_line : Z; e_units : string; e_particles : bool; e_factor : cexpr }.
Definition Out (f : string) (l : Z) (u : string) (p : bool) (c : cexpr) : entry := mkEntry f l u p c.
Definition Inp (f : string) (l : Z) (u : string) (p : bool) (c : cexpr) : entry := mkEntry f l u p c.

(** Every "conversion" attribute in src/ and include/ with its "units" attribute, apart from those commented out.
    detachment_controller.hxx 133-143 chooses between two.  hermes-3.cxx 332-404 writes the normalisations themselves with conversion 1. *)
Definition outputs : list entry := [
  Out "include/amjuel_hyd_ionisation.hxx" 74 "m^-3 s^-1" true (CMul CN COmega);
  Out "include/amjuel_hyd_ionisation.hxx" 83 "kg m^-2 s^-2" false (CMul (CMul (CMul CMp CN) CCs) COmega);
  Out "include/amjuel_hyd_ionisation.hxx" 92 "W / m^3" false (CMul Pnorm COmega);
  Out "include/amjuel_hyd_ionisation.hxx" 101 "W / m^3" false (CMul Pnorm COmega);
  Out "include/amjuel_hyd_recombination.hxx" 76 "m^-3 s^-1" true (CMul CN COmega);
  Out "include/amjuel_hyd_recombination.hxx" 86 "kg m^-2 s^-2" false (CMul (CMul (CMul CMp CN) CCs) COmega);
  Out "include/amjuel_hyd_recombination.hxx" 96 "W / m^3" false (CMul Pnorm COmega);
  Out "include/amjuel_hyd_recombination.hxx" 106 "W / m^3" false (CMul Pnorm COmega);
  Out "include/detachment_controller.hxx" 174 "Pa / s" false (CMul Pnorm COmega);
  Out "include/detachment_controller.hxx" 174 "m^-3 / s" true (CMul CN COmega);
  Out "include/detachment_controller.hxx" 188 "Pa / s" false (CMul Pnorm COmega);
  Out "include/detachment_controller.hxx" 188 "m^-3 / s" true (CMul CN COmega);
  Out "include/fixed_density.hxx" 56 "m^-3" true CN;
  Out "include/fixed_fraction_radiation.hxx" 432 "W / m^3" false (CMul (CMul (CMul Cqe CT) CN) COmega);
  Out "include/fixed_temperature.hxx" 66 "eV" false CT;
  Out "include/fixed_temperature.hxx" 80 "Pa" false Pnorm;
  Out "include/fixed_velocity.hxx" 51 "m / s" false CCs;
  Out "include/hydrogen_charge_exchange.hxx" 196 "kg m^-2 s^-2" false (CMul (CMul (CMul CMp CN) CCs) COmega);
  Out "include/hydrogen_charge_exchange.hxx" 206 "W / m^3" false (CMul Pnorm COmega);
  Out "include/hydrogen_charge_exchange.hxx" 216 "s^-1" false COmega;
  Out "include/hydrogen_charge_exchange.hxx" 229 "kg m^-2 s^-2" false (CMul (CMul (CMul CMp CN) CCs) COmega);
  Out "include/hydrogen_charge_exchange.hxx" 240 "W / m^3" false (CMul Pnorm COmega);
  Out "include/hydrogen_charge_exchange.hxx" 252 "m^-3 s^-1" true (CMul CN COmega);
  Out "include/set_temperature.hxx" 79 "eV" false CT;
  Out "include/simple_pump.hxx" 57 "m^-3 / s" true (CMul CN COmega);
  Out "include/temperature_feedback.hxx" 112 "Pa / s" false (CMul Pnorm COmega);
  Out "include/temperature_feedback.hxx" 127 "Pa / s" false (CMul Pnorm COmega);
  Out "include/upstream_density_feedback.hxx" 86 "m^-3 s^-1" true (CMul CN COmega);
  Out "include/upstream_density_feedback.hxx" 101 "m^-3 s^-1" true (CMul CN COmega);
  Out "src/anomalous_diffusion.cxx" 149 "m^2 s^-1" false (CMul (CMul CRho CRho) COmega);
  Out "src/anomalous_diffusion.cxx" 157 "m^2 s^-1" false (CMul (CMul CRho CRho) COmega);
  Out "src/anomalous_diffusion.cxx" 165 "m^2 s^-1" false (CMul (CMul CRho CRho) COmega);
  Out "src/binormal_stpm.cxx" 95 "m^2 s^-1" false (CMul (CMul CRho CRho) COmega);
  Out "src/binormal_stpm.cxx" 103 "m^2 s^-1" false (CMul (CMul CRho CRho) COmega);
  Out "src/binormal_stpm.cxx" 111 "m^2 s^-1" false (CMul (CMul CRho CRho) COmega);
  Out "src/classical_diffusion.cxx" 107 "m^2 s^-1" false (CMul (CMul CRho CRho) COmega);
  Out "src/collisions.cxx" 510 "s-1" false COmega;
  Out "src/electromagnetic.cxx" 253 "T m" false (CMul CB CRho);
  Out "src/electromagnetic.cxx" 262 "T m" false (CMul CB CRho);
  Out "src/electron_force_balance.cxx" 68 "V / m" false (CDiv CT CRho);
  Out "src/electron_viscosity.cxx" 73 "kg m^-2 s^-2" false (CMul (CMul (CMul CMp CN) CCs) COmega);
  Out "src/evolve_density.cxx" 325 "m^-3" true CN;
  Out "src/evolve_density.cxx" 336 "m^-3 s^-1" true (CMul CN COmega);
  Out "src/evolve_density.cxx" 344 "m^-3 s^-1" true (CMul CN COmega);
  Out "src/evolve_density.cxx" 353 "m^-3 s^-1" true (CMul CN COmega);
  Out "src/evolve_density.cxx" 366 "s^-1" true (CMul (CMul (CMul CRho (CSQ CRho)) CN) COmega);
  Out "src/evolve_density.cxx" 376 "s^-1" true (CMul (CMul (CMul CRho (CSQ CRho)) CN) COmega);
  Out "src/evolve_energy.cxx" 416 "J/m^3" false Pnorm;
  Out "src/evolve_energy.cxx" 425 "Pa" false Pnorm;
  Out "src/evolve_energy.cxx" 436 "W / m / eV" false (CMul (CMul Pnorm COmega) (CSQ CRho));
  Out "src/evolve_energy.cxx" 444 "eV" false CT;
  Out "src/evolve_energy.cxx" 454 "J/m^3/s" false (CMul Pnorm COmega);
  Out "src/evolve_energy.cxx" 462 "W/m^3" false (CMul Pnorm COmega);
  Out "src/evolve_energy.cxx" 471 "W/m^3" false (CMul Pnorm COmega);
  Out "src/evolve_energy.cxx" 481 "W" false (CMul (CMul (CMul CRho (CSQ CRho)) Pnorm) COmega);
  Out "src/evolve_energy.cxx" 491 "W" false (CMul (CMul (CMul CRho (CSQ CRho)) Pnorm) COmega);
  Out "src/evolve_momentum.cxx" 263 "kg / m^2 / s" false (CMul (CMul CMp CN) CCs);
  Out "src/evolve_momentum.cxx" 273 "m / s" false CCs;
  Out "src/evolve_momentum.cxx" 282 "kg m^-2 s^-2" false (CMul (CMul (CMul CMp CN) CCs) COmega);
  Out "src/evolve_momentum.cxx" 290 "kg m^-2 s^-2" false (CMul (CMul (CMul CMp CN) CCs) COmega);
  Out "src/evolve_momentum.cxx" 303 "N" false (CMul (CMul (CMul (CMul (CMul CRho (CSQ CRho)) CMp) CN) CCs) COmega);
  Out "src/evolve_momentum.cxx" 313 "N" false (CMul (CMul (CMul (CMul (CMul CRho (CSQ CRho)) CMp) CN) CCs) COmega);
  Out "src/evolve_pressure.cxx" 473 "Pa" false Pnorm;
  Out "src/evolve_pressure.cxx" 484 "W / m / eV" false (CDiv (CMul (CMul Pnorm COmega) (CSQ CRho)) CT);
  Out "src/evolve_pressure.cxx" 492 "eV" false CT;
  Out "src/evolve_pressure.cxx" 501 "Pa s^-1" false (CMul Pnorm COmega);
  Out "src/evolve_pressure.cxx" 509 "Pa s^-1" false (CMul Pnorm COmega);
  Out "src/evolve_pressure.cxx" 518 "Pa s^-1" false (CMul Pnorm COmega);
  Out "src/evolve_pressure.cxx" 528 "W" false (CMul (CMul (CMul CRho (CSQ CRho)) Pnorm) COmega);
  Out "src/evolve_pressure.cxx" 538 "W" false (CMul (CMul (CMul CRho (CSQ CRho)) Pnorm) COmega);
  Out "src/evolve_pressure.cxx" 547 "W" false (CMul (CMul (CMul CRho (CSQ CRho)) Pnorm) COmega);
  Out "src/evolve_pressure.cxx" 556 "W" false (CMul (CMul (CMul CRho (CSQ CRho)) Pnorm) COmega);
  Out "src/evolve_pressure.cxx" 567 "W" false (CMul Pnorm COmega);
  Out "src/full_velocity.cxx" 378 "s^-1" false COmega;
  Out "src/ion_viscosity.cxx" 270 "Pa" false Pnorm;
  Out "src/ion_viscosity.cxx" 279 "Pa" false Pnorm;
  Out "src/ion_viscosity.cxx" 288 "A m^-3" false (CMul (CMul Cqe CN) COmega);
  Out "src/isothermal.cxx" 45 "eV" false CT;
  Out "src/isothermal.cxx" 56 "Pa" false (CMul (CMul Cqe CT) CN);
  Out "src/neutral_boundary.cxx" 337 "W m^-3" false (CMul Pnorm COmega);
  Out "src/neutral_boundary.cxx" 346 "W m^-3" false (CMul Pnorm COmega);
  Out "src/neutral_mixed.cxx" 522 "m^-3" true CN;
  Out "src/neutral_mixed.cxx" 530 "Pa" false Pnorm;
  Out "src/neutral_mixed.cxx" 539 "kg / m^2 / s" false (CMul (CMul CMp CN) CCs);
  Out "src/neutral_mixed.cxx" 550 "m^-3 s^-1" true (CMul CN COmega);
  Out "src/neutral_mixed.cxx" 556 "Pa s^-1" false (CMul Pnorm COmega);
  Out "src/neutral_mixed.cxx" 561 "kg m^-2 s^-2" false (CMul (CMul (CMul CMp CN) CCs) COmega);
  Out "src/neutral_mixed.cxx" 568 "eV" false CT;
  Out "src/neutral_mixed.cxx" 575 "m^2/s" false (CDiv (CMul CCs CCs) COmega);
  Out "src/neutral_mixed.cxx" 582 "m^-3 s^-1" true (CMul CN COmega);
  Out "src/neutral_mixed.cxx" 589 "Pa s^-1" false (CMul (CMul (CMul Cqe CT) CN) COmega);
  Out "src/neutral_mixed.cxx" 596 "kg m^-2 s^-2" false (CMul (CMul (CMul CMp CN) CCs) COmega);
  Out "src/neutral_mixed.cxx" 603 "m^-3 s^-1" true (CMul CN COmega);
  Out "src/neutral_mixed.cxx" 611 "Pa s^-1" false (CMul Pnorm COmega);
  Out "src/neutral_mixed.cxx" 625 "s^-1" true (CMul (CMul (CMul CRho (CSQ CRho)) CN) COmega);
  Out "src/neutral_mixed.cxx" 635 "s^-1" true (CMul (CMul (CMul CRho (CSQ CRho)) CN) COmega);
  Out "src/neutral_mixed.cxx" 645 "s^-1" true (CMul (CMul (CMul CRho (CSQ CRho)) CN) COmega);
  Out "src/neutral_mixed.cxx" 657 "N" false (CMul (CMul (CMul (CMul (CMul CRho (CSQ CRho)) CMp) CN) CCs) COmega);
  Out "src/neutral_mixed.cxx" 667 "N" false (CMul (CMul (CMul (CMul (CMul CRho (CSQ CRho)) CMp) CN) CCs) COmega);
  Out "src/neutral_mixed.cxx" 692 "N" false (CMul (CMul (CMul (CMul (CMul CRho (CSQ CRho)) CMp) CN) CCs) COmega);
  Out "src/neutral_mixed.cxx" 702 "N" false (CMul (CMul (CMul (CMul (CMul CRho (CSQ CRho)) CMp) CN) CCs) COmega);
  Out "src/neutral_mixed.cxx" 712 "N" false (CMul (CMul (CMul (CMul (CMul CRho (CSQ CRho)) CMp) CN) CCs) COmega);
  Out "src/neutral_mixed.cxx" 725 "W" false (CMul (CMul (CMul CRho (CSQ CRho)) Pnorm) COmega);
  Out "src/neutral_mixed.cxx" 735 "W" false (CMul (CMul (CMul CRho (CSQ CRho)) Pnorm) COmega);
  Out "src/neutral_mixed.cxx" 745 "W" false (CMul (CMul (CMul CRho (CSQ CRho)) Pnorm) COmega);
  Out "src/neutral_mixed.cxx" 757 "W" false (CMul (CMul (CMul CRho (CSQ CRho)) Pnorm) COmega);
  Out "src/neutral_mixed.cxx" 767 "W" false (CMul (CMul (CMul CRho (CSQ CRho)) Pnorm) COmega);
  Out "src/neutral_mixed.cxx" 777 "W" false (CMul (CMul (CMul CRho (CSQ CRho)) Pnorm) COmega);
  Out "src/neutral_parallel_diffusion.cxx" 118 "m^2/s" false (CMul CRho CCs);
  Out "src/neutral_parallel_diffusion.cxx" 127 "s^-1" true (CMul CN COmega);
  Out "src/neutral_parallel_diffusion.cxx" 136 "W / m^3" false (CMul (CMul (CMul Cqe CT) CN) COmega);
  Out "src/neutral_parallel_diffusion.cxx" 145 "kg m^-2 s^-2" false (CMul (CMul (CMul CMp CN) CCs) COmega);
  Out "src/polarisation_drift.cxx" 230 "A m^-3" false (CMul (CMul Cqe CN) COmega);
  Out "src/polarisation_drift.cxx" 237 "V / s" false (CMul CT COmega);
  Out "src/quasineutral.cxx" 67 "m^-3" true CN;
  Out "src/recycling.cxx" 537 "m^-3 s^-1" true (CMul CN COmega);
  Out "src/recycling.cxx" 546 "W m^-3" false (CMul Pnorm COmega);
  Out "src/recycling.cxx" 558 "m^-3 s^-1" true (CMul CN COmega);
  Out "src/recycling.cxx" 567 "W m^-3" false (CMul Pnorm COmega);
  Out "src/recycling.cxx" 579 "m^-3 s^-1" true (CMul CN COmega);
  Out "src/recycling.cxx" 588 "W m^-3" false (CMul Pnorm COmega);
  Out "src/relax_potential.cxx" 264 "V" false CT;
  Out "src/snb_conduction.cxx" 53 "W / m^3" false (CMul (CMul (CMul Cqe CT) CN) COmega);
  Out "src/snb_conduction.cxx" 60 "W / m^3" false (CMul (CMul (CMul Cqe CT) CN) COmega);
  Out "src/vorticity.cxx" 784 "C m^-3" false (CMul Cqe CN);
  Out "src/vorticity.cxx" 791 "V" false CT;
  Out "src/vorticity.cxx" 800 "A m^-3" false (CMul (CMul Cqe CN) COmega);
  Out "src/vorticity.cxx" 808 "A m^-3" false (CMul (CMul Cqe CN) COmega);
  Out "src/vorticity.cxx" 816 "A m^-3" false (CMul (CMul Cqe CN) COmega);
  Out "src/zero_current.cxx" 76 "m / s" false CCs
]%string.

(** Settings whose documentation or comment states their units, and what they are divided by. *)
Definition inputs : list entry := [
  Inp "src/neutral_mixed.cxx" 78 "m^2/s" false (CDiv (CMul u_meters u_meters) u_seconds);
  Inp "src/neutral_mixed.cxx" 115 "m^-3/s" true (CMul CN (CDiv C1 u_seconds));
  Inp "src/neutral_mixed.cxx" 125 "N/m^2/s" false (CMul (CMul (CMul Cqe CN) CT) (CDiv C1 u_seconds));
  Inp "src/anomalous_diffusion.cxx" 26 "m^2/s" false (CMul (CMul u_meters u_meters) (CDiv C1 u_seconds));
  Inp "src/anomalous_diffusion.cxx" 34 "m^2/s" false (CMul (CMul u_meters u_meters) (CDiv C1 u_seconds));
  Inp "src/anomalous_diffusion.cxx" 42 "m^2/s" false (CMul (CMul u_meters u_meters) (CDiv C1 u_seconds));
  Inp "src/vorticity.cxx" 107 "m^2/s" false (CMul (CMul u_meters u_meters) (CDiv C1 u_seconds));
  Inp "src/vorticity.cxx" 168 "seconds" false u_seconds;
  Inp "src/electromagnetic.cxx" 52 "seconds" false u_seconds;
  Inp "src/isothermal.cxx" 13 "eV" false CT;
  Inp "include/fixed_temperature.hxx" 23 "eV" false CT;
  Inp "include/fixed_density.hxx" 29 "m^-3" true CN;
  Inp "include/fixed_velocity.hxx" 22 "m/s" false (CDiv u_meters u_seconds);
  Inp "src/evolve_density.cxx" 100 "m^-3/s" true (CMul CN (CDiv C1 u_seconds));
  Inp "src/evolve_pressure.cxx" 32 "eV" false CT;
  Inp "src/evolve_pressure.cxx" 116 "Pa/s" false (CMul (CMul (CMul Cqe CN) CT) (CDiv C1 u_seconds));
  Inp "src/evolve_energy.cxx" 97 "W/m^3" false (CMul (CMul (CMul Cqe CN) CT) (CDiv C1 u_seconds));
  Inp "src/recycling.cxx" 69 "eV" false CT;
  Inp "src/recycling.cxx" 74 "eV" false CT;
  Inp "src/recycling.cxx" 79 "eV" false CT;
  Inp "src/sheath_boundary.cxx" 92 "Volts" false CT;
  Inp "src/sheath_boundary_simple.cxx" 118 "Volts" false CT;
  Inp "include/upstream_density_feedback.hxx" 31 "m^-3" true CN;
  Inp "include/upstream_density_feedback.hxx" 55 "m^-3/s" true (CMul CN (CDiv C1 u_seconds));
  Inp "include/temperature_feedback.hxx" 37 "eV" false CT;
  Inp "include/temperature_feedback.hxx" 78 "Pa/s" false (CMul Pnorm (CDiv C1 u_seconds));
  Inp "include/detachment_controller.hxx" 129 "Pa/s" false (CMul Pnorm (CDiv C1 u_seconds));
  Inp "include/detachment_controller.hxx" 138 "m^-3/s" true (CMul CN (CDiv C1 u_seconds));
  Inp "include/solkit_neutral_parallel_diffusion.hxx" 26 "eV" false CT;
  Inp "include/sound_speed.hxx" 32 "eV" false CT;
  Inp "src/sheath_closure.cxx" 9 "meters" false u_meters
]%string.

(** beta_em, src/electromagnetic.cxx 28, and beta_norm, include/sound_speed.hxx 29. *)
Definition beta_em (mu0 : R) (n : norms) : R := mu0 * qe n * Tnorm n * Nnorm n / (Bnorm n * Bnorm n).
Definition beta_norm (mu0 : R) (n : norms) : R := Bnorm n / sqrt (mu0 * Nnorm n * Mp n) / (ceval n u_meters / ceval n u_seconds).
(** A cross-section in m^2 as used for a collision frequency: divided by area_norm, include/solkit_neutral_parallel_diffusion.hxx 32 and
    src/solkit_neutral_parallel_diffusion.cxx 33. *)
Definition area_norm (n : norms) : R := 1 / (Nnorm n * rho_s0 n).

(** Energy flow diagnostics of NeutralMixed, src/neutral_mixed.cxx 397-400 and 413-416: the factor is a quotient of two ints. *)
Definition advection_flow (flow : R) : R := flow * IZR (5 / 2)%Z.
Definition conduction_flow (flow : R) : R := flow * IZR (3 / 2)%Z.

(** Flow diagnostics of EvolveMomentum, src/evolve_momentum.cxx 236-245: the members flow_xlow, flow_ylow after the step, from what is set in
    the species' section.  None: get of an option which is not set, which throws. *)
Definition momentum_flows (species : string -> option R) (old : option R * option R) : option (option R * option R) :=
  let x := match species "momentum_flow_xlow"%string with Some v => Some v | None => fst old end in
  match species "momentum_flux_ylow"%string with
  | None => Some (x, snd old)
  | Some _ => match species "momentum_flow_ylow"%string with Some v => Some (x, Some v) | None => None end
  end.
