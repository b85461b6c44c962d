(** The tables of AccessActsSpec.v: all types but walls and collisions. *)

From Coq Require Import List Bool String QArith Lia.
From Verif Require Import OptionsModel AccessModel AccessComponents AccessSpec AccessProofs
  AccessTables AccessReadSpec AccessReads AccessActsSpec AccessActs.
Import ListNotations.
Open Scope string_scope.
Open Scope list_scope.

Lemma d_evolve_density : does_as_listed ("evolve_density", evolve_density).
Proof. acts_tac evolve_density. Qed.
Lemma d_evolve_pressure : does_as_listed ("evolve_pressure", evolve_pressure).
Proof. acts_tac evolve_pressure. Qed.
Lemma d_evolve_energy : does_as_listed ("evolve_energy", evolve_energy).
Proof. acts_tac evolve_energy. Qed.
Lemma d_evolve_momentum : does_as_listed ("evolve_momentum", evolve_momentum).
Proof. acts_tac evolve_momentum. Qed.
Lemma d_neutral_mixed : does_as_listed ("neutral_mixed", neutral_mixed).
Proof. acts_tac neutral_mixed. Qed.
Lemma d_isothermal : does_as_listed ("isothermal", isothermal).
Proof. acts_tac isothermal. Qed.
Lemma d_fixed_temperature : does_as_listed ("fixed_temperature", fixed_temperature).
Proof. acts_tac fixed_temperature. Qed.
Lemma d_fixed_velocity : does_as_listed ("fixed_velocity", fixed_velocity).
Proof. acts_tac fixed_velocity. Qed.
Lemma d_set_temperature : does_as_listed ("set_temperature", set_temperature).
Proof. acts_tac set_temperature. Qed.
Lemma d_quasineutral : does_as_listed ("quasineutral", quasineutral).
Proof. acts_tac quasineutral. Qed.
Lemma d_zero_current : does_as_listed ("zero_current", zero_current).
Proof. acts_tac zero_current. Qed.
Lemma d_sound_speed : does_as_listed ("sound_speed", sound_speed).
Proof. acts_tac sound_speed. Qed.
Lemma d_anomalous_diffusion : does_as_listed ("anomalous_diffusion", anomalous_diffusion).
Proof. acts_tac anomalous_diffusion. Qed.
Lemma d_classical_diffusion : does_as_listed ("classical_diffusion", classical_diffusion).
Proof. acts_tac classical_diffusion. Qed.
Lemma d_binormal_stpm : does_as_listed ("binormal_stpm", binormal_stpm).
Proof. acts_tac binormal_stpm. Qed.
Lemma d_neutral_parallel_diffusion : does_as_listed ("neutral_parallel_diffusion", neutral_parallel_diffusion).
Proof. acts_tac neutral_parallel_diffusion. Qed.
Lemma d_solkit_neutral_parallel_diffusion : does_as_listed ("solkit_neutral_parallel_diffusion", solkit_neutral_parallel_diffusion).
Proof. acts_tac solkit_neutral_parallel_diffusion. Qed.
Lemma d_upstream_density_feedback : does_as_listed ("upstream_density_feedback", upstream_density_feedback).
Proof. acts_tac upstream_density_feedback. Qed.
Lemma d_electron_force_balance : does_as_listed ("electron_force_balance", electron_force_balance).
Proof. acts_tac electron_force_balance. Qed.
Lemma d_ion_viscosity : does_as_listed ("ion_viscosity", ion_viscosity).
Proof. acts_tac ion_viscosity. Qed.
Lemma d_thermal_force : does_as_listed ("thermal_force", thermal_force).
Proof. acts_tac thermal_force. Qed.
Lemma d_noflow_boundary : does_as_listed ("noflow_boundary", noflow_boundary).
Proof. acts_tac noflow_boundary. Qed.
Lemma d_neutral_boundary : does_as_listed ("neutral_boundary", neutral_boundary).
Proof. acts_tac neutral_boundary. Qed.
Lemma d_sheath_closure : does_as_listed ("sheath_closure", sheath_closure).
Proof. acts_tac sheath_closure. Qed.
Lemma d_vorticity : does_as_listed ("vorticity", vorticity).
Proof. acts_tac vorticity. Qed.
Lemma d_relax_potential : does_as_listed ("relax_potential", relax_potential).
Proof. acts_tac relax_potential. Qed.
Lemma d_diamagnetic_drift : does_as_listed ("diamagnetic_drift", diamagnetic_drift).
Proof. acts_tac diamagnetic_drift. Qed.
Lemma d_polarisation_drift : does_as_listed ("polarisation_drift", polarisation_drift).
Proof. acts_tac polarisation_drift. Qed.
Lemma d_electromagnetic : does_as_listed ("electromagnetic", electromagnetic).
Proof. acts_tac electromagnetic. Qed.
