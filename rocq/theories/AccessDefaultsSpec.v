(** Vocabulary for property C108: options which may be left out, and what they then are. *)

From Coq Require Import List Bool String QArith.
From Verif Require Import AccessComponents.
Import ListNotations.
Open Scope string_scope.
Open Scope list_scope.

(** The options with one more setting. *)
Definition with_setting (c : cfg) (sec key : string) (v : cval) : cfg :=
  (sec, (key, v) :: match assoc sec c with Some l => l | None => [] end) :: c.

Definition off := CB false.
Definition on := CB true.

(** [defaults ty n s]: section, key and default of the optional settings of a component of
    type [ty] named [n] ([s]: the section of a species which takes part in recycling). *)
Definition defaults (ty n s : string) : list (string * string * cval) :=
  let own l := map (fun kv : string * cval => (n, fst kv, snd kv)) l in
  match assoc ty
    [("evolve_density",
      own [("low_n_diffuse", off); ("low_p_diffuse_perp", off); ("diagnose", off)]
      ++ [(("N" ++ n)%string, "source_time_dependent", off)]);
     ("evolve_pressure",
      own [("thermal_conduction", on); ("diagnose", off); ("numerical_viscous_heating", off)]
      ++ [(("P" ++ n)%string, "source_time_dependent", off)]);
     ("evolve_energy", own [("thermal_conduction", on); ("diagnose", off)]);
     ("evolve_momentum", own [("low_p_diffuse_perp", off); ("diagnose", off)]);
     ("neutral_mixed", own [("AA", CQ 1); ("evolve_momentum", on)]);
     ("sound_speed", own [("electron_dynamics", on)]);
     ("simple_conduction", own [("conduction_density", CQ (-1))]);
     ("classical_diffusion", own [("custom_D", CQ (-1))]);
     ("neutral_parallel_diffusion", own [("viscosity", on)]);
     ("ion_viscosity", own [("perpendicular", off)]);
     ("thermal_force", own [("electron_ion", on); ("ion_ion", on)]);
     ("collisions",
      own [("electron_electron", on); ("electron_ion", on); ("electron_neutral", off);
           ("ion_ion", on); ("ion_neutral", off); ("neutral_neutral", on);
           ("frictional_heating", on)]);
     ("sheath_boundary", own [("always_set_phi", off)]);
     ("sheath_boundary_simple", own [("always_set_phi", off)]);
     ("sheath_closure", own [("sinks", off)]);
     ("recycling",
      map (fun kv : string * cval => (s, fst kv, snd kv))
        [("target_recycle", off); ("sol_recycle", off); ("pfr_recycle", off);
         ("target_recycle_multiplier", CQ 1); ("sol_recycle_multiplier", CQ 1);
         ("pfr_recycle_multiplier", CQ 1); ("pump_recycle_multiplier", CQ 1);
         ("target_fast_recycle_fraction", CQ 0); ("sol_fast_recycle_fraction", CQ 0);
         ("pfr_fast_recycle_fraction", CQ 0)]);
     ("vorticity",
      own [("diamagnetic", on); ("diamagnetic_polarisation", on); ("sheath_boundary", off);
           ("collisional_friction", off); ("phi_boundary_relax", off);
           ("vort_dissipation", off); ("phi_dissipation", on)]);
     ("relax_potential",
      own [("diamagnetic", on); ("diamagnetic_polarisation", on); ("boussinesq", on)]);
     ("polarisation_drift",
      own [("boussinesq", on); ("advection", on); ("diamagnetic_polarisation", on)]);
     ("electromagnetic", own [("const_gradient", off); ("magnetic_flutter", off)]);
     ("h + d+ -> h+ + d", own [("no_neutral_cx_mom_gain", off)]);
     ("h + h+ -> h+ + h", own [("no_neutral_cx_mom_gain", off)]);
     ("h + t+ -> h+ + t", own [("no_neutral_cx_mom_gain", off)]);
     ("d + h+ -> d+ + h", own [("no_neutral_cx_mom_gain", off)]);
     ("d + d+ -> d+ + d", own [("no_neutral_cx_mom_gain", off)]);
     ("d + t+ -> d+ + t", own [("no_neutral_cx_mom_gain", off)]);
     ("t + h+ -> t+ + h", own [("no_neutral_cx_mom_gain", off)]);
     ("t + d+ -> t+ + d", own [("no_neutral_cx_mom_gain", off)]);
     ("t + t+ -> t+ + t", own [("no_neutral_cx_mom_gain", off)])]
  with
  | Some l => l
  | None => []
  end.

(** ** Settings which must be there *)

(** Section and key of settings without which there is no component. *)
Definition required (ty n : string) : list (string * string) :=
  let own l := map (fun k : string => (n, k)) l in
  match assoc ty
    [("evolve_density", own ["charge"; "AA"]);
     ("isothermal", own ["temperature"]);
     ("fixed_density", own ["charge"; "AA"; "density"]);
     ("fixed_temperature", own ["temperature"]);
     ("fixed_velocity", own ["velocity"]);
     ("set_temperature", own ["temperature_from"]);
     ("quasineutral", own ["charge"; "AA"]);
     ("zero_current", own ["charge"]);
     ("fixed_fraction_ions", own ["fractions"]);
     ("transform", own ["transforms"]);
     ("simple_pump", own ["residence_time"]);
     ("neutral_parallel_diffusion", own ["dneut"]);
     ("upstream_density_feedback", own ["density_upstream"]);
     ("temperature_feedback",
      own ["temperature_setpoint"; "species_for_temperature_feedback";
           "scaling_factors_for_temperature_feedback"]);
     ("detachment_controller",
      map (fun k => ("detachment_controller", k))
        ["neutral_species"; "actuator"; "species_list"; "scaling_factors_list"]);
     ("sheath_closure", own ["connection_length"]);
     ("recycling", own ["species"])]
  with
  | Some l => l
  | None => []
  end.
