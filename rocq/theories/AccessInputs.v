(** The input files of /repo which list components (all BOUT.inp files below examples and
    tests/integrated), transcribed mechanically: per section the options which the
    constructors modelled in AccessComponents.v look at.  Comments are removed, lines
    inside brackets are joined (as BOUT++'s OptionsReader does), white space in texts is
    reduced to one blank, quotes around a value are dropped; options read as text
    are kept as text, true/false are booleans, arithmetic on literals is
    evaluated to a rational, everything else is text.  performance/data/BOUT.inp has no
    list of components and is left out. *)

From Coq Require Import List String QArith.
From Verif Require Import AccessComponents.
Import ListNotations.
Open Scope string_scope.
Open Scope list_scope.

(** examples/1D-conduction/BOUT.inp *)
Definition inp_examples_1D_conduction : cfg :=
  [("hermes", [("components", CS "(d+, e, sheath_boundary, collisions)")]);
   ("d+", [("type", CS "(fixed_density, fixed_temperature)"); ("charge", CQ (1 # 1)); ("AA", CQ (2 # 1)); ("density", CQ (10000000000000000000 # 1)); ("temperature", CQ (10 # 1))]);
   ("e", [("type", CS "quasineutral, evolve_pressure"); ("charge", CQ (- (1 # 1))); ("AA", CQ (1 # 1836)); ("thermal_conduction", CB true)])].

(** examples/1D-hydrogen-equalT/BOUT.inp *)
Definition inp_examples_1D_hydrogen_equalT : cfg :=
  [("hermes", [("components", CS "(d+, d, e, equilibriate, sheath_boundary, collisions, recycling, reactions, electron_force_balance, neutral_parallel_diffusion, ion_viscosity)")]);
   ("neutral_parallel_diffusion", [("dneut", CQ (10 # 1))]);
   ("d+", [("type", CS "(evolve_density, evolve_momentum, noflow_boundary, upstream_density_feedback)"); ("charge", CQ (1 # 1)); ("AA", CQ (2 # 1)); ("density_upstream", CQ (8000000000000000000 # 1)); ("diagnose", CB true); ("recycle_as", CS "d"); ("target_recycle", CB true); ("target_recycle_multiplier", CQ (1 # 1))]);
   ("d", [("type", CS "(evolve_density, evolve_momentum, evolve_pressure, noflow_boundary)"); ("charge", CQ (0 # 1)); ("AA", CQ (2 # 1)); ("thermal_conduction", CB true)]);
   ("e", [("type", CS "quasineutral, zero_current, evolve_pressure, noflow_boundary"); ("charge", CQ (- (1 # 1))); ("AA", CQ (1 # 1836)); ("thermal_conduction", CB true)]);
   ("equilibriate", [("type", CS "transform"); ("transforms", CS "(species:d+:temperature = species:e:temperature)")]);
   ("recycling", [("species", CS "d+")]);
   ("reactions", [("type", CS "( d + e -> d+ + 2e, d+ + e -> d, d + d+ -> d+ + d, )")])].

(** examples/1D-hydrogen/BOUT.inp *)
Definition inp_examples_1D_hydrogen : cfg :=
  [("hermes", [("components", CS "(d+, d, e, sheath_boundary, collisions, recycling, reactions, electron_force_balance, neutral_parallel_diffusion, ion_viscosity)")]);
   ("neutral_parallel_diffusion", [("dneut", CQ (10 # 1))]);
   ("d+", [("type", CS "(evolve_density, evolve_pressure, evolve_momentum, noflow_boundary, upstream_density_feedback)"); ("charge", CQ (1 # 1)); ("AA", CQ (2 # 1)); ("density_upstream", CQ (8000000000000000000 # 1)); ("thermal_conduction", CB true); ("diagnose", CB true); ("recycle_as", CS "d"); ("target_recycle", CB true); ("target_recycle_multiplier", CQ (1 # 1))]);
   ("d", [("type", CS "(evolve_density, evolve_pressure, evolve_momentum, noflow_boundary)"); ("charge", CQ (0 # 1)); ("AA", CQ (2 # 1)); ("thermal_conduction", CB true)]);
   ("e", [("type", CS "quasineutral, zero_current, evolve_pressure, noflow_boundary"); ("charge", CQ (- (1 # 1))); ("AA", CQ (1 # 1836)); ("thermal_conduction", CB true)]);
   ("recycling", [("species", CS "d+")]);
   ("reactions", [("type", CS "( d + e -> d+ + 2e, d+ + e -> d, d + d+ -> d+ + d, )")])].

(** examples/1D-hydrogen/qn/BOUT.inp *)
Definition inp_examples_1D_hydrogen_qn : cfg :=
  [("hermes", [("components", CS "(d+, d, e, sheath_boundary, collisions, recycling, reactions, electron_force_balance, neutral_parallel_diffusion, ion_viscosity)")]);
   ("neutral_parallel_diffusion", [("dneut", CQ (10 # 1))]);
   ("d+", [("type", CS "(evolve_density, evolve_pressure, evolve_momentum, noflow_boundary, upstream_density_feedback)"); ("charge", CQ (1 # 1)); ("AA", CQ (2 # 1)); ("density_upstream", CQ (8000000000000000000 # 1)); ("thermal_conduction", CB true); ("diagnose", CB true); ("recycle_as", CS "d"); ("target_recycle", CB true); ("target_recycle_multiplier", CQ (1 # 1))]);
   ("d", [("type", CS "(evolve_density, evolve_pressure, evolve_momentum, noflow_boundary)"); ("charge", CQ (0 # 1)); ("AA", CQ (2 # 1)); ("thermal_conduction", CB true)]);
   ("e", [("type", CS "quasineutral, zero_current, evolve_pressure, noflow_boundary"); ("charge", CQ (- (1 # 1))); ("AA", CQ (1 # 1836)); ("thermal_conduction", CB true)]);
   ("recycling", [("species", CS "d+")]);
   ("reactions", [("type", CS "( d + e -> d+ + 2e, d + d+ -> d+ + d, )")])].

(** examples/1D-neon-source/BOUT.inp *)
Definition inp_examples_1D_neon_source : cfg :=
  [("hermes", [("components", CS "(d+, d, ne, ne+, ne+2, ne+3, ne+4, ne+5, ne+6, ne+7, ne+8, ne+9, ne+10, e, sheath_boundary, thermal_force, collisions, recycling, reactions, electron_force_balance, neutral_parallel_diffusion, ion_viscosity)")]);
   ("neutral_parallel_diffusion", [("dneut", CQ (10 # 1))]);
   ("d+", [("type", CS "(evolve_density, evolve_pressure, evolve_momentum, noflow_boundary, upstream_density_feedback)"); ("charge", CQ (1 # 1)); ("AA", CQ (2 # 1)); ("density_upstream", CQ (8000000000000000000 # 1)); ("thermal_conduction", CB true); ("diagnose", CB true); ("recycle_as", CS "d"); ("target_recycle", CB true); ("target_recycle_multiplier", CQ (1 # 1))]);
   ("d", [("type", CS "(evolve_density, evolve_pressure, evolve_momentum, noflow_boundary)"); ("charge", CQ (0 # 1)); ("AA", CQ (2 # 1)); ("thermal_conduction", CB true)]);
   ("ne", [("type", CS "(evolve_density, evolve_pressure, evolve_momentum, noflow_boundary)"); ("charge", CQ (0 # 1)); ("AA", CQ (20 # 1))]);
   ("ne+", [("type", CS "evolve_density, evolve_pressure, evolve_momentum, noflow_boundary"); ("charge", CQ (1 # 1)); ("AA", CQ (20 # 1)); ("recycle_as", CS "ne"); ("target_recycle", CB true); ("target_recycle_multiplier", CQ (99 # 100))]);
   ("ne+2", [("type", CS "evolve_density, evolve_pressure, evolve_momentum, noflow_boundary"); ("charge", CQ (2 # 1)); ("AA", CQ (20 # 1)); ("recycle_as", CS "ne"); ("target_recycle", CB true); ("target_recycle_multiplier", CQ (99 # 100))]);
   ("ne+3", [("type", CS "evolve_density, evolve_pressure, evolve_momentum, noflow_boundary"); ("charge", CQ (3 # 1)); ("AA", CQ (20 # 1)); ("recycle_as", CS "ne"); ("target_recycle", CB true); ("target_recycle_multiplier", CQ (99 # 100))]);
   ("ne+4", [("type", CS "evolve_density, evolve_pressure, evolve_momentum, noflow_boundary"); ("charge", CQ (4 # 1)); ("AA", CQ (20 # 1)); ("recycle_as", CS "ne"); ("target_recycle", CB true); ("target_recycle_multiplier", CQ (99 # 100)); ("diagnose", CB true)]);
   ("ne+5", [("type", CS "evolve_density, evolve_pressure, evolve_momentum, noflow_boundary"); ("charge", CQ (5 # 1)); ("AA", CQ (20 # 1)); ("recycle_as", CS "ne"); ("target_recycle", CB true); ("target_recycle_multiplier", CQ (99 # 100)); ("diagnose", CB true)]);
   ("ne+6", [("type", CS "evolve_density, evolve_pressure, evolve_momentum, noflow_boundary"); ("charge", CQ (6 # 1)); ("AA", CQ (20 # 1)); ("recycle_as", CS "ne"); ("target_recycle", CB true); ("target_recycle_multiplier", CQ (99 # 100)); ("diagnose", CB true)]);
   ("ne+7", [("type", CS "evolve_density, evolve_pressure, evolve_momentum, noflow_boundary"); ("charge", CQ (7 # 1)); ("AA", CQ (20 # 1)); ("recycle_as", CS "ne"); ("target_recycle", CB true); ("target_recycle_multiplier", CQ (99 # 100)); ("diagnose", CB true)]);
   ("ne+8", [("type", CS "evolve_density, evolve_pressure, evolve_momentum, noflow_boundary"); ("charge", CQ (8 # 1)); ("AA", CQ (20 # 1)); ("recycle_as", CS "ne"); ("target_recycle", CB true); ("target_recycle_multiplier", CQ (99 # 100)); ("diagnose", CB true)]);
   ("ne+9", [("type", CS "evolve_density, evolve_pressure, evolve_momentum, noflow_boundary"); ("charge", CQ (9 # 1)); ("AA", CQ (20 # 1)); ("recycle_as", CS "ne"); ("target_recycle", CB true); ("target_recycle_multiplier", CQ (99 # 100)); ("diagnose", CB true)]);
   ("ne+10", [("type", CS "evolve_density, evolve_pressure, evolve_momentum, noflow_boundary"); ("charge", CQ (10 # 1)); ("AA", CQ (20 # 1)); ("recycle_as", CS "ne"); ("target_recycle", CB true); ("target_recycle_multiplier", CQ (99 # 100)); ("diagnose", CB true)]);
   ("e", [("type", CS "quasineutral, zero_current, evolve_pressure, noflow_boundary"); ("charge", CQ (- (1 # 1))); ("AA", CQ (1 # 1836)); ("thermal_conduction", CB true)]);
   ("recycling", [("species", CS "d+, ne+, ne+2, ne+3, ne+4, ne+5, ne+6, ne+7, ne+8, ne+9, ne+10")]);
   ("reactions", [("type", CS "( d + e -> d+ + 2e, d+ + e -> d, d + d+ -> d+ + d, ne + e -> ne+ + 2e, ne+ + e -> ne, ne+ + d -> ne + d+, ne+ + e -> ne+2 + 2e, ne+2 + e -> ne+, ne+2 + d -> ne+ + d+, ne+2 + e -> ne+3 + 2e, ne+3 + e -> ne+2, ne+3 + d -> ne+2 + d+, ne+3 + e -> ne+4 + 2e, ne+4 + e -> ne+3, ne+4 + d -> ne+3 + d+, ne+4 + e -> ne+5 + 2e, ne+5 + e -> ne+4, ne+5 + d -> ne+4 + d+, ne+5 + e -> ne+6 + 2e, ne+6 + e -> ne+5, ne+6 + d -> ne+5 + d+, ne+6 + e -> ne+7 + 2e, ne+7 + e -> ne+6, ne+7 + d -> ne+6 + d+, ne+7 + e -> ne+8 + 2e, ne+8 + e -> ne+7, ne+8 + d -> ne+7 + d+, ne+8 + e -> ne+9 + 2e, ne+9 + e -> ne+8, ne+9 + d -> ne+8 + d+, ne+9 + e -> ne+10 + 2e, ne+10 + e -> ne+9, ne+10 + d -> ne+9 + d+, )")])].

(** examples/1D-neon/BOUT.inp *)
Definition inp_examples_1D_neon : cfg :=
  [("hermes", [("components", CS "(d+, d, ne, ne+, ne+2, ne+3, ne+4, ne+5, ne+6, ne+7, ne+8, ne+9, ne+10, e, sheath_boundary, thermal_force, collisions, recycling, reactions, electron_force_balance, neutral_parallel_diffusion, ion_viscosity)")]);
   ("neutral_parallel_diffusion", [("dneut", CQ (10 # 1))]);
   ("d+", [("type", CS "(evolve_density, evolve_pressure, evolve_momentum, noflow_boundary, upstream_density_feedback)"); ("charge", CQ (1 # 1)); ("AA", CQ (2 # 1)); ("density_upstream", CQ (8000000000000000000 # 1)); ("thermal_conduction", CB true); ("diagnose", CB true); ("recycle_as", CS "d"); ("target_recycle", CB true); ("target_recycle_multiplier", CQ (1 # 1))]);
   ("d", [("type", CS "(evolve_density, evolve_pressure, evolve_momentum, noflow_boundary)"); ("charge", CQ (0 # 1)); ("AA", CQ (2 # 1)); ("thermal_conduction", CB true)]);
   ("ne", [("type", CS "(evolve_density, evolve_pressure, evolve_momentum, noflow_boundary)"); ("charge", CQ (0 # 1)); ("AA", CQ (20 # 1))]);
   ("ne+", [("type", CS "evolve_density, evolve_pressure, evolve_momentum, noflow_boundary"); ("charge", CQ (1 # 1)); ("AA", CQ (20 # 1)); ("recycle_as", CS "ne"); ("target_recycle", CB true); ("target_recycle_multiplier", CQ (1 # 1))]);
   ("ne+2", [("type", CS "evolve_density, evolve_pressure, evolve_momentum, noflow_boundary"); ("charge", CQ (2 # 1)); ("AA", CQ (20 # 1)); ("recycle_as", CS "ne"); ("target_recycle", CB true); ("target_recycle_multiplier", CQ (1 # 1))]);
   ("ne+3", [("type", CS "evolve_density, evolve_pressure, evolve_momentum, noflow_boundary"); ("charge", CQ (3 # 1)); ("AA", CQ (20 # 1)); ("recycle_as", CS "ne"); ("target_recycle", CB true); ("target_recycle_multiplier", CQ (1 # 1))]);
   ("ne+4", [("type", CS "evolve_density, evolve_pressure, evolve_momentum, noflow_boundary"); ("charge", CQ (4 # 1)); ("AA", CQ (20 # 1)); ("recycle_as", CS "ne"); ("target_recycle", CB true); ("target_recycle_multiplier", CQ (1 # 1)); ("diagnose", CB true)]);
   ("ne+5", [("type", CS "evolve_density, evolve_pressure, evolve_momentum, noflow_boundary"); ("charge", CQ (5 # 1)); ("AA", CQ (20 # 1)); ("recycle_as", CS "ne"); ("target_recycle", CB true); ("target_recycle_multiplier", CQ (1 # 1)); ("diagnose", CB true)]);
   ("ne+6", [("type", CS "evolve_density, evolve_pressure, evolve_momentum, noflow_boundary"); ("charge", CQ (6 # 1)); ("AA", CQ (20 # 1)); ("recycle_as", CS "ne"); ("target_recycle", CB true); ("target_recycle_multiplier", CQ (1 # 1)); ("diagnose", CB true)]);
   ("ne+7", [("type", CS "evolve_density, evolve_pressure, evolve_momentum, noflow_boundary"); ("charge", CQ (7 # 1)); ("AA", CQ (20 # 1)); ("recycle_as", CS "ne"); ("target_recycle", CB true); ("target_recycle_multiplier", CQ (1 # 1)); ("diagnose", CB true)]);
   ("ne+8", [("type", CS "evolve_density, evolve_pressure, evolve_momentum, noflow_boundary"); ("charge", CQ (8 # 1)); ("AA", CQ (20 # 1)); ("recycle_as", CS "ne"); ("target_recycle", CB true); ("target_recycle_multiplier", CQ (1 # 1)); ("diagnose", CB true)]);
   ("ne+9", [("type", CS "evolve_density, evolve_pressure, evolve_momentum, noflow_boundary"); ("charge", CQ (9 # 1)); ("AA", CQ (20 # 1)); ("recycle_as", CS "ne"); ("target_recycle", CB true); ("target_recycle_multiplier", CQ (1 # 1)); ("diagnose", CB true)]);
   ("ne+10", [("type", CS "evolve_density, evolve_pressure, evolve_momentum, noflow_boundary"); ("charge", CQ (10 # 1)); ("AA", CQ (20 # 1)); ("recycle_as", CS "ne"); ("target_recycle", CB true); ("target_recycle_multiplier", CQ (1 # 1)); ("diagnose", CB true)]);
   ("e", [("type", CS "quasineutral, zero_current, evolve_pressure, noflow_boundary"); ("charge", CQ (- (1 # 1))); ("AA", CQ (1 # 1836)); ("thermal_conduction", CB true)]);
   ("recycling", [("species", CS "d+, ne+, ne+2, ne+3, ne+4, ne+5, ne+6, ne+7, ne+8, ne+9, ne+10")]);
   ("reactions", [("type", CS "( d + e -> d+ + 2e, d+ + e -> d, d + d+ -> d+ + d, ne + e -> ne+ + 2e, ne+ + e -> ne, ne+ + d -> ne + d+, ne+ + e -> ne+2 + 2e, ne+2 + e -> ne+, ne+2 + d -> ne+ + d+, ne+2 + e -> ne+3 + 2e, ne+3 + e -> ne+2, ne+3 + d -> ne+2 + d+, ne+3 + e -> ne+4 + 2e, ne+4 + e -> ne+3, ne+4 + d -> ne+3 + d+, ne+4 + e -> ne+5 + 2e, ne+5 + e -> ne+4, ne+5 + d -> ne+4 + d+, ne+5 + e -> ne+6 + 2e, ne+6 + e -> ne+5, ne+6 + d -> ne+5 + d+, ne+6 + e -> ne+7 + 2e, ne+7 + e -> ne+6, ne+7 + d -> ne+6 + d+, ne+7 + e -> ne+8 + 2e, ne+8 + e -> ne+7, ne+8 + d -> ne+7 + d+, ne+8 + e -> ne+9 + 2e, ne+9 + e -> ne+8, ne+9 + d -> ne+8 + d+, ne+9 + e -> ne+10 + 2e, ne+10 + e -> ne+9, ne+10 + d -> ne+9 + d+, )")])].

(** examples/1D-periodic/BOUT.inp *)
Definition inp_examples_1D_periodic : cfg :=
  [("hermes", [("components", CS "i")]);
   ("i", [("type", CS "evolve_density, evolve_pressure, evolve_momentum"); ("charge", CQ (1 # 1)); ("AA", CQ (1 # 1)); ("thermal_conduction", CB false)])].

(** examples/1D-recycling-with-Tt-control/BOUT.inp *)
Definition inp_examples_1D_recycling_with_Tt_control : cfg :=
  [("hermes", [("components", CS "(d+, d, e, sheath_boundary, collisions, recycling, reactions, electron_force_balance, neutral_parallel_diffusion)")]);
   ("neutral_parallel_diffusion", [("dneut", CQ (10 # 1))]);
   ("d+", [("type", CS "(evolve_density, evolve_pressure, evolve_momentum, noflow_boundary, upstream_density_feedback)"); ("charge", CQ (1 # 1)); ("AA", CQ (2 # 1)); ("density_upstream", CQ (10000000000000000000 # 1)); ("thermal_conduction", CB true); ("diagnose", CB true); ("recycle_as", CS "d"); ("target_recycle", CB true); ("target_recycle_multiplier", CQ (1 # 1))]);
   ("d", [("type", CS "(evolve_density, evolve_pressure, evolve_momentum, noflow_boundary)"); ("charge", CQ (0 # 1)); ("AA", CQ (2 # 1)); ("thermal_conduction", CB true); ("diagnose", CB true)]);
   ("e", [("type", CS "quasineutral, evolve_pressure, zero_current, noflow_boundary, temperature_feedback"); ("charge", CQ (- (1 # 1))); ("AA", CQ (1 # 1836)); ("temperature_setpoint", CQ (10 # 1)); ("species_for_temperature_feedback", CS "e, d+"); ("scaling_factors_for_temperature_feedback", CS "1.0, 1.0"); ("thermal_conduction", CB true); ("diagnose", CB true)]);
   ("recycling", [("species", CS "d+")]);
   ("reactions", [("type", CS "( d + e -> d+ + 2e, d+ + e -> d, d + d+ -> d+ + d, )")])].

(** examples/1D-recycling-with-detachment-control/BOUT.inp *)
Definition inp_examples_1D_recycling_with_detachment_control : cfg :=
  [("hermes", [("components", CS "(d+, d, e, fixed_fraction_nitrogen, detachment_controller, sheath_boundary, collisions, recycling, reactions, electron_force_balance, neutral_parallel_diffusion)")]);
   ("neutral_parallel_diffusion", [("dneut", CQ (10 # 1))]);
   ("e", [("type", CS "quasineutral, evolve_pressure, zero_current, noflow_boundary"); ("charge", CQ (- (1 # 1))); ("AA", CQ (1 # 1836)); ("thermal_conduction", CB true); ("diagnose", CB true)]);
   ("d+", [("type", CS "(evolve_density, evolve_pressure, evolve_momentum, noflow_boundary)"); ("charge", CQ (1 # 1)); ("AA", CQ (2 # 1)); ("thermal_conduction", CB true); ("diagnose", CB true); ("recycle_as", CS "d"); ("target_recycle", CB true); ("target_recycle_multiplier", CQ (99 # 100))]);
   ("d", [("type", CS "(evolve_density, evolve_pressure, evolve_momentum, noflow_boundary, simple_pump)"); ("charge", CQ (0 # 1)); ("AA", CQ (2 # 1)); ("thermal_conduction", CB true); ("diagnose", CB true); ("residence_time", CQ (1 # 10))]);
   ("detachment_controller", [("neutral_species", CS "d"); ("actuator", CS "particles"); ("species_list", CS "d+"); ("scaling_factors_list", CS "1.0"); ("diagnose", CB true)]);
   ("fixed_fraction_nitrogen", [("diagnose", CB true)]);
   ("recycling", [("species", CS "d+")]);
   ("reactions", [("type", CS "( d + e -> d+ + 2e, d+ + e -> d, d + d+ -> d+ + d, )")])].

(** examples/1D-recycling/BOUT.inp *)
Definition inp_examples_1D_recycling : cfg :=
  [("hermes", [("components", CS "(d+, d, e, sheath_boundary, collisions, recycling, reactions, electron_force_balance, neutral_parallel_diffusion)")]);
   ("neutral_parallel_diffusion", [("dneut", CQ (10 # 1))]);
   ("d+", [("type", CS "(evolve_density, evolve_pressure, evolve_momentum, noflow_boundary, upstream_density_feedback)"); ("charge", CQ (1 # 1)); ("AA", CQ (2 # 1)); ("density_upstream", CQ (10000000000000000000 # 1)); ("thermal_conduction", CB true); ("diagnose", CB true); ("recycle_as", CS "d"); ("target_recycle", CB true); ("target_recycle_multiplier", CQ (1 # 1))]);
   ("d", [("type", CS "(evolve_density, evolve_pressure, evolve_momentum, noflow_boundary)"); ("charge", CQ (0 # 1)); ("AA", CQ (2 # 1)); ("thermal_conduction", CB true); ("diagnose", CB true)]);
   ("e", [("type", CS "quasineutral, evolve_pressure, zero_current, noflow_boundary"); ("charge", CQ (- (1 # 1))); ("AA", CQ (1 # 1836)); ("thermal_conduction", CB true); ("diagnose", CB true)]);
   ("recycling", [("species", CS "d+")]);
   ("reactions", [("type", CS "( d + e -> d+ + 2e, d+ + e -> d, d + d+ -> d+ + d, )")])].

(** examples/1D-recycling/cvode/BOUT.inp *)
Definition inp_examples_1D_recycling_cvode : cfg :=
  [("hermes", [("components", CS "(d+, d, e, sheath_boundary, collisions, recycling, reactions, electron_force_balance, neutral_parallel_diffusion)")]);
   ("neutral_parallel_diffusion", [("dneut", CQ (10 # 1))]);
   ("d+", [("type", CS "(evolve_density, evolve_pressure, evolve_momentum, noflow_boundary, upstream_density_feedback)"); ("charge", CQ (1 # 1)); ("AA", CQ (2 # 1)); ("density_upstream", CQ (10000000000000000000 # 1)); ("thermal_conduction", CB true); ("diagnose", CB true); ("recycle_as", CS "d"); ("target_recycle", CB true); ("target_recycle_multiplier", CQ (1 # 1))]);
   ("d", [("type", CS "(evolve_density, evolve_pressure, evolve_momentum, noflow_boundary)"); ("charge", CQ (0 # 1)); ("AA", CQ (2 # 1)); ("thermal_conduction", CB true)]);
   ("e", [("type", CS "quasineutral, evolve_pressure, zero_current, noflow_boundary"); ("charge", CQ (- (1 # 1))); ("AA", CQ (1 # 1836)); ("thermal_conduction", CB true)]);
   ("recycling", [("species", CS "d+")]);
   ("reactions", [("type", CS "( d + e -> d+ + 2e, d+ + e -> d, d + d+ -> d+ + d, )")])].

(** examples/1D-sheath-conduction/BOUT.inp *)
Definition inp_examples_1D_sheath_conduction : cfg :=
  [("hermes", [("components", CS "i, e, sheath_boundary, collisions, electron_force_balance")]);
   ("i", [("type", CS "evolve_density, evolve_pressure, evolve_momentum, noflow_boundary"); ("charge", CQ (1 # 1)); ("AA", CQ (1 # 1)); ("thermal_conduction", CB true); ("diagnose", CB true)]);
   ("e", [("type", CS "quasineutral, evolve_pressure, zero_current, noflow_boundary"); ("charge", CQ (- (1 # 1))); ("AA", CQ (1 # 1836)); ("thermal_conduction", CB true)])].

(** examples/1D-sheath/BOUT.inp *)
Definition inp_examples_1D_sheath : cfg :=
  [("hermes", [("components", CS "i, e, sheath_boundary, electron_force_balance")]);
   ("i", [("type", CS "evolve_density, evolve_pressure, evolve_momentum, noflow_boundary"); ("charge", CQ (1 # 1)); ("AA", CQ (1 # 1)); ("thermal_conduction", CB false); ("diagnose", CB true)]);
   ("e", [("type", CS "quasineutral, evolve_pressure, zero_current, noflow_boundary"); ("charge", CQ (- (1 # 1))); ("AA", CQ (1 # 1836)); ("thermal_conduction", CB false)])].

(** examples/1D-te-ti/BOUT.inp *)
Definition inp_examples_1D_te_ti : cfg :=
  [("hermes", [("components", CS "i, e, electron_force_balance")]);
   ("i", [("type", CS "evolve_density, evolve_pressure, evolve_momentum"); ("charge", CQ (1 # 1)); ("AA", CQ (1 # 1)); ("thermal_conduction", CB false)]);
   ("e", [("type", CS "quasineutral, zero_current, evolve_pressure"); ("charge", CQ (- (1 # 1))); ("AA", CQ (1 # 1836)); ("thermal_conduction", CB false)])].

(** examples/2D-drift-plane-turbulence-te-ti/BOUT.inp *)
Definition inp_examples_2D_drift_plane_turbulence_te_ti : cfg :=
  [("hermes", [("components", CS "e, h+, vorticity, sheath_closure")]);
   ("e", [("type", CS "evolve_density, evolve_pressure"); ("charge", CQ (- (1 # 1))); ("AA", CQ (1 # 1836)); ("thermal_conduction", CB false)]);
   ("h+", [("type", CS "quasineutral, evolve_pressure"); ("charge", CQ (1 # 1)); ("AA", CQ (1 # 1)); ("thermal_conduction", CB false)]);
   ("vorticity", [("diamagnetic", CB true); ("diamagnetic_polarisation", CB true); ("phi_dissipation", CB false)]);
   ("sheath_closure", [("connection_length", CQ (50 # 1)); ("sinks", CB true)])].

(** examples/blob2d-te-ti/BOUT.inp *)
Definition inp_examples_blob2d_te_ti : cfg :=
  [("hermes", [("components", CS "e, h+, vorticity, sheath_closure")]);
   ("e", [("type", CS "evolve_density, evolve_pressure"); ("charge", CQ (- (1 # 1))); ("AA", CQ (1 # 1836)); ("thermal_conduction", CB false)]);
   ("h+", [("type", CS "quasineutral, evolve_pressure"); ("charge", CQ (1 # 1)); ("AA", CQ (1 # 1)); ("thermal_conduction", CB false)]);
   ("vorticity", [("diamagnetic", CB true); ("diamagnetic_polarisation", CB true); ("phi_dissipation", CB false)]);
   ("sheath_closure", [("connection_length", CQ (10 # 1))])].

(** examples/blob2d-te/BOUT.inp *)
Definition inp_examples_blob2d_te : cfg :=
  [("hermes", [("components", CS "e, vorticity, sheath_closure")]);
   ("e", [("type", CS "evolve_density, evolve_pressure"); ("charge", CQ (- (1 # 1))); ("AA", CQ (1 # 1836)); ("thermal_conduction", CB false)]);
   ("vorticity", [("diamagnetic", CB true); ("diamagnetic_polarisation", CB false); ("phi_dissipation", CB false)]);
   ("sheath_closure", [("connection_length", CQ (10 # 1))])].

(** examples/blob2d-vpol/BOUT.inp *)
Definition inp_examples_blob2d_vpol : cfg :=
  [("hermes", [("components", CS "e, vorticity, sheath_closure, polarisation_drift")]);
   ("polarisation_drift", [("diagnose", CB true)]);
   ("e", [("type", CS "evolve_density, isothermal"); ("charge", CQ (- (1 # 1))); ("AA", CQ (1 # 1836)); ("temperature", CQ (5 # 1))]);
   ("vorticity", [("diamagnetic", CB true); ("diamagnetic_polarisation", CB false); ("phi_dissipation", CB false)]);
   ("sheath_closure", [("connection_length", CQ (10 # 1))])].

(** examples/blob2d/BOUT.inp *)
Definition inp_examples_blob2d : cfg :=
  [("hermes", [("components", CS "e, vorticity, sheath_closure")]);
   ("e", [("type", CS "evolve_density, isothermal"); ("charge", CQ (- (1 # 1))); ("AA", CQ (1 # 1836)); ("temperature", CQ (5 # 1))]);
   ("vorticity", [("diamagnetic", CB true); ("diamagnetic_polarisation", CB false); ("phi_dissipation", CB false)]);
   ("sheath_closure", [("connection_length", CQ (10 # 1))])].

(** examples/equilibriate/BOUT.inp *)
Definition inp_examples_equilibriate : cfg :=
  [("hermes", [("components", CS "d+, e, collisions")]);
   ("d+", [("type", CS "fixed_density, evolve_pressure"); ("charge", CQ (1 # 1)); ("AA", CQ (2 # 1)); ("density", CQ (10000000000000000000 # 1)); ("thermal_conduction", CB false); ("diagnose", CB true)]);
   ("e", [("type", CS "quasineutral, evolve_pressure"); ("charge", CQ (- (1 # 1))); ("AA", CQ (1 # 1836)); ("thermal_conduction", CB false); ("diagnose", CB true)])].

(** examples/linear/annulus-isothermal-d-2/BOUT.inp *)
Definition inp_examples_linear_annulus_isothermal_d_2 : cfg :=
  [("hermes", [("components", CS "(e, d+, sound_speed, vorticity, sheath_boundary, collisions )")]);
   ("vorticity", [("diamagnetic", CB false); ("diamagnetic_polarisation", CB false); ("vort_dissipation", CB false); ("phi_dissipation", CB true); ("phi_boundary_relax", CB true)]);
   ("e", [("type", CS "evolve_density, evolve_momentum, isothermal"); ("AA", CQ (5 # 153)); ("charge", CQ (- (1 # 1))); ("temperature", CQ (5 # 1))]);
   ("d+", [("type", CS "quasineutral, evolve_momentum, isothermal"); ("AA", CQ (2 # 1)); ("charge", CQ (1 # 1)); ("temperature", CQ (1 # 10))])].

(** examples/linear/annulus-isothermal-d/BOUT.inp *)
Definition inp_examples_linear_annulus_isothermal_d : cfg :=
  [("hermes", [("components", CS "(e, d+, sound_speed, vorticity, sheath_boundary, collisions )")]);
   ("vorticity", [("diamagnetic", CB false); ("diamagnetic_polarisation", CB false); ("vort_dissipation", CB false); ("phi_dissipation", CB true); ("phi_boundary_relax", CB true)]);
   ("e", [("type", CS "evolve_density, evolve_momentum, isothermal"); ("AA", CQ (5 # 153)); ("charge", CQ (- (1 # 1))); ("temperature", CQ (5 # 1))]);
   ("d+", [("type", CS "quasineutral, evolve_momentum, isothermal"); ("AA", CQ (2 # 1)); ("charge", CQ (1 # 1)); ("temperature", CQ (1 # 10))])].

(** examples/linear/annulus-isothermal-he-emag/BOUT.inp *)
Definition inp_examples_linear_annulus_isothermal_he_emag : cfg :=
  [("hermes", [("components", CS "(e, he+, electromagnetic, sound_speed, vorticity, sheath_boundary, collisions )")]);
   ("vorticity", [("diamagnetic", CB false); ("diamagnetic_polarisation", CB false); ("vort_dissipation", CB false); ("phi_dissipation", CB true); ("phi_boundary_relax", CB true)]);
   ("e", [("type", CS "evolve_density, evolve_momentum, isothermal"); ("AA", CQ (5 # 153)); ("charge", CQ (- (1 # 1))); ("temperature", CQ (5 # 1))]);
   ("he+", [("type", CS "quasineutral, evolve_momentum, isothermal"); ("AA", CQ (4 # 1)); ("charge", CQ (1 # 1)); ("temperature", CQ (1 # 10))])].

(** examples/linear/annulus-isothermal-he/BOUT.inp *)
Definition inp_examples_linear_annulus_isothermal_he : cfg :=
  [("hermes", [("components", CS "(e, he+, sound_speed, vorticity, sheath_boundary, collisions )")]);
   ("vorticity", [("diamagnetic", CB false); ("diamagnetic_polarisation", CB false); ("vort_dissipation", CB false); ("phi_dissipation", CB true); ("phi_boundary_relax", CB true)]);
   ("e", [("type", CS "evolve_density, evolve_momentum, isothermal"); ("AA", CQ (5 # 153)); ("charge", CQ (- (1 # 1))); ("temperature", CQ (5 # 1))]);
   ("he+", [("type", CS "quasineutral, evolve_momentum, isothermal"); ("AA", CQ (4 # 1)); ("charge", CQ (1 # 1)); ("temperature", CQ (1 # 10))])].

(** examples/linear/annulus-te-he-fixedneutrals/BOUT.inp *)
Definition inp_examples_linear_annulus_te_he_fixedneutrals : cfg :=
  [("hermes", [("components", CS "(e, he+, he, sound_speed, vorticity, sheath_boundary, collisions, reactions, )")]);
   ("vorticity", [("diamagnetic", CB false); ("diamagnetic_polarisation", CB false); ("vort_dissipation", CB false); ("phi_dissipation", CB true); ("phi_boundary_relax", CB true)]);
   ("e", [("type", CS "evolve_density, evolve_momentum, evolve_pressure"); ("AA", CQ (1 # 1836)); ("charge", CQ (- (1 # 1))); ("diagnose", CB true)]);
   ("he+", [("type", CS "quasineutral, evolve_momentum, isothermal"); ("AA", CQ (4 # 1)); ("charge", CQ (1 # 1)); ("temperature", CQ (1 # 10))]);
   ("he", [("type", CS "fixed_density, fixed_velocity, isothermal"); ("AA", CQ (4 # 1)); ("charge", CQ (0 # 1)); ("density", CQ (4800000000000000000 # 1)); ("velocity", CQ (0 # 1)); ("temperature", CQ (1 # 10))]);
   ("reactions", [("type", CS "( he + e -> he+ + 2e, he+ + e -> he, )")])].

(** examples/solkit-comparison/single-temperature/BOUT.inp *)
Definition inp_examples_solkit_comparison_single_temperature : cfg :=
  [("hermes", [("components", CS "(d+, d, e, equilibriate, sheath_boundary_simple, collisions, recycling, reactions, electron_force_balance, solkit_neutral_parallel_diffusion)")]);
   ("collisions", [("electron_electron", CB false); ("electron_ion", CB true); ("electron_neutral", CB false); ("ion_ion", CB false); ("ion_neutral", CB false); ("neutral_neutral", CB false)]);
   ("d+", [("type", CS "(evolve_density, evolve_momentum, noflow_boundary)"); ("charge", CQ (1 # 1)); ("AA", CQ (2 # 1)); ("diagnose", CB true); ("recycle_as", CS "d"); ("target_recycle", CB true); ("target_recycle_multiplier", CQ (1 # 1))]);
   ("d", [("type", CS "(evolve_density, fixed_velocity, isothermal)"); ("charge", CQ (0 # 1)); ("AA", CQ (2 # 1)); ("velocity", CQ (0 # 1)); ("temperature", CQ (0 # 1))]);
   ("e", [("type", CS "quasineutral, zero_current, evolve_pressure, noflow_boundary"); ("charge", CQ (- (1 # 1))); ("AA", CQ (1 # 1836)); ("thermal_conduction", CB true)]);
   ("equilibriate", [("type", CS "transform"); ("transforms", CS "(species:d+:temperature = species:e:temperature)")]);
   ("recycling", [("species", CS "d+")]);
   ("reactions", [("type", CS "( d + e -> d+ + 2e, d+ + e -> d, solkit d + d+ -> d+ + d, )")])].

(** examples/solkit-comparison/two-temperatures/BOUT.inp *)
Definition inp_examples_solkit_comparison_two_temperatures : cfg :=
  [("hermes", [("components", CS "(d+, d, e, sheath_boundary_simple, collisions, recycling, reactions, electron_force_balance, solkit_neutral_parallel_diffusion)")]);
   ("collisions", [("electron_electron", CB false); ("electron_ion", CB true); ("electron_neutral", CB false); ("ion_ion", CB true); ("ion_neutral", CB false); ("neutral_neutral", CB false)]);
   ("d+", [("type", CS "(evolve_density, evolve_momentum, evolve_pressure, noflow_boundary)"); ("charge", CQ (1 # 1)); ("AA", CQ (2 # 1)); ("diagnose", CB true); ("recycle_as", CS "d"); ("target_recycle", CB true); ("target_recycle_multiplier", CQ (1 # 1))]);
   ("d", [("type", CS "(evolve_density, fixed_velocity, isothermal)"); ("charge", CQ (0 # 1)); ("AA", CQ (2 # 1)); ("velocity", CQ (0 # 1)); ("temperature", CQ (0 # 1))]);
   ("e", [("type", CS "quasineutral, zero_current, evolve_pressure, noflow_boundary"); ("charge", CQ (- (1 # 1))); ("AA", CQ (1 # 1836)); ("thermal_conduction", CB true)]);
   ("recycling", [("species", CS "d+")]);
   ("reactions", [("type", CS "( d + e -> d+ + 2e, d+ + e -> d, solkit d + d+ -> d+ + d, )")])].

(** examples/stellarator-2pt-model/BOUT.inp *)
Definition inp_examples_stellarator_2pt_model : cfg :=
  [("hermes", [("components", CS "i, e, sheath_boundary, collisions, binormal_stpm, electron_force_balance")]);
   ("i", [("type", CS "evolve_density, evolve_pressure, evolve_momentum, noflow_boundary"); ("charge", CQ (1 # 1)); ("AA", CQ (1 # 1)); ("thermal_conduction", CB true); ("diagnose", CB true)]);
   ("e", [("type", CS "quasineutral, evolve_pressure, zero_current, evolve_momentum, noflow_boundary"); ("charge", CQ (- (1 # 1))); ("AA", CQ (1 # 1836)); ("thermal_conduction", CB true)])].

(** examples/tcv-x21/data/BOUT.inp *)
Definition inp_examples_tcv_x21_data : cfg :=
  [("hermes", [("components", CS "(e, i, sound_speed, vorticity, sheath_boundary, collisions, diamagnetic_drift, classical_diffusion, ion_viscosity, polarisation_drift )")]);
   ("polarisation_drift", [("advection", CB false); ("diamagnetic_polarisation", CB true)]);
   ("ion_viscosity", [("perpendicular", CB true); ("diagnose", CB true)]);
   ("vorticity", [("diamagnetic", CB true); ("diamagnetic_polarisation", CB true); ("vort_dissipation", CB false); ("phi_dissipation", CB true); ("phi_boundary_relax", CB true)]);
   ("e", [("type", CS "evolve_density, evolve_pressure, evolve_momentum"); ("AA", CQ (1 # 1836)); ("charge", CQ (- (1 # 1))); ("diagnose", CB true)]);
   ("i", [("type", CS "quasineutral, evolve_pressure, evolve_momentum"); ("AA", CQ (2 # 1)); ("charge", CQ (1 # 1))])].

(** examples/tokamak/diffusion-conduction/BOUT.inp *)
Definition inp_examples_tokamak_diffusion_conduction : cfg :=
  [("hermes", [("components", CS "h+, e, collisions, sheath_boundary")]);
   ("h+", [("type", CS "evolve_density, evolve_pressure, anomalous_diffusion"); ("AA", CQ (1 # 1)); ("charge", CQ (1 # 1)); ("anomalous_D", CQ (2 # 1)); ("anomalous_chi", CQ (1 # 1)); ("thermal_conduction", CB true); ("diagnose", CB true)]);
   ("e", [("type", CS "quasineutral, evolve_pressure, anomalous_diffusion"); ("AA", CQ (1 # 1836)); ("charge", CQ (- (1 # 1))); ("anomalous_D", CS "`h+`:anomalous_D"); ("anomalous_chi", CQ (1 # 10)); ("thermal_conduction", CB true); ("diagnose", CB true)])].

(** examples/tokamak/diffusion-flow-evolveT/BOUT.inp *)
Definition inp_examples_tokamak_diffusion_flow_evolveT : cfg :=
  [("hermes", [("components", CS "h")]);
   ("h", [("type", CS "evolve_density, evolve_momentum, evolve_pressure, anomalous_diffusion"); ("AA", CQ (1 # 1)); ("charge", CQ (1 # 1)); ("anomalous_D", CQ (2 # 1)); ("anomalous_chi", CQ (1 # 1)); ("thermal_conduction", CB false)])].

(** examples/tokamak/diffusion-transport/BOUT.inp *)
Definition inp_examples_tokamak_diffusion_transport : cfg :=
  [("hermes", [("components", CS "h+, e, collisions, sheath_boundary, electron_force_balance")]);
   ("h+", [("type", CS "evolve_density, evolve_momentum, evolve_pressure, anomalous_diffusion"); ("AA", CQ (1 # 1)); ("charge", CQ (1 # 1)); ("anomalous_D", CQ (2 # 1)); ("anomalous_chi", CQ (1 # 1)); ("thermal_conduction", CB true)]);
   ("e", [("type", CS "quasineutral, evolve_pressure, zero_current, anomalous_diffusion"); ("AA", CQ (1 # 1836)); ("charge", CQ (- (1 # 1))); ("anomalous_D", CS "`h+`:anomalous_D"); ("anomalous_chi", CQ (1 # 10)); ("thermal_conduction", CB true); ("diagnose", CB true)])].

(** examples/tokamak/diffusion/BOUT.inp *)
Definition inp_examples_tokamak_diffusion : cfg :=
  [("hermes", [("components", CS "h")]);
   ("h", [("type", CS "evolve_density, anomalous_diffusion"); ("AA", CQ (1 # 1)); ("charge", CQ (1 # 1)); ("anomalous_D", CQ (2 # 1))])].

(** examples/tokamak/heat-transport/BOUT.inp *)
Definition inp_examples_tokamak_heat_transport : cfg :=
  [("hermes", [("components", CS "e, h+, collisions, sheath_boundary_simple")]);
   ("collisions", [("electron_electron", CB true); ("electron_ion", CB true)]);
   ("e", [("type", CS "fixed_density, evolve_pressure, anomalous_diffusion"); ("AA", CQ (1 # 1836)); ("charge", CQ (- (1 # 1))); ("density", CQ (1000000000000000000 # 1)); ("thermal_conduction", CB true); ("diagnose", CB true); ("anomalous_chi", CQ (1 # 10))]);
   ("h+", [("type", CS "quasineutral, set_temperature"); ("AA", CQ (1 # 1)); ("charge", CQ (1 # 1)); ("temperature_from", CS "e")])].

(** examples/tokamak/isothermal/BOUT.inp *)
Definition inp_examples_tokamak_isothermal : cfg :=
  [("hermes", [("components", CS "(e, i, sound_speed, vorticity, sheath_boundary, collisions, diamagnetic_drift )")]);
   ("vorticity", [("diamagnetic", CB true); ("diamagnetic_polarisation", CB true); ("vort_dissipation", CB false); ("phi_dissipation", CB true); ("phi_boundary_relax", CB true)]);
   ("e", [("type", CS "evolve_density, evolve_momentum, isothermal"); ("AA", CQ (5 # 153)); ("charge", CQ (- (1 # 1))); ("temperature", CQ (20 # 1))]);
   ("i", [("type", CS "quasineutral, evolve_momentum, isothermal"); ("AA", CQ (2 # 1)); ("charge", CQ (1 # 1)); ("temperature", CQ (20 # 1))])].

(** examples/tokamak/linear-transport/BOUT.inp *)
Definition inp_examples_tokamak_linear_transport : cfg :=
  [("hermes", [("components", CS "e")]);
   ("e", [("type", CS "fixed_density, evolve_pressure, anomalous_diffusion, simple_conduction"); ("AA", CQ (1 # 1836)); ("charge", CQ (- (1 # 1))); ("density", CQ (100000000000000000000 # 1)); ("thermal_conduction", CB false); ("diagnose", CB true); ("anomalous_chi", CQ (12 # 5))])].

(** examples/tokamak/recycling-dthe-drifts/BOUT.inp *)
Definition inp_examples_tokamak_recycling_dthe_drifts : cfg :=
  [("hermes", [("components", CS "(d+, d, t+, t, he+, he, e, relax_potential, sheath_boundary, collisions, thermal_force, recycling, reactions, ion_viscosity, diamagnetic_drift)")]);
   ("relax_potential", [("boussinesq", CB false); ("diamagnetic_polarisation", CB true); ("diamagnetic", CB true)]);
   ("d+", [("type", CS "evolve_density, evolve_momentum, evolve_pressure, anomalous_diffusion"); ("AA", CQ (2 # 1)); ("charge", CQ (1 # 1)); ("anomalous_D", CQ (2 # 1)); ("anomalous_chi", CQ (1 # 1)); ("thermal_conduction", CB true); ("recycle_as", CS "d"); ("target_recycle", CB true); ("target_recycle_multiplier", CQ (99 # 100))]);
   ("d", [("type", CS "neutral_mixed"); ("AA", CQ (2 # 1))]);
   ("t+", [("type", CS "evolve_density, evolve_momentum, evolve_pressure, anomalous_diffusion"); ("AA", CQ (3 # 1)); ("charge", CQ (1 # 1)); ("anomalous_D", CQ (2 # 1)); ("anomalous_chi", CQ (1 # 1)); ("thermal_conduction", CB true); ("recycle_as", CS "t"); ("target_recycle", CB true); ("target_recycle_multiplier", CQ (99 # 100))]);
   ("t", [("type", CS "neutral_mixed"); ("AA", CQ (3 # 1))]);
   ("he+", [("type", CS "evolve_density, evolve_momentum, evolve_pressure, anomalous_diffusion"); ("AA", CQ (4 # 1)); ("charge", CQ (1 # 1)); ("anomalous_D", CQ (2 # 1)); ("anomalous_chi", CQ (1 # 1)); ("thermal_conduction", CB true); ("recycle_as", CS "he"); ("target_recycle", CB true); ("target_recycle_multiplier", CQ (99 # 100))]);
   ("he", [("type", CS "neutral_mixed"); ("AA", CQ (4 # 1))]);
   ("e", [("type", CS "quasineutral, evolve_momentum, evolve_pressure, anomalous_diffusion"); ("AA", CQ (5 # 153)); ("charge", CQ (- (1 # 1))); ("anomalous_D", CS "`d+`:anomalous_D"); ("anomalous_chi", CQ (1 # 10)); ("thermal_conduction", CB true)]);
   ("recycling", [("species", CS "d+, t+, he+")]);
   ("reactions", [("type", CS "( d + e -> d+ + 2e, t + e -> t+ + 2e, he + e -> he+ + 2e, he+ + e -> he, )")])].

(** examples/tokamak/recycling-dthe/BOUT.inp *)
Definition inp_examples_tokamak_recycling_dthe : cfg :=
  [("hermes", [("components", CS "(d+, d, t+, t, he+, he, e, sheath_boundary, collisions, thermal_force, recycling, reactions, electron_force_balance, ion_viscosity)")]);
   ("d+", [("type", CS "evolve_density, evolve_momentum, evolve_pressure, anomalous_diffusion"); ("AA", CQ (2 # 1)); ("charge", CQ (1 # 1)); ("anomalous_D", CQ (1 # 2)); ("anomalous_chi", CQ (1 # 1)); ("thermal_conduction", CB true); ("recycle_as", CS "d"); ("target_recycle", CB true); ("target_recycle_multiplier", CQ (99 # 100))]);
   ("d", [("type", CS "neutral_mixed"); ("AA", CQ (2 # 1))]);
   ("t+", [("type", CS "evolve_density, evolve_momentum, evolve_pressure, anomalous_diffusion"); ("AA", CQ (3 # 1)); ("charge", CQ (1 # 1)); ("anomalous_D", CQ (1 # 2)); ("anomalous_chi", CQ (1 # 1)); ("thermal_conduction", CB true); ("recycle_as", CS "t"); ("target_recycle", CB true); ("target_recycle_multiplier", CQ (99 # 100))]);
   ("t", [("type", CS "neutral_mixed"); ("AA", CQ (3 # 1))]);
   ("he+", [("type", CS "evolve_density, evolve_momentum, evolve_pressure, anomalous_diffusion"); ("AA", CQ (4 # 1)); ("charge", CQ (1 # 1)); ("anomalous_D", CQ (1 # 2)); ("anomalous_chi", CQ (1 # 1)); ("thermal_conduction", CB true); ("recycle_as", CS "he"); ("target_recycle", CB true); ("target_recycle_multiplier", CQ (99 # 100)); ("diagnose", CB true)]);
   ("he", [("type", CS "neutral_mixed"); ("AA", CQ (4 # 1))]);
   ("e", [("type", CS "quasineutral, evolve_pressure, zero_current, anomalous_diffusion"); ("AA", CQ (1 # 1836)); ("charge", CQ (- (1 # 1))); ("anomalous_D", CS "`d+`:anomalous_D"); ("anomalous_chi", CQ (1 # 1)); ("thermal_conduction", CB true)]);
   ("recycling", [("species", CS "d+, t+, he+")]);
   ("reactions", [("type", CS "( d + e -> d+ + 2e, d+ + e -> d, d + d+ -> d+ + d, t + e -> t+ + 2e, t+ + e -> t, t + t+ -> t+ + t, d + t+ -> d+ + t, t + d+ -> t+ + d, he + e -> he+ + 2e, he+ + e -> he, )")])].

(** examples/tokamak/recycling-dthene/BOUT.inp *)
Definition inp_examples_tokamak_recycling_dthene : cfg :=
  [("hermes", [("components", CS "d+, d, t+, t, he+, he, ne+, ne, e, collisions, sheath_boundary, recycling, reactions")]);
   ("d+", [("type", CS "evolve_density, evolve_momentum, evolve_pressure, anomalous_diffusion"); ("AA", CQ (2 # 1)); ("charge", CQ (1 # 1)); ("anomalous_D", CQ (2 # 1)); ("anomalous_chi", CQ (1 # 1)); ("thermal_conduction", CB true); ("recycle_as", CS "d"); ("target_recycle", CB true); ("target_recycle_multiplier", CQ (99 # 100))]);
   ("d", [("type", CS "neutral_mixed"); ("AA", CQ (2 # 1))]);
   ("t+", [("type", CS "evolve_density, evolve_momentum, evolve_pressure, anomalous_diffusion"); ("AA", CQ (3 # 1)); ("charge", CQ (1 # 1)); ("anomalous_D", CQ (2 # 1)); ("anomalous_chi", CQ (1 # 1)); ("thermal_conduction", CB true); ("recycle_as", CS "t"); ("target_recycle", CB true); ("target_recycle_multiplier", CQ (99 # 100))]);
   ("t", [("type", CS "neutral_mixed"); ("AA", CQ (3 # 1))]);
   ("he+", [("type", CS "evolve_density, evolve_momentum, evolve_pressure, anomalous_diffusion"); ("AA", CQ (4 # 1)); ("charge", CQ (1 # 1)); ("anomalous_D", CQ (2 # 1)); ("anomalous_chi", CQ (1 # 1)); ("thermal_conduction", CB true); ("recycle_as", CS "he"); ("target_recycle", CB true); ("target_recycle_multiplier", CQ (99 # 100))]);
   ("he", [("type", CS "neutral_mixed"); ("AA", CQ (4 # 1))]);
   ("ne+", [("type", CS "evolve_density, evolve_momentum, evolve_pressure, anomalous_diffusion"); ("AA", CQ (20 # 1)); ("charge", CQ (1 # 1)); ("anomalous_D", CQ (2 # 1)); ("anomalous_chi", CQ (1 # 1)); ("thermal_conduction", CB true); ("recycle_as", CS "ne"); ("target_recycle", CB true); ("target_recycle_multiplier", CQ (99 # 100))]);
   ("ne", [("type", CS "neutral_mixed"); ("AA", CQ (20 # 1))]);
   ("e", [("type", CS "quasineutral, evolve_pressure, zero_current, anomalous_diffusion"); ("AA", CQ (1 # 1836)); ("charge", CQ (- (1 # 1))); ("anomalous_D", CS "`d+`:anomalous_D"); ("anomalous_chi", CQ (1 # 10)); ("thermal_conduction", CB true)]);
   ("recycling", [("species", CS "d+, t+, he+, ne+")]);
   ("reactions", [("type", CS "( d + e -> d+ + 2e, t + e -> t+ + 2e, he + e -> he+ + 2e, he+ + e -> he, ne + e -> ne+ + 2e, ne+ + e -> ne, )")])].

(** examples/tokamak/recycling/BOUT.inp *)
Definition inp_examples_tokamak_recycling : cfg :=
  [("hermes", [("components", CS "(d+, d, e, collisions, sheath_boundary_simple, recycling, sound_speed, reactions, electron_force_balance)")]);
   ("sound_speed", [("electron_dynamics", CB false)]);
   ("d+", [("type", CS "evolve_density, evolve_momentum, evolve_pressure, anomalous_diffusion"); ("AA", CQ (2 # 1)); ("charge", CQ (1 # 1)); ("anomalous_D", CQ (3 # 20)); ("anomalous_chi", CQ (4 # 1)); ("thermal_conduction", CB true); ("recycle_as", CS "d"); ("target_recycle", CB true); ("target_recycle_multiplier", CQ (99 # 100)); ("diagnose", CB true)]);
   ("d", [("type", CS "neutral_mixed"); ("AA", CQ (2 # 1)); ("diagnose", CB true)]);
   ("e", [("type", CS "quasineutral, evolve_pressure, zero_current, anomalous_diffusion"); ("AA", CQ (1 # 1836)); ("charge", CQ (- (1 # 1))); ("anomalous_D", CQ (3 # 20)); ("anomalous_chi", CQ (4 # 1)); ("thermal_conduction", CB true); ("diagnose", CB true)]);
   ("recycling", [("species", CS "d+")]);
   ("reactions", [("type", CS "(d + e -> d+ + 2e, d + d+ -> d+ + d, d+ + e -> d)"); ("diagnose", CB true)])].

(** examples/tokamak/turbulence/BOUT.inp *)
Definition inp_examples_tokamak_turbulence : cfg :=
  [("hermes", [("components", CS "(e, d+, sound_speed, vorticity, sheath_boundary, collisions, diamagnetic_drift, classical_diffusion, polarisation_drift )")]);
   ("polarisation_drift", [("advection", CB false); ("diamagnetic_polarisation", CB true)]);
   ("vorticity", [("diamagnetic", CB true); ("diamagnetic_polarisation", CB true); ("phi_dissipation", CB true); ("phi_boundary_relax", CB true)]);
   ("e", [("type", CS "evolve_density, evolve_pressure, evolve_momentum"); ("AA", CQ (1 # 1836)); ("charge", CQ (- (1 # 1))); ("diagnose", CB true)]);
   ("d+", [("type", CS "quasineutral, evolve_pressure, evolve_momentum"); ("AA", CQ (2 # 1)); ("charge", CQ (1 # 1))])].

(** tests/integrated/1D-fluid/data/BOUT.inp *)
Definition inp_tests_integrated_1D_fluid_data : cfg :=
  [("hermes", [("components", CS "i")]);
   ("i", [("type", CS "evolve_density, evolve_pressure, evolve_momentum"); ("charge", CQ (1 # 1)); ("AA", CQ (2 # 1)); ("thermal_conduction", CB false)])].

(** tests/integrated/1D-recycling/data/BOUT.inp *)
Definition inp_tests_integrated_1D_recycling_data : cfg :=
  [("hermes", [("components", CS "(d+, d, e, sheath_boundary, collisions, recycling, reactions, electron_force_balance, neutral_parallel_diffusion)")]);
   ("neutral_parallel_diffusion", [("dneut", CQ (10 # 1))]);
   ("d+", [("type", CS "(evolve_density, evolve_pressure, evolve_momentum, noflow_boundary, upstream_density_feedback)"); ("charge", CQ (1 # 1)); ("AA", CQ (2 # 1)); ("density_upstream", CQ (10000000000000000000 # 1)); ("thermal_conduction", CB true); ("diagnose", CB true); ("recycle_as", CS "d"); ("target_recycle", CB true); ("target_recycle_multiplier", CQ (1 # 1))]);
   ("d", [("type", CS "(evolve_density, evolve_pressure, evolve_momentum, noflow_boundary)"); ("charge", CQ (0 # 1)); ("AA", CQ (2 # 1)); ("thermal_conduction", CB true); ("diagnose", CB true)]);
   ("e", [("type", CS "quasineutral, evolve_pressure, zero_current, noflow_boundary"); ("charge", CQ (- (1 # 1))); ("AA", CQ (1 # 1836)); ("thermal_conduction", CB true); ("diagnose", CB true)]);
   ("recycling", [("species", CS "d+")]);
   ("reactions", [("type", CS "( d + e -> d+ + 2e, d+ + e -> d, d + d+ -> d+ + d, )")])].

(** tests/integrated/alfven-wave/data/BOUT.inp *)
Definition inp_tests_integrated_alfven_wave_data : cfg :=
  [("hermes", [("components", CS "i, e, electromagnetic, vorticity, sound_speed")]);
   ("electromagnetic", [("diagnose", CB true)]);
   ("vorticity", [("diamagnetic", CB false); ("diamagnetic_polarisation", CB false)]);
   ("i", [("type", CS "fixed_density, fixed_velocity, fixed_temperature"); ("charge", CQ (1 # 1)); ("AA", CQ (1 # 1)); ("density", CQ (10000000000000000000 # 1)); ("velocity", CQ (0 # 1)); ("temperature", CQ (100 # 1))]);
   ("e", [("type", CS "quasineutral, evolve_momentum, fixed_temperature"); ("charge", CQ (- (1 # 1))); ("AA", CQ (1 # 1836)); ("temperature", CQ (100 # 1))])].

(** tests/integrated/diffusion/data/BOUT.inp *)
Definition inp_tests_integrated_diffusion_data : cfg :=
  [("hermes", [("components", CS "h")]);
   ("h", [("type", CS "evolve_density, evolve_pressure, anomalous_diffusion"); ("AA", CQ (1 # 1)); ("charge", CQ (1 # 1)); ("anomalous_D", CQ (2 # 1)); ("thermal_conduction", CB false)])].

(** tests/integrated/drift-wave/data/BOUT.inp *)
Definition inp_tests_integrated_drift_wave_data : cfg :=
  [("hermes", [("components", CS "i, e, vorticity, sound_speed, collisions")]);
   ("vorticity", [("diamagnetic", CB false); ("diamagnetic_polarisation", CB false)]);
   ("i", [("type", CS "evolve_density, fixed_velocity, fixed_temperature"); ("charge", CQ (1 # 1)); ("AA", CQ (1 # 1)); ("velocity", CQ (0 # 1)); ("temperature", CQ (100 # 1))]);
   ("e", [("type", CS "quasineutral, evolve_momentum, fixed_temperature"); ("charge", CQ (- (1 # 1))); ("AA", CQ (1 # 1836)); ("temperature", CQ (100 # 1))])].

(** tests/integrated/evolve_density/data/BOUT.inp *)
Definition inp_tests_integrated_evolve_density_data : cfg :=
  [("hermes", [("components", CS "e")]);
   ("e", [("type", CS "evolve_density"); ("charge", CQ (- (1 # 1))); ("AA", CQ (1 # 1836))])].

(** tests/integrated/neutral_mixed/data/BOUT.inp *)
Definition inp_tests_integrated_neutral_mixed_data : cfg :=
  [("hermes", [("components", CS "h")]);
   ("h", [("type", CS "neutral_mixed")])].

(** tests/integrated/neutral_parallel_diffusion/data/BOUT.inp *)
Definition inp_tests_integrated_neutral_parallel_diffusion_data : cfg :=
  [("hermes", [("components", CS "d, he, d+, collisions, neutral_parallel_diffusion")]);
   ("neutral_parallel_diffusion", [("diagnose", CB true); ("dneut", CQ (1 # 1))]);
   ("d", [("type", CS "evolve_density, fixed_temperature, fixed_velocity"); ("charge", CQ (0 # 1)); ("AA", CQ (2 # 1)); ("temperature", CS "1 + 0.5 * sin(y)"); ("velocity", CS "100 + 10 * sin(2y)")]);
   ("he", [("type", CS "fixed_density, fixed_temperature, fixed_velocity"); ("charge", CQ (0 # 1)); ("AA", CQ (4 # 1)); ("density", CQ (1000000000000000000 # 1)); ("temperature", CQ (1 # 1)); ("velocity", CQ (100 # 1))]);
   ("d+", [("type", CS "fixed_density, fixed_temperature, fixed_velocity"); ("charge", CQ (1 # 1)); ("AA", CQ (2 # 1)); ("density", CQ (1000000000000000000 # 1)); ("temperature", CQ (1 # 1)); ("velocity", CQ (100 # 1))])].

(** tests/integrated/snb/nonuniform/BOUT.inp *)
Definition inp_tests_integrated_snb_nonuniform : cfg :=
  [("hermes", [("components", CS "e, d, snb_conduction")]);
   ("snb_conduction", [("diagnose", CB true)]);
   ("e", [("type", CS "fixed_density, fixed_velocity, evolve_pressure"); ("AA", CQ (1 # 1836)); ("charge", CQ (- (1 # 1))); ("density", CQ (10000000000000000000 # 1)); ("velocity", CQ (0 # 1)); ("thermal_conduction", CB false)]);
   ("d", [("type", CS "fixed_density, fixed_velocity, fixed_temperature"); ("AA", CQ (2 # 1)); ("charge", CQ (1 # 1)); ("density", CQ (10000000000000000000 # 1)); ("velocity", CQ (0 # 1)); ("temperature", CQ (10 # 1))])].

(** tests/integrated/snb/nonuniform_area/BOUT.inp *)
Definition inp_tests_integrated_snb_nonuniform_area : cfg :=
  [("hermes", [("components", CS "e, d, snb_conduction")]);
   ("snb_conduction", [("diagnose", CB true)]);
   ("e", [("type", CS "fixed_density, fixed_velocity, evolve_pressure"); ("AA", CQ (1 # 1836)); ("charge", CQ (- (1 # 1))); ("density", CQ (10000000000000000000 # 1)); ("velocity", CQ (0 # 1)); ("thermal_conduction", CB false)]);
   ("d", [("type", CS "fixed_density, fixed_velocity, fixed_temperature"); ("AA", CQ (2 # 1)); ("charge", CQ (1 # 1)); ("density", CQ (10000000000000000000 # 1)); ("velocity", CQ (0 # 1)); ("temperature", CQ (10 # 1))])].

(** tests/integrated/snb/uniform/BOUT.inp *)
Definition inp_tests_integrated_snb_uniform : cfg :=
  [("hermes", [("components", CS "e, d, snb_conduction")]);
   ("snb_conduction", [("diagnose", CB true)]);
   ("e", [("type", CS "fixed_density, fixed_velocity, evolve_pressure"); ("AA", CQ (1 # 1836)); ("charge", CQ (- (1 # 1))); ("density", CQ (10000000000000000000 # 1)); ("velocity", CQ (0 # 1)); ("thermal_conduction", CB false)]);
   ("d", [("type", CS "fixed_density, fixed_velocity, fixed_temperature"); ("AA", CQ (2 # 1)); ("charge", CQ (1 # 1)); ("density", CQ (10000000000000000000 # 1)); ("velocity", CQ (0 # 1)); ("temperature", CQ (10 # 1))])].

(** tests/integrated/sod-shock-energy/data/BOUT.inp *)
Definition inp_tests_integrated_sod_shock_energy_data : cfg :=
  [("hermes", [("components", CS "i, sound_speed")]);
   ("i", [("type", CS "evolve_density, evolve_momentum, evolve_energy"); ("charge", CQ (1 # 1)); ("AA", CQ (1 # 1)); ("thermal_conduction", CB false)])].

(** tests/integrated/sod-shock/data/BOUT.inp *)
Definition inp_tests_integrated_sod_shock_data : cfg :=
  [("hermes", [("components", CS "i, sound_speed")]);
   ("i", [("type", CS "evolve_density, evolve_pressure, evolve_momentum"); ("charge", CQ (1 # 1)); ("AA", CQ (1 # 1)); ("thermal_conduction", CB false)])].

(** tests/integrated/toro-1/data/BOUT.inp *)
Definition inp_tests_integrated_toro_1_data : cfg :=
  [("hermes", [("components", CS "i, sound_speed")]);
   ("i", [("type", CS "evolve_density, evolve_pressure, evolve_momentum"); ("charge", CQ (1 # 1)); ("AA", CQ (1 # 1)); ("thermal_conduction", CB false)])].

(** tests/integrated/toro-2-energy/data/BOUT.inp *)
Definition inp_tests_integrated_toro_2_energy_data : cfg :=
  [("hermes", [("components", CS "i, sound_speed")]);
   ("i", [("type", CS "evolve_density, evolve_momentum, evolve_energy"); ("charge", CQ (1 # 1)); ("AA", CQ (1 # 1)); ("thermal_conduction", CB false)])].

(** tests/integrated/toro-2/data/BOUT.inp *)
Definition inp_tests_integrated_toro_2_data : cfg :=
  [("hermes", [("components", CS "i, sound_speed")]);
   ("i", [("type", CS "evolve_density, evolve_pressure, evolve_momentum"); ("charge", CQ (1 # 1)); ("AA", CQ (1 # 1)); ("thermal_conduction", CB false)])].

(** tests/integrated/toro-3-energy/data/BOUT.inp *)
Definition inp_tests_integrated_toro_3_energy_data : cfg :=
  [("hermes", [("components", CS "i, sound_speed")]);
   ("i", [("type", CS "evolve_density, evolve_momentum, evolve_energy"); ("charge", CQ (1 # 1)); ("AA", CQ (1 # 1)); ("thermal_conduction", CB false)])].

(** tests/integrated/toro-3/data/BOUT.inp *)
Definition inp_tests_integrated_toro_3_data : cfg :=
  [("hermes", [("components", CS "i, sound_speed")]);
   ("i", [("type", CS "evolve_density, evolve_pressure, evolve_momentum"); ("charge", CQ (1 # 1)); ("AA", CQ (1 # 1)); ("thermal_conduction", CB false)])].

(** tests/integrated/toro-4-energy/data/BOUT.inp *)
Definition inp_tests_integrated_toro_4_energy_data : cfg :=
  [("hermes", [("components", CS "i, sound_speed")]);
   ("i", [("type", CS "evolve_density, evolve_momentum, evolve_energy"); ("charge", CQ (1 # 1)); ("AA", CQ (1 # 1)); ("thermal_conduction", CB false)])].

(** tests/integrated/toro-4/data/BOUT.inp *)
Definition inp_tests_integrated_toro_4_data : cfg :=
  [("hermes", [("components", CS "i, sound_speed")]);
   ("i", [("type", CS "evolve_density, evolve_pressure, evolve_momentum"); ("charge", CQ (1 # 1)); ("AA", CQ (1 # 1)); ("thermal_conduction", CB false)])].

(** tests/integrated/toro-5-energy/data/BOUT.inp *)
Definition inp_tests_integrated_toro_5_energy_data : cfg :=
  [("hermes", [("components", CS "i, sound_speed")]);
   ("i", [("type", CS "evolve_density, evolve_momentum, evolve_energy"); ("charge", CQ (1 # 1)); ("AA", CQ (1 # 1)); ("thermal_conduction", CB false)])].

(** tests/integrated/toro-5/data/BOUT.inp *)
Definition inp_tests_integrated_toro_5_data : cfg :=
  [("hermes", [("components", CS "i, sound_speed")]);
   ("i", [("type", CS "evolve_density, evolve_pressure, evolve_momentum"); ("charge", CQ (1 # 1)); ("AA", CQ (1 # 1)); ("thermal_conduction", CB false)])].

(** tests/integrated/vorticity/data/BOUT.inp *)
Definition inp_tests_integrated_vorticity_data : cfg :=
  [("hermes", [("components", CS "vorticity")]);
   ("vorticity", [("diamagnetic", CB false); ("diamagnetic_polarisation", CB false); ("phi_dissipation", CB false)])].

Definition shipped_inputs : list (string * cfg) :=
  [("examples/1D-conduction/BOUT.inp", inp_examples_1D_conduction);
   ("examples/1D-hydrogen-equalT/BOUT.inp", inp_examples_1D_hydrogen_equalT);
   ("examples/1D-hydrogen/BOUT.inp", inp_examples_1D_hydrogen);
   ("examples/1D-hydrogen/qn/BOUT.inp", inp_examples_1D_hydrogen_qn);
   ("examples/1D-neon-source/BOUT.inp", inp_examples_1D_neon_source);
   ("examples/1D-neon/BOUT.inp", inp_examples_1D_neon);
   ("examples/1D-periodic/BOUT.inp", inp_examples_1D_periodic);
   ("examples/1D-recycling-with-Tt-control/BOUT.inp", inp_examples_1D_recycling_with_Tt_control);
   ("examples/1D-recycling-with-detachment-control/BOUT.inp", inp_examples_1D_recycling_with_detachment_control);
   ("examples/1D-recycling/BOUT.inp", inp_examples_1D_recycling);
   ("examples/1D-recycling/cvode/BOUT.inp", inp_examples_1D_recycling_cvode);
   ("examples/1D-sheath-conduction/BOUT.inp", inp_examples_1D_sheath_conduction);
   ("examples/1D-sheath/BOUT.inp", inp_examples_1D_sheath);
   ("examples/1D-te-ti/BOUT.inp", inp_examples_1D_te_ti);
   ("examples/2D-drift-plane-turbulence-te-ti/BOUT.inp", inp_examples_2D_drift_plane_turbulence_te_ti);
   ("examples/blob2d-te-ti/BOUT.inp", inp_examples_blob2d_te_ti);
   ("examples/blob2d-te/BOUT.inp", inp_examples_blob2d_te);
   ("examples/blob2d-vpol/BOUT.inp", inp_examples_blob2d_vpol);
   ("examples/blob2d/BOUT.inp", inp_examples_blob2d);
   ("examples/equilibriate/BOUT.inp", inp_examples_equilibriate);
   ("examples/linear/annulus-isothermal-d-2/BOUT.inp", inp_examples_linear_annulus_isothermal_d_2);
   ("examples/linear/annulus-isothermal-d/BOUT.inp", inp_examples_linear_annulus_isothermal_d);
   ("examples/linear/annulus-isothermal-he-emag/BOUT.inp", inp_examples_linear_annulus_isothermal_he_emag);
   ("examples/linear/annulus-isothermal-he/BOUT.inp", inp_examples_linear_annulus_isothermal_he);
   ("examples/linear/annulus-te-he-fixedneutrals/BOUT.inp", inp_examples_linear_annulus_te_he_fixedneutrals);
   ("examples/solkit-comparison/single-temperature/BOUT.inp", inp_examples_solkit_comparison_single_temperature);
   ("examples/solkit-comparison/two-temperatures/BOUT.inp", inp_examples_solkit_comparison_two_temperatures);
   ("examples/stellarator-2pt-model/BOUT.inp", inp_examples_stellarator_2pt_model);
   ("examples/tcv-x21/data/BOUT.inp", inp_examples_tcv_x21_data);
   ("examples/tokamak/diffusion-conduction/BOUT.inp", inp_examples_tokamak_diffusion_conduction);
   ("examples/tokamak/diffusion-flow-evolveT/BOUT.inp", inp_examples_tokamak_diffusion_flow_evolveT);
   ("examples/tokamak/diffusion-transport/BOUT.inp", inp_examples_tokamak_diffusion_transport);
   ("examples/tokamak/diffusion/BOUT.inp", inp_examples_tokamak_diffusion);
   ("examples/tokamak/heat-transport/BOUT.inp", inp_examples_tokamak_heat_transport);
   ("examples/tokamak/isothermal/BOUT.inp", inp_examples_tokamak_isothermal);
   ("examples/tokamak/linear-transport/BOUT.inp", inp_examples_tokamak_linear_transport);
   ("examples/tokamak/recycling-dthe-drifts/BOUT.inp", inp_examples_tokamak_recycling_dthe_drifts);
   ("examples/tokamak/recycling-dthe/BOUT.inp", inp_examples_tokamak_recycling_dthe);
   ("examples/tokamak/recycling-dthene/BOUT.inp", inp_examples_tokamak_recycling_dthene);
   ("examples/tokamak/recycling/BOUT.inp", inp_examples_tokamak_recycling);
   ("examples/tokamak/turbulence/BOUT.inp", inp_examples_tokamak_turbulence);
   ("tests/integrated/1D-fluid/data/BOUT.inp", inp_tests_integrated_1D_fluid_data);
   ("tests/integrated/1D-recycling/data/BOUT.inp", inp_tests_integrated_1D_recycling_data);
   ("tests/integrated/alfven-wave/data/BOUT.inp", inp_tests_integrated_alfven_wave_data);
   ("tests/integrated/diffusion/data/BOUT.inp", inp_tests_integrated_diffusion_data);
   ("tests/integrated/drift-wave/data/BOUT.inp", inp_tests_integrated_drift_wave_data);
   ("tests/integrated/evolve_density/data/BOUT.inp", inp_tests_integrated_evolve_density_data);
   ("tests/integrated/neutral_mixed/data/BOUT.inp", inp_tests_integrated_neutral_mixed_data);
   ("tests/integrated/neutral_parallel_diffusion/data/BOUT.inp", inp_tests_integrated_neutral_parallel_diffusion_data);
   ("tests/integrated/snb/nonuniform/BOUT.inp", inp_tests_integrated_snb_nonuniform);
   ("tests/integrated/snb/nonuniform_area/BOUT.inp", inp_tests_integrated_snb_nonuniform_area);
   ("tests/integrated/snb/uniform/BOUT.inp", inp_tests_integrated_snb_uniform);
   ("tests/integrated/sod-shock-energy/data/BOUT.inp", inp_tests_integrated_sod_shock_energy_data);
   ("tests/integrated/sod-shock/data/BOUT.inp", inp_tests_integrated_sod_shock_data);
   ("tests/integrated/toro-1/data/BOUT.inp", inp_tests_integrated_toro_1_data);
   ("tests/integrated/toro-2-energy/data/BOUT.inp", inp_tests_integrated_toro_2_energy_data);
   ("tests/integrated/toro-2/data/BOUT.inp", inp_tests_integrated_toro_2_data);
   ("tests/integrated/toro-3-energy/data/BOUT.inp", inp_tests_integrated_toro_3_energy_data);
   ("tests/integrated/toro-3/data/BOUT.inp", inp_tests_integrated_toro_3_data);
   ("tests/integrated/toro-4-energy/data/BOUT.inp", inp_tests_integrated_toro_4_energy_data);
   ("tests/integrated/toro-4/data/BOUT.inp", inp_tests_integrated_toro_4_data);
   ("tests/integrated/toro-5-energy/data/BOUT.inp", inp_tests_integrated_toro_5_energy_data);
   ("tests/integrated/toro-5/data/BOUT.inp", inp_tests_integrated_toro_5_data);
   ("tests/integrated/vorticity/data/BOUT.inp", inp_tests_integrated_vorticity_data)].
