(** Vocabulary for property C107: entries which a component may find or not find, and which
    it has to ask for. *)

From Coq Require Import List Bool String QArith.
From Verif Require Import OptionsModel AccessModel AccessComponents AccessSpec.
Import ListNotations.
Open Scope string_scope.
Open Scope list_scope.

(** Groups of entries: an entry of the species the component is named after, of any species,
    a field, an entry at the top. *)
Inductive group := Own (q : string) | Any (q : string) | Fld (q : string) | Top (q : string).

Definition in_group (n : string) (g : group) (p : path) : bool :=
  match g, p with
  | Own q, PSp s q' => String.eqb q' q && String.eqb s n
  | Any q, PSp _ q' => String.eqb q' q
  | Fld q, PField q' => String.eqb q' q
  | Top q, PTop q' => String.eqb q' q
  | _, _ => false
  end.

(** Entries which transform may not count on. *)
Definition optional_table : list (string * list group) :=
  [("isothermal", [Own "density"]);
   ("fixed_temperature", [Own "density"]);
   ("set_temperature", [Own "density"]);
   ("fixed_velocity", [Own "density"]);
   ("quasineutral", [Any "charge"; Any "density"]);
   ("zero_current", [Any "charge"; Any "velocity"]);
   ("sound_speed", [Any "pressure"; Any "AA"; Any "density"; Any "temperature"]);
   ("anomalous_diffusion", [Own "temperature"; Own "velocity"]);
   ("classical_diffusion", [Any "charge"; Any "velocity"; Any "temperature"]);
   ("binormal_stpm", [Any "density"; Any "temperature"; Any "momentum"]);
   ("neutral_parallel_diffusion", [Any "charge"; Any "pressure"; Any "velocity"]);
   ("solkit_neutral_parallel_diffusion", [Any "charge"]);
   ("upstream_density_feedback", [Own "velocity"; Own "AA"]);
   ("electron_force_balance", [Any "momentum_source"; Fld "phi"]);
   ("ion_viscosity", [Any "charge"; Any "pressure"; Any "velocity"]);
   ("thermal_force", [Any "charge"]);
   ("collisions", [Any "charge"; Any "velocity"]);
   ("noflow_boundary",
    [Own "density"; Own "temperature"; Own "pressure"; Own "velocity"; Own "momentum"]);
   ("neutral_boundary", [Own "velocity"; Own "momentum"; Own "energy_source"]);
   ("sheath_boundary",
    [Any "velocity"; Any "momentum"; Any "pressure"; Any "adiabatic"; Any "energy_source";
     Any "charge"; Fld "phi"]);
   ("sheath_boundary_simple",
    [Any "velocity"; Any "momentum"; Any "pressure"; Any "energy_source"; Any "charge";
     Fld "phi"]);
   ("sheath_boundary_insulating",
    [Any "velocity"; Any "momentum"; Any "pressure"; Any "adiabatic"; Any "energy_source";
     Any "charge"; Fld "phi"]);
   ("recycling",
    [Any "density_source"; Any "energy_source"; Any "energy_flow_ylow";
     Any "energy_flow_xlow"; Any "particle_flow_xlow"]);
   ("vorticity", [Any "pressure"; Any "charge"; Any "temperature"; Any "collision_frequency"]);
   ("relax_potential", [Any "pressure"; Any "charge"]);
   ("diamagnetic_drift",
    [Any "charge"; Any "temperature"; Any "density"; Any "pressure"; Any "momentum"]);
   ("polarisation_drift",
    [Any "charge"; Any "momentum"; Any "pressure"; Fld "DivJdia"; Fld "DivJextra"; Fld "DivJcol"]);
   ("electromagnetic", [Any "charge"; Any "momentum"])].

(** Entries which finally may not count on. *)
Definition optional_finally_table : list (string * list group) :=
  [("evolve_density",
    [Own "velocity"; Top "fastest_wave"; Top "scale_timederivs"; Fld "phi"; Fld "Apar_flutter";
     Own "particle_flow_xlow"; Own "particle_flow_ylow"]);
   ("evolve_pressure",
    [Own "velocity"; Own "charge"; Own "low_n_coeff"; Own "energy_source"; Top "fastest_wave";
     Top "scale_timederivs"; Fld "phi"; Fld "Apar_flutter"; Own "energy_flow_xlow";
     Own "energy_flow_ylow"]);
   ("evolve_energy",
    [Own "charge"; Own "low_n_coeff"; Own "energy_source"; Own "momentum_source";
     Top "fastest_wave"; Top "scale_timederivs"; Fld "phi"; Fld "Apar_flutter";
     Own "energy_flow_xlow"; Own "energy_flow_ylow"]);
   ("evolve_momentum",
    [Own "charge"; Own "low_n_coeff"; Own "density_source"; Own "momentum_source";
     Top "fastest_wave"; Top "scale_timederivs"; Fld "phi"; Fld "Apar"; Fld "Apar_flutter";
     Own "momentum_flow_xlow"]);
   ("neutral_mixed",
    [Own "collision_frequency"; Own "density_source"; Own "momentum_source";
     Own "energy_source"; Top "scale_timederivs"]);
   ("vorticity", [Any "charge"; Any "momentum"; Fld "DivJextra"; Fld "Apar_flutter"]);
   ("relax_potential", [Any "charge"; Any "momentum"; Any "pressure"; Fld "DivJextra"])].

Definition groups_of (tb : list (string * list group)) (ty : string) : list group :=
  match assoc ty tb with Some l => l | None => [] end.

Definition optional (l : list group) (n : string) (p : path) : bool :=
  existsb (fun g => in_group n g p) l.

(** An event which shows that the entry is set. *)
Definition shows {F} (p : path) (e : event F) : Prop :=
  match e with
  | EvRead _ q _ | EvQuery _ q true | EvHas q true | EvWrite _ q _ | EvForce q _ => p = q
  | _ => False
  end.

(** Every read of an entry of the groups comes after an event which shows that it is set. *)
Definition asked {F} (l : list group) (n : string) (tr : list (event F)) : Prop :=
  forall pre m p v post, tr = pre ++ EvRead m p v :: post -> optional l n p = true ->
    exists e, In e pre /\ shows p e.
