(** What is fixed before the first time step: the choice of metric in Hermes::init, the external sources and the initial values of the
    logarithms in the constructors of evolve_density, evolve_pressure, evolve_energy and neutral_mixed.

    Simplifications: exact reals; a mesh file is a function from names to fields and an input option is present or absent; expressions in the
    input file are evaluated already; the function of time which source_prefactor describes is any function of the time in seconds. *)

From Coq Require Import List Bool ZArith Reals String.
From Verif Require Import ParallelModel UnitsModel.
Import ListNotations.
Open Scope R_scope.

(** Values by x, y and z. *)
Definition fld := Z -> Z -> Z -> R.
(** The variables in the grid file (mesh->get and mesh->sourceHasVar). *)
Definition grid := string -> option fld.
Definition has (g : grid) (v : string) : bool := match g v with Some _ => true | None => false end.
(** mesh->get leaves its argument alone if the variable is absent, e.g. src/evolve_density.cxx 97-98. *)
Definition mesh_get (g : grid) (v : string) (f : fld) : fld := match g v with Some s => s | None => f end.
(** Options::withDefault, e.g. src/evolve_density.cxx 100-103. *)
Definition withDefault {A} (o : option A) (d : A) : A := match o with Some v => v | None => d end.
Definition zero_fld : fld := fun _ _ _ => 0.

(** Hermes::init, hermes-3.cxx 212-269: an exception, the metric from Rxy, Bpxy etc., or that in the grid file, normalised or not. *)
Inductive metric_choice := MThrow | MRecalculate | MGrid (normalise : bool).
Definition choose_metric (loadmetric : bool) (recalc norm : option bool) (g : grid) : metric_choice :=
  if loadmetric then MThrow
  else if withDefault recalc false then MRecalculate
  else if negb (has g "J" || has g "g11" || has g "g22" || has g "g33" || has g "g12" || has g "g23" || has g "g13"
                || has g "g_11" || has g "g_22" || has g "g_33" || has g "g_12" || has g "g_23" || has g "g_13") then MThrow
  else MGrid (withDefault norm true).

(** Range of cells of one processor, and the radial positions whose field lines are closed. *)
Record box := mkBox { xs : Z; xe : Z; ys : Z; ye : Z; zs : Z; ze : Z; periodic : Z -> bool }.
(** One assignment source(x, y, z) = v. *)
Definition set3 (f : fld) (x y z : Z) (v : R) : fld :=
  fun a b c => if (Z.eqb a x && Z.eqb b y && Z.eqb c z)%bool then v else f a b c.
(** The loops of source_only_in_core: src/evolve_density.cxx 114-125, src/evolve_pressure.cxx 136-145, src/evolve_energy.cxx 105-114. *)
Definition core_only (b : box) (f : fld) : fld :=
  fold_left (fun f x => if negb (periodic b x) then
      fold_left (fun f y => fold_left (fun f z => set3 f x y z 0) (irange (zs b) (ze b)) f) (irange (ys b) (ye b)) f
    else f) (irange (xs b) (xe b)) f.

(** Settings of the section N<name>, P<name> or E<name>. *)
Record src_opts := mkSrc { o_source : option fld; o_time : option bool; o_prefactor : option (R -> R); o_core : option bool }.
(** A source after construction: values, and the function of time if there is one. *)
Record src := mkS { s_field : fld; s_time : option (R -> R) }.
(** units["seconds"], hermes-3.cxx 192, and 1/units["seconds"] in the constructors, e.g. src/evolve_density.cxx 81. *)
Definition seconds (n : norms) : R := 1 / Omega_ci n.
Definition Om (n : norms) : R := 1 / seconds n.

(** EvolveDensity::EvolveDensity, src/evolve_density.cxx 79-125.  None: as<std::string>() of a missing option throws. *)
Definition density_src (n : norms) (b : box) (g : grid) (o : src_opts) (name : string) : option src :=
  let norm := Nnorm n * Om n in
  let s0 := mesh_get g ("N" ++ name ++ "_src") zero_fld in
  let s1 := fun x y z => withDefault (o_source o) s0 x y z / norm in
  let s2 := if withDefault (o_core o) false then core_only b s1 else s1 in
  if withDefault (o_time o) false then match o_prefactor o with Some f => Some (mkS s2 (Some f)) | None => None end
  else Some (mkS s2 None).
(** EvolvePressure::EvolvePressure, src/evolve_pressure.cxx 101-145. *)
Definition pressure_src (n : norms) (b : box) (g : grid) (o : src_opts) (name : string) : option src :=
  let norm := qe n * Nnorm n * Tnorm n * Om n in
  let s0 := mesh_get g ("P" ++ name ++ "_src") zero_fld in
  let s1 := fun x y z => withDefault (o_source o) s0 x y z / norm in
  let s2 := if withDefault (o_core o) false then core_only b s1 else s1 in
  if withDefault (o_time o) false then match o_prefactor o with Some f => Some (mkS s2 (Some f)) | None => None end
  else Some (mkS s2 None).
(** EvolveEnergy::EvolveEnergy, src/evolve_energy.cxx 23-27, 85-114: no option is read for the dependence on time.  Division by zero for an
    adiabatic index of one: theorems assume another. *)
Definition Cv_of (gamma : R) : R := 1 / (gamma - 1).
Definition energy_src (n : norms) (b : box) (g : grid) (o : src_opts) (gamma : R) (name : string) : option src :=
  let s0 := mesh_get g ("P" ++ name ++ "_src") zero_fld in
  let s1 := fun x y z => s0 x y z * Cv_of gamma in
  let s2 := fun x y z => withDefault (o_source o) s1 x y z / (qe n * Nnorm n * Tnorm n * Om n) in
  Some (mkS (if withDefault (o_core o) false then core_only b s2 else s2) None).
(** NeutralMixed::NeutralMixed, src/neutral_mixed.cxx 109-129: only the source itself is read. *)
Definition neutral_density_src (n : norms) (g : grid) (o : src_opts) (name : string) : option src :=
  let s0 := mesh_get g ("N" ++ name ++ "_src") zero_fld in
  Some (mkS (fun x y z => withDefault (o_source o) s0 x y z / (Nnorm n * Om n)) None).
Definition neutral_pressure_src (n : norms) (g : grid) (o : src_opts) (name : string) : option src :=
  let s0 := mesh_get g ("P" ++ name ++ "_src") zero_fld in
  Some (mkS (fun x y z => withDefault (o_source o) s0 x y z / (qe n * Nnorm n * Tnorm n * Om n)) None).
(** final_source, src/evolve_density.cxx 198-206, src/evolve_pressure.cxx 404-411, src/evolve_energy.cxx 357; time_normalisation is
    1/Omega_ci (evolve_density.cxx 93, evolve_pressure.cxx 108). *)
Definition final_src (n : norms) (s : src) (time : R) : fld :=
  match s_time s with
  | Some f => fun x y z => s_field s x y z * f (time * (1 / Om n))
  | None => s_field s
  end.

(** log of a field value: None stands for minus infinity or not-a-number. *)
Definition log_c (x : R) : option R := if Rlt_dec 0 x then Some (ln x) else None.
(** Initial state of the evolving variable and the value which the first transform makes of it, src/evolve_density.cxx 52-72 and 135-138,
    src/evolve_pressure.cxx 44-63 and 166-169, src/evolve_energy.cxx 34-53 and 126-129.  [initial_profile] fills the field from the input
    options; without them it is zero (the default function of BOUT++).  [restart] is what the restart file holds of the evolving variable. *)
Definition initial (evolve_log restarting : bool) (profile : option fld) (restart : fld) (x y z : Z) : option R :=
  let p := withDefault profile zero_fld x y z in
  if evolve_log then if restarting then Some (restart x y z) else log_c p
  else if restarting then Some (restart x y z) else Some p.
Definition first_value (evolve_log : bool) (v : option R) : option R :=
  match v with Some u => Some (if evolve_log then exp u else u) | None => None end.

(** Floors, src/evolve_density.cxx 40, src/evolve_pressure.cxx 32-33, 38. *)
Definition pressure_floor (n : norms) (density_floor : R) : R := density_floor * (1 / Tnorm n).
Definition temperature_floor (n : norms) (o : option R) : R := withDefault o 0.1 / Tnorm n.
