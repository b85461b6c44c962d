(** Preconditioners: ComponentScheduler::precon (src/component_scheduler.cxx 76-80), Hermes::precon (hermes-3.cxx 313-317),
    EvolvePressure::precon (src/evolve_pressure.cxx 576-601), EvolveEnergy::precon (src/evolve_energy.cxx 500-525) and NeutralMixed::precon
    (src/neutral_mixed.cxx 786-808).

    Simplifications: exact reals; fields along one line of cells; the solvers (InvertParDiv, Laplacian) belong to BOUT++ and are arbitrary
    functions of the coefficients and the right hand side.  InvertParDiv solves A x + Div_par(B Grad_par x) = rhs, Laplacian solves
    D Delp2 x + A x = rhs; both have A = 1 (setCoefA(1.0) at evolve_pressure.cxx 585, evolve_energy.cxx 509, neutral_mixed.cxx 97).
    The static pointer inv, shared by all species, keeps only A, which is the same for all. *)

From Coq Require Import List Bool ZArith Reals.
From Verif Require Import StateMonad.
Import ListNotations.
Open Scope R_scope.

Definition line := Z -> R.
Definition scaled (scale : option line) (f : line) : line := match scale with Some s => fun j => f j * s j | None => f end.

(** Time derivatives which exist for a species with evolve_pressure: ddt(P), and ddt(logP) if evolve_log.  The solver reads and writes those of
    the variables given to solver->add, src/evolve_pressure.cxx 44-60. *)
Record pressure_derivatives := mkPD { ddt_P : line; ddt_logP : line }.
Definition seen_P (evolve_log : bool) (d : pressure_derivatives) : line := if evolve_log then ddt_logP d else ddt_P d.
(** 590-595. *)
Definition pressure_coef (gamma density_floor : R) (N kappa_par : line) (scale : option line) : line :=
  scaled scale (fun j => - (2 / 3) * gamma * kappa_par j / rfloor (N j) density_floor).
(** 576-601.  [neumann] sets guard cells. *)
Definition pressure_precon (enable_precon thermal_conduction : bool) (solve : line -> line -> line) (neumann : line -> line)
    (gamma density_floor : R) (N kappa_par : line) (scale : option line) (d : pressure_derivatives) : pressure_derivatives :=
  if negb (enable_precon && thermal_conduction) then d
  else mkPD (solve (pressure_coef gamma density_floor N kappa_par scale) (neumann (ddt_P d))) (ddt_logP d).

(** EvolveEnergy: the variables are E or logE, src/evolve_energy.cxx 34-53; P is calculated from E. *)
Record energy_derivatives := mkED { ddt_E : line; ddt_logE : line; e_ddt_P : line }.
Definition seen_E (evolve_log : bool) (d : energy_derivatives) : line := if evolve_log then ddt_logE d else ddt_E d.
(** 514-519. *)
Definition energy_coef (gamma density_floor : R) (N kappa_par : line) (scale : option line) : line :=
  scaled scale (fun j => - gamma * kappa_par j / rfloor (N j) density_floor).
(** 500-525. *)
Definition energy_precon (enable_precon thermal_conduction : bool) (solve : line -> line -> line) (neumann : line -> line)
    (gamma density_floor : R) (N kappa_par : line) (scale : option line) (d : energy_derivatives) : energy_derivatives :=
  if negb (enable_precon && thermal_conduction) then d
  else mkED (ddt_E d) (ddt_logE d) (solve (energy_coef gamma density_floor N kappa_par scale) (neumann (e_ddt_P d))).

(** NeutralMixed, src/neutral_mixed.cxx 786-808: [solve D rhs]. *)
Record neutral_derivatives := mkND { ddt_Nn : line; ddt_NVn : line; ddt_Pn : line }.
Definition neutral_coef (gamma : R) (Dnn : line) (scale : option line) : line := scaled scale (fun j => - gamma * Dnn j).
Definition neutral_precon (precondition evolve_momentum : bool) (solve : line -> line -> line) (gamma : R) (Dnn : line) (scale : option line)
    (d : neutral_derivatives) : neutral_derivatives :=
  if negb precondition then d
  else
    let coef := neutral_coef gamma Dnn scale in
    mkND (solve coef (ddt_Nn d)) (if evolve_momentum then solve coef (ddt_NVn d) else ddt_NVn d) (solve coef (ddt_Pn d)).

(** Hermes::precon and ComponentScheduler::precon: the time is put into the state of the last call of rhs, then each component acts on the
    derivatives [D], in the order of the list.  [set_time t state]: state["time"] = t. *)
Definition hermes_precon {State D : Type} (set_time : R -> State -> State) (components : list (State -> R -> D -> D)) (t gamma : R) (state : State) (d : D)
  : State * D :=
  let state := set_time t state in
  (state, fold_left (fun d component => component state gamma d) components d).
