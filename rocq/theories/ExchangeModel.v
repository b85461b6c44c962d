(** Collisions, thermal force and reactions run one after the other on the same state, at one point. *)

From Coq Require Import List Bool Reals String.
From Verif Require Import OptionsModel StateMonad StateSpec CollisionsModel ThermalForceModel ReactionsModel SystemModel.
Import ListNotations.
Open Scope R_scope.
Open Scope string_scope.

(** Components which exchange momentum and energy between species: Collisions (src/collisions.cxx, with its private rates as they are
    before), ThermalForce (src/thermal_force.cxx, with the values of Grad_par(T)) and reactions. *)
Inductive part :=
| Coll (c : config) (r : rates) (species : list string)
| Thermal (electron_ion ion_ion : bool) (grad : string -> R) (species : list string)
| React (r : reaction).
(** [component->transform(state)], src/component_scheduler.cxx 52-55. *)
Definition run_part (p : part) : RM unit :=
  match p with
  | Coll c r species => fun s => let '(s1, o) := transform c species (fst s, r) in ((fst s1, tt), o)
  | Thermal ei ii grad species => thermal_force ei ii grad species
  | React r => react r
  end.
(** The loop over components, src/component_scheduler.cxx 52-55. *)
Definition run_parts (l : list part) : RM unit := mfor l run_part.
