(** Vocabulary for the order of components (C104). *)

From Coq Require Import List Bool String QArith.
From Verif Require Import AccessModel AccessComponents AccessSpec.
Import ListNotations.
Open Scope string_scope.
Open Scope list_scope.

(** Types whose transform only uses the species they are named after (and the time and units). *)
Definition own_types : list string :=
  ["evolve_density"; "evolve_pressure"; "evolve_energy"; "evolve_momentum"; "neutral_mixed";
   "isothermal"; "fixed_density"; "fixed_temperature"; "fixed_velocity"; "simple_pump";
   "simple_conduction"; "anomalous_diffusion"; "upstream_density_feedback"; "noflow_boundary";
   "neutral_boundary"].

(** Two components (type, name) of different species. *)
Definition apart (a b : string * string) : Prop :=
  In (fst a) own_types /\ In (fst b) own_types /\ snd a <> snd b.

(** Lists of components which differ by exchanges of neighbours of different species. *)
Inductive reordered : list (string * string) -> list (string * string) -> Prop :=
| reordered_same l : reordered l l
| reordered_swap pre a b post l :
    apart a b -> reordered (pre ++ b :: a :: post) l -> reordered (pre ++ a :: b :: post) l.

(** Numerics which belong to the component, not to its place in the list. *)
Definition placed {F} (comp_num : bool -> string * string -> nat -> list (val F) -> F)
    (l : list (string * string)) : numerics F :=
  fun ph i => comp_num ph (nth i l ("", "")).
