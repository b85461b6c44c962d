(** Specification of the thermal force: the force on each species from each other species. *)

From Coq Require Import List Bool String Reals.
From Verif Require Import OptionsModel StateMonad StateSpec.
Import ListNotations.
Open Scope R_scope.
Open Scope string_scope.

Definition ion (s : State * unit) (sp : string) : Prop := sp <> "e" /\ present s sp "charge" = true.
Definition light (s : State * unit) (sp : string) : Prop := ion s sp /\ value s sp "AA" < 4.
Definition heavy (s : State * unit) (sp : string) : Prop := ion s sp /\ 10 < value s sp "AA".

(** Stangeby's coefficient of the ion temperature gradient force on an impurity of
    charge Z and mass mz in a plasma of ions of mass mi. *)
Definition stangeby_beta (mi mz Z : R) : R :=
  let mu := mz / (mi + mz) in
  3 * (mu + 5 * sqrt 2 * Z ^ 2 * (1.1 * Rpower mu (5 / 2) - 0.35 * Rpower mu (3 / 2)) - 1)
  / (2.6 - 2 * mu + 5.4 * mu ^ 2).
