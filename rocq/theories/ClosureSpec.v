(** Specification vocabulary for the closures. *)

From Coq Require Import List Reals String.
From Verif Require Import StateMonad ClosureModel.
Import ListNotations.
Open Scope R_scope.

Fixpoint rsum {A} (f : A -> R) (l : list A) : R := match l with [] => 0 | s :: l => f s + rsum f l end.
Definition or_zero (x : option R) : R := match x with Some y => y | None => 0 end.
(** Charge density and current carried by a species. *)
Definition charge_density (s : species) : R := match s_charge s, s_density s with Some q, Some n => q * n | _, _ => 0 end.
Definition current (s : species) : R := match s_charge s, s_density s, s_velocity s with Some q, Some n, Some v => q * n * v | _, _, _ => 0 end.
Definition others (name : string) (l : list species) : list species := filter (fun s => negb (String.eqb (s_name s) name)) l.
Definition unique (l : list species) : Prop := NoDup (map s_name l).
