(** What the vorticity equation should satisfy. *)

From Coq Require Import List Bool ZArith Reals.
From Verif Require Import ParallelSpec DriftModel DriftSpec VortModel.
Import ListNotations.
Open Scope R_scope.

(** An inverse of a linear operator. *)
Definition inverts (solve : field -> field -> field) (lap : field -> field) : Prop := forall rhs x0, same (lap (solve rhs x0)) rhs.
(** A limiter whose values scale with the data. *)
Definition homogeneous (edges : R -> R -> R -> R * R) : Prop :=
  forall c m x p, 0 <= c -> edges (c * m) (c * x) (c * p) = (c * fst (edges m x p), c * snd (edges m x p)).
(** Integral over the domain: linear, and depending on the values only. *)
Definition integral (I : field -> R) : Prop :=
  (forall f g, I (fun k => f k + g k) = I f + I g) /\ (forall c f, I (fun k => c * f k) = c * I f) /\ (forall f g, same f g -> I f = I g).
(** Nothing is lost through the edges of the domain: the integral of every divergence vanishes. *)
Definition sealed (I : field -> R) (op : operators) : Prop :=
  (forall n f, I (adv op n f) = 0) /\ (forall a f, I (div_a_grad op a f) = 0) /\ (forall f, I (div_par op f) = 0) /\ (forall f w, I (fv_div_par op f w) = 0).
(** The total parallel current of a list of species. *)
Definition total_current (l : list species) (k : Z) : R := sum_over l (fun s => parallel_current s k).
(** A charged species which moves has a density and a mass. *)
Definition mobile_complete (s : species) : Prop := charge_number s <> 0 -> momentum s <> None -> density s <> None /\ AA s <> None.
(** Total mass density of the charged species. *)
Definition total_mass (l : list species) (k : Z) : R := sum_over l (fun s => charged_mass s k).
(** A ring of n cells: sum and differences. *)
Definition ring_next (n : nat) (i : Z) : Z := ((i + 1) mod Z.of_nat n)%Z.
Definition ring_prev (n : nat) (i : Z) : Z := ((i - 1) mod Z.of_nat n)%Z.
