(** What radiation and simple reactions should satisfy. *)

From Coq Require Import List Reals.
From Verif Require Import StateMonad LimitersModel RadiationModel.
Import ListNotations.
Open Scope R_scope.

(** A fit agrees, at a point, with the constant used beyond it. *)
Definition joins (curve : R -> R) (T const : R) : Prop := 0.95 * const <= curve T <= 1.05 * const.

(** Straight line through two points. *)
Definition line (x0 y0 x1 y1 x : R) : R := y0 + (y1 - y0) * ((x - x0) / (x1 - x0)).
Definition straight (curve : R -> R) (x0 y0 x1 y1 : R) : Prop := forall x, x0 <= x <= x1 -> curve x = line x0 y0 x1 y1 x.

(** Sources which are not set are zero. *)
Definition val (o : option R) : R := match o with Some x => x | None => 0 end.
(** Rate of change of kinetic energy of a species with mass A and velocity V given sources of particles and momentum. *)
Definition kinetic_rate (A V Sn Sm : R) : R := V * Sm - A * (V * V) / 2 * Sn.
Definition energy_rate (A V : R) (s : sources) : R := val (energy_source s) + kinetic_rate A V (val (density_source s)) (val (momentum_source s)).
Definition none : sources := mkSources None None None.
