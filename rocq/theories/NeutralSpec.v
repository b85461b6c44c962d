(** What the neutral model should satisfy at walls, for its diffusion coefficient and between evaluations. *)

From Coq Require Import List Bool ZArith Reals.
From Verif Require Import ParallelModel ParallelSpec.
Import ListNotations.
Open Scope R_scope.

(** Two lines hold the same values except in the guard cells beyond the ends of the domain. *)
Definition same_inside (m : mesh) (f g : Z -> R) : Prop :=
  forall j, (closed_low m = true -> (ystart m <= j)%Z) -> (closed_high m = true -> (j <= yend m)%Z) -> f j = g j.
Definition same_cells (m : mesh) (f g : Z -> R) : Prop := forall j, (ystart m <= j <= yend m)%Z -> f j = g j.
(** An operator that reads a cell and its two neighbours. *)
Definition reads_neighbours (op : (Z -> R) -> Z -> R) : Prop :=
  forall f g j, f (j - 1)%Z = g (j - 1)%Z -> f j = g j -> f (j + 1)%Z = g (j + 1)%Z -> op f j = op g j.
Definition reads_neighbours2 (op : (Z -> R) -> (Z -> R) -> Z -> R) : Prop :=
  forall a b f g j, (forall i, (j - 1 <= i <= j + 1)%Z -> a i = b i /\ f i = g i) -> op a f j = op b g j.

(** Thermal speed. *)
Definition thermal (T A : R) : R := sqrt (T / A).
(** Rate of change of thermal and kinetic energy 3/2 P + 1/2 A N V^2 when a force F acts (density unchanged) and the pressure changes at rate dP. *)
Definition energy_change (V dP F : R) : R := 3 / 2 * dP + V * F.
