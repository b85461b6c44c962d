(** What an interpolation to cell faces should satisfy. *)

From Coq Require Import Reals.
Open Scope R_scope.

(** x lies between a and b. *)
Definition between (a b x : R) : Prop := Rmin a b <= x <= Rmax a b.
(** A cubic and its mean over the cell of width h around x. *)
Definition cubic (a b c d x : R) : R := a + b * x + c * x ^ 2 + d * x ^ 3.
Definition cell_mean (a b c d h x : R) : R := a + b * x + c * (x ^ 2 + h ^ 2 / 12) + d * (x ^ 3 + x * h ^ 2 / 4).
