(** Rounding. *)

From Coq Require Import List ZArith Reals.
From Flocq Require Import Core.
From Verif Require Import ParallelModel.
Open Scope R_scope.

(** Laws of a rounding to a set F of numbers, with relative error u in a sum of two of them. *)
Record rounding (F : R -> Prop) (rnd : R -> R) (u : R) : Prop := mkRounding {
  r_in : forall x, F (rnd x);
  r_id : forall x, F x -> rnd x = x;
  r_mono : forall x y, x <= y -> rnd x <= rnd y;
  r_opp : forall x, rnd (- x) = - rnd x;
  r_one : F 1;
  r_dbl : forall x, F x -> F (2 * x);
  r_sum : forall x y, F x -> F y -> Rabs (rnd (x + y) - (x + y)) <= u * Rabs (x + y);
  r_u : 0 <= u <= 1 / 8
}.
(** Doubles without a bound on the exponent from above, and round to nearest with ties to even. *)
Definition double (x : R) : Prop := generic_format radix2 (FLT_exp (-1074) 53) x.
Definition rnd64 (x : R) : R := round radix2 (FLT_exp (-1074) 53) ZnearestE x.
Definition u64 : R := / 2 * bpow radix2 (-53 + 1).
(** A metric for which no division in the operator is by zero. *)
Definition metric_ok (rnd : R -> R) (c : coords) : Prop :=
  forall k i, 0 < c_J c k /\ 0 < rnd (c_dy c k * c_J c k) /\ 0 < rnd (rnd (sqrt (c_g22 c k)) + rnd (sqrt (c_g22 c i))).
(** Exact sums. *)
Definition total (l : list R) : R := fold_right Rplus 0 l.
Definition total_abs (l : list R) : R := fold_right (fun v s => Rabs v + s) 0 l.
