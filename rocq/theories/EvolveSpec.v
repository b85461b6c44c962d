(** Specification for the evolved equations: what thermal and kinetic energy are. *)

From Coq Require Import Reals ZArith.
Open Scope R_scope.

(** Energy density of a gas with pressure P, mass A, density N and momentum density M; C is 1 / (gamma - 1). *)
Definition energy_density (C A P N M : R) : R := C * P + M * M / (2 * A * N).
(** Its rate of change, from those of pressure, density and momentum. *)
Definition energy_rate (C A V dP dN dM : R) : R := C * dP + V * dM - A * (V * V) / 2 * dN.
(** Free-streaming heat flux. *)
Definition free_streaming (A N T : R) : R := N * T * sqrt (T / A).
(** Second-order central difference: Grad_par of BOUT++ for a line with spacing h (with metric). *)
Definition central (h : R) (f : Z -> R) (j : Z) : R := (f (j + 1)%Z - f (j - 1)%Z) / (2 * h).
