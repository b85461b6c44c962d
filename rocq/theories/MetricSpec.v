(** What a metric tensor has to satisfy, and physical lengths, areas and volumes. *)

From Coq Require Import List Bool ZArith Reals.
From Verif Require Import MetricModel.
Import ListNotations.
Open Scope R_scope.

(** The contravariant and the covariant components as 3x3 symmetric matrices, indexed 0..2. *)
Definition up (c : metric) (i j : nat) : R :=
  match i, j with
  | 0%nat, 0%nat => g11 c | 1%nat, 1%nat => g22 c | 2%nat, 2%nat => g33 c
  | 0%nat, 1%nat | 1%nat, 0%nat => g12 c | 0%nat, 2%nat | 2%nat, 0%nat => g13 c | 1%nat, 2%nat | 2%nat, 1%nat => g23 c
  | _, _ => 0
  end.
Definition down (c : metric) (i j : nat) : R :=
  match i, j with
  | 0%nat, 0%nat => g_11 c | 1%nat, 1%nat => g_22 c | 2%nat, 2%nat => g_33 c
  | 0%nat, 1%nat | 1%nat, 0%nat => g_12 c | 0%nat, 2%nat | 2%nat, 0%nat => g_13 c | 1%nat, 2%nat | 2%nat, 1%nat => g_23 c
  | _, _ => 0
  end.
Definition inverse (c : metric) : Prop :=
  forall i k, (i < 3)%nat -> (k < 3)%nat ->
    up c i 0%nat * down c 0%nat k + up c i 1%nat * down c 1%nat k + up c i 2%nat * down c 2%nat k = if Nat.eqb i k then 1 else 0.
Definition det3 (g : nat -> nat -> R) : R :=
  g 0%nat 0%nat * (g 1%nat 1%nat * g 2%nat 2%nat - g 1%nat 2%nat * g 2%nat 1%nat)
  - g 0%nat 1%nat * (g 1%nat 0%nat * g 2%nat 2%nat - g 1%nat 2%nat * g 2%nat 0%nat)
  + g 0%nat 2%nat * (g 1%nat 0%nat * g 2%nat 1%nat - g 1%nat 1%nat * g 2%nat 0%nat).
(** J is the inverse root of the determinant, up to its sign. *)
Definition jacobian (c : metric) : Prop := J c * J c * det3 (up c) = 1.
(** Field-aligned: the length of the tangent vector along y is |J B|. *)
Definition field_aligned (c : metric) : Prop := g_22 c = (J c * Bxy c) * (J c * Bxy c).
(** Positive definite. *)
Definition form (g : nat -> nat -> R) (a b c : R) : R :=
  g 0%nat 0%nat * (a * a) + g 1%nat 1%nat * (b * b) + g 2%nat 2%nat * (c * c)
  + 2 * (g 0%nat 1%nat * (a * b) + g 0%nat 2%nat * (a * c) + g 1%nat 2%nat * (b * c)).
Definition positive_definite (g : nat -> nat -> R) : Prop := forall a b c, a <> 0 \/ b <> 0 \/ c <> 0 -> 0 < form g a b c.

Definition volume (c : metric) : R := J c * dx c * dy c * dz c.
(** Areas of the faces of a cell which cut the x and the y direction. *)
Definition area_x (c : metric) : R := J c * sqrt (g11 c) * dy c * dz c.
Definition area_y (c : metric) : R := J c * sqrt (g22 c) * dx c * dz c.
(** Lengths of the edges of a cell. *)
Definition edge_x (c : metric) : R := sqrt (g_11 c) * dx c.
Definition edge_y (c : metric) : R := sqrt (g_22 c) * dy c.
Definition edge_z (c : metric) : R := sqrt (g_33 c) * dz c.
(** Squared gradient of a function with changes d1, d2, d3 between neighbouring cells in x, y, z. *)
Definition gradient_sq (c : metric) (d1 d2 d3 : R) : R := form (up c) (d1 / dx c) (d2 / dy c) (d3 / dz c).

(** An equilibrium with its shear set to zero. *)
Definition unsheared (e : equilibrium) : equilibrium :=
  mkEquilibrium (Rxy e) (Bpxy e) (Btxy e) (hthe e) 0 (eq_dx e) (eq_dy e) (eq_dz e) (eq_Bxy e).
(** A possible one. *)
Definition equilibrium_ok (e : equilibrium) : Prop :=
  Rxy e <> 0 /\ Bpxy e <> 0 /\ hthe e <> 0 /\ eq_Bxy e * eq_Bxy e = Bpxy e * Bpxy e + Btxy e * Btxy e.

(** Distance from the last cell to the n-th guard cell beyond it, along a line of cells with given lengths. *)
Fixpoint distance_to (len : Z -> R) (i s : Z) (n : nat) : R :=
  match n with
  | O => 0
  | S n => distance_to len i s n + (len (i + Z.of_nat n * s)%Z + len (i + Z.of_nat (S n) * s)%Z) / 2
  end.
