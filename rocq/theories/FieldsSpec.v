(** What the boundary values of the potentials and the corrected momenta should satisfy. *)

From Coq Require Import List Bool ZArith Reals.
Import ListNotations.
Open Scope R_scope.

(** Value on the face between cell i and its neighbour i + s, halfway between the two cell centres. *)
Definition face (i s : Z) (phi : Z -> Z -> R) (z : Z) : R := (phi i z + phi (i + s)%Z z) / 2.
(** The face has one value, the same for every z of the domain. *)
Definition face_is (Nz : nat) (i s : Z) (phi : Z -> Z -> R) (b : R) : Prop := forall z, (0 <= z < Z.of_nat Nz)%Z -> face i s phi z = b.
Definition mean_is (Nz : nat) (i : Z) (phi : Z -> Z -> R) (m : R) : Prop :=
  fold_right Rplus 0 (map (fun k => phi i (Z.of_nat k)) (seq 0 Nz)) = INR Nz * m.

(** The exact solution of db/dt = (m - b) / tau after a time t. *)
Definition decayed (tau t m b : R) : R := m + (b - m) * exp (- (t / tau)).

Definition between (a b x : R) : Prop := Rmin a b <= x <= Rmax a b.

(** Mean of all values of all processors. *)
Definition rows_total (procs : list (list (list R))) : R :=
  fold_right Rplus 0 (map (fun p => fold_right Rplus 0 (map (fold_right Rplus 0) p)) procs).
Definition true_mean (Nz rows : nat) (procs : list (list (list R))) : R := rows_total procs / (INR (List.length procs) * INR rows * INR Nz).

(** Ions entering a sheath at the sound speed (T_e + T_i) / m_i and electrons crossing a potential phi (singly charged ions). *)
Definition ion_flux (n Te Ti mi : R) : R := n * sqrt ((Te + Ti) / mi).
Definition electron_flux (n Te me phi : R) : R := n * sqrt (Te / (2 * PI * me)) * exp (- (phi / Te)).
