(** Vocabulary for FullVelProps.v. *)

From Coq Require Import List Bool ZArith Reals.
From Verif Require Import ParallelModel WallsModel FullVelModel.
Open Scope R_scope.

(** The tangent vectors of the coordinate lines, by differences in the grid. *)
Definition tangent_y (ystart yend : Z) (g : geometry) (i j : Z) : R * R := (y_difference ystart yend (Rxy g) (dy g) i j, y_difference ystart yend (Zxy g) (dy g) i j).
Definition tangent_x (LocalNx : Z) (g : geometry) (i j : Z) : R * R := (x_difference LocalNx (Rxy g) (dx g) i j, x_difference LocalNx (Zxy g) (dx g) i j).
Definition cross (a b : R * R) : R := fst a * snd b - snd a * fst b.
Definition dot (a b : R * R) : R := fst a * fst b + snd a * snd b.
(** The grid is regular at a cell: its lines cross at an angle, its scale factors are positive. *)
Definition regular (ystart yend LocalNx : Z) (g : geometry) (i j : Z) : Prop :=
  cross (tangent_x LocalNx g i j) (tangent_y ystart yend g i j) <> 0 /\ 0 < hthe g i j /\ 0 < Bpxy g i j /\ 0 < Rxy g i j /\ etaxy g i j ^ 2 < 1.
(** Change of the density of parallel momentum, of particles of mass AA, in a field line direction b = e_y / (J B). *)
Definition momentum_rate (AA J B N V dN dVy : R) : R := AA * (dN * V + N * (dVy / (J * B))).
(** Mirror image of a line of cells. *)
Definition mirror (m : mesh) (f : Z -> R) : Z -> R := fun j => f (ystart m + yend m - j)%Z.
(** Both ends of the line are targets. *)
Definition open_ended (m : mesh) : Prop := at_lower m = true /\ at_upper m = true /\ (ystart m < yend m)%Z.
