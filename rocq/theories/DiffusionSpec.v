(** Specification of conservative, dissipative diffusion operators. *)

From Coq Require Import List Bool ZArith Reals.
From Verif Require Import ParallelModel ParallelSpec DiffusionModel.
Open Scope R_scope.

(** Sum over the n cells from lo of a result weighted by cell volumes W. *)
Definition total (W : Z -> R) (lo : Z) (n : nat) (r : Z -> R) : R := zsum lo n (fun j => W j * r j).

(** Sum over a rectangle of cells. *)
Definition total2 (W : Z -> Z -> R) (lo1 : Z) (n1 : nat) (lo2 : Z) (n2 : nat) (r : Z -> Z -> R) : R :=
  zsum lo1 n1 (fun i => zsum lo2 n2 (fun j => W i j * r i j)).

(** Mean of a quantity on the face between cells j - 1 and j, and the difference across it. *)
Definition mean (f : Z -> R) (j : Z) : R := (f (j - 1)%Z + f j) / 2.
Definition jump (f : Z -> R) (j : Z) : R := f j - f (j - 1)%Z.

(** Diffusive flux of f along the field line (towards lower j for a profile that increases):
    coefficient times area over distance times difference. *)
Definition conductive_flux (K J g22 dy f : Z -> R) (j : Z) : R :=
  mean K j * mean J j / mean g22 j * (jump f j / mean dy j).
Definition index_flux (J f : Z -> R) (j : Z) : R := mean J j * jump f j.

(** Faces at closed ends carry no flux unless boundary fluxes are on. *)
Definition closed_face (m : mesh) (bndry_flux : bool) (j : Z) : bool :=
  (negb bndry_flux && ((closed_low m && Z.eqb j (ystart m)) || (closed_high m && Z.eqb j (yend m + 1))))%bool.
Definition K_face (m : mesh) (c : coords) K f bndry_flux (j : Z) : R :=
  if closed_face m bndry_flux j then 0 else conductive_flux K (c_J c) (c_g22 c) (c_dy c) f j.
Definition index_line (m : mesh) (J f : Z -> R) (bndry_flux : bool) (j : Z) : R :=
  if closed_face m bndry_flux j then 0 else index_flux J f j.

(** A processor with n cells in X. *)
Definition xmesh_ok (m : xmesh) (n : nat) : Prop := (0 < n)%nat /\ xend m = (xstart m + Z.of_nat n - 1)%Z.
(** Flux between k and its neighbour, in a direction with nz points that is periodic. *)
Definition z_flux nz (a f : Z -> R) (k : Z) : R := (f (zplus nz k) - f k) * ((a k + a (zplus nz k)) / 2).
(** Radial flux through the face between i - 1 and i. *)
Definition perp_flux (J dx : Z -> R) (a f : Z -> Z -> R) (i k : Z) : R :=
  (f i k - f (i - 1)%Z k) / 4 * (J (i - 1)%Z + J i) * (dx (i - 1)%Z + dx i) * (a (i - 1)%Z k + a i k).
(** Fluxes k grad f of the X-Y Laplacian through the lower X and Y faces: mean coefficient times mean
    metric times gradient. *)
Definition laplace_x (c : coords2) (k f : Z -> Z -> R) (i j : Z) : R :=
  (l_g11 c (i - 1)%Z j + l_g11 c i j) / 2 * ((l_J c (i - 1)%Z j + l_J c i j) / 2) * ((k (i - 1)%Z j + k i j) / 2)
  * ((f i j - f (i - 1)%Z j) / ((l_dx c (i - 1)%Z j + l_dx c i j) / 2)).
Definition laplace_y (c : coords2) (k f : Z -> Z -> R) (i j : Z) : R :=
  (l_g22 c i (j - 1)%Z + l_g22 c i j) / 2 * ((l_J c i (j - 1)%Z + l_J c i j) / 2) * ((k i (j - 1)%Z + k i j) / 2)
  * ((f i j - f i (j - 1)%Z) / ((l_dy c i (j - 1)%Z + l_dy c i j) / 2)).
Definition positive_metric2 (c : coords2) : Prop :=
  forall i j, 0 < l_J c i j /\ 0 < l_g11 c i j /\ 0 < l_g22 c i j /\ 0 < l_dx c i j /\ 0 < l_dy c i j.
Definition second_difference nz (f : Z -> R) (k : Z) : R := f (zplus nz k) - 2 * f k + f (zminus nz k).
