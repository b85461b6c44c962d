(** Specification of diffusive transport. *)

From Coq Require Import List Bool ZArith Reals String Permutation.
From Verif Require Import StateMonad ParallelModel ParallelSpec DiffusionModel DiffusionSpec PerpModel PerpSpec TransportModel.
Open Scope R_scope.

(** Changing coordinates along Z does nothing to a field which does not depend on z. *)
Definition keeps_axisymmetric (nzn : nat) (shift : field -> field) : Prop :=
  forall h g, (forall i j k, (0 <= k < Z.of_nat nzn)%Z -> h i j k = g i j) ->
  forall i j k, (0 <= k < Z.of_nat nzn)%Z -> shift h i j k = g i j.

(** Flux of an axisymmetric profile through the faces between i - 1 and i (carrying a from where it comes from) and between j - 1 and j
    (carrying the mean of a). *)
Definition radial (c : pcoords) (a f : Z -> Z -> R) (i j : Z) : R := upwind_x c (flat a) (flat f) i j 0.
Definition poloidal (c : pcoords) (a f : Z -> Z -> R) (i j : Z) : R :=
  let q j := p_g_23 c i j / (p_J c i j * p_Bxy c i j * (p_J c i j * p_Bxy c i j)) in
  - ((a i (j - 1)%Z + a i j) / 2 * ((p_J c i (j - 1)%Z * p_g23 c i (j - 1)%Z + p_J c i j * p_g23 c i j) / 2)
     * ((q (j - 1)%Z + q j) / 2) * ((f i j - f i (j - 1)%Z) / ((p_dy c i (j - 1)%Z + p_dy c i j) / 2))).
(** Rate of change of the content of a cell, per volume. *)
Definition cell_rate (c : pcoords) (X Y : Z -> Z -> R) (i j : Z) : R :=
  (X (i + 1)%Z j - X i j) / (p_dx c i j * p_J c i j) + (Y i (j + 1)%Z - Y i j) / (p_dy c i j * p_J c i j).
(** What enters through the radial edges of a box of nx by ny by nzn cells. *)
Definition radial_edges (x0 : Z) (nx : nat) (y0 : Z) (ny nzn : nat) (c : pcoords) (X : Z -> Z -> R) : R :=
  zsum y0 ny (fun j => INR nzn * (p_dy c x0 j * p_dz c x0 y0 * (X (x0 + Z.of_nat nx)%Z j - X x0 j))).
Definition on (b : bool) (x : R) : R := if b then x else 0.
Definition source (f : flows) : field := fst (fst f).

(** Averages in z. *)
Definition z_mean (nzn : nat) (f : Z -> R) : R := zsum 0 nzn f / INR nzn.

(** Flux of heat (or particles) between cells j - 1 and j: conductivity K. *)
Definition line_conduction (c : coords) (K f : Z -> R) (j : Z) : R := conductive_flux K (c_J c) (c_g22 c) (c_dy c) f j.

(** Cross-section for collisions of a SOL-KiT neutral in m^2: 3e-19 with ions, 8.8e-21 with electrons and neutrals. *)
Definition cross_section (s : particle) : R := if (charged s && negb (String.eqb (pt_name s) "e"))%bool then 3e-19 else 8.8e-21.
Fixpoint collision_sum (Nnorm : R) (l : list particle) : R :=
  match l with nil => 0 | cons s rest => cross_section s * (pt_density s * Nnorm) + collision_sum Nnorm rest end.

(** Braginskii's collision times for a charge of one (temperature in Joules) and the heat conductivity c n T tau / m. *)
Definition tau (si : constants) (electrons : bool) (lnL m n T : R) : R :=
  (if electrons then 6 * sqrt 2 else 12) * (PI * sqrt PI) * (si_e0 si * si_e0 si) * sqrt m * (T * sqrt T)
  / (lnL * (si_qe si * si_qe si * si_qe si * si_qe si) * n).
Definition conductivity (coef n T tau m : R) : R := coef * n * T * tau / m.
