(** More about the operators: C23, C25, C28, C29. *)

From Coq Require Import List Bool ZArith Reals Lra Lia.
From Verif Require Import StateMonad ParallelModel ParallelSpec ParallelProofs ParallelLaws ParallelHeating LimitersModel DiffusionModel DiffusionSpec PerpModel PerpSpec Revisit2Proofs.
Import ListNotations.
Open Scope R_scope.

(** ** C29: the flow diagnostic of Div_par_fvv_heating is the flow of kinetic energy. *)
Theorem C29_kinetic_flow : forall edges m c n f v ws fixflux, mesh_ok m n -> positive_metric c ->
  exists h wh, Div_par_fvv_heating edges m c f v ws fixflux = Some (h, wh) /\
    forall j, (ystart m <= j <= ystart m + Z.of_nat n)%Z ->
      wh j = flow_through (c_J c) (c_g22 c) (c_dx c) (c_dz c)
               (line_flux (kinetic_flux edges f v ws) (end_kinetic_flux f v) (closed_low m) (closed_high m) (ystart m) n) j.
Proof. exact kinetic_flow. Qed.
Print Assumptions C29_kinetic_flow.
Theorem C29_heating_is_energy : forall A h, 3 / 2 * Sp_nvh A h = A * h.
Proof. exact heating_energy. Qed.
Print Assumptions C29_heating_is_energy.
Example C29_kinetic_flow_case : mesh_ok mesh1 1 /\ positive_metric unit_coords.
Proof. exact (conj mesh1_ok unit_positive). Qed.

(** ** C23: Fromm's edges are exact for linear profiles. *)
Theorem C23_fromm_linear : forall a b, fromm_edges (a - b) a (a + b) = (a - b / 2, a + b / 2).
Proof. exact fromm_linear. Qed.
Print Assumptions C23_fromm_linear.
Example C23_fromm_case : fromm_edges 1 3 5 = (2, 4). Proof. unfold fromm_edges. f_equal; lra. Qed.

(** ** C25: inside the domain the flux is the third derivative, exact for cubics (index space). *)
Theorem C25_third_derivative : forall m a b c d bf i J dx, (lastX m && Z.eqb i (xend m))%bool = false ->
  d4_right m J dx (cubic a b c d) bf i = (dx i + dx (i + 1)%Z) / 2 * ((J i + J (i + 1)%Z) / 2) * cubic_prime3 d /\
  (firstX m = false -> d4_left m J dx (cubic a b c d) bf (xstart m) i = Some ((dx i + dx (i + 1)%Z) / 2 * ((J i + J (i + 1)%Z) / 2) * cubic_prime3 d)).
Proof. exact (fun m a b c d bf i J dx H => conj (d4_interior m a b c d bf i J dx H) (d4_interior_left m a b c d bf i J dx)). Qed.
Print Assumptions C25_third_derivative.
Example C25_third_derivative_case : let m := mkXmesh 2 4 7 false false in (lastX m && Z.eqb 2 (xend m))%bool = false /\ firstX m = false /\ cubic_prime3 1 = 6.
Proof. cbn. repeat split. unfold cubic_prime3. lra. Qed.
(** At the ends, with fluxes through the boundary, the one-sided formulas give minus the third derivative: also exact for cubics, if the mean of
    the last cell and its guard cell is the value at the face. *)
Theorem C25_boundary_third_derivative : forall m a b c d J dx f,
  (lastX m = true -> (forall k, (k <= xend m)%Z -> f k = cubic a b c d k) -> (f (xend m) + f (xend m + 1)%Z) / 2 = cubic_at a b c d (IZR (xend m) + 1 / 2) ->
   d4_right m J dx f true (xend m) = (dx (xend m) + dx (xend m + 1)%Z) / 2 * ((J (xend m) + J (xend m + 1)%Z) / 2) * - cubic_prime3 d) /\
  (firstX m = true -> (forall k, (xstart m <= k)%Z -> f k = cubic a b c d k) -> (f (xstart m - 1)%Z + f (xstart m)) / 2 = cubic_at a b c d (IZR (xstart m) - 1 / 2) ->
   d4_left m J dx f true (xstart m) (xstart m) = Some ((dx (xstart m) + dx (xstart m + 1)%Z) / 2 * ((J (xstart m) + J (xstart m + 1)%Z) / 2) * - cubic_prime3 d)).
Proof. exact (fun m a b c d J dx f => conj (fun L F G => d4_wall_right m a b c d (xend m) J dx f L eq_refl F G) (fun L F G => d4_wall_left m a b c d (xstart m) J dx f L eq_refl F G)). Qed.
Print Assumptions C25_boundary_third_derivative.
(** The flux of hyperdiffusion through a boundary (bndry_flux = true) has the wrong sign: for the cubic x^3, with its exact value at the face, the
    formulas at 668-671 and 700-703 give -6 where the third derivative is 6 (as the fluxes between cells do). *)
Theorem C25_boundary_third_derivative_refuted : exists m f, lastX m = true /\ firstX m = true /\
  (forall k, (xstart m <= k <= xend m)%Z -> f k = cubic 0 0 0 1 k) /\
  (f (xend m) + f (xend m + 1)%Z) / 2 = cubic_at 0 0 0 1 (IZR (xend m) + 1 / 2) /\
  (f (xstart m - 1)%Z + f (xstart m)) / 2 = cubic_at 0 0 0 1 (IZR (xstart m) - 1 / 2) /\
  d4_right m (fun _ => 1) (fun _ => 1) f true (xend m) = - cubic_prime3 1 /\
  d4_left m (fun _ => 1) (fun _ => 1) f true (xstart m) (xstart m) = Some (- cubic_prime3 1) /\
  d4_right m (fun _ => 1) (fun _ => 1) f true (xstart m + 1) = cubic_prime3 1.
Proof. exact boundary_sign. Qed.
Print Assumptions C25_boundary_third_derivative_refuted.

(** ** C28: the gradient along Z is exact for linear fields: d/dz - g_23 / (J B)^2 d/dy. *)
Theorem C28_z_gradient : forall c nz a sy sz i j k, (0 <= k < nz - 1)%Z ->
  (forall j', p_dy c i j' = p_dy c i j) -> p_dy c i j <> 0 -> p_dz c i j <> 0 -> p_J c i j <> 0 -> p_Bxy c i j <> 0 ->
  z_gradient c nz (linear_yz a sy sz (p_dy c i j) (p_dz c i j)) i j k = sz - p_g_23 c i j / (p_J c i j * p_Bxy c i j) ^ 2 * sy.
Proof. exact z_gradient_linear. Qed.
Print Assumptions C28_z_gradient.
(** The flux with a limiter comes from the cell with the larger value, and is D times the gradient for a uniform D and no limit. *)
Theorem C28_z_limit : forall c nz a g f i j k,
  (0 < z_gradient c nz f i j k -> g i j (zplus nz k) = 0 -> z_limit c nz a g f i j k = 0) /\
  (z_gradient c nz f i j k <= 0 -> g i j k = 0 -> z_limit c nz a g f i j k = 0) /\
  (forall D, z_limit c nz (fun _ _ _ => D) (fun _ _ _ => 1) f i j k = D * z_gradient c nz f i j k).
Proof. exact (fun c nz a g f i j k => conj (proj1 (z_limit_donor c nz a g f i j k)) (conj (proj2 (z_limit_donor c nz a g f i j k)) (fun D => z_limit_uniform c nz D f i j k))). Qed.
Print Assumptions C28_z_limit.
