(** The normalised and the recalculated metric (C54, C55); boundary values (C59). *)

From Coq Require Import List Bool ZArith Reals Lra Lia.
From Verif Require Import StateMonad ParallelModel MetricModel MetricSpec MetricProofs.
Import ListNotations.
Open Scope R_scope.

(** Normalising keeps: inverse to each other, J the inverse root of the determinant, y along the field, positive definite. *)
Theorem C54_still_a_metric : forall rho B c, 0 < rho -> 0 < B -> let c' := normalise_metric rho B c in
  (inverse c' <-> inverse c) /\ (jacobian c' <-> jacobian c) /\ (field_aligned c' <-> field_aligned c)
  /\ (positive_definite (up c') <-> positive_definite (up c)).
Proof.
  exact (fun rho B c Hr HB => conj (normalise_inverse rho B c Hr HB) (conj (normalise_jacobian rho B c Hr HB)
          (conj (normalise_aligned rho B c Hr HB) (normalise_positive rho B c Hr HB)))).
Qed.
Print Assumptions C54_still_a_metric.
(** A sheared metric with every component non-zero but g12, and one from a tokamak equilibrium, are metrics before and after. *)
Example C54_case : let c := metric_of (- (1)) tokamak_point in
  inverse c /\ jacobian c /\ field_aligned c /\ positive_definite (up c) /\ inverse (normalise_metric 2 3 c) /\ jacobian (normalise_metric 2 3 c).
Proof.
  intros c. assert (Hs : - (1) * - (1) = 1) by ring.
  assert (Hi : inverse c) by (apply recalculated_inverse; try exact Hs; apply tokamak_ok).
  assert (Hj : jacobian c) by (apply recalculated_jacobian; [ exact Hs | exact tokamak_ok ]).
  destruct (C54_still_a_metric 2 3 c ltac:(lra) ltac:(lra)) as (H1 & H2 & H3 & H4).
  repeat split.
  - exact Hi.
  - exact Hj.
  - apply recalculated_aligned. apply tokamak_ok.
  - apply recalculated_positive; [ exact Hs | exact tokamak_ok ].
  - apply H1. exact Hi.
  - apply H2. exact Hj.
Qed.

(** Lengths, areas, volumes in metres are rho, rho^2, rho^3 times those of the normalised metric; gradients go the other way. *)
Theorem C54_lengths_areas_volumes : forall rho B c, 0 < rho -> 0 < B -> let c' := normalise_metric rho B c in
  edge_x c = rho * edge_x c' /\ edge_y c = rho * edge_y c' /\ edge_z c = rho * edge_z c'
  /\ area_x c = (rho * rho) * area_x c' /\ area_y c = (rho * rho) * area_y c' /\ volume c = (rho * rho * rho) * volume c'
  /\ (forall d1 d2 d3, gradient_sq c' d1 d2 d3 = (rho * rho) * gradient_sq c d1 d2 d3).
Proof. exact normalise_geometry. Qed.
Print Assumptions C54_lengths_areas_volumes.

(** Normalising twice is normalising with the products; units of one change nothing. *)
Theorem C54_scale_consistent : forall rho B rho' B' c, 0 < rho -> 0 < B -> 0 < rho' -> 0 < B' ->
  normalise_metric rho' B' (normalise_metric rho B c) = normalise_metric (rho * rho') (B * B') c
  /\ normalise_metric 1 1 c = c.
Proof. exact (fun rho B rho' B' c H1 H2 H3 H4 => conj (normalise_twice rho B rho' B' c H1 H2 H3 H4) (normalise_one c)). Qed.
Print Assumptions C54_scale_consistent.
Example C54_units_case : volume (normalise_metric 2 3 (metric_of 1 tokamak_point)) * 8 = volume (metric_of 1 tokamak_point)
  /\ volume (metric_of 1 tokamak_point) = 1 / 6.
Proof.
  destruct (C54_lengths_areas_volumes 2 3 (metric_of 1 tokamak_point) ltac:(lra) ltac:(lra)) as (_ & _ & _ & _ & _ & H & _).
  split; [ lra | ]. unfold volume, metric_of, tokamak_point. mcbn. field.
Qed.

(** The curvature vector in the grid file, 1/(m T) when multiplied by 2/B, is normalised with rho_s0 * Bnorm and the change of coordinates. *)
Theorem C54_curvature : forall rho B b bx by_ bz, 0 < rho -> 0 < B -> b <> 0 ->
  normalise_curvature rho B (b / B) (bx, by_, bz)
  = (/ (rho * B) * (rho * B) * (2 / b * bx), rho * (rho * B) * (2 / b * by_), rho * (rho * B) * (2 / b * bz)).
Proof. exact curvature_scale. Qed.
Print Assumptions C54_curvature.

(** The recalculated metric is a field-aligned metric exactly when B^2 = Bp^2 + Bt^2, with either sign. *)
Theorem C55_consistent : forall s e, s = 1 \/ s = - (1) -> Rxy e <> 0 -> Bpxy e <> 0 -> hthe e <> 0 ->
  (inverse (metric_of s e) <-> eq_Bxy e * eq_Bxy e = Bpxy e * Bpxy e + Btxy e * Btxy e)
  /\ (equilibrium_ok e -> jacobian (metric_of s e) /\ positive_definite (up (metric_of s e)))
  /\ field_aligned (metric_of s e).
Proof.
  exact (fun s e Hs HR HB Hh =>
    let Hs2 := match Hs with or_introl E => eq_ind_r (fun t => t * t = 1) (Rmult_1_l 1) E
                           | or_intror E => eq_ind_r (fun t => t * t = 1) (eq_trans (Rmult_opp_opp 1 1) (Rmult_1_l 1)) E end in
    conj (recalculated_inverse s e Hs2 HR HB Hh)
      (conj (fun Hok => conj (recalculated_jacobian s e Hs2 Hok) (recalculated_positive s e Hs2 Hok)) (recalculated_aligned s e HB))).
Qed.
Print Assumptions C55_consistent.
Example C55_case : equilibrium_ok tokamak_point /\ sign_Bp [Bpxy tokamak_point] = - (1) /\ sinty tokamak_point <> 0.
Proof.
  split; [ exact tokamak_ok | ]. unfold sign_Bp, tokamak_point. cbn [existsb Bpxy sinty].
  rewrite (StateMonadProofs.Rltb_true (- (3)) 0) by lra. split; [ reflexivity | lra ].
Qed.

(** On a whole grid, it is the normalised metric of the equilibrium in SI units; in shifted coordinates, of the equilibrium without shear. *)
Theorem C55_equals_normalised : forall L B shifted grid, 0 < L -> 0 < B ->
  Forall (fun e => Rxy e <> 0 /\ Bpxy e <> 0 /\ hthe e <> 0) grid ->
  recalculate_metric L B shifted grid
  = map (fun e => normalise_metric L B (metric_of (sign_Bp (map Bpxy grid)) (if shifted then unsheared e else e))) grid.
Proof. exact recalculate_whole. Qed.
Print Assumptions C55_equals_normalised.

(** Cells have positive volume exactly if dx has the sign of the poloidal field (J has it). *)
Theorem C55_volume_sign : forall s e, hthe e > 0 -> eq_dy e > 0 -> eq_dz e > 0 -> Bpxy e <> 0 ->
  (0 < volume (metric_of s e) <-> 0 < eq_dx e * Bpxy e).
Proof. exact volume_sign. Qed.
Print Assumptions C55_volume_sign.
Example C55_volume_case : 0 < volume (metric_of (- (1)) tokamak_point) /\ J (metric_of (- (1)) tokamak_point) < 0.
Proof.
  split.
  - apply C55_volume_sign; unfold tokamak_point; mcbn; lra.
  - unfold metric_of, tokamak_point. mcbn. replace (1 / 2 / - (3)) with (- (1 / 6)) by field. lra.
Qed.

(** Guard cells of the decaying boundary: exponential of the radial distance to the first guard cell; sign kept; smaller in magnitude. *)
Theorem C59_decay_values : forall cdx cg lambda width i s f k, (s = 1 \/ s = -1)%Z -> (1 <= k <= Z.of_nat width)%Z ->
  let v := decay_boundary cdx cg lambda width i s f (i + k * s) in
  let d := (cdx i / sqrt (cg i) + cdx (i + s)%Z / sqrt (cg (i + s)%Z)) / 2 in
  v = f i * exp (- d / lambda) /\ (0 < f i -> 0 < v) /\ (f i < 0 -> v < 0) /\ (f i = 0 -> v = 0)
  /\ (0 < lambda -> 0 < d -> f i <> 0 -> Rabs v < Rabs (f i)).
Proof. exact decay_value. Qed.
Print Assumptions C59_decay_values.
Example C59_decay_case : decay_boundary (fun _ => 3) (fun _ => 1) default_decay_length 2 7 1 (fun j => IZR j) 8 = 7 * exp (- (1)).
Proof.
  destruct (C59_decay_values (fun _ => 3) (fun _ => 1) default_decay_length 2 7 1 (fun j => IZR j) 1 ltac:(left; reflexivity) ltac:(lia)) as [E _].
  change (7 + 1 * 1)%Z with 8%Z in E. rewrite E. rewrite sqrt_1. unfold default_decay_length. f_equal. f_equal. field.
Qed.

(** Nothing else is changed. *)
Theorem C59_decay_keeps_domain : forall cdx cg lambda width i s f j, (s = 1 \/ s = -1)%Z ->
  (forall k, (1 <= k <= Z.of_nat width)%Z -> j <> (i + k * s)%Z) -> (1 <= width)%nat ->
  decay_boundary cdx cg lambda width i s f j = f j.
Proof. exact decay_others. Qed.
Print Assumptions C59_decay_keeps_domain.
Example C59_domain_case : forall k, (1 <= k <= 2)%Z -> (6 <> 7 + k * 1)%Z.
Proof. intros k Hk. lia. Qed.

(** The decay does not continue beyond the first guard cell. *)
Theorem C59_decay_continues_refuted : exists cdx cg lambda i s f,
  (forall j, 0 < cdx j /\ 0 < cg j) /\ 0 < lambda /\ 0 < f i
  /\ decay_boundary cdx cg lambda 2 i s f (i + 2 * s) <> f i * exp (- distance_to (fun j => cdx j / sqrt (cg j)) i s 2 / lambda).
Proof. exact decay_continue_fails. Qed.
Print Assumptions C59_decay_continues_refuted.

(** With negative dx (poloidal field in the other direction) values grow instead. *)
Theorem C59_decay_negative_dx_refuted : exists cdx cg lambda i s f,
  (forall j, cdx j < 0 /\ 0 < cg j) /\ 0 < lambda /\ 0 < f i /\ f i < decay_boundary cdx cg lambda 2 i s f (i + s).
Proof. exact decay_negative_dx. Qed.
Print Assumptions C59_decay_negative_dx_refuted.

(** At Y boundaries the distance is still the radial size of the cells, not the distance along the field. *)
Theorem C59_decay_in_y_refuted : exists (cdx cg cdy cg_22 : Z -> R) lambda i s f,
  (forall j, 0 < cdx j /\ 0 < cg j /\ 0 < cdy j /\ 0 < cg_22 j) /\ 0 < lambda
  /\ decay_boundary cdx cg lambda 2 i s f (i + s) <> f i * exp (- distance_to (fun j => cdy j * sqrt (cg_22 j)) i s 1 / lambda).
Proof. exact decay_wrong_length. Qed.
Print Assumptions C59_decay_in_y_refuted.

(** The Z-averaging boundary: the face value is the average at every z; the domain is unchanged; the average of the guard cell is the same; zero
    gradient for a field which doesn't depend on z. *)
Theorem C59_average_face : forall Nz i s f, (0 < Nz)%nat -> s <> 0%Z ->
  let f' := neumann_average_z Nz i s f in
  let avg := z_sum Nz (f i) / INR Nz in
  (forall z, (0 <= z < Z.of_nat Nz)%Z -> (f' (i + s)%Z z + f' i z) / 2 = avg /\ f' (i + 2 * s)%Z z = f' (i + s)%Z z)
  /\ (forall x z, x <> (i + s)%Z -> x <> (i + 2 * s)%Z -> f' x z = f x z)
  /\ z_sum Nz (f' (i + s)%Z) / INR Nz = avg
  /\ (forall a, (forall z, (0 <= z < Z.of_nat Nz)%Z -> f i z = a) -> forall z, (0 <= z < Z.of_nat Nz)%Z -> f' (i + s)%Z z = a).
Proof. exact z_average_face. Qed.
Print Assumptions C59_average_face.
Example C59_average_case : neumann_average_z 2 3 1 (fun x z => IZR (x + 2 * z)) 4 0 = 5.
Proof. unfold neumann_average_z, z_sum. cbn [seq fold_left Z.leb Z.ltb Z.compare Z.of_nat Z.eqb orb andb]. change (INR 2) with 2. cbn [Z.of_nat Pos.of_succ_nat Z.ltb Z.compare Pos.compare Pos.compare_cont andb Z.add Z.mul Pos.mul Pos.add Pos.succ Z.eqb Pos.eqb orb]. lra. Qed.
