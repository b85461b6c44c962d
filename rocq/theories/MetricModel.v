(** Metric tensor normalisation and recalculation, and the decaying-length boundary condition. *)

From Coq Require Import List Bool ZArith Reals.
From Verif Require Import StateMonad ParallelModel.
Import ListNotations.
Open Scope R_scope.

(** The members of Coordinates at one (x, y) point which Hermes changes; dy and dz are left alone. *)
Record metric := mkMetric {
  dx : R; dy : R; dz : R; Bxy : R; J : R;
  g11 : R; g22 : R; g33 : R; g12 : R; g13 : R; g23 : R;
  g_11 : R; g_22 : R; g_33 : R; g_12 : R; g_13 : R; g_23 : R
}.

(** normalise_metric, hermes-3.cxx 250-267.  coord->geometry() at 269 calculates Christoffel symbols and is not modelled. *)
Definition normalise_metric (rho_s0 Bnorm : R) (c : metric) : metric :=
  mkMetric (dx c / (rho_s0 * rho_s0 * Bnorm)) (dy c) (dz c) (Bxy c / Bnorm) (J c * (Bnorm / rho_s0))
           (g11 c / SQ (Bnorm * rho_s0)) (g22 c * SQ rho_s0) (g33 c * SQ rho_s0) (g12 c / Bnorm) (g13 c / Bnorm) (g23 c * SQ rho_s0)
           (g_11 c * SQ (Bnorm * rho_s0)) (g_22 c / SQ rho_s0) (g_33 c / SQ rho_s0) (g_12 c * Bnorm) (g_13 c * Bnorm) (g_23 c / SQ rho_s0).

(** What recalculate_metric loads from the grid, src/recalculate_metric.cxx 13-26, at one point. *)
Record equilibrium := mkEquilibrium { Rxy : R; Bpxy : R; Btxy : R; hthe : R; sinty : R; eq_dx : R; eq_dy : R; eq_dz : R; eq_Bxy : R }.
(** 28-39.  shifted: mesh:paralleltransform:type is "shifted". *)
Definition normalise_equilibrium (Lnorm Bnorm : R) (shifted : bool) (e : equilibrium) : equilibrium :=
  mkEquilibrium (Rxy e / Lnorm) (Bpxy e / Bnorm) (Btxy e / Bnorm) (hthe e / Lnorm)
    (if shifted then 0 else sinty e * (SQ Lnorm * Bnorm)) (eq_dx e / (SQ Lnorm * Bnorm)) (eq_dy e) (eq_dz e) (eq_Bxy e / Bnorm).
(** 42-45: min(Bpxy, true) is the minimum over all processors; here over a list of points. *)
Definition sign_Bp (Bp : list R) : R := if existsb (fun b => Rltb b 0) Bp then - (1) else 1.
(** 47-61. *)
Definition metric_of (sbp : R) (e : equilibrium) : metric :=
  let g11 := SQ (Rxy e * Bpxy e) in
  mkMetric (eq_dx e) (eq_dy e) (eq_dz e) (eq_Bxy e) (hthe e / Bpxy e)
    g11 (1 / SQ (hthe e)) (SQ (sinty e) * g11 + SQ (eq_Bxy e) / g11) 0 (- sinty e * g11) (- sbp * Btxy e / (hthe e * Bpxy e * Rxy e))
    (1 / g11 + SQ (sinty e * Rxy e)) (SQ (eq_Bxy e * hthe e / Bpxy e)) (Rxy e * Rxy e)
    (sbp * Btxy e * hthe e * sinty e * Rxy e / Bpxy e) (sinty e * Rxy e * Rxy e) (sbp * Btxy e * hthe e * Rxy e / Bpxy e).
(** The function, for all the points of the grid. *)
Definition recalculate_metric (Lnorm Bnorm : R) (shifted : bool) (grid : list equilibrium) : list metric :=
  let grid' := map (normalise_equilibrium Lnorm Bnorm shifted) grid in
  map (metric_of (sign_Bp (map Bpxy grid'))) grid'.

(** Normalisation of the curvature vector: Curlb_B.x /= Bnorm, .y and .z *= SQ(Lnorm), then *= 2/Bxy, src/vorticity.cxx 208-212,
    src/diamagnetic_drift.cxx 44-48, src/ion_viscosity.cxx 56-60, src/relax_potential.cxx 71-75 (identical).  Contravariant components of what the grid file calls bxcv. *)
Definition normalise_curvature (Lnorm Bnorm Bxy_normalised : R) (b : R * R * R) : R * R * R :=
  let '(bx, by_, bz) := b in
  (bx / Bnorm * (2 / Bxy_normalised), by_ * SQ Lnorm * (2 / Bxy_normalised), bz * SQ Lnorm * (2 / Bxy_normalised)).

(** DecayLengthBoundary::apply, hermes-3.cxx 112-155, at one boundary point and one zk, along the line of cells which crosses the boundary: i is
    the last cell in the domain, s the direction into the boundary (+1 or -1), so the first guard cell is i+s.  cell_dx and cell_g11 are the
    values of dx and g11 on that line. *)
Definition radial_length (cell_dx cell_g11 : Z -> R) (i : Z) : R := cell_dx i / sqrt (cell_g11 i).
Definition decay_boundary (cell_dx cell_g11 : Z -> R) (decay_length : R) (width : nat) (i s : Z) (f : Z -> R) : Z -> R :=
  let dr := radial_length cell_dx cell_g11 in
  let distance := 0.5 * (dr (i + s)%Z + dr i) in
  let f := upd f (i + s) (f i * exp (- (1) * distance / decay_length)) in
  fold_left (fun f (k : nat) => upd f (i + s + Z.of_nat k * s) (f (i + s)%Z)) (seq 1 (width - 1)) f.
(** 124: without an argument. *)
Definition default_decay_length : R := 3.

(** neumann_boundary_average_z, src/evolve_density.cxx 142-174 (the same in evolve_pressure.cxx and evolve_energy.cxx): over a field of x and z at
    one y, the z average of the last cell is given to the boundary.  Here at the inner (s = -1, i = xstart) or outer (s = +1, i = xend) side: both
    guard cells get 2 * average - f(i).  Nz: number of points in z.  With one guard cell in x (MXG = 1) i + 2 s is outside the
    array; that is not modelled. *)
Definition z_sum (Nz : nat) (f : Z -> R) : R := fold_left (fun a k => a + f (Z.of_nat k)) (seq 0 Nz) 0.
Definition neumann_average_z (Nz : nat) (i s : Z) (f : Z -> Z -> R) : Z -> Z -> R :=
  let avg := z_sum Nz (f i) / INR Nz in
  fun x z => if (Z.leb 0 z && Z.ltb z (Z.of_nat Nz))%bool then
    if (Z.eqb x (i + s) || Z.eqb x (i + 2 * s))%bool then 2 * avg - f i z else f x z else f x z.
