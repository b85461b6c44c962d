(** NeutralFullVelocity, src/full_velocity.cxx and include/full_velocity.hxx, and SNBConduction, src/snb_conduction.cxx.

    Simplifications: exact reals; the two-dimensional fields are functions of the cell (i, j); BOUT++'s Div, Grad, V_dot_Grad, Laplace_FV and
    HeatFluxSNB are not in the repository and enter as arbitrary values; the boundary conditions of the evolving fields act before transform.
    outputVars is modelled for the conversion factor of snb_conduction only. *)

From Coq Require Import List Bool ZArith Reals.
From Verif Require Import StateMonad ParallelModel WallsModel.
Import ListNotations.
Open Scope R_scope.

Definition field2 := Z -> Z -> R.

(** ** Geometry, set up by the constructor *)

Record geometry := mkGeometry { Rxy : field2; Zxy : field2; hthe : field2; Bpxy : field2; etaxy : field2; dx : field2; dy : field2 }.
(** Normalisation, 73-76. *)
Definition normalised (Lnorm Bnorm : R) (g : geometry) : geometry :=
  mkGeometry (fun i j => Rxy g i j / Lnorm) (fun i j => Zxy g i j / Lnorm) (fun i j => hthe g i j / Lnorm) (fun i j => Bpxy g i j / Bnorm) (etaxy g) (dx g) (dy g).
(** cosbeta, 54. *)
Definition cosbeta (g : geometry) (i j : Z) : R := sqrt (1 - etaxy g i j ^ 2).
(** Differences along y, 94-103, and along x, 113-124. *)
Definition y_difference (ystart yend : Z) (f d : field2) (i j : Z) : R :=
  if Z.eqb j ystart then (f i (j + 1)%Z - f i j) / d i j
  else if Z.eqb j yend then (f i j - f i (j - 1)%Z) / d i j
  else (f i (j + 1)%Z - f i (j - 1)%Z) / (2 * d i j).
Definition x_difference (LocalNx : Z) (f d : field2) (i j : Z) : R :=
  if Z.eqb i 0 then (f (i + 1)%Z j - f i j) / d i j
  else if Z.eqb i (LocalNx - 1) then (f i j - f (i - 1)%Z j) / d i j
  else (f (i + 1)%Z j - f (i - 1)%Z j) / (2 * d i j).
Record transformation := mkTransformation { Urx : R; Ury : R; Uzx : R; Uzy : R; Txr : R; Txz : R; Tyr : R; Tyz : R }.
(** The body of the loop, 91-145. *)
Definition transformation_at (ystart yend LocalNx : Z) (g : geometry) (i j : Z) : transformation :=
  let dRdtheta := y_difference ystart yend (Rxy g) (dy g) i j in
  let dZdtheta := y_difference ystart yend (Zxy g) (dy g) i j in
  let h := sqrt (dRdtheta ^ 2 + dZdtheta ^ 2) in
  let grady := 1 / hthe g i j in
  let dRdtheta := dRdtheta / grady / h in
  let dZdtheta := dZdtheta / grady / h in
  let dRdpsi := x_difference LocalNx (Rxy g) (dx g) i j in
  let dZdpsi := x_difference LocalNx (Zxy g) (dx g) i j in
  let dldpsi := sqrt (dRdpsi ^ 2 + dZdpsi ^ 2) * cosbeta g i j in
  let dRdpsi := dRdpsi / (dldpsi * Bpxy g i j * Rxy g i j) in
  let dZdpsi := dZdpsi / (dldpsi * Bpxy g i j * Rxy g i j) in
  let J := dRdpsi * dZdtheta - dZdpsi * dRdtheta in
  mkTransformation dRdpsi dRdtheta dZdpsi dZdtheta (dZdtheta / J) (- dRdtheta / J) (- dZdpsi / J) (dRdpsi / J).
(** What the arrays hold after the constructor, 78-155, in the cells from the first Y guard cell to the last: the loop fills ystart to yend,
    and applyBoundary("neumann") the guard cells of a physical boundary.  [None]: allocated (78-86), never set. *)
Definition stored (m : mesh) (LocalNx : Z) (g : geometry) (i j : Z) : option transformation :=
  let at_ := transformation_at (ystart m) (yend m) LocalNx g i in
  if ((ystart m <=? j) && (j <=? yend m))%Z%bool then Some (at_ j)
  else if (Z.eqb j (ystart m - 1) && at_lower m)%bool then Some (at_ (ystart m))
  else if (Z.eqb j (yend m + 1) && at_upper m)%bool then Some (at_ (yend m))
  else None.

(** ** transform, 158-217, along one column of cells *)

Record column := mkColumn { Nn2D : Z -> R; Pn2D : Z -> R; Vx : Z -> R; Vy : Z -> R; Vz : Z -> R }.
(** outflow_ydown, 178-201. *)
Definition outflow (m : mesh) (outflow_ydown : bool) (c : column) : column :=
  if (outflow_ydown && at_lower m)%bool then
    let s := ystart m in let gd := (s - 1)%Z in
    mkColumn (upd (Nn2D c) gd (Nn2D c s)) (upd (Pn2D c) gd (Pn2D c s)) (upd (Vx c) gd (Vx c s))
             (upd (Vy c) gd (if Rltb (Vy c s) 0 then Vy c s else - Vy c s)) (upd (Vz c) gd (Vz c s))
  else c.
Record published := mkPublished { p_density : Z -> R; p_pressure : Z -> R; p_momentum : Z -> R; p_velocity : Z -> R; p_temperature : Z -> R }.
(** 163-169 and 204-217.  [J], [B]: Jacobian and magnetic field.  The result: Tn2D, the fields after the boundaries, the values set in the state. *)
Definition transform (m : mesh) (outflow_ydown : bool) (AA Tnorm : R) (J B : Z -> R) (c : column) : (Z -> R) * column * published :=
  let Tn2D := fun j => Pn2D c j / Nn2D c j in
  let Nn := fun j => rfloor (Nn2D c j) 1e-8 in
  let Tn := fun j => rfloor (Tn2D j) (0.01 / Tnorm) in
  let c := outflow m outflow_ydown c in
  let Vnpar := fun j => Vy c j / (J j * B j) in
  (Tn2D, c, mkPublished Nn (Pn2D c) (fun j => Vnpar j * Nn j * AA) Vnpar Tn).

(** ** finally, 221-377, in one cell *)

(** What BOUT++'s operators return here: Div(V, N), the covariant components of Grad(P), V_dot_Grad of vr and vz, Laplace_FV of vr and vz,
    Div(V) after its boundary conditions, Div(V, P), Laplace_FV(conduction, P / N). *)
Record operators := mkOperators { DivVN : R; gradP_x : R; gradP_y : R; gradP_z : R; adv_vr : R; adv_vz : R; lap_vr : R; lap_vz : R;
                                  DivV : R; DivVP : R; lapT : R }.
Record derivatives := mkDerivatives { d_N : R; d_P : R; d_Vx : R; d_Vy : R; d_Vz : R }.
(** Cylindrical components, 237-238. *)
Definition v_r (t : transformation) (vx vy : R) : R := Txr t * vx + Tyr t * vy.
Definition v_z (t : transformation) (vx vy : R) : R := Txz t * vx + Tyz t * vy.
(** 222-274. *)
Definition fluid (AA gamma_ratio : R) (t : transformation) (op : operators) (N P : R) : derivatives :=
  let Nfloor := rfloor N 1e-2 in
  let dN := - DivVN op in
  let dVx := - gradP_x op / (AA * Nfloor) in
  let dVy := - gradP_y op / (AA * Nfloor) in
  let dVz := - gradP_z op / (AA * Nfloor) in
  let dvr := - adv_vr op in
  let dvz := - adv_vz op in
  let dVx := dVx + (Urx t * dvr + Uzx t * dvz) in
  let dVy := dVy + (Ury t * dvr + Uzy t * dvz) in
  let dvr := lap_vr op in
  let dvz := lap_vz op in
  let dVx := dVx + (Urx t * dvr + Uzx t * dvz) in
  let dVy := dVy + (Ury t * dvr + Uzy t * dvz) in
  let dP := - DivVP op - (gamma_ratio - 1) * P * DivV op * rfloor N 0 / Nfloor + lapT op in
  mkDerivatives dN dP dVx dVy dVz.
(** Loss to a target, 280-308 and 311-341: the guard cell, the cell next to it, sqrt(g_22) in both.  Returns the power and what is taken from
    the derivative of the pressure. *)
Definition target_power (gamma Nguard Ncell Tguard Tcell Jguard Jcell g22guard g22cell : R) : R :=
  let Nnout := 0.5 * (Ncell + Nguard) in
  let Nnout := if Rltb Nnout 0 then 0 else Nnout in
  let Tnout := 0.5 * (Tcell + Tguard) in
  let Tnout := if Rltb Tnout 0 then 0 else Tnout in
  let q := gamma * Nnout * Tnout * sqrt Tnout in
  q * (Jcell + Jguard) / (sqrt g22cell + sqrt g22guard).
Definition target_loss (power dy J : R) : R := 2 / 3 * power / (dy * J).
(** In the cells of a column, with Tn2D of transform. *)
Definition with_targets (m : mesh) (gamma : R) (N T J g22 dy : Z -> R) (dP : Z -> R) : Z -> R :=
  let at_ (cell guard : Z) := target_loss (target_power gamma (N guard) (N cell) (T guard) (T cell) (J guard) (J cell) (g22 guard) (g22 cell)) (dy cell) (J cell) in
  let dP := if at_lower m then upd dP (ystart m) (dP (ystart m) - at_ (ystart m) (ystart m - 1)%Z) else dP in
  if at_upper m then upd dP (yend m) (dP (yend m) - at_ (yend m) (yend m + 1)%Z) else dP.
(** Atomic processes, 346-364, and the stop of the density, 367-371.  [None]: not set. *)
Definition with_sources (AA J B N : R) (density_source momentum_source energy_source : option R) (d : derivatives) : derivatives :=
  let Nfloor := rfloor N 1e-2 in
  let dN := match density_source with Some s => d_N d + s | None => d_N d end in
  let dVy := match momentum_source with Some s => d_Vy d + s * (J * B) / (AA * Nfloor) | None => d_Vy d end in
  let dP := match energy_source with Some s => d_P d + 2 / 3 * s | None => d_P d end in
  let dN := if (Rltb N 1e-8 && Rltb dN 0)%bool then 0 else dN in
  mkDerivatives dN dP (d_Vx d) dVy (d_Vz d).

(** ** SNBConduction::transform, src/snb_conduction.cxx 7-38, in one cell *)

(** The grid spacing of the mesh, and the outcome of the call: [None] when divHeatFlux throws.  [divHeatFlux dy Te Ne] gives the divergences of
    the SNB and the Spitzer-Harm heat flux for temperature and density in eV and per cubic metre. *)
Record snb_result := mkSnb { Div_Q_SNB : R; Div_Q_SH : R; energy_source : R }.
Definition snb_transform (rho_s0 Tnorm Nnorm seconds : R) (divHeatFlux : R -> R -> R -> option (R * R)) (source : option R) (Te Ne dy : R) : R * option snb_result :=
  let Omega_ci := 1 / seconds in
  let Te := Te * Tnorm in
  let Ne := Ne * Nnorm in
  let dy_orig := dy in
  let dy := dy * rho_s0 in
  match divHeatFlux dy Te Ne with
  | None => (dy, None)
  | Some (snb, sh) =>
      let dy := dy_orig in
      let snb := snb / (Tnorm * Nnorm * Omega_ci) in
      let sh := sh / (Tnorm * Nnorm * Omega_ci) in
      (dy, Some (mkSnb snb sh (match source with Some s => s - snb | None => - snb end)))
  end.
(** Conversion factor of both outputs, 43-49. *)
Definition snb_conversion (qe Tnorm Nnorm Omega_ci : R) : R := qe * Tnorm * Nnorm * Omega_ci.
