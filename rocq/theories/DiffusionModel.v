(** Diffusion operators of src/div_ops.cxx: Div_par_diffusion_index, Div_par_K_Grad_par_mod,
    D4DX4_FV_Index, Div_Perp_Lap_FV_Index, Div_Z_FV_Index, D4DZ4_Index, Laplace_FV.

    Simplifications: exact reals; fields are functions of the indices that the operator differences over, the other
    indices being fixed (they only select the line or plane); transforms to and from field-aligned
    coordinates and parallel slices are not modelled. *)

From Coq Require Import List Bool ZArith Reals.
From Verif Require Import ParallelModel.
Import ListNotations.
Open Scope R_scope.

(** Div_par_diffusion_index, src/div_ops.cxx 39-68: one iteration of the loop over j ... *)
Definition diffusion_index_step (m : mesh) (J f : Z -> R) (bndry_flux : bool) (result : Z -> R) (j : Z) : Z -> R :=
  if (negb bndry_flux && negb (periodicY m)
      && ((Z.eqb j (yend m) && lastY m) || (Z.eqb j (ystart m - 1) && firstY m)))%bool
  then result (* continue *)
  else
    let Jb := 0.5 * (J j + J (j + 1)%Z) in
    let gradient := f (j + 1)%Z - f j in
    let flux := Jb * gradient in
    let result := upd result j (result j + flux / J j) in
    upd result (j + 1)%Z (result (j + 1)%Z - flux / J (j + 1)%Z).
(** ... and the whole loop.  Indices ystart - 1 .. yend + 1 are used: one guard cell. *)
Definition Div_par_diffusion_index (m : mesh) (J f : Z -> R) (bndry_flux : bool) : Z -> R :=
  fold_left (diffusion_index_step m J f bndry_flux) (irange (ystart m - 1) (yend m)) (fun _ => 0).

(** Div_par_K_Grad_par_mod, src/div_ops.cxx 1534-1602, at cell j of RGN_NOBNDRY: flux through the upper surface
    (1565-1577) ... *)
Definition K_upper (c : coords) (K f : Z -> R) (j : Z) : R :=
  let cc := 0.5 * (K j + K (j + 1)%Z) in
  let J := 0.5 * (c_J c j + c_J c (j + 1)%Z) in
  let g_22 := 0.5 * (c_g22 c j + c_g22 c (j + 1)%Z) in
  let gradient := 2 * (f (j + 1)%Z - f j) / (c_dy c j + c_dy c (j + 1)%Z) in
  cc * J * gradient / g_22.
(** ... through the lower surface (1580-1592) ... *)
Definition K_lower (c : coords) (K f : Z -> R) (j : Z) : R :=
  let cc := 0.5 * (K j + K (j - 1)%Z) in
  let J := 0.5 * (c_J c j + c_J c (j - 1)%Z) in
  let g_22 := 0.5 * (c_g22 c j + c_g22 c (j - 1)%Z) in
  let gradient := 2 * (f j - f (j - 1)%Z) / (c_dy c j + c_dy c (j - 1)%Z) in
  cc * J * gradient / g_22.
Definition K_upper_on (m : mesh) (bndry_flux : bool) (j : Z) : bool :=
  (bndry_flux || periodicY m || negb (lastY m) || negb (Z.eqb j (yend m)))%bool.
Definition K_lower_on (m : mesh) (bndry_flux : bool) (j : Z) : bool :=
  (bndry_flux || periodicY m || negb (firstY m) || negb (Z.eqb j (ystart m)))%bool.
(** ... and the result and flow_ylow there.  Indices j - 1, j, j + 1: one guard cell. *)
Definition Div_par_K_Grad_par_mod (m : mesh) (c : coords) (K f : Z -> R) (bndry_flux : bool) (j : Z) : R * R :=
  let result := 0 in
  let flow_ylow := 0 in
  let result := if K_upper_on m bndry_flux j then result + K_upper c K f j / (c_dy c j * c_J c j) else result in
  if K_lower_on m bndry_flux j
  then (result - K_lower c K f j / (c_dy c j * c_J c j), - K_lower c K f j * c_dx c j * c_dz c j)
  else (result, flow_ylow).

(** The radial mesh on one processor. *)
Record xmesh := mkXmesh { xstart : Z; xend : Z; LocalNx : Z; firstX : bool; lastX : bool }.

(** D4DX4_FV_Index, src/div_ops.cxx 641-722: flux through the right face of cell i (651-680) ... *)
Definition d4_right (m : xmesh) (J dx f : Z -> R) (bndry_flux : bool) (i : Z) : R :=
  let d3fdx3 := f (i + 2)%Z - 3 * f (i + 1)%Z + 3 * f i - f (i - 1)%Z in
  let flux := 0.25 * (dx i + dx (i + 1)%Z) * (J i + J (i + 1)%Z) * d3fdx3 in
  if (lastX m && Z.eqb i (xend m))%bool then
    if bndry_flux then
      let d3fdx3 := - ((16 / 5) * 0.5 * (f (i + 1)%Z + f i) - 6 * f i + 4 * f (i - 1)%Z - (6 / 5) * f (i - 2)%Z) in
      0.25 * (dx i + dx (i + 1)%Z) * (J i + J (i + 1)%Z) * d3fdx3
    else 0
  else flux.
(** ... flux through the left face of cell i, if any is added (685-716; note the test
    [j == mesh->xstart], where i is meant, and the metric at i + 1) ... *)
Definition d4_left (m : xmesh) (J dx f : Z -> R) (bndry_flux : bool) (j i : Z) : option R :=
  if Z.eqb j (xstart m) then
    if firstX m then
      if bndry_flux then
        let d3fdx3 := - (- (16 / 5) * 0.5 * (f (i - 1)%Z + f i) + 6 * f i - 4 * f (i + 1)%Z + (6 / 5) * f (i + 2)%Z) in
        Some (0.25 * (dx i + dx (i + 1)%Z) * (J i + J (i + 1)%Z) * d3fdx3)
      else None
    else
      let d3fdx3 := f (i + 1)%Z - 3 * f i + 3 * f (i - 1)%Z - f (i - 2)%Z in
      Some (0.25 * (dx i + dx (i + 1)%Z) * (J i + J (i + 1)%Z) * d3fdx3)
  else None.
(** ... one iteration of the loop over i at y index j ... *)
Definition d4_step (m : xmesh) (J dx f : Z -> R) (bndry_flux : bool) (j : Z) (result : Z -> R) (i : Z) : Z -> R :=
  let flux := d4_right m J dx f bndry_flux i in
  let result := upd result i (result i + flux / (J i * dx i)) in
  let result := upd result (i + 1)%Z (result (i + 1)%Z - flux / (J (i + 1)%Z * dx (i + 1)%Z)) in
  match d4_left m J dx f bndry_flux j i with
  | None => result
  | Some flux =>
      let result := upd result i (result i - flux / (J i * dx i)) in
      upd result (i - 1)%Z (result (i - 1)%Z + flux / (J (i - 1)%Z * dx (i - 1)%Z))
  end.
(** ... and the loop.  Indices xstart - 2 .. xend + 2: two guard cells. *)
Definition D4DX4_FV_Index (m : xmesh) (J dx f : Z -> R) (bndry_flux : bool) (j : Z) : Z -> R :=
  fold_left (d4_step m J dx f bndry_flux j) (irange (xstart m) (xend m)) (fun _ => 0).

(** Neighbours in Z, which is periodic with nz points (e.g. 569-570). *)
Definition zplus (nz k : Z) : Z := Z.modulo (k + 1) nz.
Definition zminus (nz k : Z) : Z := Z.modulo (k - 1 + nz) nz.

(** Div_Perp_Lap_FV_Index, src/div_ops.cxx 549-611, at cell (i, k) of the X-Z plane; the parameter xflux
    is not used in the code.  Metrics depend on i only. *)
Definition Div_Perp_Lap_FV_Index (nz : Z) (J dx : Z -> R) (a f : Z -> Z -> R) (i k : Z) : R :=
  let kp := zplus nz k in
  let km := zminus nz k in
  let gR := f (i + 1)%Z k - f i k in
  let gL := f i k - f (i - 1)%Z k in
  let gD := f i k - f i km in
  let gU := f i kp - f i k in
  let result := 0 in
  let flux := gR * 0.25 * (J (i + 1)%Z + J i) * (dx (i + 1)%Z + dx i) * (a (i + 1)%Z k + a i k) in
  let result := result + flux / (dx i * J i) in
  let flux := gL * 0.25 * (J (i - 1)%Z + J i) * (dx (i - 1)%Z + dx i) * (a (i - 1)%Z k + a i k) in
  let result := result - flux / (dx i * J i) in
  let flux := gU * 0.5 * (a i k + a i kp) in
  let result := result + flux in
  let flux := gD * 0.5 * (a i k + a i km) in
  result - flux.

(** Div_Z_FV_Index, src/div_ops.cxx 614-638, at k. *)
Definition Div_Z_FV_Index (nz : Z) (a f : Z -> R) (k : Z) : R :=
  let kp := zplus nz k in
  let km := zminus nz k in
  let gD := f k - f km in
  let gU := f kp - f k in
  0 + gU * 0.5 * (a k + a kp) - gD * 0.5 * (a k + a km).

(** D4DZ4_Index, src/div_ops.cxx 724-731, at k ([i.zp(2)] and [i.zm(2)] also wrap around). *)
Definition D4DZ4_Index (nz : Z) (f : Z -> R) (k : Z) : R :=
  f (Z.modulo (k + 2) nz) - 4 * f (zplus nz k) + 6 * f k - 4 * f (zminus nz k) + f (Z.modulo (k - 2 + 2 * nz) nz).

(** Metric for Laplace_FV: functions of (i, j). *)
Record coords2 := mkCoords2 { l_J : Z -> Z -> R; l_g11 : Z -> Z -> R; l_g22 : Z -> Z -> R; l_dx : Z -> Z -> R; l_dy : Z -> Z -> R }.

(** Laplace_FV, src/div_ops.cxx 740-788, at cell (i, j). *)
Definition Laplace_FV (c : coords2) (k f : Z -> Z -> R) (i j : Z) : R :=
  let ip := (i + 1)%Z in let im := (i - 1)%Z in let jp := (j + 1)%Z in let jm := (j - 1)%Z in
  let gR := (l_g11 c i j + l_g11 c ip j) * (f ip j - f i j) / (l_dx c ip j + l_dx c i j) in
  let gL := (l_g11 c im j + l_g11 c i j) * (f i j - f im j) / (l_dx c im j + l_dx c i j) in
  let gU := (l_g22 c i j + l_g22 c i jp) * (f i jp - f i j) / (l_dy c i jp + l_dy c i j) in
  let gD := (l_g22 c i jm + l_g22 c i j) * (f i j - f i jm) / (l_dy c i j + l_dy c i jm) in
  let flux := gR * 0.25 * (l_J c ip j + l_J c i j) * (k ip j + k i j) in
  let result := flux / (l_dx c i j * l_J c i j) in
  let flux := gL * 0.25 * (l_J c im j + l_J c i j) * (k im j + k i j) in
  let result := result - flux / (l_dx c i j * l_J c i j) in
  let flux := gU * 0.25 * (l_J c i jp + l_J c i j) * (k i jp + k i j) in
  let result := result + flux / (l_dy c i j * l_J c i j) in
  let flux := gD * 0.25 * (l_J c i jm + l_J c i j) * (k i jm + k i j) in
  result - flux / (l_dy c i j * l_J c i j).
