(** ExB advection operators of src/div_ops.cxx: Div_n_bxGrad_f_B_XPPM and Div_n_g_bxGrad_f_B_XZ.

    Simplifications: exact reals; axisymmetric metric; the X-Z part is given at one y index, so that fields are
    functions of (i, k) and metrics functions of i; the poloidal X and Y parts are given along one line; the
    derivatives DDX(f), DDY(f) (after communication and boundary conditions) and the shifts to and from
    field-aligned coordinates are not modelled, the arrays they produce are inputs.  The limiter
    is a parameter (the code calls MC). *)

From Coq Require Import List Bool ZArith Reals.
From Verif Require Import StateMonad LimitersModel ParallelModel DiffusionModel.
Import ListNotations.
Open Scope R_scope.

(** [result(i, j, k) += x]: where and how much. *)
Record deposit := mkDeposit { d_i : Z; d_k : Z; d_x : R }.
Definition add (r : Z -> Z -> R) (d : deposit) : Z -> Z -> R :=
  fun i k => if (Z.eqb i (d_i d) && Z.eqb k (d_k d))%bool then r i k + d_x d else r i k.

(** Stream function at the corners of cell (i, k), src/div_ops.cxx 259-266 (1408-1415). *)
Definition fmm (nz : Z) (f : Z -> Z -> R) (i k : Z) : R :=
  0.25 * (f i k + f (i - 1)%Z k + f i (zminus nz k) + f (i - 1)%Z (zminus nz k)).
Definition fmp (nz : Z) (f : Z -> Z -> R) (i k : Z) : R :=
  0.25 * (f i k + f i (zplus nz k) + f (i - 1)%Z k + f (i - 1)%Z (zplus nz k)).
Definition fpp (nz : Z) (f : Z -> Z -> R) (i k : Z) : R :=
  0.25 * (f i k + f i (zplus nz k) + f (i + 1)%Z k + f (i + 1)%Z (zplus nz k)).
Definition fpm (nz : Z) (f : Z -> Z -> R) (i k : Z) : R :=
  0.25 * (f i k + f (i + 1)%Z k + f i (zminus nz k) + f (i + 1)%Z (zminus nz k)).

(** Velocities on the faces of cell (i, k), 270-276 (1419-1425). *)
Definition vU nz (J dx : Z -> R) f i k : R := J i * (fmp nz f i k - fpp nz f i k) / dx i.
Definition vD nz (J dx : Z -> R) f i k : R := J i * (fmm nz f i k - fpm nz f i k) / dx i.
Definition vR nz (J dz : Z -> R) f i k : R := 0.5 * (J i + J (i + 1)%Z) * (fpp nz f i k - fpm nz f i k) / dz i.
Definition vL nz (J dz : Z -> R) f i k : R := 0.5 * (J i + J (i - 1)%Z) * (fmp nz f i k - fmm nz f i k) / dz i.

(** Values of n on the faces of cell (i, k): X direction 282-292, Z direction 359-368. *)
Definition x_edges (edges : R -> R -> R -> R * R) (n : Z -> Z -> R) i k : R * R :=
  edges (n (i - 1)%Z k) (n i k) (n (i + 1)%Z k).
Definition z_edges (edges : R -> R -> R -> R * R) nz (n : Z -> Z -> R) i k : R * R :=
  edges (n i (zminus nz k)) (n i k) (n i (zplus nz k)).

(** The flux through the right side that the iteration for cell (i, k) adds, if it adds one: 294-324 (1447-1474).
    [gR] is the factor of Div_n_g_bxGrad_f_B_XZ (1431); Div_n_bxGrad_f_B_XPPM has none, [gR = 1]. *)
Definition xz_right edges (m : xmesh) nz (J dz : Z -> R) n (gR : R) f (bndry_flux : bool) i k : option R :=
  let v := vR nz J dz f i k in
  let sR := snd (x_edges edges n i k) in
  if (Z.eqb i (xend m) && lastX m)%bool then
    if bndry_flux then Some (if Rltb 0 v then v * sR * gR else v * 0.5 * (n (i + 1)%Z k + n i k) * gR)
    else None
  else if Rltb 0 v then Some (v * sR * gR) else None.
(** The same for the left side: 326-355 (1476-1505). *)
Definition xz_left edges (m : xmesh) nz (J dz : Z -> R) n (gL : R) f (bndry_flux : bool) i k : option R :=
  let v := vL nz J dz f i k in
  let sL := fst (x_edges edges n i k) in
  if (Z.eqb i (xstart m) && firstX m)%bool then
    if bndry_flux then Some (if Rltb v 0 then v * sL * gL else v * 0.5 * (n (i - 1)%Z k + n i k) * gL)
    else None
  else if Rltb v 0 then Some (v * sL * gL) else None.
(** Up and down sides, 370-379 (1517-1526). *)
Definition xz_up edges nz (J dx dz : Z -> R) n (gU : R) f i k : option R :=
  let v := vU nz J dx f i k in
  if Rltb 0 v then Some (v * snd (z_edges edges nz n i k) * gU / (J i * dz i)) else None.
Definition xz_down edges nz (J dx dz : Z -> R) n (gD : R) f i k : option R :=
  let v := vD nz J dx f i k in
  if Rltb v 0 then Some (v * fst (z_edges edges nz n i k) * gD / (J i * dz i)) else None.

(** Factors on the faces of cell (i, k), 1429-1432. *)
Record g_faces := mkG { g_U : R; g_D : R; g_R : R; g_L : R }.
Definition g_none (i k : Z) : g_faces := mkG 1 1 1 1.
Definition g_mean (nz : Z) (g : Z -> Z -> R) (i k : Z) : g_faces :=
  mkG (0.5 * (g i (zplus nz k) + g i k)) (0.5 * (g i (zminus nz k) + g i k))
      (0.5 * (g (i + 1)%Z k + g i k)) (0.5 * (g (i - 1)%Z k + g i k)).

(** All that the iteration for cell (i, k) adds to the result, in the order of the code. *)
Definition xz_cell edges (m : xmesh) nz (J dx dz : Z -> R) n (gf : Z -> Z -> g_faces) f (bndry_flux : bool) (i k : Z) : list deposit :=
  (match xz_right edges m nz J dz n (g_R (gf i k)) f bndry_flux i k with
   | Some flux => [mkDeposit i k (flux / (dx i * J i)); mkDeposit (i + 1) k (- (flux / (dx (i + 1)%Z * J (i + 1)%Z)))]
   | None => []
   end
   ++ match xz_left edges m nz J dz n (g_L (gf i k)) f bndry_flux i k with
      | Some flux => [mkDeposit i k (- (flux / (dx i * J i))); mkDeposit (i - 1) k (flux / (dx (i - 1)%Z * J (i - 1)%Z))]
      | None => []
      end
   ++ match xz_up edges nz J dx dz n (g_U (gf i k)) f i k with
      | Some flux => [mkDeposit i k flux; mkDeposit i (zplus nz k) (- flux)]
      | None => []
      end
   ++ match xz_down edges nz J dx dz n (g_D (gf i k)) f i k with
      | Some flux => [mkDeposit i k (- flux); mkDeposit i (zminus nz k) flux]
      | None => []
      end)%list.

(** The loop over the cells of one processor, 248-380 (1397-1529), before communicateFluxes. *)
Definition xz_loop edges (m : xmesh) nz J dx dz n gf f bndry_flux : list deposit :=
  flat_map (fun i => flat_map (fun k => xz_cell edges m nz J dx dz n gf f bndry_flux i k) (irange 0 (nz - 1)))
           (irange (xstart m) (xend m)).

(** FV::communicateFluxes(result) (381, 1530) lives in BOUT++.  It adds what a processor put into its guard
    cells in X to the neighbour's cells.  So, with all indices counted from the first cell of the whole domain (x index 0),
    the result of all processors together is what all of them added.  [sizes]: number of cells of each processor. *)
Definition xz_processor edges (N a : Z) (size : nat) nz J dx dz n gf f bndry_flux : list deposit :=
  let m := mkXmesh a (a + Z.of_nat size - 1) 0 (Z.eqb a 0) (Z.eqb (a + Z.of_nat size) N) in
  xz_loop edges m nz J dx dz n gf f bndry_flux.
Definition xz_all edges (procs : list (Z * nat)) (N : Z) nz J dx dz n gf f bndry_flux : Z -> Z -> R :=
  fold_left add (flat_map (fun p => xz_processor edges N (fst p) (snd p) nz J dx dz n gf f bndry_flux) procs) (fun _ _ => 0).

(** The X-Z part of Div_n_bxGrad_f_B_XPPM, 226-381, and Div_n_g_bxGrad_f_B_XZ, 1376-1532. *)
Definition XPPM_XZ edges procs N nz J dx dz n f bndry_flux : Z -> Z -> R :=
  xz_all edges procs N nz J dx dz n g_none f bndry_flux.
Definition Div_n_g_bxGrad_f_B_XZ edges procs N nz J dx dz n g f bndry_flux : Z -> Z -> R :=
  xz_all edges procs N nz J dx dz n (g_mean nz g) f bndry_flux.

(** Poloidal parts.  Fromm values at the right of cell i and at the left of cell i + 1 (437-454, 519-535). *)
Definition fromm_right (positive : bool) (n : Z -> R) (i : Z) : R :=
  let nval := n i + 0.25 * (n (i + 1)%Z - n (i - 1)%Z) in
  if (positive && Rltb nval 0)%bool then 0 else nval.
Definition fromm_left (positive : bool) (n : Z -> R) (i : Z) : R :=
  let nval := n (i + 1)%Z - 0.25 * (n (i + 2)%Z - n i) in
  if (positive && Rltb nval 0)%bool then 0 else nval.

(** X flux at fixed (j, k), 425-454: [q] is g11 g23 / B^2. *)
Definition Vx (J q dfdy : Z -> R) (i : Z) : R :=
  let f_R := 0.5 * (q (i + 1)%Z * dfdy (i + 1)%Z + q i * dfdy i) in
  0.5 * (J (i + 1)%Z + J i) * f_R.
Definition pol_x_flux (J q dfdy n : Z -> R) (positive : bool) (i : Z) : R :=
  let v := Vx J q dfdy i in
  if Rltb 0 v then v * fromm_right positive n i else v * fromm_left positive n i.
(** One iteration, 456-458, and the loop over i, 406-420. *)
Definition pol_x_step (J dx q dfdy n : Z -> R) positive (result : Z -> R) (i : Z) : Z -> R :=
  let flux := pol_x_flux J q dfdy n positive i in
  let result := upd result i (result i + flux / (dx i * J i)) in
  upd result (i + 1)%Z (result (i + 1)%Z - flux / (dx (i + 1)%Z * J (i + 1)%Z)).
Definition pol_x (m : xmesh) (J dx q dfdy n : Z -> R) (bndry_flux positive : bool) : Z -> R :=
  let xs := if (negb bndry_flux && firstX m)%bool then xstart m else (xstart m - 1)%Z in
  let xe := if (negb bndry_flux && lastX m)%bool then (xend m - 1)%Z else xend m in
  fold_left (pol_x_step J dx q dfdy n positive) (irange xs xe) (fun _ => 0).

(** Y flux at fixed (i, k), 496-535: at non-periodic ends only flows out of the domain. *)
Definition Vy (m : mesh) (J q dfdx : Z -> R) (j : Z) : R :=
  let f_U := 0.5 * (q (j + 1)%Z * dfdx (j + 1)%Z + q j * dfdx j) in
  let v := - 0.5 * (J (j + 1)%Z + J j) * f_U in
  let v := if (firstY m && negb (periodicY m) && Z.eqb j (ystart m - 1))%bool then (if Rltb 0 v then 0 else v) else v in
  if (lastY m && negb (periodicY m) && Z.eqb j (yend m))%bool then (if Rltb v 0 then 0 else v) else v.
Definition pol_y_flux (m : mesh) (J q dfdx n : Z -> R) (positive : bool) (j : Z) : R :=
  let v := Vy m J q dfdx j in
  if Rltb 0 v then v * fromm_right positive n j else v * fromm_left positive n j.
(** One iteration, 537-538, and the loop over j, 475-492. *)
Definition pol_y_step (m : mesh) (J dy q dfdx n : Z -> R) positive (result : Z -> R) (j : Z) : Z -> R :=
  let flux := pol_y_flux m J q dfdx n positive j in
  let result := upd result j (result j + flux / (dy j * J j)) in
  upd result (j + 1)%Z (result (j + 1)%Z - flux / (dy (j + 1)%Z * J (j + 1)%Z)).
Definition pol_y (m : mesh) (J dy q dfdx n : Z -> R) (bndry_flux positive : bool) : Z -> R :=
  let cut := (negb bndry_flux && negb (periodicY m))%bool in
  let ys := if (cut && firstY m)%bool then ystart m else (ystart m - 1)%Z in
  let ye := if (cut && lastY m)%bool then (yend m - 1)%Z else yend m in
  fold_left (pol_y_step m J dy q dfdx n positive) (irange ys ye) (fun _ => 0).
