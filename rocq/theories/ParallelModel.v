(** Parallel advection operators of include/div_ops.hxx: FV::Div_par_mod, FV::Div_par_fvv and
    FV::Div_par_fvv_heating.

    Simplifications: one field line, that is fixed x and z indices (the loops over i and k treat each
    line separately); fields are given in field-aligned coordinates (toFieldAligned and
    fromFieldAligned are not modelled); axisymmetric metric; exact reals.  A field is a function of the y index.
    An access outside [0, LocalNy) makes the outcome [None]: every access of a loop
    iteration has index j - 1, j or j + 1. *)

From Coq Require Import List Bool ZArith Reals.
From Verif Require Import StateMonad LimitersModel.
Import ListNotations.
Open Scope R_scope.

(** The part of the mesh on one processor, for one x index. *)
Record mesh := mkMesh {
  ystart : Z; yend : Z; LocalNy : Z; firstY : bool; lastY : bool; periodicY : bool
}.

(** Metric components and grid spacings along the line. *)
Record coords := mkCoords {
  c_J : Z -> R; c_g22 : Z -> R; c_dy : Z -> R; c_dx : Z -> R; c_dz : Z -> R
}.

(** [a(i, j, k) = x] *)
Definition upd (a : Z -> R) (j : Z) (x : R) : Z -> R := fun i => if Z.eqb i j then x else a i.

(** [for (int j = lo; j <= hi; j++)] *)
Definition irange (lo hi : Z) : list Z := map (fun n => (lo + Z.of_nat n)%Z) (seq 0 (Z.to_nat (hi - lo + 1))).

(** The range of the loop over j, include/div_ops.hxx 149-171 (also 306-328, 532-554). *)
Definition loop_ys (m : mesh) : Z :=
  if (negb (firstY m) || periodicY m)%bool then (ystart m - 1)%Z else ystart m.
Definition loop_ye (m : mesh) : Z :=
  if (negb (lastY m) || periodicY m)%bool then (yend m + 1)%Z else yend m.

Definition in_bounds (m : mesh) (j : Z) : bool := (Z.leb 0 (j - 1) && Z.ltb (j + 1) (LocalNy m))%bool.

(** Common factor of the face between j and j + 1 (177-178, 185-186); the two formulae of the
    code, for the right face of j and the left face of j + 1, differ in the order of the sums. *)
Definition common_right (c : coords) (j : Z) : R :=
  (c_J c j + c_J c (j + 1)%Z) / (sqrt (c_g22 c j) + sqrt (c_g22 c (j + 1)%Z)).
Definition common_left (c : coords) (j : Z) : R :=
  (c_J c j + c_J c (j - 1)%Z) / (sqrt (c_g22 c j) + sqrt (c_g22 c (j - 1)%Z)).

Definition last_point (m : mesh) (j : Z) : bool := (lastY m && Z.eqb j (yend m) && negb (periodicY m))%bool.
Definition first_point (m : mesh) (j : Z) : bool := (firstY m && Z.eqb j (ystart m) && negb (periodicY m))%bool.

(** One iteration of the loop over j in Div_par_mod: the fluxes multiplied by their factors are
    added to the result and to flow_ylow (556-573, 643-646, 677-680; for Div_par_fvv, which has no flow_ylow,
    175-191, 240-241, 265-266). *)
Definition flux_step (m : mesh) (c : coords) (right_flux left_flux : Z -> R)
    (st : option ((Z -> R) * (Z -> R))) (j : Z) : option ((Z -> R) * (Z -> R)) :=
  match st with
  | None => None
  | Some (result, flow_ylow) =>
      if negb (in_bounds m j) then None else
      let common_factor := common_right c j in
      let flux_factor_rc := common_factor / (c_dy c j * c_J c j) in
      let flux_factor_rp := common_factor / (c_dy c (j + 1)%Z * c_J c (j + 1)%Z) in
      let area_rp := common_factor * c_dx c (j + 1)%Z * c_dz c (j + 1)%Z in
      let common_factor := common_left c j in
      let flux_factor_lc := common_factor / (c_dy c j * c_J c j) in
      let flux_factor_lm := common_factor / (c_dy c (j - 1)%Z * c_J c (j - 1)%Z) in
      let area_lc := common_factor * c_dx c j * c_dz c j in
      let flux := right_flux j in
      let result := upd result j (result j + flux * flux_factor_rc) in
      let result := upd result (j + 1)%Z (result (j + 1)%Z - flux * flux_factor_rp) in
      let flow_ylow := upd flow_ylow (j + 1)%Z (flow_ylow (j + 1)%Z + flux * area_rp) in
      let flux := left_flux j in
      let result := upd result j (result j - flux * flux_factor_lc) in
      let result := upd result (j - 1)%Z (result (j - 1)%Z + flux * flux_factor_lm) in
      let flow_ylow := upd flow_ylow j (flow_ylow j + flux * area_lc) in
      Some (result, flow_ylow)
  end.
Definition flux_loop (m : mesh) (c : coords) (right_flux left_flux : Z -> R) : option ((Z -> R) * (Z -> R)) :=
  fold_left (flux_step m c right_flux left_flux) (irange (loop_ys m) (loop_ye m)) (Some (fun _ => 0, fun _ => 0)).

(** Face values of a field around cell j: s.L, s.R (e.g. 610-616). *)
Definition sL (edges : R -> R -> R -> R * R) (f : Z -> R) (j : Z) : R := fst (edges (f (j - 1)%Z) (f j) (f (j + 1)%Z)).
Definition sR (edges : R -> R -> R -> R * R) (f : Z -> R) (j : Z) : R := snd (edges (f (j - 1)%Z) (f j) (f (j + 1)%Z)).

(** Right flux of Div_par_mod, 614-641. *)
Definition mod_right (edges : R -> R -> R -> R * R) (m : mesh) (fixflux : bool) (f v ws : Z -> R) (j : Z) : R :=
  if last_point m j then
    let vpar := 0.5 * (v j + v (j + 1)%Z) in
    let bndryval := 0.5 * (f j + f (j + 1)%Z) in
    if fixflux then bndryval * vpar
    else sR edges f j * vpar + ws j * (sR edges f j - bndryval)
  else
    let amax := BOUTMAX4 (ws j) (ws (j + 1)%Z) (Rabs (v j)) (Rabs (v (j + 1)%Z)) in
    sR edges f j * 0.5 * (sR edges v j + amax).
(** Left flux of Div_par_mod, 651-675. *)
Definition mod_left (edges : R -> R -> R -> R * R) (m : mesh) (fixflux : bool) (f v ws : Z -> R) (j : Z) : R :=
  if first_point m j then
    let bndryval := 0.5 * (f j + f (j - 1)%Z) in
    let vpar := 0.5 * (v j + v (j - 1)%Z) in
    if fixflux then bndryval * vpar
    else sL edges f j * vpar - ws j * (sL edges f j - bndryval)
  else
    let amax := BOUTMAX4 (ws j) (ws (j - 1)%Z) (Rabs (v j)) (Rabs (v (j - 1)%Z)) in
    sL edges f j * 0.5 * (sL edges v j - amax).

(** FV::Div_par_mod, include/div_ops.hxx 502-690: result and flow_ylow. *)
Definition Div_par_mod (edges : R -> R -> R -> R * R) (m : mesh) (c : coords) (f v ws : Z -> R) (fixflux : bool)
    : option ((Z -> R) * (Z -> R)) :=
  flux_loop m c (mod_right edges m fixflux f v ws) (mod_left edges m fixflux f v ws).

(** Right flux of Div_par_fvv, 213-238. *)
Definition fvv_right (edges : R -> R -> R -> R * R) (m : mesh) (fixflux : bool) (f v ws : Z -> R) (j : Z) : R :=
  let v_mid := 0.5 * (v j + v (j + 1)%Z) in
  let n_mid := 0.5 * (f j + f (j + 1)%Z) in
  if last_point m j then
    if fixflux then n_mid * v_mid * v_mid
    else sR edges f j * sR edges v j * sR edges v j
         + BOUTMAX3 (ws j) (Rabs (v j)) (Rabs (v (j + 1)%Z)) * n_mid * (sR edges v j - v_mid)
  else
    let amax := BOUTMAX4 (ws j) (ws (j + 1)%Z) (Rabs (v j)) (Rabs (v (j + 1)%Z)) in
    sR edges f j * 0.5 * (sR edges v j + amax) * sR edges v j.
(** Left flux of Div_par_fvv, 243-263. *)
Definition fvv_left (edges : R -> R -> R -> R * R) (m : mesh) (fixflux : bool) (f v ws : Z -> R) (j : Z) : R :=
  let v_mid := 0.5 * (v j + v (j - 1)%Z) in
  let n_mid := 0.5 * (f j + f (j - 1)%Z) in
  if first_point m j then
    if fixflux then n_mid * v_mid * v_mid
    else sL edges f j * sL edges v j * sL edges v j
         - BOUTMAX3 (ws j) (Rabs (v j)) (Rabs (v (j - 1)%Z)) * n_mid * (sL edges v j - v_mid)
  else
    let amax := BOUTMAX4 (ws j) (ws (j - 1)%Z) (Rabs (v j)) (Rabs (v (j - 1)%Z)) in
    sL edges f j * 0.5 * (sL edges v j - amax) * sL edges v j.

(** FV::Div_par_fvv, include/div_ops.hxx 126-272. *)
Definition Div_par_fvv (edges : R -> R -> R -> R * R) (m : mesh) (c : coords) (f v ws : Z -> R) (fixflux : bool)
    : option (Z -> R) :=
  option_map fst (flux_loop m c (fvv_right edges m fixflux f v ws) (fvv_left edges m fixflux f v ws)).

(** Contributions of one iteration of the loop of Div_par_fvv_heating to result(j), by the
    right face (372-421) and the left face (429-470), before the flux factors. *)
Definition heat_right (edges : R -> R -> R -> R * R) (m : mesh) (fixflux : bool) (f v ws : Z -> R) (j : Z) : R :=
  let v_mid := 0.5 * (v j + v (j + 1)%Z) in
  let n_mid := 0.5 * (f j + f (j + 1)%Z) in
  if last_point m j then
    let expected_ke := 0.5 * n_mid * v_mid * v_mid * v_mid in
    let flux_mom :=
      if fixflux then n_mid * v_mid * v_mid
      else sR edges f j * sR edges v j * sR edges v j
           + BOUTMAX3 (ws j) (Rabs (v j)) (Rabs (v (j + 1)%Z)) * (sR edges f j * sR edges v j - n_mid * v_mid) in
    let flux_part := n_mid * v_mid in
    let actual_ke := v j * flux_mom - 0.5 * v j * v j * flux_part in
    actual_ke - expected_ke
  else
    let amax := BOUTMAX4 (ws j) (ws (j + 1)%Z) (Rabs (v j)) (Rabs (v (j + 1)%Z)) in
    (amax + 0.5 * sR edges v j) * sR edges f j * (v j - v (j + 1)%Z) * (sR edges v j - v_mid).
Definition heat_left (edges : R -> R -> R -> R * R) (m : mesh) (fixflux : bool) (f v ws : Z -> R) (j : Z) : R :=
  let v_mid := 0.5 * (v j + v (j - 1)%Z) in
  let n_mid := 0.5 * (f j + f (j - 1)%Z) in
  let expected_ke := - 0.5 * n_mid * v_mid * v_mid * v_mid in
  if first_point m j then
    let flux_mom :=
      if fixflux then n_mid * v_mid * v_mid
      else sL edges f j * sL edges v j * sL edges v j
           - BOUTMAX3 (ws j) (Rabs (v j)) (Rabs (v (j - 1)%Z)) * (sL edges f j * sL edges v j - n_mid * v_mid) in
    let flux_part := n_mid * v_mid in
    let actual_ke := - v j * flux_mom + 0.5 * v j * v j * flux_part in
    actual_ke - expected_ke
  else
    let amax := BOUTMAX4 (ws j) (ws (j - 1)%Z) (Rabs (v j)) (Rabs (v (j - 1)%Z)) in
    (amax - 0.5 * sL edges v j) * sL edges f j * (v j - v (j - 1)%Z) * (sL edges v j - v_mid).
(** Contributions to flow_ylow, at j + 1 (399, 420) and at j (456, 468), before the areas. *)
Definition ke_right (edges : R -> R -> R -> R * R) (m : mesh) (f v ws : Z -> R) (j : Z) : R :=
  let v_mid := 0.5 * (v j + v (j + 1)%Z) in
  let n_mid := 0.5 * (f j + f (j + 1)%Z) in
  if last_point m j then 0.5 * n_mid * v_mid * v_mid * v_mid
  else
    let amax := BOUTMAX4 (ws j) (ws (j + 1)%Z) (Rabs (v j)) (Rabs (v (j + 1)%Z)) in
    let flux_part := sR edges f j * 0.5 * (sR edges v j + amax) in
    let flux_mom := flux_part * sR edges v j in
    v (j + 1)%Z * flux_mom - 0.5 * SQ (v (j + 1)%Z) * flux_part.
Definition ke_left (edges : R -> R -> R -> R * R) (m : mesh) (f v ws : Z -> R) (j : Z) : R :=
  let v_mid := 0.5 * (v j + v (j - 1)%Z) in
  let n_mid := 0.5 * (f j + f (j - 1)%Z) in
  let expected_ke := - 0.5 * n_mid * v_mid * v_mid * v_mid in
  if first_point m j then - expected_ke
  else
    let amax := BOUTMAX4 (ws j) (ws (j - 1)%Z) (Rabs (v j)) (Rabs (v (j - 1)%Z)) in
    let flux_part := sL edges f j * 0.5 * (sL edges v j - amax) in
    let flux_mom := flux_part * sL edges v j in
    v j * flux_mom - 0.5 * SQ (v j) * flux_part.

(** FV::Div_par_fvv_heating, include/div_ops.hxx 274-477: result and flow_ylow. *)
Definition Div_par_fvv_heating (edges : R -> R -> R -> R * R) (m : mesh) (c : coords) (f v ws : Z -> R)
    (fixflux : bool) : option ((Z -> R) * (Z -> R)) :=
  fold_left (fun st j =>
    match st with
    | None => None
    | Some (result, flow_ylow) =>
        if negb (in_bounds m j) then None else
        let common_factor := common_right c j in
        let flux_factor_rc := common_factor / (c_dy c j * c_J c j) in
        let area_rp := common_factor * c_dx c (j + 1)%Z * c_dz c (j + 1)%Z in
        let common_factor := common_left c j in
        let flux_factor_lc := common_factor / (c_dy c j * c_J c j) in
        let area_lc := common_factor * c_dx c j * c_dz c j in
        let result := upd result j (result j + heat_right edges m fixflux f v ws j * flux_factor_rc) in
        let flow_ylow := upd flow_ylow (j + 1)%Z (flow_ylow (j + 1)%Z + ke_right edges m f v ws j * area_rp) in
        let result := upd result j (result j + heat_left edges m fixflux f v ws j * flux_factor_lc) in
        let flow_ylow := upd flow_ylow j (flow_ylow j + ke_left edges m f v ws j * area_lc) in
        Some (result, flow_ylow)
    end) (irange (loop_ys m) (loop_ye m)) (Some (fun _ => 0, fun _ => 0)).

(** The pressure source due to numerical viscosity, src/evolve_pressure.cxx 288, at one point ([heating] is the
    value of Div_par_fvv_heating there; the template argument is not given, so it uses MC whatever
    limiter the build selects for the momentum equation, src/evolve_momentum.cxx 172), and the
    diagnostic written for it (564-571, "energy source from numerical viscous heating",
    converted with Pnorm * Omega_ci). *)
Definition Sp_nvh (AA heating : R) : R := (2 / 3) * AA * heating.
Definition E_nvh (Sp : R) : R := Sp * 3 / 0.2.
