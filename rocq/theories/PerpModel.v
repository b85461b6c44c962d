(** Perpendicular diffusion operators: Div_a_Grad_perp_flows, Div_a_Grad_perp_upwind, Div_a_Grad_perp_upwind_flows
    (src/div_ops.cxx) and FV::Div_a_Grad_perp_limit (include/div_ops.hxx).

    Simplifications: exact reals; axisymmetric metric (no 3D metrics: src/div_ops.cxx 894-930); no parallel slices, so the
    Y and Z fluxes are calculated in field-aligned coordinates, with fup = fdown = fc = toFieldAligned(f). *)

From Coq Require Import List Bool ZArith Reals.
From Verif Require Import StateMonad LimitersModel ParallelModel DiffusionModel.
Import ListNotations.
Open Scope R_scope.

(** Coordinates: functions of (i, j). *)
Record pcoords := mkPcoords {
  p_J : Z -> Z -> R; p_g11 : Z -> Z -> R; p_g23 : Z -> Z -> R; p_g_23 : Z -> Z -> R; p_g33 : Z -> Z -> R;
  p_Bxy : Z -> Z -> R; p_dx : Z -> Z -> R; p_dy : Z -> Z -> R; p_dz : Z -> Z -> R
}.
(** The mesh on one processor: X range and ends, and Y range and whether its ends are ends of the domain at index i. *)
Record pmesh := mkPmesh { pm_x : xmesh; pm_y : mesh; pm_nz : Z }.

(** A Field3D: function of (i, j, k). *)
Definition field := Z -> Z -> Z -> R.

(** ** X fluxes from i to i + 1 *)

(** Div_a_Grad_perp_flows, src/div_ops.cxx 829-833. *)
Definition x_flows (c : pcoords) (a f : field) (i j k : Z) : R :=
  0.5 * (a i j k + a (i + 1)%Z j k) * (p_J c i j * p_g11 c i j + p_J c (i + 1)%Z j * p_g11 c (i + 1)%Z j)
  * (f (i + 1)%Z j k - f i j k) / (p_dx c i j + p_dx c (i + 1)%Z j).
(** Div_a_Grad_perp_upwind, 1046-1052; Div_a_Grad_perp_upwind_flows, 1229-1235. *)
Definition x_upwind (c : pcoords) (a f : field) (i j k : Z) : R :=
  let gradient := (p_J c i j * p_g11 c i j + p_J c (i + 1)%Z j * p_g11 c (i + 1)%Z j) * (f (i + 1)%Z j k - f i j k)
                  / (p_dx c i j + p_dx c (i + 1)%Z j) in
  gradient * (if Rltb 0 gradient then a (i + 1)%Z j k else a i j k).
(** Div_a_Grad_perp_limit, include/div_ops.hxx 723-760. *)
Definition x_limit (edges : R -> R -> R -> R * R) (m : xmesh) (c : pcoords) (a g f : field) (i j k : Z) : R :=
  let gradient := f (i + 1)%Z j k - f i j k in
  let aedge := 0.5 * (a (i + 1)%Z j k + a i j k) in
  let gedge :=
    if ((Z.eqb i (xstart m - 1) && firstX m) || (Z.eqb i (xend m) && lastX m))%bool then 0.5 * (g (i + 1)%Z j k + g i j k)
    else if Rltb 0 gradient then fst (edges (g i j k) (g (i + 1)%Z j k) (g (i + 2)%Z j k))
    else snd (edges (g (i - 1)%Z j k) (g i j k) (g (i + 1)%Z j k)) in
  gradient * aedge * gedge * (p_J c i j * p_g11 c i j + p_J c (i + 1)%Z j * p_g11 c (i + 1)%Z j)
  / (p_dx c i j + p_dx c (i + 1)%Z j).

(** One iteration of the loop over i at (j, k) and the loop: result and flow_xlow (824-839; 1041-1055;
    1224-1241; include/div_ops.hxx 718-763; the versions without flow_xlow are the first component). *)
Definition x_step (c : pcoords) (flux : Z -> Z -> Z -> R) (j k : Z) (st : (Z -> R) * (Z -> R)) (i : Z) : (Z -> R) * (Z -> R) :=
  let (result, flow_xlow) := st in
  let fout := flux i j k in
  let result := upd result i (result i + fout / (p_dx c i j * p_J c i j)) in
  let result := upd result (i + 1)%Z (result (i + 1)%Z - fout / (p_dx c (i + 1)%Z j * p_J c (i + 1)%Z j)) in
  let flow_xlow := upd flow_xlow (i + 1)%Z (- 1 * fout * p_dy c i j * p_dz c i j) in
  (result, flow_xlow).
Definition x_loop (m : xmesh) (c : pcoords) (flux : Z -> Z -> Z -> R) (j k : Z) : (Z -> R) * (Z -> R) :=
  fold_left (x_step c flux j k) (irange (xstart m - 1) (xend m)) (fun _ => 0, fun _ => 0).

(** ** Y fluxes through the upper and lower face of cell (i, j, k) *)

(** Coefficient of df/dy, e.g. 939-942. *)
Definition y_coef (c : pcoords) (i j j' : Z) : R :=
  0.5 * (p_g_23 c i j / (p_J c i j * p_Bxy c i j * (p_J c i j * p_Bxy c i j))
         + p_g_23 c i j' / (p_J c i j' * p_Bxy c i j' * (p_J c i j' * p_Bxy c i j'))).

(** Div_a_Grad_perp_flows: 939-957 (up) and 962-976 (down). *)
Definition y_flows_up (c : pcoords) nz (a f : field) (i j k : Z) : R :=
  let kp := zplus nz k in let km := zminus nz k in
  let dfdz := 0.5 * (f i j kp - f i j km + f i (j + 1)%Z kp - f i (j + 1)%Z km) / (p_dz c i j + p_dz c i (j + 1)%Z) in
  let dfdy := 2 * (f i (j + 1)%Z k - f i j k) / (p_dy c i (j + 1)%Z + p_dy c i j) in
  0.25 * (a i j k + a i (j + 1)%Z k) * (p_J c i j * p_g23 c i j + p_J c i (j + 1)%Z * p_g23 c i (j + 1)%Z)
  * (dfdz - y_coef c i j (j + 1) * dfdy).
Definition y_flows_down (c : pcoords) nz (a f : field) (i j k : Z) : R :=
  let kp := zplus nz k in let km := zminus nz k in
  let dfdz := 0.5 * (f i j kp - f i j km + f i (j - 1)%Z kp - f i (j - 1)%Z km) / (p_dz c i j + p_dz c i (j - 1)%Z) in
  let dfdy := 2 * (f i j k - f i (j - 1)%Z k) / (p_dy c i j + p_dy c i (j - 1)%Z) in
  0.25 * (a i j k + a i (j - 1)%Z k) * (p_J c i j * p_g23 c i j + p_J c i (j - 1)%Z * p_g23 c i (j - 1)%Z)
  * (dfdz - y_coef c i j (j - 1) * dfdy).
(** Div_a_Grad_perp_upwind(_flows): 1111-1123 and 1128-1138 (1298-1310, 1315-1325). *)
Definition y_upwind_up (c : pcoords) nz (a f : field) (i j k : Z) : R :=
  let kp := zplus nz k in let km := zminus nz k in
  let dfdz := 0.25 * (f i j kp - f i j km + f i (j + 1)%Z kp - f i (j + 1)%Z km) / p_dz c i j in
  let dfdy := 2 * (f i (j + 1)%Z k - f i j k) / (p_dy c i (j + 1)%Z + p_dy c i j) in
  0.25 * (a i j k + a i (j + 1)%Z k) * (p_J c i j * p_g23 c i j + p_J c i (j + 1)%Z * p_g23 c i (j + 1)%Z)
  * (dfdz - y_coef c i j (j + 1) * dfdy).
Definition y_upwind_down (c : pcoords) nz (a f : field) (i j k : Z) : R :=
  let kp := zplus nz k in let km := zminus nz k in
  let dfdz := 0.25 * (f i j kp - f i j km + f i (j - 1)%Z kp - f i (j - 1)%Z km) / p_dz c i j in
  let dfdy := 2 * (f i j k - f i (j - 1)%Z k) / (p_dy c i j + p_dy c i (j - 1)%Z) in
  0.25 * (a i j k + a i (j - 1)%Z k) * (p_J c i j * p_g23 c i j + p_J c i (j - 1)%Z * p_g23 c i (j - 1)%Z)
  * (dfdz - y_coef c i j (j - 1) * dfdy).
(** Div_a_Grad_perp_limit, include/div_ops.hxx 826-851 and 856-875. *)
Definition y_limit_up (m : mesh) (c : pcoords) nz (a g f : field) (i j k : Z) : R :=
  let kp := zplus nz k in let km := zminus nz k in
  let dfdz := 0.25 * (f i j kp - f i j km + f i (j + 1)%Z kp - f i (j + 1)%Z km) / p_dz c i j in
  let dfdy := 2 * (f i (j + 1)%Z k - f i j k) / (p_dy c i (j + 1)%Z + p_dy c i j) in
  let aedge := 0.5 * (a i j k + a i (j + 1)%Z k) in
  let gedge := if (Z.eqb j (yend m) && lastY m)%bool then 0.5 * (g i j k + g i (j + 1)%Z k)
               else if Rltb 0 dfdy then g i (j + 1)%Z k else g i j k in
  aedge * gedge * 0.5 * (p_J c i j * p_g23 c i j + p_J c i (j + 1)%Z * p_g23 c i (j + 1)%Z)
  * (dfdz - y_coef c i j (j + 1) * dfdy).
Definition y_limit_down (m : mesh) (c : pcoords) nz (a g f : field) (i j k : Z) : R :=
  let kp := zplus nz k in let km := zminus nz k in
  let dfdz := 0.25 * (f i j kp - f i j km + f i (j - 1)%Z kp - f i (j - 1)%Z km) / p_dz c i j in
  let dfdy := 2 * (f i j k - f i (j - 1)%Z k) / (p_dy c i j + p_dy c i (j - 1)%Z) in
  let aedge := 0.5 * (a i j k + a i (j - 1)%Z k) in
  let gedge := if (Z.eqb j (ystart m) && firstY m)%bool then 0.5 * (g i j k + g i (j - 1)%Z k)
               else if Rltb 0 dfdy then g i j k else g i (j - 1)%Z k in
  aedge * gedge * 0.5 * (p_J c i j * p_g23 c i j + p_J c i (j - 1)%Z * p_g23 c i (j - 1)%Z)
  * (dfdz - y_coef c i j (j - 1) * dfdy).

(** [yzresult(i,j,k) = fout / (dy J)] and then [-= fout / (dy J)], 959 and 978; flow_ylow, 981. *)
Definition y_result (c : pcoords) (up down : Z -> Z -> Z -> R) (i j k : Z) : R :=
  up i j k / (p_dy c i j * p_J c i j) - down i j k / (p_dy c i j * p_J c i j).
Definition y_flow (m : mesh) (c : pcoords) (down : Z -> Z -> Z -> R) (i j k : Z) : R :=
  if (Z.leb (ystart m) j && Z.leb j (yend m))%bool then - 1 * down i j k * p_dx c i j * p_dz c i j else 0.

(** ** Z fluxes between k and k + 1 *)

(** Coefficient of df/dy and the gradient, src/div_ops.cxx 994-997 and 1001-1007 (1153-1166, 1343-1356). *)
Definition z_coef (c : pcoords) (i j : Z) : R :=
  p_g_23 c i j / (p_dy c i (j + 1)%Z + 2 * p_dy c i j + p_dy c i (j - 1)%Z) / (p_J c i j * p_Bxy c i j * (p_J c i j * p_Bxy c i j)).
Definition z_gradient (c : pcoords) nz (f : field) (i j k : Z) : R :=
  let kp := zplus nz k in
  (f i j kp - f i j k) / p_dz c i j
  - z_coef c i j * (f i (j + 1)%Z k + f i (j + 1)%Z kp - f i (j - 1)%Z k - f i (j - 1)%Z kp).
(** Div_a_Grad_perp_flows, 999-1007. *)
Definition z_flows (c : pcoords) nz (a f : field) (i j k : Z) : R :=
  let kp := zplus nz k in
  0.25 * (a i j k + a i j kp) * (p_J c i j * p_g33 c i j + p_J c i j * p_g33 c i j) * z_gradient c nz f i j k.
(** Div_a_Grad_perp_upwind(_flows), 1159-1168 (1349-1358): no J g33. *)
Definition z_upwind (c : pcoords) nz (a f : field) (i j k : Z) : R :=
  let gradient := z_gradient c nz f i j k in
  gradient * (if Rltb 0 gradient then a i j (zplus nz k) else a i j k).
(** Div_a_Grad_perp_limit, include/div_ops.hxx 896-906: no J g33. *)
Definition z_limit (c : pcoords) nz (a g f : field) (i j k : Z) : R :=
  let gradient := z_gradient c nz f i j k in
  let kp := zplus nz k in
  gradient * 0.5 * (a i j kp + a i j k) * (if Rltb 0 gradient then g i j kp else g i j k).

(** The loop over k at (i, j), adding to what the Y fluxes gave: [+= fout / norm] at k, [-= fout / norm] at kp (1009-1010 with norm =
    J dz; 1170-1171, 1360-1361 and include/div_ops.hxx 908-909 with norm = dz). *)
Definition z_step nz (norm : R) (flux : Z -> R) (result : Z -> R) (k : Z) : Z -> R :=
  let kp := zplus nz k in
  let fout := flux k in
  let result := upd result k (result k + fout / norm) in
  upd result kp (result kp - fout / norm).
Definition z_loop nz (norm : R) (flux : Z -> R) (yresult : Z -> R) : Z -> R :=
  fold_left (z_step nz norm flux) (irange 0 (nz - 1)) yresult.

(** ** The operators: result, flow_xlow, flow_ylow.  toFA, fromFA: toFieldAligned, fromFieldAligned. *)

(** src/div_ops.cxx 795-1024. *)
Definition Div_a_Grad_perp_flows (toFA fromFA : field -> field) (m : pmesh) (c : pcoords) (a f : field) : field * field * field :=
  let nz := pm_nz m in
  let fc := toFA f in
  let ac := toFA a in
  let yzresult := fun i j => z_loop nz (p_J c i j * p_dz c i j) (z_flows c nz ac fc i j)
                               (y_result c (y_flows_up c nz ac fc) (y_flows_down c nz ac fc) i j) in
  let X := fun j k => x_loop (pm_x m) c (x_flows c a f) j k in
  (fun i j k => fst (X j k) i + fromFA yzresult i j k,
   fun i j k => snd (X j k) i,
   fromFA (y_flow (pm_y m) c (y_flows_down c nz ac fc))).

(** Div_a_Grad_perp_upwind, 1027-1183, is the first component of Div_a_Grad_perp_upwind_flows, 1204-1374. *)
Definition Div_a_Grad_perp_upwind_flows (toFA fromFA : field -> field) (m : pmesh) (c : pcoords) (a f : field) : field * field * field :=
  let nz := pm_nz m in
  let fc := toFA f in
  let ac := toFA a in
  let yzresult := fun i j => z_loop nz (p_dz c i j) (z_upwind c nz ac fc i j)
                               (y_result c (y_upwind_up c nz ac fc) (y_upwind_down c nz ac fc) i j) in
  let X := fun j k => x_loop (pm_x m) c (x_upwind c a f) j k in
  (fun i j k => fst (X j k) i + fromFA yzresult i j k,
   fun i j k => snd (X j k) i,
   fromFA (y_flow (pm_y m) c (y_upwind_down c nz ac fc))).

(** include/div_ops.hxx 701-921. *)
Definition Div_a_Grad_perp_limit (edges : R -> R -> R -> R * R) (toFA fromFA : field -> field) (m : pmesh) (c : pcoords) (a g f : field) : field :=
  let nz := pm_nz m in
  let fc := toFA f in
  let ac := toFA a in
  let gc := toFA g in
  let yzresult := fun i j => z_loop nz (p_dz c i j) (z_limit c nz ac gc fc i j)
                               (y_result c (y_limit_up (pm_y m) c nz ac gc fc) (y_limit_down (pm_y m) c nz ac gc fc) i j) in
  fun i j k => fst (x_loop (pm_x m) c (x_limit edges (pm_x m) c a g f) j k) i + fromFA yzresult i j k.

(** Which way yzresult points when it is added to the result (include/div_ops.hxx 785-806, 913-918): the first test includes
    g.hasParallelSlices(), the last one does not. *)
Inductive ydirection := Standard | Aligned.
Definition limit_added_direction (f_slices a_slices g_slices : bool) : ydirection :=
  let yzresult := if (f_slices && a_slices && g_slices)%bool then Standard else Aligned in
  if (f_slices && a_slices)%bool then yzresult (* result += yzresult *)
  else Standard (* result += fromFieldAligned(yzresult) *).
(** src/div_ops.cxx 873-892, 1014-1020: the two tests agree. *)
Definition flows_added_direction (f_slices a_slices : bool) : ydirection :=
  let yzresult := if (f_slices && a_slices)%bool then Standard else Aligned in
  if (f_slices && a_slices)%bool then yzresult else Standard.
