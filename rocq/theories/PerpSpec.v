(** Specification of perpendicular diffusion. *)

From Coq Require Import List Bool ZArith Reals.
From Verif Require Import StateMonad ParallelModel ParallelSpec DiffusionModel DiffusionSpec PerpModel.
Open Scope R_scope.

Definition volume (c : pcoords) (i j : Z) : R := p_J c i j * p_dx c i j * p_dy c i j * p_dz c i j.

(** Sum over a box of cells: nx from x0, ny from y0, nzn in Z. *)
Definition total3 (x0 : Z) (nx : nat) (y0 : Z) (ny nzn : nat) (W : Z -> Z -> R) (r : field) : R :=
  zsum x0 nx (fun i => zsum y0 ny (fun j => zsum 0 nzn (fun k => W i j * r i j k))).

Definition pmesh_ok (m : pmesh) (nx ny nzn : nat) : Prop :=
  xmesh_ok (pm_x m) nx /\ (0 < ny)%nat /\ yend (pm_y m) = (ystart (pm_y m) + Z.of_nat ny - 1)%Z /\
  (0 < nzn)%nat /\ pm_nz m = Z.of_nat nzn.

Definition pcoords_ok (c : pcoords) : Prop :=
  forall i j, 0 < p_J c i j /\ 0 < p_dx c i j /\ 0 < p_dy c i j /\ 0 < p_dz c i j.

(** Grid spacings as in an orthogonal grid: dy and dz do not depend on x, dx and dz not on y. *)
Definition tensor_grid (c : pcoords) : Prop :=
  (forall i i' j, p_dy c i j = p_dy c i' j) /\ (forall i j j', p_dx c i j = p_dx c i j') /\
  (forall i i' j j', p_dz c i j = p_dz c i' j').

(** Changing coordinates along Z keeps sums over Z. *)
Definition keeps_z_sums (nzn : nat) (shift : field -> field) : Prop :=
  forall g i j, zsum 0 nzn (shift g i j) = zsum 0 nzn (g i j).

(** Flux a J g11 df/dx through the face between i - 1 and i. *)
Definition diffusive_x (c : pcoords) (a f : field) (i j k : Z) : R :=
  (a (i - 1)%Z j k + a i j k) / 2 * ((p_J c (i - 1)%Z j * p_g11 c (i - 1)%Z j + p_J c i j * p_g11 c i j) / 2)
  * ((f i j k - f (i - 1)%Z j k) / ((p_dx c (i - 1)%Z j + p_dx c i j) / 2)).

(** Flux a J g23 (df/dz - g_23 / (J B)^2 df/dy) through the face between j - 1 and j. *)
Definition diffusive_y (c : pcoords) nz (a f : field) (i j k : Z) : R :=
  let q j := p_g_23 c i j / (p_J c i j * p_Bxy c i j * (p_J c i j * p_Bxy c i j)) in
  let dfdz j := (f i j (zplus nz k) - f i j (zminus nz k)) / 2 in
  (a i (j - 1)%Z k + a i j k) / 2 * ((p_J c i (j - 1)%Z * p_g23 c i (j - 1)%Z + p_J c i j * p_g23 c i j) / 2)
  * ((dfdz (j - 1)%Z + dfdz j) / 2 / ((p_dz c i (j - 1)%Z + p_dz c i j) / 2)
     - (q (j - 1)%Z + q j) / 2 * ((f i j k - f i (j - 1)%Z k) / ((p_dy c i (j - 1)%Z + p_dy c i j) / 2))).

(** The same with a taken from the side that f flows from. *)
Definition slope_x (c : pcoords) (f : field) (i j k : Z) : R :=
  (p_J c (i - 1)%Z j * p_g11 c (i - 1)%Z j + p_J c i j * p_g11 c i j) / 2
  * ((f i j k - f (i - 1)%Z j k) / ((p_dx c (i - 1)%Z j + p_dx c i j) / 2)).
Definition upwind_x (c : pcoords) (a f : field) (i j k : Z) : R :=
  slope_x c f i j k * (if Rlt_dec 0 (slope_x c f i j k) then a i j k else a (i - 1)%Z j k).

(** And with a g, where g is the limited value on the side that f flows from; the mean at the ends of the domain. *)
Definition limited_g (edges : R -> R -> R -> R * R) (m : xmesh) (g f : field) (i j k : Z) : R :=
  if ((firstX m && Z.eqb i (xstart m)) || (lastX m && Z.eqb i (xend m + 1)))%bool then (g (i - 1)%Z j k + g i j k) / 2
  else if Rlt_dec (f (i - 1)%Z j k) (f i j k) then above edges (fun i => g i j k) i else below edges (fun i => g i j k) i.
Definition limited_x edges (m : xmesh) (c : pcoords) (a g f : field) (i j k : Z) : R :=
  slope_x c f i j k * ((a (i - 1)%Z j k + a i j k) / 2) * limited_g edges m g f i j k.

(** The flow of f across Y faces in the limited version. *)
Definition slope_y (c : pcoords) nz (f : field) (i j k : Z) : R :=
  let q j := p_g_23 c i j / (p_J c i j * p_Bxy c i j * (p_J c i j * p_Bxy c i j)) in
  let dfdz j := (f i j (zplus nz k) - f i j (zminus nz k)) / 2 in
  (p_J c i (j - 1)%Z * p_g23 c i (j - 1)%Z + p_J c i j * p_g23 c i j) / 2
  * ((dfdz (j - 1)%Z + dfdz j) / 2 / ((p_dz c i (j - 1)%Z + p_dz c i j) / 2)
     - (q (j - 1)%Z + q j) / 2 * ((f i j k - f i (j - 1)%Z k) / ((p_dy c i (j - 1)%Z + p_dy c i j) / 2))).
Definition limited_y (m : mesh) (c : pcoords) nz (a g f : field) (i j k : Z) : R :=
  slope_y c nz f i j k * ((a i (j - 1)%Z k + a i j k) / 2)
  * (if ((firstY m && Z.eqb j (ystart m)) || (lastY m && Z.eqb j (yend m + 1)))%bool then (g i (j - 1)%Z k + g i j k) / 2
     else if Rlt_dec (f i (j - 1)%Z k) (f i j k) then g i j k else g i (j - 1)%Z k).

(** What the operators return. *)
Definition result (r : field * field * field) : field := fst (fst r).
Definition flow_xlow (r : field * field * field) : field := snd (fst r).
Definition flow_ylow (r : field * field * field) : field := snd r.

(** Flows through the edges of the box of cells. *)
Definition edge_flows (x0 : Z) (nx : nat) (y0 : Z) (ny nzn : nat) (c : pcoords) (X Y : Z -> Z -> Z -> R) : R :=
  zsum y0 ny (fun j => zsum 0 nzn (fun k => p_dy c x0 j * p_dz c x0 y0 * (X (x0 + Z.of_nat nx)%Z j k - X x0 j k)))
  + zsum x0 nx (fun i => zsum 0 nzn (fun k => p_dx c i y0 * p_dz c x0 y0 * (Y i (y0 + Z.of_nat ny)%Z k - Y i y0 k))).

(** Changing coordinates along Z keeps zero. *)
Definition vanishes (shift : field -> field) : Prop := forall g, (forall i j k, g i j k = 0) -> forall i j k, shift g i j k = 0.
