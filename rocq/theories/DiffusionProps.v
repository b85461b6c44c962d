(** Theorems about the diffusion operators: C24, C25, C66, C67. *)

From Coq Require Import List Bool ZArith Reals Lra Lia.
From Verif Require Import ParallelModel ParallelSpec ParallelProofs ParallelLaws ParallelHeating
  DiffusionModel DiffusionSpec DiffusionProofs DiffusionProofs2.
Import ListNotations.
Open Scope R_scope.

(** ** C24 *)

Theorem C24_conduction_is_divergence : forall m n c K f bndry_flux j,
  mesh_ok m n -> positive_metric c -> (ystart m <= j < ystart m + Z.of_nat n)%Z ->
  cell_volume (c_J c) (c_dy c) j * fst (Div_par_K_Grad_par_mod m c K f bndry_flux j)
  = K_face m c K f bndry_flux (j + 1) - K_face m c K f bndry_flux j /\
  snd (Div_par_K_Grad_par_mod m c K f bndry_flux j) = - K_face m c K f bndry_flux j * c_dx c j * c_dz c j.
Proof. exact K_cell. Qed.
Print Assumptions C24_conduction_is_divergence.

Theorem C24_conduction_conserves : forall m n c K f bndry_flux, mesh_ok m n -> positive_metric c ->
  total (cell_volume (c_J c) (c_dy c)) (ystart m) n (fun j => fst (Div_par_K_Grad_par_mod m c K f bndry_flux j))
  = K_face m c K f bndry_flux (ystart m + Z.of_nat n) - K_face m c K f bndry_flux (ystart m).
Proof. exact K_total. Qed.
Print Assumptions C24_conduction_conserves.

Theorem C24_no_flux_through_closed_ends : forall m n c K f,
  mesh_ok m n -> closed_low m = true -> closed_high m = true ->
  K_face m c K f false (ystart m) = 0 /\ K_face m c K f false (ystart m + Z.of_nat n) = 0.
Proof. exact K_face_closed. Qed.
Print Assumptions C24_no_flux_through_closed_ends.

Theorem C24_conduction_constant : forall m n c K a bndry_flux j,
  mesh_ok m n -> positive_metric c -> (ystart m <= j < ystart m + Z.of_nat n)%Z ->
  Div_par_K_Grad_par_mod m c K (fun _ => a) bndry_flux j = (0, 0).
Proof. exact K_const. Qed.
Print Assumptions C24_conduction_constant.

Theorem C24_conduction_dissipates : forall m n c K f,
  mesh_ok m n -> positive_metric c -> (forall j, 0 <= K j) -> closed_low m = true -> closed_high m = true ->
  total (cell_volume (c_J c) (c_dy c)) (ystart m) n (fun j => f j * fst (Div_par_K_Grad_par_mod m c K f false j)) <= 0.
Proof. exact K_dissipates_closed. Qed.
Print Assumptions C24_conduction_dissipates.

Theorem C24_conduction_periodic : forall m n c K f bndry_flux,
  mesh_ok m n -> positive_metric c -> (forall j, 0 <= K j) -> periodicY m = true ->
  periodic n (c_J c) -> periodic n (c_g22 c) -> periodic n (c_dy c) -> periodic n K -> periodic n f ->
  total (cell_volume (c_J c) (c_dy c)) (ystart m) n (fun j => fst (Div_par_K_Grad_par_mod m c K f bndry_flux j)) = 0 /\
  total (cell_volume (c_J c) (c_dy c)) (ystart m) n (fun j => f j * fst (Div_par_K_Grad_par_mod m c K f bndry_flux j)) <= 0.
Proof. exact K_periodic. Qed.
Print Assumptions C24_conduction_periodic.

Theorem C24_conduction_flow_diagnostic : forall m n c K f bndry_flux j,
  mesh_ok m n -> positive_metric c ->
  (forall j, c_dx c (j + 1)%Z = c_dx c j) -> (forall j, c_dz c (j + 1)%Z = c_dz c j) ->
  (ystart m <= j < ystart m + Z.of_nat n - 1)%Z ->
  cell_volume (c_J c) (c_dy c) j * c_dx c j * c_dz c j * fst (Div_par_K_Grad_par_mod m c K f bndry_flux j)
  = snd (Div_par_K_Grad_par_mod m c K f bndry_flux j) - snd (Div_par_K_Grad_par_mod m c K f bndry_flux (j + 1)).
Proof. exact K_flow. Qed.
Print Assumptions C24_conduction_flow_diagnostic.

(** Independent of how the line is split between processors. *)
Theorem C26_conduction_split : forall N per g a n c K f b k,
  (0 < n)%nat -> (0 <= a)%Z -> (a + Z.of_nat n <= N)%Z -> (0 <= k < Z.of_nat n)%Z ->
  fst (Div_par_K_Grad_par_mod (piece N per g a n) (local_coords g a c) (local g a K) (local g a f) b (g + k))
  = fst (Div_par_K_Grad_par_mod (piece N per g 0 (Z.to_nat N)) (local_coords g 0 c) (local g 0 K) (local g 0 f) b (g + (a + k))).
Proof. exact K_piece. Qed.
Print Assumptions C26_conduction_split.

Theorem C24_index_diffusion_is_divergence : forall m n J f bndry_flux j,
  mesh_ok m n -> (forall i, 0 < J i) -> (ystart m <= j < ystart m + Z.of_nat n)%Z ->
  J j * Div_par_diffusion_index m J f bndry_flux j = index_line m J f bndry_flux (j + 1) - index_line m J f bndry_flux j.
Proof.
  intros m n J f bf j M P Hj. rewrite <- !(index_face_line m n) by (assumption || lia). now apply (index_cell m n).
Qed.
Print Assumptions C24_index_diffusion_is_divergence.

Theorem C24_index_diffusion_conserves : forall m n J f, mesh_ok m n -> (forall i, 0 < J i) ->
  closed_low m = true -> closed_high m = true ->
  total J (ystart m) n (Div_par_diffusion_index m J f false) = 0.
Proof.
  intros m n J f M P CL CH. rewrite index_total by assumption.
  destruct (index_face_closed m n J f M CL CH) as [-> ->]. ring.
Qed.
Print Assumptions C24_index_diffusion_conserves.

Theorem C24_index_diffusion_constant : forall m n J a bndry_flux j,
  mesh_ok m n -> (forall i, 0 < J i) -> (ystart m <= j < ystart m + Z.of_nat n)%Z ->
  Div_par_diffusion_index m J (fun _ => a) bndry_flux j = 0.
Proof. exact index_const. Qed.
Print Assumptions C24_index_diffusion_constant.

Theorem C24_index_diffusion_dissipates : forall m n J f,
  mesh_ok m n -> (forall i, 0 < J i) -> closed_low m = true -> closed_high m = true ->
  total J (ystart m) n (fun j => f j * Div_par_diffusion_index m J f false j) <= 0.
Proof. exact index_dissipates. Qed.
Print Assumptions C24_index_diffusion_dissipates.

Example C24_heat_flows_down : (* two cells, hot and cold: heat moves from one to the other *)
  let m := mesh2 in
  mesh_ok m 2 /\ positive_metric unit_coords /\ closed_low m = true /\ closed_high m = true /\
  fst (Div_par_K_Grad_par_mod m unit_coords (fun _ => 3) (values [7; 5; 1; 9]) false 1) = -12 /\
  fst (Div_par_K_Grad_par_mod m unit_coords (fun _ => 3) (values [7; 5; 1; 9]) false 2) = 12.
Proof.
  cbv zeta. split; [exact mesh2_ok|]. split; [exact unit_positive|]. do 2 (split; [reflexivity|]).
  unfold Div_par_K_Grad_par_mod, K_upper_on, K_lower_on, K_upper, K_lower.
  cbn [mesh2 firstY lastY periodicY ystart yend negb orb Z.eqb Pos.eqb fst c_J c_g22 c_dy c_dx c_dz unit_coords].
  zify_idx. vals. split; lra.
Qed.

(** ** C25 *)

(** One processor in X: nothing leaves with boundary flux off, whatever the y index. *)
Theorem C25_hyperdiffusion_conserves_partial : forall m n J dx f j,
  xmesh_ok m n -> (forall i, 0 < J i) -> (forall i, 0 < dx i) -> firstX m = true -> lastX m = true ->
  total (fun i => J i * dx i) (xstart m) n (D4DX4_FV_Index m J dx f false j) = 0.
Proof. exact d4_conserves. Qed.
Print Assumptions C25_hyperdiffusion_conserves_partial.

Example C25_hypotheses_met : xmesh_ok (mkXmesh 2 6 9 true true) 5 /\ forall i, 0 < one i.
Proof. split; [split; [lia|reflexivity]|unfold one; intros; lra]. Qed.

(** Refuted for more than one processor: two processors with one cell each, guard cells filled from the neighbour
    (the profile is 1 in the left cell, 0 in the right one): what the left cell gains the right cell does not lose. *)
Theorem C25_hyperdiffusion_conserves_refuted : forall j, j <> 2%Z ->
  exists F, (* the profile on the whole line; the processors own cells 2 and 3 *)
    total (fun i => one i * one i) 2 1 (D4DX4_FV_Index (mkXmesh 2 2 5 true false) one one F false j)
    + total (fun i => one i * one i) 2 1 (D4DX4_FV_Index (mkXmesh 2 2 5 false true) one one (fun i => F (i + 1)%Z) false j) <> 0.
Proof.
  intros j Hj. exists (values [0; 0; 1; 0; 0; 0]).
  assert (A : total (fun i => one i * one i) 2 1 (D4DX4_FV_Index (mkXmesh 2 2 5 true false) one one (values [0; 0; 1; 0; 0; 0]) false j) = 3).
  { change 2%Z with (xstart xleft) at 1. change (mkXmesh 2 2 5 true false) with xleft.
    rewrite d4_total; [|split; [lia|reflexivity]|unfold one; intros; lra|unfold one; intros; lra].
    unfold d4_left_value, d4_left. cbn [xstart xleft]. destruct (Z.eqb_spec j 2); [lia|].
    unfold d4_right. cbn [lastX andb xend xleft]. zify_idx. vals. unfold one. lra. }
  assert (B : total (fun i => one i * one i) 2 1 (D4DX4_FV_Index (mkXmesh 2 2 5 false true) one one (fun i => values [0; 0; 1; 0; 0; 0] (i + 1)%Z) false j) = 0).
  { change 2%Z with (xstart xright) at 1. change (mkXmesh 2 2 5 false true) with xright.
    rewrite d4_total; [|split; [lia|reflexivity]|unfold one; intros; lra|unfold one; intros; lra].
    unfold d4_left_value, d4_left. cbn [xstart xright]. destruct (Z.eqb_spec j 2); [lia|].
    unfold d4_right. cbn [lastX andb xend xright Z.eqb Pos.eqb]. lra. }
  rewrite A, B. lra.
Qed.
Print Assumptions C25_hyperdiffusion_conserves_refuted.

(** Refuted: the result of a radial operator does not depend on the y index (the code tests
    [j == mesh->xstart] where it means i). *)
Theorem C25_independent_of_y_index_refuted : exists m f j1 j2,
  xmesh_ok m 1 /\ D4DX4_FV_Index m one one f false j1 (xstart m) <> D4DX4_FV_Index m one one f false j2 (xstart m).
Proof.
  exists xmiddle, (values [0; 0; 1; 0; 0]), 2%Z, 3%Z. split; [split; [lia|reflexivity]|]. exact d4_depends_on_j.
Qed.
Print Assumptions C25_independent_of_y_index_refuted.

(** What the volume integral on one processor is in general. *)
Theorem C25_integral_general : forall m n J dx f b j,
  xmesh_ok m n -> (forall i, 0 < J i) -> (forall i, 0 < dx i) ->
  total (fun i => J i * dx i) (xstart m) n (D4DX4_FV_Index m J dx f b j)
  = d4_right m J dx f b (xend m) - d4_left_value m J dx f b j (xstart m).
Proof. exact d4_total. Qed.
Print Assumptions C25_integral_general.

(** ** C66 *)

Theorem C66_perp_index_diffusion_conserves : forall lo n nz J dx a f,
  (0 < nz)%nat -> (forall i, 0 < J i) -> (forall i, 0 < dx i) ->
  total2 (fun i _ => J i * dx i) lo n 0 nz (Div_Perp_Lap_FV_Index (Z.of_nat nz) J dx a f)
  = zsum 0 nz (fun k => perp_flux J dx a f (lo + Z.of_nat n) k - perp_flux J dx a f lo k).
Proof. exact perp_total. Qed.
Print Assumptions C66_perp_index_diffusion_conserves.

Theorem C66_perp_index_diffusion_constant : forall nz J dx a c i k, Div_Perp_Lap_FV_Index nz J dx a (fun _ _ => c) i k = 0.
Proof. exact perp_const. Qed.
Print Assumptions C66_perp_index_diffusion_constant.

(** The parameter xflux is ignored: flux enters through the radial boundary whatever its value. *)
Theorem C66_closed_radial_boundary_refuted : exists f,
  total2 (fun i _ => one i * one i) 1 1 0 1 (Div_Perp_Lap_FV_Index 1 one one (fun _ _ => 1) f) <> 0.
Proof.
  exists (fun i _ => if Z.eqb i 2 then 1 else 0). change 1%Z with (Z.of_nat 1) at 3. rewrite perp_total; [|lia|unfold one; intros; lra|unfold one; intros; lra].
  cbn [zsum]. unfold perp_flux, one. cbn. lra.
Qed.
Print Assumptions C66_closed_radial_boundary_refuted.

(** Refuted: equal diffusion in X and Z in index space; X is twice as strong. *)
Theorem C66_isotropic_refuted : 
  (forall nz a f i k, Div_Perp_Lap_FV_Index nz one one (fun _ _ => a) f i k
    = 2 * a * (f (i + 1)%Z k - 2 * f i k + f (i - 1)%Z k) + a * (f i (zplus nz k) - 2 * f i k + f i (zminus nz k))) /\
  exists f g, (forall i k, f i k = g k i) /\
    Div_Perp_Lap_FV_Index 5 one one (fun _ _ => 1) f 2 2 <> Div_Perp_Lap_FV_Index 5 one one (fun _ _ => 1) g 2 2.
Proof.
  split; [exact perp_uniform|]. exists (fun i _ => if Z.eqb i 3 then 1 else 0), (fun _ k => if Z.eqb k 3 then 1 else 0).
  split; [reflexivity|]. rewrite !perp_uniform. cbn. lra.
Qed.
Print Assumptions C66_isotropic_refuted.

Theorem C66_z_diffusion_conserves : forall n a f, (0 < n)%nat -> zsum 0 n (Div_Z_FV_Index (Z.of_nat n) a f) = 0.
Proof. exact Div_Z_conserves. Qed.
Print Assumptions C66_z_diffusion_conserves.

Theorem C66_z_diffusion_dissipates : forall n a f, (0 < n)%nat -> (forall k, 0 <= a k) ->
  zsum 0 n (fun k => f k * Div_Z_FV_Index (Z.of_nat n) a f k) <= 0.
Proof. exact Div_Z_dissipates. Qed.
Print Assumptions C66_z_diffusion_dissipates.

(** The Z hyper-diffusion (subtracted in the evolution equations) conserves and dissipates. *)
Theorem C66_z_hyperdiffusion_conserves : forall n f, (0 < n)%nat -> zsum 0 n (D4DZ4_Index (Z.of_nat n) f) = 0.
Proof. exact D4DZ4_conserves. Qed.
Print Assumptions C66_z_hyperdiffusion_conserves.

Theorem C66_z_hyperdiffusion_dissipates : forall n f, (0 < n)%nat ->
  zsum 0 n (fun k => f k * D4DZ4_Index (Z.of_nat n) f k)
  = zsum 0 n (fun k => second_difference (Z.of_nat n) f k * second_difference (Z.of_nat n) f k).
Proof. exact D4DZ4_square. Qed.
Print Assumptions C66_z_hyperdiffusion_dissipates.

Example C66_hypotheses_met : (0 < 5)%nat /\ (forall i, 0 < one i) /\ Div_Z_FV_Index 3 (fun _ => 1) (values [0; 1; 0]) 1 = -2.
Proof.
  split; [lia|]. split; [unfold one; intros; lra|]. unfold Div_Z_FV_Index.
  change (zplus 3 1) with 2%Z. change (zminus 3 1) with 0%Z. vals. lra.
Qed.

(** ** C67 *)

Theorem C67_laplacian_conserves : forall c k f lo1 n1 lo2 n2, positive_metric2 c ->
  (forall i j, l_dy c (i + 1)%Z j = l_dy c i j) -> (forall i j, l_dx c i (j + 1)%Z = l_dx c i j) ->
  total2 (fun i j => l_J c i j * l_dx c i j * l_dy c i j) lo1 n1 lo2 n2 (Laplace_FV c k f)
  = zsum lo2 n2 (fun j => l_dy c lo1 j * (laplace_x c k f (lo1 + Z.of_nat n1) j - laplace_x c k f lo1 j))
    + zsum lo1 n1 (fun i => l_dx c i lo2 * (laplace_y c k f i (lo2 + Z.of_nat n2) - laplace_y c k f i lo2)).
Proof. exact laplace_total. Qed.
Print Assumptions C67_laplacian_conserves.

Theorem C67_laplacian_constant : forall c k a i j, Laplace_FV c k (fun _ _ => a) i j = 0.
Proof. exact laplace_const. Qed.
Print Assumptions C67_laplacian_constant.

Example C67_hypotheses_met :
  let c := mkCoords2 (fun i j => 1 + IZR (i * i)) (fun _ _ => 1) (fun _ _ => 2) (fun i _ => 1 + IZR (i * i)) (fun _ j => 1 + IZR (j * j)) in
  positive_metric2 c /\ (forall i j, l_dy c (i + 1)%Z j = l_dy c i j) /\ (forall i j, l_dx c i (j + 1)%Z = l_dx c i j).
Proof.
  assert (S : forall j, 0 < 1 + IZR (j * j)).
  { intros j. rewrite mult_IZR. pose proof (Rle_0_sqr (IZR j)). unfold Rsqr in *. lra. }
  cbv zeta. split; [|split; reflexivity]. intros i j. cbn [l_J l_g11 l_g22 l_dx l_dy]. repeat split; auto; lra.
Qed.
