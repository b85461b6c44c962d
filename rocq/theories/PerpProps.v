(** Theorems about the perpendicular diffusion operators: C28 (and C68: cells without density). *)

From Coq Require Import List Bool ZArith Reals Lra Lia.
From Verif Require Import StateMonad LimitersModel LimitersSpec LimitersProofs ParallelModel ParallelSpec DiffusionModel DiffusionSpec
  ExBLaws2 PerpModel PerpSpec PerpProofs PerpLaws.
Import ListNotations.
Open Scope R_scope.

(** ** C28: integrals *)

Theorem C28_flows_conserve : forall toFA fromFA m c nx ny nzn,
  pmesh_ok m nx ny nzn -> pcoords_ok c -> keeps_z_sums nzn fromFA -> tensor_grid c -> forall a f,
  total3 (xstart (pm_x m)) nx (ystart (pm_y m)) ny nzn (volume c) (result (Div_a_Grad_perp_flows toFA fromFA m c a f))
  = edge_flows (xstart (pm_x m)) nx (ystart (pm_y m)) ny nzn c (diffusive_x c a f) (diffusive_y c (pm_nz m) (toFA a) (toFA f)).
Proof. exact flows_total. Qed.
Print Assumptions C28_flows_conserve.

Theorem C28_upwind_conserve : forall toFA fromFA m c nx ny nzn,
  pmesh_ok m nx ny nzn -> pcoords_ok c -> keeps_z_sums nzn fromFA -> tensor_grid c -> forall a f,
  total3 (xstart (pm_x m)) nx (ystart (pm_y m)) ny nzn (volume c) (result (Div_a_Grad_perp_upwind_flows toFA fromFA m c a f))
  = edge_flows (xstart (pm_x m)) nx (ystart (pm_y m)) ny nzn c (upwind_x c a f) (diffusive_y c (pm_nz m) (toFA a) (toFA f)).
Proof. exact upwind_total. Qed.
Print Assumptions C28_upwind_conserve.

Theorem C28_limit_conserves : forall toFA fromFA m c nx ny nzn,
  pmesh_ok m nx ny nzn -> pcoords_ok c -> keeps_z_sums nzn fromFA -> tensor_grid c -> forall edges a g f,
  total3 (xstart (pm_x m)) nx (ystart (pm_y m)) ny nzn (volume c) (Div_a_Grad_perp_limit edges toFA fromFA m c a g f)
  = edge_flows (xstart (pm_x m)) nx (ystart (pm_y m)) ny nzn c
      (limited_x edges (pm_x m) c a g f) (limited_y (pm_y m) c (pm_nz m) (toFA a) (toFA g) (toFA f)).
Proof. exact limit_total. Qed.
Print Assumptions C28_limit_conserves.

(** ** C28: flow diagnostics

    The content of the ring of cells (i, j, all k) changes by the flows in flow_xlow and flow_ylow, below the top row. *)

Theorem C28_flow_diagnostics_partial : forall toFA fromFA m c nx ny nzn,
  pmesh_ok m nx ny nzn -> pcoords_ok c -> keeps_z_sums nzn fromFA -> tensor_grid c -> forall a f i j,
  (xstart (pm_x m) <= i < xstart (pm_x m) + Z.of_nat nx)%Z -> (ystart (pm_y m) <= j < ystart (pm_y m) + Z.of_nat ny - 1)%Z ->
  let r := Div_a_Grad_perp_flows toFA fromFA m c a f in
  zsum 0 nzn (fun k => volume c i j * result r i j k)
  = zsum 0 nzn (fun k => flow_xlow r i j k - flow_xlow r (i + 1)%Z j k + (flow_ylow r i j k - flow_ylow r i (j + 1)%Z k)).
Proof. exact flows_diagnostic. Qed.
Print Assumptions C28_flow_diagnostics_partial.

Theorem C28_upwind_flow_diagnostics_partial : forall toFA fromFA m c nx ny nzn,
  pmesh_ok m nx ny nzn -> pcoords_ok c -> keeps_z_sums nzn fromFA -> tensor_grid c -> forall a f i j,
  (xstart (pm_x m) <= i < xstart (pm_x m) + Z.of_nat nx)%Z -> (ystart (pm_y m) <= j < ystart (pm_y m) + Z.of_nat ny - 1)%Z ->
  let r := Div_a_Grad_perp_upwind_flows toFA fromFA m c a f in
  zsum 0 nzn (fun k => volume c i j * result r i j k)
  = zsum 0 nzn (fun k => flow_xlow r i j k - flow_xlow r (i + 1)%Z j k + (flow_ylow r i j k - flow_ylow r i (j + 1)%Z k)).
Proof. exact upwind_diagnostic. Qed.
Print Assumptions C28_upwind_flow_diagnostics_partial.

(** In the top row the statement is false: flow_ylow is set for ystart .. yend only, so the flow through the upper face of yend
    is in no element of it (while flow_xlow has the upper face of xend). *)
Theorem C28_top_flow_diagnostic_refuted : exists toFA fromFA m c nx ny nzn a f i,
  pmesh_ok m nx ny nzn /\ pcoords_ok c /\ keeps_z_sums nzn fromFA /\ tensor_grid c /\
  (xstart (pm_x m) <= i < xstart (pm_x m) + Z.of_nat nx)%Z /\
  let j := yend (pm_y m) in
  let r := Div_a_Grad_perp_flows toFA fromFA m c a f in
  zsum 0 nzn (fun k => volume c i j * result r i j k)
  <> zsum 0 nzn (fun k => flow_xlow r i j k - flow_xlow r (i + 1)%Z j k + (flow_ylow r i j k - flow_ylow r i (j + 1)%Z k)).
Proof.
  exists identity, identity, box, (sheared 1), 2%nat, 3%nat, 4%nat, (fun _ _ _ => 1), top_guard, 1%Z.
  refine (conj box_ok (conj (sheared_ok 1) (conj (identity_keeps 4) (conj (sheared_tensor 1) (conj _ _))))); [cbn; lia|].
  intros j r H. destruct top_flow_missing as [E1 E2]. apply (R1_neq_R0). 
  assert (E : 4 = 0) by (rewrite <- E1; exact (eq_trans H E2)). lra.
Qed.
Print Assumptions C28_top_flow_diagnostic_refuted.

(** ** C28: constants, and the three versions against one another *)

Theorem C28_constants : forall toFA fromFA m c a v, vanishes fromFA -> (forall i j k, toFA (fun _ _ _ => v) i j k = v) ->
  (forall i j k, result (Div_a_Grad_perp_flows toFA fromFA m c a (fun _ _ _ => v)) i j k = 0) /\
  (forall i j k, result (Div_a_Grad_perp_upwind_flows toFA fromFA m c a (fun _ _ _ => v)) i j k = 0) /\
  (forall edges g i j k, Div_a_Grad_perp_limit edges toFA fromFA m c a g (fun _ _ _ => v) i j k = 0).
Proof.
  intros toFA fromFA m c a v V C.
  exact (conj (flows_const toFA fromFA m c a v V C) (conj (upwind_const toFA fromFA m c a v V C)
    (fun edges g => limit_const edges toFA fromFA m c a g v V C))).
Qed.
Print Assumptions C28_constants.

(** For a constant coefficient the central and the upwind operators are the same, provided g33 = 1 ... *)
Theorem C28_versions_agree_partial : forall toFA fromFA m c v f, pcoords_ok c -> tensor_grid c ->
  (forall i j k, toFA (fun _ _ _ => v) i j k = v) -> (forall i j, p_g33 c i j = 1) ->
  forall i j k, result (Div_a_Grad_perp_upwind_flows toFA fromFA m c (fun _ _ _ => v) f) i j k
    = result (Div_a_Grad_perp_flows toFA fromFA m c (fun _ _ _ => v) f) i j k.
Proof. exact upwind_is_flows. Qed.
Print Assumptions C28_versions_agree_partial.

(** ... but not otherwise: the Z fluxes of the upwind and limited versions have no factor J g33. *)
Theorem C28_versions_agree_refuted : exists toFA fromFA m c v f i j k, pcoords_ok c /\ tensor_grid c /\
  (forall i j k, toFA (fun _ _ _ => v) i j k = v) /\
  result (Div_a_Grad_perp_upwind_flows toFA fromFA m c (fun _ _ _ => v) f) i j k
  <> result (Div_a_Grad_perp_flows toFA fromFA m c (fun _ _ _ => v) f) i j k.
Proof.
  exists identity, identity, box, (sheared 2), 1, ridge, 1%Z, 2%Z, 1%Z.
  refine (conj (sheared_ok 2) (conj (sheared_tensor 2) (conj (fun _ _ _ => eq_refl) _))).
  destruct versions_differ as [E1 E2]. rewrite E1, E2. lra.
Qed.
Print Assumptions C28_versions_agree_refuted.

(** The direction of what is added at the end: f, a and g with parallel slices decide how yzresult is calculated, f and a alone
    whether it is transformed back. *)
Theorem C28_limit_direction_partial : forall f_slices a_slices g_slices,
  (f_slices && a_slices = true -> g_slices = true)%bool -> limit_added_direction f_slices a_slices g_slices = Standard.
Proof. intros [] [] [] H; try reflexivity. exfalso. discriminate (H eq_refl). Qed.
Print Assumptions C28_limit_direction_partial.
Theorem C28_limit_direction_refuted : exists f_slices a_slices g_slices, limit_added_direction f_slices a_slices g_slices = Aligned.
Proof. exists true, true, false. reflexivity. Qed.
Print Assumptions C28_limit_direction_refuted.
Theorem C28_flows_direction : forall f_slices a_slices, flows_added_direction f_slices a_slices = Standard.
Proof. intros [] []; reflexivity. Qed.
Print Assumptions C28_flows_direction.

(** The hypotheses hold for a 2 x 3 x 4 mesh with a sheared metric, and the operator does something there. *)
Example C28_case : pmesh_ok box 2 3 4 /\ pcoords_ok (sheared 2) /\ tensor_grid (sheared 2) /\ keeps_z_sums 4 identity /\ vanishes identity /\
  result (Div_a_Grad_perp_flows identity identity box (sheared 2) (fun _ _ _ => 1) ridge) 1%Z 2%Z 1%Z = -4.
Proof. exact (conj box_ok (conj (sheared_ok 2) (conj (sheared_tensor 2) (conj (identity_keeps 4) (conj identity_vanishes (proj1 versions_differ)))))). Qed.

(** A transform that does move things: shifting by one point in Z keeps the sums. *)
Example C28_shift_case : keeps_z_sums 4 (fun f i j k => f i j (if Z.eqb k 3 then 0 else k + 1)%Z) /\
  vanishes (fun f i j k => f i j (if Z.eqb k 3 then 0 else k + 1)%Z).
Proof. split; [intros g i j; cbn [zsum Z.of_nat Pos.of_succ_nat Pos.succ Z.add Pos.add Z.eqb Pos.eqb]; ring|intros g H i j k; apply H]. Qed.

(** ** C68: cells without density *)

Theorem C68_limited_diffusion_radially : forall edges m nx c a g f i j k,
  xmesh_ok m nx -> pcoords_ok c -> bounded_by_neighbours edges -> flat_at_extrema edges -> (forall i j, 0 <= p_g11 c i j) ->
  (forall i j k, 0 <= a i j k) -> (forall i j k, 0 <= g i j k) -> g i j k = 0 ->
  (xstart m <= i < xstart m + Z.of_nat nx)%Z ->
  (firstX m = true -> i <> xstart m) -> (lastX m = true -> i <> xend m) ->
  0 <= fst (x_loop m c (x_limit edges m c a g f) j k) i.
Proof. exact limit_x_empty. Qed.
Print Assumptions C68_limited_diffusion_radially.

Theorem C68_limited_diffusion_poloidally_refuted : exists m c a g f i j k nx ny nzn,
  pmesh_ok m nx ny nzn /\ pcoords_ok c /\ (forall i j k, 0 <= a i j k) /\ (forall i j k, 0 <= g i j k) /\ g i j k = 0 /\
  (xstart (pm_x m) <= i <= xend (pm_x m))%Z /\ (ystart (pm_y m) < j < yend (pm_y m))%Z /\
  Div_a_Grad_perp_limit mc_edges identity identity m c a g f i j k < 0.
Proof.
  exists box, (sheared 1), (fun _ _ _ => 1), density_above, sloped, 1%Z, 2%Z, 1%Z, 2%nat, 3%nat, 4%nat.
  destruct (limit_y_drains_empty_cell mc_edges) as (A & B & C); [exact mc_const|].
  refine (conj box_ok (conj (sheared_ok 1) (conj _ (conj A (conj B (conj _ (conj _ C))))))); [intros; lra|cbn; lia|cbn; lia].
Qed.
Print Assumptions C68_limited_diffusion_poloidally_refuted.
