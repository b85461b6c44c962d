(** Concrete cases of diffusive transport. *)

From Coq Require Import List Bool ZArith Reals Lra Lia String.
From Verif Require Import StateMonad StateMonadProofs ParallelModel ParallelSpec ParallelProofs ParallelHeating DiffusionModel DiffusionSpec DiffusionProofs
  PerpModel PerpSpec PerpProofs PerpLaws MetricModel MetricProofs TransportModel TransportSpec TransportProofs TransportLaws TransportLaws2.
Import ListNotations.
Open Scope R_scope.

(** ** Anomalous diffusion *)

Definition closed_box : pmesh := mkPmesh (mkXmesh 1 2 4 false false) (mkMesh 1 3 5 true true false) 4.
Lemma closed_box_ok : pmesh_ok closed_box 2 3 4.
Proof. unfold pmesh_ok, xmesh_ok. cbn [closed_box pm_x pm_y pm_nz xstart xend ystart yend]. repeat split; lia. Qed.
Definition straight : pcoords := mkPcoords one2 one2 (fun _ _ => 0) (fun _ _ => 0) one2 one2 one2 one2 one2.
Lemma straight_ok : pcoords_ok straight.
Proof. intros i j. cbn [straight p_J p_dx p_dy p_dz]. unfold one2. lra. Qed.
Lemma identity_axisymmetric nzn : keeps_axisymmetric nzn identity.
Proof. intros h g H i j k Hk. apply H, Hk. Qed.

Definition unused : bool * (Z -> Z -> R) := (false, fun _ _ => 0).
Definition used : bool * (Z -> Z -> R) := (true, fun _ _ => 1).
Definition flat_field (f : Z -> Z -> R) : field := fun i j _ => f i j.
Lemma flat_mean f i j : z_mean 4 (flat_field f i j) = f i j.
Proof. unfold z_mean, flat_field. rewrite zsum_const. cbn [INR]. field. Qed.
Lemma flat_profile m nx ny o f i j : pmesh_ok m nx ny 4 -> (ystart (pm_y m) <= j < ystart (pm_y m) + Z.of_nat ny)%Z ->
  profile m o (flat_field f) i j = f i j.
Proof. intros M Hj. rewrite (profile_domain m nx ny 4) by assumption. apply flat_mean. Qed.

Lemma straight_radial a f i j : radial straight a f i j = (f i j - f (i - 1)%Z j) * (if Rlt_dec 0 (f i j - f (i - 1)%Z j) then a i j else a (i - 1)%Z j).
Proof.
  unfold radial, upwind_x. assert (E : slope_x straight (flat f) i j 0 = f i j - f (i - 1)%Z j).
  { unfold slope_x, flat. cbn [straight p_J p_g11 p_dx]. unfold one2. field. }
  rewrite E. reflexivity.
Qed.

(** A density which rises outwards. *)
Definition rising : field := flat_field (fun i _ => IZR i * IZR i).
Definition diffuse : anomalous := mkAnomalous used unused unused false.
Definition of_res (r : res transport) : transport := match r with Ok t => t | _ => mkTransport no_flows no_flows no_flows end.
Lemma rising_total : forall t, anomalous_transform identity identity closed_box straight diffuse (Some 2) rising None None = Ok t ->
  total3 1 2 1 3 4 (volume straight) (source (t_particles t)) = 48.
Proof.
  intros t Ht.
  destruct (anomalous_totals identity identity closed_box straight 2 3 4 closed_box_ok straight_ok (identity_axisymmetric 4) (identity_axisymmetric 4)
              diffuse 2 rising None None t Ht) as (E & _).
  - repeat split.
  - repeat split.
  - reflexivity.
  - cbn [closed_box pm_x pm_y xstart ystart] in E. rewrite E. cbn [diffuse anomalous_D used fst snd on].
    unfold radial_edges. cbn [zsum]. rewrite !straight_radial. unfold rising. rewrite !flat_mean. cbn [straight p_dy p_dz]. unfold one2.
    change (1 + Z.of_nat 2)%Z with 3%Z. change (3 - 1)%Z with 2%Z. change (1 - 1)%Z with 0%Z. cbn [INR].
    repeat match goal with |- context [Rlt_dec ?a ?b] => destruct (Rlt_dec a b); [|exfalso; lra] end. lra.
Qed.

(** Peaked density and temperature along the field in a sheared grid. *)
Definition peak : field := flat_field (fun _ j => if Z.eqb j 2 then 2 else 1).
Lemma peak_profile o i j : (1 <= j <= 3)%Z -> profile box o peak i j = if Z.eqb j 2 then 2 else 1.
Proof. intros Hj. unfold peak. apply (flat_profile box 2 3); [exact box_ok|]. cbn [box pm_y ystart]. lia. Qed.
Lemma peak_sources : forall t, anomalous_transform identity identity box (sheared 1) diffuse (Some 2) peak (Some peak) None = Ok t ->
  source (t_particles t) 1%Z 2%Z 0%Z = - 2 /\ source (t_energy t) 1%Z 2%Z 0%Z = - (9 / 2).
Proof.
  intros t Ht.
  destruct (anomalous_cell identity identity box (sheared 1) 2 3 4 box_ok (sheared_ok 1) (identity_axisymmetric 4) (identity_axisymmetric 4)
              diffuse 2 peak (Some peak) None t Ht 1%Z 2%Z 0%Z) as (E1 & _ & E3).
  - cbn [box pm_x xstart]. lia.
  - lia.
  - rewrite E1, E3. cbn [diffuse anomalous_D anomalous_chi used unused fst snd on]. unfold profile_or_zero. clear E1 E3 Ht.
    set (p := profile box _ peak).
    assert (P1 : forall i, p i 1%Z = 1) by (intros; unfold p; rewrite peak_profile by lia; reflexivity).
    assert (P2 : forall i, p i 2%Z = 2) by (intros; unfold p; rewrite peak_profile by lia; reflexivity).
    assert (P3 : forall i, p i 3%Z = 1) by (intros; unfold p; rewrite peak_profile by lia; reflexivity).
    unfold cell_rate, radial, upwind_x, slope_x, poloidal, flat. change (2 + 1)%Z with 3%Z. change (3 - 1)%Z with 2%Z. change (2 - 1)%Z with 1%Z.
    change (1 + 1)%Z with 2%Z. change (1 - 1)%Z with 0%Z. change (2 - 1)%Z with 1%Z.
    rewrite !P1, !P2, !P3. cbn [sheared p_J p_g11 p_g23 p_g_23 p_Bxy p_dx p_dy]. unfold one2. split; field.
Qed.
Lemma poloidal_maximum :
  exists m c nx ny nzn o AA N T t i j k,
    pmesh_ok m nx ny nzn /\ pcoords_ok c /\ anomalous_transform identity identity m c o (Some AA) N (Some T) None = Ok t /\
    (forall i j, 0 <= p_g11 c i j) /\ (forall i j, 0 <= snd (anomalous_D o) i j) /\ (forall i j, 0 <= snd (anomalous_chi o) i j) /\ (forall i j k, 0 <= N i j k) /\
    (forall i' j', z_mean nzn (T i' j') <= z_mean nzn (T i j)) /\
    3 / 2 * z_mean nzn (T i j) * source (t_particles t) i j k < source (t_energy t) i j k.
Proof.
  exists box, (sheared 1), 2%nat, 3%nat, 4%nat, diffuse, 2, peak, peak.
  destruct (anomalous_transform identity identity box (sheared 1) diffuse (Some 2) peak (Some peak) None) as [t| |] eqn:Ht;
    [|discriminate Ht|discriminate Ht].
  exists t, 1%Z, 2%Z, 0%Z. destruct (peak_sources t Ht) as [E1 E3]. rewrite E1, E3. unfold peak. rewrite flat_mean.
  cbn [Z.eqb Pos.eqb].
  split; [apply box_ok|]. split; [apply sheared_ok|]. split; [reflexivity|].
  split; [intros; cbn [sheared p_g11]; unfold one2; lra|]. split; [intros; cbn [diffuse anomalous_D used snd]; lra|].
  split; [intros; cbn [diffuse anomalous_chi unused snd]; lra|]. split; [intros i j k; unfold flat_field; destruct (Z.eqb j 2); lra|].
  split; [intros i' j'; rewrite flat_mean; destruct (Z.eqb j' 2); lra|]. lra.
Qed.

(** Viscosity alone: a step in the velocity, flat at the edges. *)
Definition step : field := flat_field (fun i _ => if Z.leb i 1 then 1 else 0).
Definition uniform : field := flat_field (fun _ _ => 1).
Definition viscous : anomalous := mkAnomalous unused unused used false.
Lemma closed_profile o f i j : (1 <= j <= 3)%Z -> profile closed_box o (flat_field f) i j = f i j.
Proof. intros Hj. apply (flat_profile closed_box 2 3); [exact closed_box_ok|]. cbn [closed_box pm_y ystart]. lia. Qed.
Lemma straight_rate X Y i j : cell_rate straight X Y i j = X (i + 1)%Z j - X i j + (Y i (j + 1)%Z - Y i j).
Proof. unfold cell_rate. cbn [straight p_dx p_dy p_J]. unfold one2. field. Qed.
Lemma straight_poloidal a f i j : poloidal straight a f i j = 0.
Proof. unfold poloidal. cbn [straight p_J p_g23]. unfold one2. unfold Rdiv. ring. Qed.
Lemma viscous_sources : forall t, anomalous_transform identity identity closed_box straight viscous (Some 2) uniform (Some uniform) (Some step) = Ok t ->
  forall i j k, (1 <= i <= 2)%Z -> (1 <= j <= 3)%Z -> (0 <= k < 4)%Z ->
    source (t_energy t) i j k = 0 /\ source (t_momentum t) i j k = if Z.eqb i 1 then - 2 else 2.
Proof.
  intros t Ht i j k Hi Hj Hk.
  destruct (anomalous_cell identity identity closed_box straight 2 3 4 closed_box_ok straight_ok (identity_axisymmetric 4) (identity_axisymmetric 4)
              viscous 2 uniform (Some uniform) (Some step) t Ht i j k) as (_ & E2 & E3).
  - cbn [closed_box pm_x xstart]. lia.
  - lia.
  - rewrite E2, E3. cbn [viscous anomalous_D anomalous_chi anomalous_nu used unused fst snd on]. split; [lra|].
    rewrite straight_rate, !straight_poloidal, !straight_radial. unfold profile_or_zero, uniform, step. rewrite !closed_profile by lia.
    assert (C : i = 1%Z \/ i = 2%Z) by lia. destruct C as [-> | ->].
    + change (1 + 1)%Z with 2%Z. change (1 - 1)%Z with 0%Z. change (2 - 1)%Z with 1%Z. cbn [Z.leb Z.compare Pos.compare Pos.compare_cont Z.eqb Pos.eqb].
      destruct (Rlt_dec 0 (0 - 1)) as [F|_]; [exfalso; lra|]. destruct (Rlt_dec 0 (1 - 1)) as [F|_]; [exfalso; lra|]. lra.
    + change (2 + 1)%Z with 3%Z. change (3 - 1)%Z with 2%Z. change (2 - 1)%Z with 1%Z. cbn [Z.leb Z.compare Pos.compare Pos.compare_cont Z.eqb Pos.eqb].
      destruct (Rlt_dec 0 (0 - 1)) as [F|_]; [exfalso; lra|]. destruct (Rlt_dec 0 (0 - 0)) as [F|_]; [exfalso; lra|]. lra.
Qed.
Lemma anomalous_energy_lost :
  exists m c nx ny nzn o AA N T V t,
    pmesh_ok m nx ny nzn /\ pcoords_ok c /\ tensor_grid c /\ anomalous_transform identity identity m c o (Some AA) N (Some T) (Some V) = Ok t /\
    (forall i j k, N i j k = 1 /\ T i j k = 1) /\
    (forall j k, V (xstart (pm_x m) - 1)%Z j k = V (xstart (pm_x m)) j k /\ V (xstart (pm_x m) + Z.of_nat nx)%Z j k = V (xstart (pm_x m) + Z.of_nat nx - 1)%Z j k) /\
    (forall i j k, source (t_particles t) i j k = 0) /\
    total3 (xstart (pm_x m)) nx (ystart (pm_y m)) ny nzn (volume c) (fun i j k => V i j k * source (t_momentum t) i j k + source (t_energy t) i j k) < 0.
Proof.
  exists closed_box, straight, 2%nat, 3%nat, 4%nat, viscous, 2, uniform, uniform, step.
  destruct (anomalous_transform identity identity closed_box straight viscous (Some 2) uniform (Some uniform) (Some step)) as [t| |] eqn:Ht;
    [|discriminate Ht|discriminate Ht].
  exists t. split; [exact closed_box_ok|]. split; [exact straight_ok|]. split; [repeat split|]. split; [reflexivity|].
  split; [intros; split; reflexivity|]. split; [intros; split; reflexivity|]. split.
  - intros i j k. destruct (sources_are identity identity closed_box straight viscous 2 uniform (Some uniform) (Some step) t Ht i j k) as (E & _). exact E.
  - unfold total3. cbn [closed_box pm_x pm_y xstart ystart].
    assert (V1 : forall i j, volume straight i j = 1) by (intros; unfold volume; cbn [straight p_J p_dx p_dy p_dz]; unfold one2; lra).
    assert (S1 : forall j k, (1 <= j <= 3)%Z -> (0 <= k < 4)%Z -> step 1%Z j k * source (t_momentum t) 1%Z j k + source (t_energy t) 1%Z j k = - 2).
    { intros j k Hj Hk. destruct (viscous_sources t Ht 1%Z j k) as [-> ->]; try lia. unfold step, flat_field. cbn [Z.leb Z.compare Pos.compare Pos.compare_cont Z.eqb Pos.eqb]. lra. }
    assert (S2 : forall j k, (1 <= j <= 3)%Z -> (0 <= k < 4)%Z -> step 2%Z j k * source (t_momentum t) 2%Z j k + source (t_energy t) 2%Z j k = 0).
    { intros j k Hj Hk. destruct (viscous_sources t Ht 2%Z j k) as [-> ->]; try lia. unfold step, flat_field. cbn [Z.leb Z.compare Pos.compare Pos.compare_cont Z.eqb Pos.eqb]. lra. }
    rewrite (zsum_ext 1 2 _ (fun i => if Z.eqb i 1 then - 24 else 0)).
    + cbn [zsum]. change (1 + Z.of_nat 0)%Z with 1%Z. change (1 + Z.of_nat 1)%Z with 2%Z. cbn [Z.eqb Pos.eqb]. lra.
    + intros i Hi. assert (C : i = 1%Z \/ i = 2%Z) by lia.
      destruct C as [-> | ->]; cbn [Z.eqb Pos.eqb].
      * rewrite (zsum_ext 1 3 _ (fun j => - 8)); [rewrite zsum_const; cbn [INR]; lra|]. intros j Hj.
        rewrite (zsum_ext 0 4 _ (fun k => - 2)); [rewrite zsum_const; cbn [INR]; lra|]. intros k Hk. rewrite S1, V1 by lia. lra.
      * rewrite (zsum_ext 1 3 _ (fun j => 0)); [rewrite zsum_const; cbn [INR]; lra|]. intros j Hj.
        rewrite (zsum_ext 0 4 _ (fun k => 0)); [rewrite zsum_const; cbn [INR]; lra|]. intros k Hk. rewrite S2, V1 by lia. lra.
Qed.

(** A single hot spot in X at a straight grid, with density falling away from it. *)
Definition hill : field := flat_field (fun i _ => if Z.eqb i 1 then 3 else 1).
Lemma hill_case : exists t, anomalous_transform identity identity closed_box straight (mkAnomalous used used unused false) (Some 2) hill (Some hill) None = Ok t /\
  source (t_particles t) 1%Z 1%Z 0%Z = - 4 /\ source (t_energy t) 1%Z 1%Z 0%Z = - 30.
Proof.
  destruct (anomalous_transform identity identity closed_box straight (mkAnomalous used used unused false) (Some 2) hill (Some hill) None) as [t| |] eqn:Ht;
    [|discriminate Ht|discriminate Ht].
  exists t. split; [reflexivity|].
  destruct (anomalous_cell identity identity closed_box straight 2 3 4 closed_box_ok straight_ok (identity_axisymmetric 4) (identity_axisymmetric 4)
              (mkAnomalous used used unused false) 2 hill (Some hill) None t Ht 1%Z 1%Z 0%Z) as (E1 & _ & E3).
  - cbn [closed_box pm_x xstart]. lia.
  - lia.
  - rewrite E1, E3. cbn [anomalous_D anomalous_chi used unused fst snd on]. rewrite !straight_rate, !straight_poloidal, !straight_radial.
    unfold profile_or_zero, hill. rewrite !closed_profile by lia. zify_idx. cbn [Z.eqb Pos.eqb].
    destruct (Rlt_dec 0 (1 - 3)) as [F|_]; [exfalso; lra|]. destruct (Rlt_dec 0 (3 - 1)) as [_|F]; [|exfalso; lra]. split; field.
Qed.

(** ** On a line of two cells *)

Lemma unit_K_Div K f j : (1 <= j <= 2)%Z ->
  K_Div mesh2 unit_coords K f j = (K j + K (j + 1)%Z) / 2 * (f (j + 1)%Z - f j) - (K (j - 1)%Z + K j) / 2 * (f j - f (j - 1)%Z).
Proof.
  intros Hj. pose proof (K_Div_cell mesh2 2 unit_coords mesh2_ok unit_positive K f j) as E. cbn [mesh2 ystart] in E. specialize (E ltac:(lia)).
  rewrite unit_volume in E. unfold line_conduction, conductive_flux, mean, jump in E. cbn [unit_coords c_J c_g22 c_dy] in E.
  replace (j + 1 - 1)%Z with j in E by lia. lra.
Qed.
Lemma unit_K_false K f j : (1 <= j <= 2)%Z ->
  fst (Div_par_K_Grad_par_mod mesh2 unit_coords K f false j) = if Z.eqb j 1 then (K 1%Z + K 2%Z) / 2 * (f 2%Z - f 1%Z) else (K 1%Z + K 2%Z) / 2 * (f 1%Z - f 2%Z).
Proof.
  intros Hj. destruct (K_cell mesh2 2 unit_coords K f false j mesh2_ok unit_positive) as [E _]; [cbn [mesh2 ystart]; lia|].
  rewrite unit_volume in E. unfold K_face, closed_face, closed_low, closed_high in E. cbn [mesh2 firstY lastY periodicY ystart yend negb andb] in E.
  unfold conductive_flux, mean, jump in E. cbn [unit_coords c_J c_g22 c_dy] in E.
  assert (C : j = 1%Z \/ j = 2%Z) by lia. destruct C as [-> | ->]; cbn [Z.add Z.sub Z.opp Pos.add Pos.succ Z.pos_sub Z.eqb Pos.eqb orb Pos.pred_double] in *; lra.
Qed.

Definition gas : neutral := mkNeutral 2 (fun _ => 1) (values [1; 1; 2; 2]) (fun _ => 3) None (Some (fun _ => 5)) (fun j => 2 * values [1; 1; 2; 2] j * 5).
Definition plain_npd : npd := npd_options 1 nil.
Lemma gas_source : npd_S mesh2 unit_coords plain_npd gas 1%Z = 9 / 4 * (ln 6 - ln 3) /\ npd_S mesh2 unit_coords plain_npd gas 2%Z = - (9 / 4 * (ln 6 - ln 3)).
Proof.
  assert (F3 : rfloor 3 1e-7 = 3) by (unfold rfloor; replace (Rltb 3 1e-7) with false by (symmetry; apply Rltb_false; lra); reflexivity).
  assert (F6 : rfloor 6 1e-7 = 6) by (unfold rfloor; replace (Rltb 6 1e-7) with false by (symmetry; apply Rltb_false; lra); reflexivity).
  unfold npd_S. rewrite !unit_K_Div by lia. unfold npd_D, dirichlet_o2, npd_logP, neumann, end_low, end_high, npd_P.
  cbn [gas plain_npd npd_options dneut n_AA n_nu n_N n_T n_P mesh2 firstY lastY periodicY ystart yend negb andb]. zify_idx. cbn [Z.eqb Pos.eqb]. vals.
  replace (1 * 3) with 3 by lra. replace (2 * 3) with 6 by lra. rewrite F3, F6. split; field.
Qed.

(** Uniform gas with a step in the velocity. *)
Definition sliding (A : R) : neutral :=
  mkNeutral A (fun _ => 1) (fun _ => 1) (fun _ => A) None (Some (values [1; 1; 0; 0])) (fun j => A * values [1; 1; 0; 0] j).
Lemma sliding_force A F : 0 < A -> npd_F mesh2 unit_coords plain_npd (sliding A) = Some F -> F 1%Z = - 1 /\ F 2%Z = 1.
Proof.
  intros HA HF. unfold npd_F in HF. cbn [sliding n_V plain_npd npd_options viscosity setting find] in HF.
  injection HF as <-. rewrite !unit_K_Div by lia.
  unfold npd_D, dirichlet_o2, npd_logP, neumann, end_low, end_high, npd_P, npd_kappa, npd_D, dirichlet_o2, neumann, end_low, end_high, kappa_factor.
  cbn [sliding n_NV plain_npd npd_options equation_fix dneut n_AA n_nu n_N n_T n_P mesh2 firstY lastY periodicY ystart yend negb andb setting find]. zify_idx. cbn [Z.eqb Pos.eqb]. vals.
  split; field; lra.
Qed.
Lemma sliding_energy A j : 0 < A -> (1 <= j <= 2)%Z -> npd_E mesh2 unit_coords plain_npd (sliding A) j = 0 /\ npd_S mesh2 unit_coords plain_npd (sliding A) j = 0.
Proof.
  intros HA Hj.
  assert (E0 : npd_S mesh2 unit_coords plain_npd (sliding A) j = 0).
  { apply (npd_isobaric mesh2 2 unit_coords mesh2_ok unit_positive eq_refl eq_refl); [cbn [mesh2 ystart]; lia|]. intros. reflexivity. }
  split; [|exact E0]. rewrite (npd_isothermal mesh2 2 unit_coords mesh2_ok unit_positive plain_npd (sliding A) A j); [rewrite E0; ring|cbn [mesh2 ystart]; lia|reflexivity|reflexivity].
Qed.

(** The viscosity has no mass in it. *)
Lemma npd_viscosity_unit_mass m n c o s V F j : mesh_ok m n -> positive_metric c -> closed_low m = true -> closed_high m = true ->
  (ystart m <= j < ystart m + Z.of_nat n)%Z -> n_V s = Some V -> npd_F m c o s = Some F ->
  (forall i, (ystart m <= i < ystart m + Z.of_nat n)%Z -> npd_P s i = npd_P s (ystart m)) -> n_AA s = 1 ->
  F j = K_Div m c (fun j => 2 / 5 * n_AA s * npd_kappa m o s j) V j.
Proof.
  intros M P CL CH Hj HV HF HP HA. unfold npd_F in HF. rewrite HV in HF. destruct (viscosity o); [|discriminate HF]. injection HF as <-.
  rewrite (K_Div_scale m n c M P 1 (fun j => 2 / 5 * npd_kappa m o s j) (fun j => 2 / 5 * n_AA s * npd_kappa m o s j)) by (exact Hj || (intros i; rewrite HA; ring)).
  pose proof (npd_isobaric m n c M P CL CH o (mkNeutral (n_AA s) (n_nu s) (n_NV s) (n_T s) (Some (npd_P s)) (n_V s) (n_NV s)) j Hj HP) as E.
  unfold npd_S in E. cbn [n_N] in E.
  rewrite (K_Div_scale m n c M P 1 (fun j => npd_D m o (mkNeutral (n_AA s) (n_nu s) (n_NV s) (n_T s) (Some (npd_P s)) (n_V s) (n_NV s)) j * n_NV s j)
             (fun j => n_NV s j * npd_D m o s j)) by (exact Hj || (intros i; unfold npd_D; cbn [n_T n_AA n_nu]; ring)).
  replace (npd_logP m s) with (npd_logP m (mkNeutral (n_AA s) (n_nu s) (n_NV s) (n_T s) (Some (npd_P s)) (n_V s) (n_NV s))) by reflexivity.
  rewrite E. ring.
Qed.
Lemma npd_viscosity_mass : exists m n c o s V F j, mesh_ok m n /\ positive_metric c /\ closed_low m = true /\ closed_high m = true /\
  (ystart m <= j < ystart m + Z.of_nat n)%Z /\ n_V s = Some V /\ npd_F m c o s = Some F /\
  (forall i, npd_P s i = npd_P s (ystart m)) /\ F j <> K_Div m c (fun j => 2 / 5 * n_AA s * npd_kappa m o s j) V j.
Proof.
  exists mesh2, 2%nat, unit_coords, plain_npd, (sliding 2), (values [1; 1; 0; 0]).
  destruct (npd_F mesh2 unit_coords plain_npd (sliding 2)) as [F|] eqn:HF; [|discriminate HF].
  exists F, 1%Z. destruct (sliding_force 2 F ltac:(lra) HF) as [E _].
  split; [exact mesh2_ok|]. split; [exact unit_positive|]. split; [reflexivity|]. split; [reflexivity|]. split; [cbn [mesh2 ystart]; lia|].
  split; [reflexivity|]. split; [reflexivity|]. split; [intros; reflexivity|]. rewrite E, unit_K_Div by lia.
  unfold npd_kappa, npd_D, dirichlet_o2, neumann, end_low, end_high, kappa_factor.
  cbn [sliding n_NV plain_npd npd_options equation_fix dneut n_AA n_nu n_N n_T n_P mesh2 firstY lastY periodicY ystart yend negb andb setting find]. zify_idx. cbn [Z.eqb Pos.eqb]. vals. lra.
Qed.
Lemma npd_heating_missing : exists m n c o s V F, mesh_ok m n /\ positive_metric c /\ closed_low m = true /\ closed_high m = true /\
  n_V s = Some V /\ npd_F m c o s = Some F /\ V (ystart m - 1)%Z = V (ystart m) /\ V (ystart m + Z.of_nat n)%Z = V (ystart m + Z.of_nat n - 1)%Z /\
  (forall j, (ystart m <= j < ystart m + Z.of_nat n)%Z -> npd_S m c o s j = 0) /\
  total (cell_volume (c_J c) (c_dy c)) (ystart m) n F = 0 /\
  total (cell_volume (c_J c) (c_dy c)) (ystart m) n (fun j => V j * F j + npd_E m c o s j) < 0.
Proof.
  exists mesh2, 2%nat, unit_coords, plain_npd, (sliding 2), (values [1; 1; 0; 0]).
  destruct (npd_F mesh2 unit_coords plain_npd (sliding 2)) as [F|] eqn:HF; [|discriminate HF].
  exists F. destruct (sliding_force 2 F ltac:(lra) HF) as [E1 E2].
  split; [exact mesh2_ok|]. split; [exact unit_positive|]. split; [reflexivity|]. split; [reflexivity|]. split; [reflexivity|]. split; [reflexivity|].
  split; [reflexivity|]. split; [reflexivity|].
  split; [intros j Hj; apply sliding_energy; [lra|cbn [mesh2 ystart] in Hj; lia]|].
  unfold total. cbn [zsum mesh2 ystart]. rewrite !unit_volume. change (1 + Z.of_nat 0)%Z with 1%Z. change (1 + Z.of_nat 1)%Z with 2%Z.
  change (mkMesh 1 2 4 true true false) with mesh2. rewrite (proj1 (sliding_energy 2 1%Z ltac:(lra) ltac:(lia))), (proj1 (sliding_energy 2 2%Z ltac:(lra) ltac:(lia))). rewrite E1, E2. vals. lra.
Qed.
Lemma switch_ignored : exists section, List.In ("thermal_conduction"%string, false) section /\ thermal_conduction (npd_options 1 section) = true.
Proof. exists [("thermal_conduction"%string, false)]. split; [left; reflexivity|reflexivity]. Qed.

(** ** SOL-KiT *)
Definition deuterons : particle := mkParticle "d+" (Some 1) 1.
Definition electrons_ : particle := mkParticle "e" (Some (-1)) 1.
Definition atoms : particle := mkParticle "d" None 2.
Lemma solkit_sum : collision_sum 1e20 [deuterons; electrons_; atoms] = 32.64.
Proof.
  cbn [collision_sum]. unfold cross_section, charged. cbn [pt_name pt_charge pt_density deuterons electrons_ atoms String.eqb Ascii.eqb Bool.eqb negb andb].
  replace (Reqb 1 0) with false by (symmetry; apply Reqb_false; lra).
  replace (Reqb (-1) 0) with false by (symmetry; apply Reqb_false; lra). cbn [negb andb]. lra.
Qed.

(** ** Heat conduction in a cold plasma *)
Lemma kappa_pos si (electrons : bool) coef Tnorm Nnorm Omega fixed_T fixed_N AA N T :
  0 < si_Mp si -> 0 < si_qe si -> 0 < si_e0 si -> 0 < coef -> 0 < Tnorm -> 0 < Nnorm -> 0 < Omega -> 0 < AA -> 0 < N -> 0 < T ->
  fixed_T <= 0 -> fixed_N <= 0 -> N * Nnorm <= 1e25 -> 1 <= T * Tnorm ->
  0 < kappa_par (kappa0 si electrons coef Tnorm Nnorm Omega) Nnorm Tnorm fixed_T fixed_N AA N T.
Proof.
  intros HM Hq He HC HT HN HO HA Hn Ht HfT HfN H1 H2.
  pose proof (kappa0_pos si electrons coef Tnorm Nnorm Omega HM Hq He HC HT HN HO) as K.
  unfold kappa_par, coefficient_value.
  replace (Rltb 0 fixed_T) with false by (symmetry; apply Rltb_false; lra). replace (Rltb 0 fixed_N) with false by (symmetry; apply Rltb_false; lra).
  pose proof (coulomb_log_hot Nnorm Tnorm N T (Rmult_lt_0_compat _ _ Hn HN) H1 H2) as L. unfold Rdiv.
  apply Rmult_lt_0_compat; [apply Rmult_lt_0_compat; [exact K|apply exp_pos]|]. apply Rinv_0_lt_compat, Rmult_lt_0_compat; [exact L|]. now apply sqrt_lt_R0.
Qed.
Lemma kappa_neg k0 Nnorm Tnorm AA N T : 0 < k0 -> 0 < AA -> 1e20 <= N * Nnorm -> 0 < T * Tnorm -> T * Tnorm <= 0.01 ->
  kappa_par k0 Nnorm Tnorm (-1) (-1) AA N T < 0.
Proof.
  intros HK HA H1 H2 H3. unfold kappa_par, coefficient_value.
  replace (Rltb 0 (-1)) with false by (symmetry; apply Rltb_false; lra).
  pose proof (coulomb_log_cold Nnorm Tnorm N T H1 H2 H3) as L. pose proof (sqrt_lt_R0 AA HA) as S.
  unfold Rdiv. assert (0 < k0 * Rpower T 2.5) by (apply Rmult_lt_0_compat; [exact HK|apply exp_pos]).
  assert (B : / (coulomb_log Nnorm Tnorm N T * sqrt AA) < 0) by (apply Rinv_lt_0_compat; nra). nra.
Qed.
Lemma conduction_downhill m n c si (electrons : bool) coef Tnorm Nnorm Omega AA (N T : Z -> R) :
  mesh_ok m n -> positive_metric c -> closed_low m = true -> closed_high m = true ->
  0 < si_Mp si -> 0 < si_qe si -> 0 < si_e0 si -> 0 < coef -> 0 < Tnorm -> 0 < Nnorm -> 0 < Omega -> 0 < AA ->
  (forall j, (ystart m <= j < ystart m + Z.of_nat n)%Z -> 0 < N j /\ N j * Nnorm <= 1e25 /\ 1 <= T j * Tnorm) ->
  exists G, (forall j, (ystart m <= j < ystart m + Z.of_nat n)%Z -> cell_volume (c_J c) (c_dy c) j
      * conduction_source m c (kappa0 si electrons coef Tnorm Nnorm Omega) Nnorm Tnorm (-1 / Tnorm) (-1 / Nnorm) AA false N T j = G (j + 1)%Z - G j) /\
    G (ystart m) = 0 /\ G (ystart m + Z.of_nat n)%Z = 0 /\
    forall j, (ystart m < j < ystart m + Z.of_nat n)%Z -> (T j <= T (j - 1)%Z -> G j <= 0) /\ (T (j - 1)%Z <= T j -> 0 <= G j).
Proof.
  intros M P CL CH HM Hq He HC HT HN HO HA HD.
  apply (conduction_down m n c M P CL CH (fun j => kappa_par (kappa0 si electrons coef Tnorm Nnorm Omega) Nnorm Tnorm (-1 / Tnorm) (-1 / Nnorm) AA (N j) (T j)) T).
  intros j Hj. destruct (HD j Hj) as (A & B & C). left. apply kappa_pos; try assumption.
  - apply (Rmult_lt_reg_r Tnorm); lra.
  - apply Rmult_le_reg_r with Tnorm; [exact HT|]. unfold Rdiv. rewrite Rmult_assoc, Rinv_l by lra. lra.
  - apply Rmult_le_reg_r with Nnorm; [exact HN|]. unfold Rdiv. rewrite Rmult_assoc, Rinv_l by lra. lra.
Qed.
Lemma cold_conduction : exists m n c k0 AA (N T : Z -> R), mesh_ok m n /\ positive_metric c /\ closed_low m = true /\ closed_high m = true /\ 0 < k0 /\ 0 < AA /\
  (forall j, (ystart m <= j < ystart m + Z.of_nat n)%Z -> 0 < N j /\ 0 < T j) /\ T (ystart m) < T (ystart m + 1)%Z /\
  conduction_source m c k0 1e20 1 (-1) (-1) AA false N T (ystart m) < 0 /\ 0 < conduction_source m c k0 1e20 1 (-1) (-1) AA false N T (ystart m + 1)%Z.
Proof.
  exists mesh2, 2%nat, unit_coords, 1, 1, (fun _ => 1), (values [0.005; 0.005; 0.01; 0.01]).
  split; [exact mesh2_ok|]. split; [exact unit_positive|]. split; [reflexivity|]. split; [reflexivity|]. split; [lra|]. split; [lra|].
  split. { intros j Hj. cbn [mesh2 ystart] in Hj. split; [lra|]. assert (C : j = 1%Z \/ j = 2%Z) by lia. destruct C as [-> | ->]; vals; lra. }
  cbn [mesh2 ystart]. change (1 + 1)%Z with 2%Z. split; [vals; lra|]. unfold conduction_source. change (mkMesh 1 2 4 true true false) with mesh2.
  rewrite !unit_K_false by lia. cbn [Z.eqb Pos.eqb]. vals.
  pose proof (kappa_neg 1 1e20 1 1 1 0.005 ltac:(lra) ltac:(lra) ltac:(lra) ltac:(lra) ltac:(lra)) as K1.
  pose proof (kappa_neg 1 1e20 1 1 1 0.01 ltac:(lra) ltac:(lra) ltac:(lra) ltac:(lra) ltac:(lra)) as K2.
  set (k1 := kappa_par _ _ _ _ _ _ _ 0.005) in *. set (k2 := kappa_par _ _ _ _ _ _ _ 0.01) in *. split; lra.
Qed.

(** ** Two point model *)
Lemma stpm_constant m n c o AA N T NV Theta : mesh_ok m n -> positive_metric c -> closed_low m = true -> closed_high m = true ->
  (forall j, st_Theta o j = Theta) -> Theta <> 0 ->
  let '(Sn, F, E) := stpm_transform m c o AA N T NV in
  let W := cell_volume (c_J c) (c_dy c) in
  total W (ystart m) n Sn = 0 /\ total W (ystart m) n F = 0 /\ total W (ystart m) n E = 0.
Proof.
  intros M P CL CH HT H0. pose proof (stpm_weighted m n c M P CL CH o AA N T NV ltac:(intros j; rewrite HT; exact H0)) as W.
  destruct (stpm_transform m c o AA N T NV) as [[Sn F] E]. cbv zeta in *.
  assert (G : forall r, total (fun j => st_Theta o j * cell_volume (c_J c) (c_dy c) j) (ystart m) n r = Theta * total (cell_volume (c_J c) (c_dy c)) (ystart m) n r).
  { intros r. unfold total. rewrite <- zsum_scal. apply zsum_ext. intros j _. rewrite HT. ring. }
  rewrite !G in W. destruct W as (W1 & W2 & W3). repeat split; apply (Rmult_eq_reg_l Theta); lra.
Qed.
Definition pitch : stpm := mkStpm (values [1; 1; 2; 2]) (fun _ => 3) (fun _ => 1) (fun _ => 1).
Lemma stpm_varying : exists m n c o AA N T NV, mesh_ok m n /\ positive_metric c /\ closed_low m = true /\ closed_high m = true /\
  (forall j, (ystart m <= j < ystart m + Z.of_nat n)%Z -> 0 < st_Theta o j) /\
  total (cell_volume (c_J c) (c_dy c)) (ystart m) n (fst (fst (stpm_transform m c o AA N T NV))) <> 0.
Proof.
  exists mesh2, 2%nat, unit_coords, pitch, 1, (values [0; 0; 1; 1]), (fun _ => 1), (fun _ => 0).
  split; [exact mesh2_ok|]. split; [exact unit_positive|]. split; [reflexivity|]. split; [reflexivity|]. split.
  { intros j Hj. cbn [mesh2 ystart] in Hj. assert (C : j = 1%Z \/ j = 2%Z) by lia. destruct C as [-> | ->]; cbn [pitch st_Theta]; vals; lra. }
  unfold stpm_transform. cbn [fst]. unfold total. cbn [zsum mesh2 ystart]. rewrite !unit_volume. change (1 + Z.of_nat 0)%Z with 1%Z. change (1 + Z.of_nat 1)%Z with 2%Z.
  change (mkMesh 1 2 4 true true false) with mesh2. rewrite !unit_K_false by lia. cbn [Z.eqb Pos.eqb pitch st_Theta st_D]. vals. lra.
Qed.
(** The documented equations for a constant pitch: coefficients D / Theta, nu / Theta, chi N / Theta. *)
Definition documented_stpm (m : mesh) (c : coords) (D nu chi Theta : R) (N T NV : Z -> R) (j : Z) : R * R * R :=
  (fst (Div_par_K_Grad_par_mod m c (fun _ => D / Theta) N false j), fst (Div_par_K_Grad_par_mod m c (fun _ => nu / Theta) NV false j),
   fst (Div_par_K_Grad_par_mod m c (fun j => chi / Theta * N j) T false j)).
Definition constant_stpm (D nu chi Theta : R) : stpm := mkStpm (fun _ => Theta) (fun _ => chi) (fun _ => D) (fun _ => nu).
Lemma K_scale_false m n c s K K' f j : mesh_ok m n -> positive_metric c -> (ystart m <= j < ystart m + Z.of_nat n)%Z -> (forall j, K' j = s * K j) ->
  fst (Div_par_K_Grad_par_mod m c K' f false j) = s * fst (Div_par_K_Grad_par_mod m c K f false j).
Proof.
  intros M P Hj E. destruct (K_cell m n c K f false j M P Hj) as [A _]. destruct (K_cell m n c K' f false j M P Hj) as [B _].
  pose proof (volume_pos c P j) as W. apply (Rmult_eq_reg_l (cell_volume (c_J c) (c_dy c) j)); [|lra]. rewrite B.
  replace (cell_volume (c_J c) (c_dy c) j * (s * fst (Div_par_K_Grad_par_mod m c K f false j)))
    with (s * (cell_volume (c_J c) (c_dy c) j * fst (Div_par_K_Grad_par_mod m c K f false j))) by ring. rewrite A.
  unfold K_face, conductive_flux, mean. destruct (closed_face m false (j + 1)), (closed_face m false j); rewrite ?E; unfold Rdiv; ring.
Qed.
(** What is computed: 1 / Theta times the documented terms, and for the momentum also times the mass. *)
Lemma stpm_scaled m n c D nu chi Theta AA N T NV j : mesh_ok m n -> positive_metric c -> (ystart m <= j < ystart m + Z.of_nat n)%Z -> Theta <> 0 ->
  let '(Sn, F, E) := stpm_transform m c (constant_stpm D nu chi Theta) AA N T NV in
  let '(Sd, Fd, Ed) := documented_stpm m c D nu chi Theta N T NV j in
  Sn j = Sd / Theta /\ F j = AA * Fd / Theta /\ E j = Ed / Theta.
Proof.
  intros M P Hj H0. unfold stpm_transform, documented_stpm. cbn [constant_stpm st_Theta st_D st_chi st_nu].
  rewrite (K_scale_false m n c AA (fun _ => nu / Theta) (fun _ => AA * (nu / Theta))) by (assumption || reflexivity).
  repeat split; field; exact H0.
Qed.
Lemma stpm_documented_not : exists m n c D nu chi Theta AA N T NV j, mesh_ok m n /\ positive_metric c /\ (ystart m <= j < ystart m + Z.of_nat n)%Z /\ 0 < Theta /\
  0 < D /\ AA = 1 /\
  fst (fst (stpm_transform m c (constant_stpm D nu chi Theta) AA N T NV)) j <> fst (fst (documented_stpm m c D nu chi Theta N T NV j)).
Proof.
  exists mesh2, 2%nat, unit_coords, 1, 1, 3, 0.001, 1, (values [0; 0; 1; 1]), (fun _ => 1), (fun _ => 0), 1%Z.
  split; [exact mesh2_ok|]. split; [exact unit_positive|]. split; [cbn [mesh2 ystart]; lia|]. split; [lra|]. split; [lra|]. split; [reflexivity|].
  unfold stpm_transform, documented_stpm. cbn [fst constant_stpm st_Theta st_D]. rewrite !unit_K_false by lia. cbn [Z.eqb Pos.eqb]. vals. lra.
Qed.
Lemma stpm_mass_not : exists m n c D nu chi Theta AA N T NV j, mesh_ok m n /\ positive_metric c /\ (ystart m <= j < ystart m + Z.of_nat n)%Z /\ Theta = 1 /\
  0 < nu /\ AA = 2 /\
  snd (fst (stpm_transform m c (constant_stpm D nu chi Theta) AA N T NV)) j <> snd (fst (documented_stpm m c D nu chi Theta N T NV j)).
Proof.
  exists mesh2, 2%nat, unit_coords, 1, 1, 3, 1, 2, (fun _ => 1), (fun _ => 1), (values [0; 0; 1; 1]), 1%Z.
  split; [exact mesh2_ok|]. split; [exact unit_positive|]. split; [cbn [mesh2 ystart]; lia|]. split; [lra|]. split; [lra|]. split; [reflexivity|].
  unfold stpm_transform, documented_stpm. cbn [fst snd constant_stpm st_Theta st_nu]. rewrite !unit_K_false by lia. cbn [Z.eqb Pos.eqb]. vals. lra.
Qed.
(** Particles diffuse without their energy. *)
Lemma stpm_no_heat m n c o AA N T NV T0 j : mesh_ok m n -> positive_metric c -> (ystart m <= j < ystart m + Z.of_nat n)%Z -> (forall j, T j = T0) ->
  snd (stpm_transform m c o AA N T NV) j = 0.
Proof.
  intros M P Hj HT. unfold stpm_transform. cbn [snd].
  assert (E : fst (Div_par_K_Grad_par_mod m c (fun j => st_chi o j / st_Theta o j * N j) T false j) = 0).
  { destruct (K_cell m n c (fun j => st_chi o j / st_Theta o j * N j) T false j M P Hj) as [A _].
    pose proof (volume_pos c P j) as W. apply (Rmult_eq_reg_l (cell_volume (c_J c) (c_dy c) j)); [|lra]. rewrite A.
    unfold K_face, conductive_flux, jump. rewrite !HT. replace (T0 - T0) with 0 by ring. destruct (closed_face m false (j + 1)), (closed_face m false j); unfold Rdiv; ring. }
  rewrite E. ring.
Qed.
Lemma stpm_isothermal_not : exists m n c o AA N T NV j, mesh_ok m n /\ positive_metric c /\ (ystart m <= j < ystart m + Z.of_nat n)%Z /\
  (forall j, st_Theta o j = 1) /\ (forall j, T j = 1) /\ (forall j, 0 < N j) /\
  snd (stpm_transform m c o AA N T NV) j < 3 / 2 * T j * fst (fst (stpm_transform m c o AA N T NV)) j.
Proof.
  exists mesh2, 2%nat, unit_coords, (constant_stpm 1 1 3 1), 2, (fun j => if Z.leb j 1 then 1 else 2), (fun _ => 1), (fun _ => 0), 1%Z.
  split; [exact mesh2_ok|]. split; [exact unit_positive|]. split; [cbn [mesh2 ystart]; lia|]. split; [reflexivity|]. split; [reflexivity|].
  split; [intros j; destruct (Z.leb j 1); lra|].
  rewrite (stpm_no_heat mesh2 2 unit_coords _ _ _ _ _ 1 1 mesh2_ok unit_positive) by (reflexivity || (cbn [mesh2 ystart]; lia)).
  unfold stpm_transform. cbn [fst constant_stpm st_Theta st_D]. rewrite !unit_K_false by lia. cbn [Z.eqb Pos.eqb Z.leb Z.compare Pos.compare Pos.compare_cont]. lra.
Qed.
