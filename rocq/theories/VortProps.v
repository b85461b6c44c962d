(** C96: the vorticity equation — potential, advection, currents, dissipation and sheath terms. *)

From Coq Require Import List Bool ZArith Reals Lra Lia Permutation.
From Verif Require Import StateMonad LimitersModel ParallelModel ParallelSpec DiffusionModel ExBModel DriftModel DriftSpec DriftProofs VortModel VortSpec VortProofs VortLaws VortWit.
Import ListNotations.
Open Scope R_scope.

(** The potential satisfies average / B^2 lap(phi + Pi) = Vort, with and without the split, if the solvers invert their operators and both agree
    on axisymmetric fields. *)
Theorem C96_potential : forall lap lap2 dc solve solve2 average Bsq split Vort phi_plus_pi Pi i, linear lap -> inverts solve lap -> inverts solve2 lap2 ->
  average <> 0 -> (forall k, Bsq k <> 0) -> (forall f, same (dc f) f -> same (lap2 f) (fun k => average / Bsq k * lap f k)) ->
  (forall rhs x0, same (dc (solve2 rhs x0)) (solve2 rhs x0)) ->
  average / Bsq i * lap (fun k => potential split solve solve2 dc average Bsq Vort phi_plus_pi Pi k + Pi k) i = Vort i.
Proof.
  exact (fun lap lap2 dc solve solve2 average Bsq split Vort pp Pi i L S1 S2 A0 B0 H H2 =>
    match split return average / Bsq i * lap (fun k => potential split solve solve2 dc average Bsq Vort pp Pi k + Pi k) i = Vort i with
    | true => potential_split lap lap2 dc solve solve2 L S1 S2 average Bsq A0 B0 Vort pp Pi i H H2
    | false => potential_unsplit lap dc solve solve2 L S1 average Bsq A0 B0 Vort pp Pi i
    end).
Qed.
Print Assumptions C96_potential.
(** Two cells in z (even and odd indices) at every x: dc averages over the pair, lap f = - 2 f. *)
Definition pair_dc (f : field) : field := fun i => (f (2 * (i / 2))%Z + f (2 * (i / 2) + 1)%Z) / 2.
Example C96_potential_case : forall i, 4 / 2 * (-2 * (potential true (fun r _ k => - (r k / 2)) (fun r _ k => pair_dc (fun j => - (r j / 4)) k) pair_dc 4 (fun _ => 2) (fun j => IZR j) (fun _ => 7) (fun _ => 5) i + 5)) = IZR i.
Proof.
  intros i. unfold potential, minus, plus, pair_dc. cbv zeta.
  replace (2 * (i / 2) / 2)%Z with (i / 2)%Z by (rewrite Z.mul_comm, Z.div_mul by lia; reflexivity).
  replace ((2 * (i / 2) + 1) / 2)%Z with (i / 2)%Z by (rewrite Z.add_comm, Z.mul_comm, Z.div_add by lia; reflexivity). field.
Qed.

(** Guard cells beyond the first take its value; nothing else is changed. *)
Theorem C96_outer_cells : forall x phi i, (1 <= xstart x)%Z -> (xstart x <= xend x)%Z -> (xend x + 2 <= LocalNx x)%Z ->
  outer_cells x phi i = if (firstX x && Z.leb 0 i && Z.ltb i (xstart x - 1))%bool then phi (xstart x - 1)%Z
    else if (lastX x && Z.leb (xend x + 2) i && Z.ltb i (LocalNx x))%bool then phi (xend x + 1)%Z else phi i.
Proof. exact outer_law. Qed.
Print Assumptions C96_outer_cells.
Example C96_outer_case : map (outer_cells (mkXmesh 3 5 9 true true) (fun i => IZR (i * i))) [0; 1; 2; 3; 6; 7; 8]%Z = [4; 4; 4; 9; 36; 36; 36].
Proof. reflexivity. Qed.

(** The comment at src/vorticity.cxx 644: without ion pressure the full form of the advection is the simplified one, if advection scales with what it
    advects and Vort is average * Delp2(phi) / B^2, also in the boundary cells. *)
Theorem C96_reduction : forall op average Bsq Vort phi Pi, (forall n m f g, same n m -> same f g -> same (adv op n f) (adv op m g)) ->
  (forall n f, same (adv op (fun k => 0.5 * n k) f) (fun i => 0.5 * adv op n f i)) ->
  (forall f g, same g (fun _ => 0) -> same (bracket op f g) (fun _ => 0)) -> linear (free_o2 op) -> (forall a, linear (div_a_grad op a)) ->
  same Pi (fun _ => 0) -> same (free_o2 op (fun i => average * delp2 op phi i / Bsq i)) Vort ->
  same (exb_full op average Bsq Vort phi Pi) (exb_simplified op Vort phi).
Proof. exact reduction. Qed.
Print Assumptions C96_reduction.
Example C96_reduction_case : same (exb_full ring_op 2 (fun _ => 4) (fun i => 2 * delp2 ring_op (fun j => IZR j * IZR j) i / 4) (fun j => IZR j * IZR j) (fun _ => 0))
  (exb_simplified ring_op (fun i => 2 * delp2 ring_op (fun j => IZR j * IZR j) i / 4) (fun j => IZR j * IZR j)).
Proof.
  apply C96_reduction.
  - exact ring_adv.
  - exact ring_adv_half.
  - intros f g H i. cbn [ring_op bracket]. rewrite !H. ring.
  - exact id_linear.
  - exact ring_dag.
  - intros i. reflexivity.
  - intros i. reflexivity.
Qed.
Example C96_warm_case : exb_full ring_op 2 (fun _ => 1) (fun _ => 0) (fun i => IZR i) (fun i => IZR i) 0%Z <> exb_simplified ring_op (fun _ => 0) (fun i => IZR i) 0%Z.
Proof. exact warm_differs. Qed.

(** The advection does scale so: Div_n_bxGrad_f_B_XPPM in the X-Z plane, with each limiter, on any number of processors. *)
Theorem C96_scales : forall edges c procs N nz J dx dz n f b i k, List.In edges [upwind_edges; fromm_edges; minmod_edges; mc_edges] -> 0 <= c ->
  XPPM_XZ edges procs N nz J dx dz (fun i k => c * n i k) f b i k = c * XPPM_XZ edges procs N nz J dx dz n f b i k.
Proof.
  exact (fun edges c procs N nz J dx dz n f b i k H Hc => advection_scale edges (limiters_homogeneous edges H) c Hc procs N nz J dx dz n f b i k).
Qed.
Print Assumptions C96_scales.
Example C96_scales_case : List.In mc_edges [upwind_edges; fromm_edges; minmod_edges; mc_edges] /\ mc_edges 1 2 4 = (1.25, 2.75).
Proof. split; [cbn [List.In]; auto|exact mc_value]. Qed.

(** finally succeeds exactly if each charged species with momentum has a density and a mass, and a sound speed is there if it is needed. *)
Theorem C96_defined : forall o op Bxy dz Vort phi Pi start J fl w l, (exists r, vort_finally o op Bxy dz Vort phi Pi start J fl w l = Some r)
  <-> List.Forall mobile_complete l /\ ((vort_dissipation o = true \/ phi_dissipation o = true) -> w <> None).
Proof. exact finally_defined. Qed.
Print Assumptions C96_defined.
Example C96_defined_case : (exists r, vort_finally all_on ring_op (fun _ => 1) (fun _ => 2) (fun i => IZR i) (fun i => - IZR i) (fun _ => 1) (fun _ => 0) (Some (fun _ => 1)) None (Some (fun _ => 3)) [ion; electrons] = Some r)
  /\ vort_finally all_on ring_op (fun _ => 1) (fun _ => 2) (fun i => IZR i) (fun i => - IZR i) (fun _ => 1) (fun _ => 0) (Some (fun _ => 1)) None None [ion; electrons] = None.
Proof. exact (conj all_on_defined all_on_throws). Qed.

(** Parallel currents add the divergence of the total current, in any order of the species. *)
Theorem C96_currents : forall op Bxy l start r, linear (div_par op) -> currents op Bxy None l (Some start) = Some r ->
  same r (fun i => start i + div_par op (total_current l) i).
Proof. exact currents_total. Qed.
Print Assumptions C96_currents.
Example C96_currents_case : linear (div_par ring_op) /\ (exists r, currents ring_op (fun _ => 1) None [ion; electrons] (Some (fun _ => 0)) = Some r)
  /\ total_current [ion; electrons] 3%Z = 3 - 15.
Proof. exact (conj ring_par (conj pair_currents pair_total)). Qed.
Theorem C96_currents_order : forall op Bxy fl l l' start r, Permutation l l' -> currents op Bxy fl l (Some start) = Some r ->
  exists r', currents op Bxy fl l' (Some start) = Some r' /\ same r r'.
Proof. exact currents_order. Qed.
Print Assumptions C96_currents_order.
Example C96_currents_order_case : Permutation [ion; electrons] [electrons; ion] /\ exists r, currents ring_op (fun _ => 1) None [ion; electrons] (Some (fun _ => 0)) = Some r.
Proof. exact (conj (perm_swap electrons ion []) pair_currents). Qed.

(** In a domain which nothing enters or leaves the total of ddt(Vort) is what it was before finally plus that of DivJextra. *)
Theorem C96_conserves : forall Int o op Bxy dz Vort phi Pi start J fl w l r, integral Int -> sealed Int op ->
  (forall f g, fl <> None -> Int (fun i => Bxy i * bracket op (fun k => f k / Bxy k) g i) = 0) ->
  (0 < hyper_z o -> Int (fun i => dz i ^ 4 * d4dz4 op Vort i) = 0) ->
  vort_finally o op Bxy dz Vort phi Pi start J fl w l = Some r -> Int r = Int start + Int (fvalue J).
Proof. exact (fun Int o op Bxy dz Vort phi Pi start J fl w l r HI => finally_integral Int HI o op Bxy dz Vort phi Pi start J fl w l r). Qed.
Print Assumptions C96_conserves.
Example C96_conserves_case : integral ring_sum /\ sealed ring_sum ring_op /\ (exists r,
  vort_finally all_on ring_op (fun _ => 1) (fun _ => 2) (fun i => IZR i) (fun i => - IZR i) (fun _ => 1) (fun _ => 0) (Some (fun _ => 1)) None (Some (fun _ => 3)) [ion; electrons] = Some r /\ ring_sum r = 4).
Proof.
  split; [exact ring_integral|]. split; [exact ring_sealed|]. destruct all_on_defined as (r & E). exists r. split; [exact E|]. exact (all_on_integral r E).
Qed.

(** The term with hyper_z keeps the sum over z and does not increase the sum of Vort^2. *)
Theorem C96_hyper_z : forall n d o op Bxy dz Vort phi Pi start J fl w l h r r', (0 < n)%nat -> d <> 0 -> (forall k, dz k = d) ->
  (forall f, same (d4dz4 op f) (fun k => D4DZ4_Index (Z.of_nat n) f k / d ^ 4)) -> 0 < h ->
  vort_finally (with_hyper h o) op Bxy dz Vort phi Pi start J fl w l = Some r ->
  vort_finally (with_hyper 0 o) op Bxy dz Vort phi Pi start J fl w l = Some r' ->
  zsum 0 n (fun k => r k - r' k) = 0 /\ zsum 0 n (fun k => Vort k * (r k - r' k)) <= 0.
Proof. exact hyper_law. Qed.
Print Assumptions C96_hyper_z.
Example C96_hyper_case : (forall f, same (d4dz4 ring_op f) (fun k => D4DZ4_Index (Z.of_nat 4) f k / 2 ^ 4))
  /\ exists r r', vort_finally (with_hyper 1 all_on) ring_op (fun _ => 1) (fun _ => 2) (fun i => IZR i) (fun i => - IZR i) (fun _ => 1) (fun _ => 0) (Some (fun _ => 1)) None (Some (fun _ => 3)) [ion; electrons] = Some r
  /\ vort_finally (with_hyper 0 all_on) ring_op (fun _ => 1) (fun _ => 2) (fun i => IZR i) (fun i => - IZR i) (fun _ => 1) (fun _ => 0) (Some (fun _ => 1)) None (Some (fun _ => 3)) [ion; electrons] = Some r'
  /\ r 0%Z - r' 0%Z = 12.
Proof. exact (conj ring_d4 hyper_pair). Qed.

(** vort_dissipation does not increase enstrophy, phi_dissipation does not increase the energy of the flow (its rate is minus the integral of
    phi ddt(Vort)), if the upwind flux FV::Div_par(f, 0, w) dissipates f^2. *)
Theorem C96_vort_dissipation : forall Int o op Bxy dz Vort phi Pi start J fl w l r r', integral Int ->
  (forall f, 0 <= Int (fun i => f i * fv_div_par op f (fvalue w) i)) ->
  vort_finally (with_vort true o) op Bxy dz Vort phi Pi start J fl w l = Some r ->
  vort_finally (with_vort false o) op Bxy dz Vort phi Pi start J fl w l = Some r' -> Int (fun i => Vort i * (r i - r' i)) <= 0.
Proof. exact vort_dissipates. Qed.
Print Assumptions C96_vort_dissipation.
Theorem C96_phi_dissipation : forall Int o op Bxy dz Vort phi Pi start J fl w l r r', integral Int ->
  (forall f, 0 <= Int (fun i => f i * fv_div_par op f (fvalue w) i)) ->
  vort_finally (with_phi true o) op Bxy dz Vort phi Pi start J fl w l = Some r ->
  vort_finally (with_phi false o) op Bxy dz Vort phi Pi start J fl w l = Some r' -> - Int (fun i => phi i * (r i - r' i)) <= 0.
Proof. exact phi_dissipates. Qed.
Print Assumptions C96_phi_dissipation.
Example C96_dissipation_case : (forall f, 0 <= ring_sum (fun i => f i * fv_div_par ring_op f (fvalue (Some (fun _ => 3))) i))
  /\ exists r r', vort_finally (with_phi true all_on) ring_op (fun _ => 1) (fun _ => 2) (fun i => IZR i) (fun i => - IZR i) (fun _ => 1) (fun _ => 0) (Some (fun _ => 1)) None (Some (fun _ => 3)) [ion; electrons] = Some r
  /\ vort_finally (with_phi false all_on) ring_op (fun _ => 1) (fun _ => 2) (fun i => IZR i) (fun i => - IZR i) (fun _ => 1) (fun _ => 0) (Some (fun _ => 1)) None (Some (fun _ => 3)) [ion; electrons] = Some r'
  /\ r 0%Z - r' 0%Z = 12.
Proof. exact (conj ring_dissipates phi_pair). Qed.

(** Dissipation at sheaths: each target takes the mean of the potential on both sides of it, if negative, from the last cell. *)
Theorem C96_sheath_partial : forall m lower upper phi j, (ystart m < yend m)%Z -> sheath_line m lower upper phi j
  = (if Z.eq_dec j (ystart m) then if lower then Rmin (mean (phi (ystart m)) (phi (ystart m - 1)%Z)) 0 else 0 else 0)
    + (if Z.eq_dec j (yend m) then if upper then Rmin (mean (phi (yend m)) (phi (yend m + 1)%Z)) 0 else 0 else 0).
Proof. exact sheath_law. Qed.
Print Assumptions C96_sheath_partial.
Example C96_sheath_case : (ystart (mkMesh 2 5 8 true true false) < yend (mkMesh 2 5 8 true true false))%Z
  /\ sheath_line (mkMesh 2 5 8 true true false) true true (fun i => 1 - IZR i) 2%Z = -0.5.
Proof. exact sheath_example. Qed.
(** With one cell between two targets the second assignment overwrites the first: dissipation at the lower target is lost. *)
Theorem C96_sheath_refuted : exists m phi, (ystart m = yend m)%Z /\ Rmin (mean (phi (ystart m)) (phi (ystart m - 1)%Z)) 0 < 0
  /\ Rmin (mean (phi (yend m)) (phi (yend m + 1)%Z)) 0 = 0 /\ sheath_line m true true phi (ystart m) = 0.
Proof. exact single_cell. Qed.
Print Assumptions C96_sheath_refuted.
(** It takes energy from the flow if the potential has the same sign in the last cell and at the target. *)
Theorem C96_sheath_energy_partial : forall phi_last phi_guard, 0 <= phi_last * mean phi_last phi_guard -> - (phi_last * sheath_dissipation phi_last phi_guard) <= 0.
Proof. exact sheath_energy. Qed.
Print Assumptions C96_sheath_energy_partial.
Example C96_sheath_energy_case : 0 <= -1 * mean (-1) (-3) /\ - (-1 * sheath_dissipation (-1) (-3)) = -2.
Proof. exact sheath_energy_example. Qed.
(** If not, this dissipation drives the flow. *)
Theorem C96_sheath_energy_refuted : exists phi_last phi_guard, mean phi_last phi_guard < 0 /\ - (phi_last * sheath_dissipation phi_last phi_guard) > 0.
Proof. exact sheath_heats. Qed.
Print Assumptions C96_sheath_energy_refuted.

(** The relaxing potential without the Boussinesq approximation relaxes to the vorticity of the total mass density, with cold ions. *)
Theorem C96_relax_partial : forall op l1 Bsq phi Vort l r, (forall f, linear (fun a => div_a_grad op a f)) -> relax_full op false l1 Bsq phi Vort l = Some r ->
  same r (fun i => l1 * (div_a_grad op (fun k => total_mass l k / Bsq k) phi i - Vort i)).
Proof. exact relax_full_cold. Qed.
Print Assumptions C96_relax_partial.
Example C96_relax_case : (forall f, linear (fun a => div_a_grad ring_op a f))
  /\ exists r, relax_full ring_op false 1 (fun _ => 1) (fun i => IZR i) (fun _ => 0) [ion; electrons] = Some r /\ r 0%Z = (2 + 1) - (2 + 1) * (1 + 3) * -3.
Proof. exact (conj ring_dag1 relax_full_case). Qed.
(** With ion pressure it does not: the charge is missing, so that the pressure of doubly charged ions counts twice. *)
Theorem C96_relax_refuted : exists l phi Vort r, relax_full (mkOperators (fun _ _ => zero) (fun _ _ => zero) line_div (fun _ => zero) (fun f => f) (fun f => f) (fun f _ => f) (fun f => f)) true 1 (fun _ => 1) phi Vort l = Some r
  /\ same r (fun _ => 0) /\ (forall i, sum_over l (fun s => line_div (charged_mass s) phi i + line_div (fun _ => value (AA s) / charge_number s) (fvalue (pressure s)) i) = Vort i / 2 /\ Vort i <> 0).
Proof. exact relax_full_refuted. Qed.
Print Assumptions C96_relax_refuted.
