(** Property theorems for boundaries without flow, neutral boundaries and recycling. *)

From Coq Require Import List Bool ZArith Reals String Lra Lia.
From Verif Require Import StateMonad ParallelModel ParallelSpec ParallelProofs ParallelHeating LimitersModel LimitersProofs WallsModel WallsSpec WallsProofs WallsLaws.
Import ListNotations.
Open Scope R_scope.

(** ** C41 *)

(** Lower end: the flow at the face vanishes and scalars have no gradient; the cells of the domain are left alone. *)
Theorem C41_lower_end : forall m n upper f, mesh_ok m n -> closed_low m = true ->
  face_value (noflow_flow m true upper f) (ystart m) = 0 /\
  noflow_scalar m true upper f (ystart m - 1) = f (ystart m) /\
  forall j, (ystart m <= j <= yend m)%Z -> noflow_scalar m true upper f j = f j /\ noflow_flow m true upper f j = f j.
Proof.
  intros m n upper f M C. split; [exact (noflow_face_low m n M upper f C)|]. split; [exact (proj1 (noflow_low m n M upper f C))|].
  exact (noflow_inside m n M true upper f).
Qed.
Print Assumptions C41_lower_end.
(** Upper end. *)
Theorem C41_upper_end : forall m n lower f, mesh_ok m n -> closed_high m = true ->
  face_value (noflow_flow m lower true f) (yend m + 1) = 0 /\
  noflow_scalar m lower true f (yend m + 1) = f (yend m) /\
  forall j, (ystart m <= j <= yend m)%Z -> noflow_scalar m lower true f j = f j /\ noflow_flow m lower true f j = f j.
Proof.
  intros m n lower f M C. split; [exact (noflow_face_high m n M lower f C)|]. split; [exact (proj1 (noflow_high m n M lower f C))|].
  exact (noflow_inside m n M lower true f).
Qed.
Print Assumptions C41_upper_end.
Example C41_case : mesh_ok mesh2 2 /\ closed_low mesh2 = true /\ closed_high mesh2 = true.
Proof. split; [exact mesh2_ok|split; reflexivity]. Qed.

(** Whatever the limiter and the wave speeds, the fluxes of particles (or energy) and of momentum through an end with the boundary
    vanish when the boundary flux is fixed, ... *)
Theorem C41_no_flux_through_the_end : forall edges m n f v ws lower upper, mesh_ok m n ->
  (lower = true -> closed_low m = true ->
     mod_line edges m true (noflow_scalar m lower upper f) (noflow_flow m lower upper v) ws n (ystart m) = 0 /\
     fvv_line edges m true (noflow_scalar m lower upper f) (noflow_flow m lower upper v) ws n (ystart m) = 0) /\
  (upper = true -> closed_high m = true ->
     mod_line edges m true (noflow_scalar m lower upper f) (noflow_flow m lower upper v) ws n (yend m + 1) = 0 /\
     fvv_line edges m true (noflow_scalar m lower upper f) (noflow_flow m lower upper v) ws n (yend m + 1) = 0).
Proof. exact noflow_one_end. Qed.
Print Assumptions C41_no_flux_through_the_end.
(** ... so with both ends closed the operators of the code conserve the content of the line. *)
Theorem C41_line_conserved : forall edges m c n f v ws, mesh_ok m n -> positive_metric c -> closed_low m = true -> closed_high m = true ->
  (exists r w, Div_par_mod edges m c (noflow_scalar m true true f) (noflow_flow m true true v) ws true = Some (r, w) /\ integral c (ystart m) n r = 0) /\
  (exists r, Div_par_fvv edges m c (noflow_scalar m true true f) (noflow_flow m true true v) ws true = Some r /\ integral c (ystart m) n r = 0).
Proof. exact noflow_conserves. Qed.
Print Assumptions C41_line_conserved.
Example C41_line_case : positive_metric unit_coords /\ noflow_flow mesh2 true true (values [5; 1; 2; 5]) 0 = -1.
Proof. split; [exact unit_positive|]. unfold noflow_flow, upd, at_lower, at_upper. cbn [mesh2 firstY lastY periodicY ystart yend negb andb]. zify_idx. cbn [Z.eqb Pos.eqb]. zify_idx. vals. lra. Qed.
(** The default of fix_momentum_boundary_flux is false (src/evolve_momentum.cxx 58-60), and then momentum is lost. *)
Theorem C41_momentum_by_default_refuted : exists edges m c n f v r, mesh_ok m n /\ positive_metric c /\ closed_low m = true /\ closed_high m = true /\
  Div_par_fvv edges m c (noflow_scalar m true true f) (noflow_flow m true true v) (fun _ => 0) false = Some r /\ integral c (ystart m) n r <> 0.
Proof.
  destruct noflow_momentum_leaks as (r & E & H). exists upwind_edges, mesh1, unit_coords, 1%nat, (fun _ => 1), (fun _ => 1), r.
  split; [exact mesh1_ok|]. split; [exact unit_positive|]. split; [reflexivity|]. split; [reflexivity|]. split; [exact E|]. rewrite H. lra.
Qed.
Print Assumptions C41_momentum_by_default_refuted.

(** ** C42 *)

(** The energy of the neutrals on a line falls by the power arriving at the walls less what returns; only the last cells are cooled;
    density, pressure, temperature, velocity and momentum in the domain are left alone; the diagnostic is what was added. *)
Theorem C42_targets : forall w lower upper Tnorm A m c n s, positive_cells c -> mesh_ok m n -> 0 < A -> (forall j, 0 <= Tn s j) ->
  let s' := neutral_targets w lower upper Tnorm A m c s in
  total c (ystart m) n (nE s') = total c (ystart m) n (nE s)
    - (if (lower && closed_low m)%bool then full_area c (ystart m) (ystart m - 1) *
         heat_to_wall A (energy_refl_factor w) (fast_refl_fraction w) (3 / Tnorm) (Nn s (ystart m)) (Tn s (ystart m)) else 0)
    - (if (upper && closed_high m)%bool then full_area c (yend m) (yend m + 1) *
         heat_to_wall A (energy_refl_factor w) (fast_refl_fraction w) (3 / Tnorm) (Nn s (yend m)) (Tn s (yend m)) else 0) /\
  (forall j, (ystart m <= j <= yend m)%Z -> Nn s' j = Nn s j /\ Pn s' j = Pn s j /\ Tn s' j = Tn s j /\ Vn s' j = Vn s j /\ NVn s' j = NVn s j) /\
  (forall j, j <> ystart m -> j <> yend m -> nE s' j = nE s j) /\
  (forall j, target_E s' j = nE s' j - nE s j).
Proof. exact neutral_targets_energy. Qed.
Print Assumptions C42_targets.
Example C42_targets_case : positive_cells unit_coords /\ 0 < 2 /\ (forall j : Z, 0 <= (fun _ => 1) j).
Proof. split; [exact unit_cells|]. split; [lra|]. intros _. cbv beta. lra. Qed.
(** The guard cells are those of the boundary without flow, so the theorems of C41 apply: no neutrals pass. *)
Theorem C42_targets_pass_no_neutrals : forall w lower upper Tnorm A m c s,
  let s' := neutral_targets w lower upper Tnorm A m c s in
  (ystart m <= yend m)%Z ->
  (forall j, Nn s' j = noflow_scalar m lower upper (Nn s) j) /\ (forall j, Vn s' j = noflow_flow m lower upper (Vn s) j) /\ (forall j, NVn s' j = noflow_flow m lower upper (NVn s) j).
Proof. exact neutral_targets_are_noflow. Qed.
Print Assumptions C42_targets_pass_no_neutrals.
(** Walls on the flux surfaces: only the last cell is cooled, by the same law with the values at the face. *)
Theorem C42_walls : forall w Tnorm A c N T i g E, 0 < x_J c i -> 0 < x_dx c i -> 0 < x_dy c i -> 0 < x_dz c i -> 0 <= (T g + T i) / 2 -> 0 < A ->
  let E' := neutral_wall w Tnorm A c N T i g E in
  (forall j, j <> i -> E' j = E j) /\
  x_volume c i * (E' i - E i) = - (radial_area c i g * heat_to_wall A (energy_refl_factor w) (fast_refl_fraction w) (3 / Tnorm) ((N g + N i) / 2) ((T g + T i) / 2)).
Proof. exact neutral_wall_effect. Qed.
Print Assumptions C42_walls.
Example C42_walls_case : radial_area unit_x 1 2 = 1 /\ 0 <= (1 + 1) / 2. Proof. split; [exact (unit_radial 1 2)|lra]. Qed.
(** The area used there is J sqrt(g^11) dy dz, with g^11 = (R Bp)^2, in the usual field-aligned coordinates. *)
Theorem C42_wall_area : forall c i g Bp Rm h, 0 < Bp -> 0 < Rm -> 0 < h ->
  x_dy c g = x_dy c i -> x_dz c g = x_dz c i ->
  (forall j, j = i \/ j = g -> x_g22up c j = 1 / (h * h) /\ x_g33 c j = Rm * Rm) -> x_J c i = h / Bp ->
  radial_area c i g = x_J c i * sqrt ((Rm * Bp) * (Rm * Bp)) * x_dy c i * x_dz c i.
Proof. exact radial_area_is_face. Qed.
Print Assumptions C42_wall_area.
Example C42_wall_area_case : radial_area (mkXcoords (fun _ => 6) (fun _ => 1) (fun _ => 1) (fun _ => 1) (fun _ => 1 / (3 * 3)) (fun _ => 2 * 2)) 0 1 = 6.
Proof.
  rewrite (radial_area_is_face _ 0 1 (1/2) 2 3); cbn [x_dy x_dz x_J x_g22up x_g33]; try lra; [|intros j _; split; reflexivity].
  replace (2 * (1 / 2) * (2 * (1 / 2))) with 1 by field. rewrite sqrt_1. ring.
Qed.
(** When the wall takes heat: exactly when the particles re-emitted cold carry less than is not reflected, ... *)
Theorem C42_wall_takes_heat_iff : forall A kept fast cold n T, 0 < T -> 0 < A -> 0 < n ->
  (0 <= heat_to_wall A kept fast cold n T <-> (1 - fast) * cold <= 2 * T * (1 - fast * kept)).
Proof. exact heat_sign. Qed.
Print Assumptions C42_wall_takes_heat_iff.
(** ... always when the mean incident energy 2 T exceeds that of re-emission. *)
Theorem C42_wall_takes_heat : forall A kept fast cold n T, 0 <= T -> 0 < A -> 0 <= n -> 0 <= kept <= 1 -> 0 <= fast <= 1 -> cold <= 2 * T ->
  0 <= heat_to_wall A kept fast cold n T.
Proof. exact heat_nonneg. Qed.
Print Assumptions C42_wall_takes_heat.
Example C42_wall_heats_cold_gas : ~ 0 <= heat_to_wall 2 (1/2) (1/2) 3 1 (1/4).
Proof. rewrite heat_sign by lra. lra. Qed.

(** ** C43 *)

(** Any number of species recycling into any others: the particles a species gains are the sum over the channels into it of the
    multiplier times the flow arriving at the targets. *)
Theorem C43_targets : forall fl c m n chs w w', positive_cells c -> mesh_ok m n -> target_recycle fl = true ->
  recycle_targets fl c m chs w = Some w' -> forall k,
  total c (ystart m) n (y_density_source (w' k)) = total c (ystart m) n (y_density_source (w k)) + gains c m w chs k.
Proof. intros fl c m n chs w w' P M F H k. exact (recycle_targets_total fl c m n chs P M F w w' H k). Qed.
Print Assumptions C43_targets.
(** For one channel, between zero and what arrives. *)
Theorem C43_targets_at_most_what_arrives : forall c m w ch k, unit_interval (target_multiplier ch) ->
  let arriving := lower_outflow c m (yN (w (from ch))) (yV (w (from ch))) + upper_outflow c m (yN (w (from ch))) (yV (w (from ch))) in
  0 <= gains c m w [ch] k <= arriving.
Proof.
  intros c m w ch k [U1 U2] arriving. unfold arriving. destruct (outflow_nonneg c m (yN (w (from ch))) (yV (w (from ch)))) as [O1 O2]. cbn [gains].
  set (a := lower_outflow _ _ _ _) in *. set (b := upper_outflow _ _ _ _) in *.
  assert (0 <= target_multiplier ch * (a + b)) by (apply Rmult_le_pos; lra).
  assert (target_multiplier ch * (a + b) <= 1 * (a + b)) by (apply Rmult_le_compat_r; lra).
  destruct (String.eqb k (to ch)); lra.
Qed.
Print Assumptions C43_targets_at_most_what_arrives.
Example C43_targets_case :
  gains unit_coords mesh1 (fun k => mkYspecies (fun _ => 1) (values [-1; 0; 1]) None (fun _ => 0) (fun _ => 0)) [quiet "d" "d+"] "d" = 1 /\
  unit_interval (target_multiplier (quiet "d" "d+")).
Proof.
  split.
  - cbn [gains quiet from to yN yV target_multiplier]. cbn [String.eqb Ascii.eqb Bool.eqb]. unfold lower_outflow, upper_outflow, closed_low, closed_high. rewrite !unit_full_area.
    cbn [mesh1 firstY lastY periodicY negb andb ystart yend]. unfold end_particle_flux, face_value. zify_idx. vals. rewrite !Rmax_right by lra. lra.
  - unfold unit_interval. cbn [quiet target_multiplier]. lra.
Qed.
(** The ions lost by parallel transport are what arrives, for a line whose dx and dz do not vary along it and with flow out of it. *)
Theorem C43_ions_lost_arrive : forall edges c m n N V ws dx0 dz0, positive_cells c -> mesh_ok m n -> closed_low m = true -> closed_high m = true ->
  (forall j, c_dx c j = dx0) -> (forall j, c_dz c j = dz0) ->
  0 <= - end_particle_flux N V (ystart m) -> 0 <= end_particle_flux N V (yend m + 1) ->
  exists r w, Div_par_mod edges m c N V ws true = Some (r, w) /\
    total c (ystart m) n r = lower_outflow c m N V + upper_outflow c m N V.
Proof. exact recycling_balance. Qed.
Print Assumptions C43_ions_lost_arrive.
Example C43_ions_lost_case : 0 <= - end_particle_flux (fun _ => 1) (values [-1; 0; 1]) 1 /\ 0 <= end_particle_flux (fun _ => 1) (values [-1; 0; 1]) (1 + 1).
Proof. unfold end_particle_flux, face_value. zify_idx. vals. lra. Qed.
(** If dx differs between the cell and the guard cell the two disagree: the recycling uses the mean, the transport that of the cell. *)
Theorem C43_dx_varying_refuted : exists edges c m n N V ws r w, positive_cells c /\ mesh_ok m n /\ closed_low m = true /\ closed_high m = true /\
  0 <= - end_particle_flux N V (ystart m) /\ 0 <= end_particle_flux N V (yend m + 1) /\
  Div_par_mod edges m c N V ws true = Some (r, w) /\ total c (ystart m) n r <> lower_outflow c m N V + upper_outflow c m N V.
Proof.
  destruct wide_guard_gains as (E1 & r & w & E2 & E3). exists upwind_edges, wide_guard, mesh1, 1%nat, (fun _ => 1), (values [-1; 0; 1]), (fun _ => 0), r, w.
  split; [exact wide_guard_ok|]. split; [exact mesh1_ok|]. split; [reflexivity|]. split; [reflexivity|].
  split; [|split; [|split; [exact E2|rewrite E1, E3; lra]]]; unfold end_particle_flux, face_value; cbn [mesh1 ystart yend]; zify_idx; vals; lra.
Qed.
Print Assumptions C43_dx_varying_refuted.
(** Walls on flux surfaces: the multiplier of the flow arriving, ... *)
Theorem C43_walls : forall c pm mult energy fraction factor t i s g o eo, x_volume c i <> 0 ->
  x_volume c i * fst (recycle_wall c false pm mult energy fraction factor t i s g o eo) = mult * Rmax 0 o /\
  x_volume c i * snd (recycle_wall c false pm mult energy fraction factor t i s g o eo) = mult * (factor * fraction * eo + (1 - fraction) * energy * Rmax 0 o).
Proof. exact recycle_wall_particles. Qed.
Print Assumptions C43_walls.
(** ... and where there is a pump its albedo applies to ions and to the neutrals arriving. *)
Theorem C43_pump : forall c pm mult energy fraction factor t i s g o eo, x_volume c i <> 0 ->
  0 <= (xT t i + SQ (xT t i) / xT t s) / 2 -> 0 < xAA t ->
  x_volume c i * fst (recycle_wall c true pm mult energy fraction factor t i s g o eo)
  = pm * Rmax 0 o - (1 - pm) * (radial_area c i g * one_way_flux (xAA t) ((xN t i + SQ (xN t i) / xN t s) / 2) ((xT t i + SQ (xT t i) / xT t s) / 2)).
Proof. exact recycle_wall_pump. Qed.
Print Assumptions C43_pump.
Example C43_pump_case : x_volume unit_x 1 <> 0 /\ 0 <= (1 + SQ 1 / 1) / 2 /\ 0 < xAA hydrogen_like.
Proof.
  unfold x_volume, unit_x, hydrogen_like, SQ. cbn [x_J x_dx x_dy x_dz xAA]. split; [lra|]. split; [lra|].
  apply Rdiv_lt_0_compat; [lra|exact PI_RGT_0].
Qed.
(** The energy of the ions, however, is returned with the multiplier of the wall even at a pump: a perfect pump (albedo 0) heats the
    neutrals. *)
Theorem C43_pump_energy_refuted : exists c t i s g, x_volume c i = 1 /\ 0 < xT t i /\
  fst (recycle_wall c true 0 1 0 1 1 t i s g 1 1) < 0 /\ 0 < snd (recycle_wall c true 0 1 0 1 1 t i s g 1 1).
Proof.
  exists unit_x, hydrogen_like, 1%Z, 0%Z, 2%Z. rewrite pump_heats. cbn [fst snd]. unfold x_volume, unit_x, hydrogen_like. cbn [x_J x_dx x_dy x_dz xT]. lra.
Qed.
Print Assumptions C43_pump_energy_refuted.

(** ** C44 *)

(** Settings are accepted exactly when all multipliers of all species are within [0, 1]; then each species gets a channel with the
    values of its own section.  (Partial: the switches are those of [last_switches].) *)
Theorem C44_channels_partial : forall Tnorm species,
  ((forall so, In so species -> named so = true -> multipliers_ok (snd so)) ->
     construct Tnorm species = Some (map (channel_of Tnorm) (filter named species), last_switches species None)) /\
  (~ (forall so, In so species -> named so = true -> multipliers_ok (snd so)) -> construct Tnorm species = None).
Proof. exact construct_result. Qed.
Print Assumptions C44_channels_partial.
(** Switches which are the same for all species apply to all of them.  (Partial: not when they differ, see below.) *)
Theorem C44_same_switches_partial : forall Tnorm species fl,
  (forall so, In so species -> named so = true -> multipliers_ok (snd so)) -> (forall so, In so species -> switches_of (snd so) = fl) -> existsb named species = true ->
  construct Tnorm species = Some (map (channel_of Tnorm) (filter named species), Some fl).
Proof.
  intros Tnorm species fl H1 H2 H3. destruct (construct_result Tnorm species) as [E _]. rewrite (E H1), (last_switches_same species fl H2), H3. reflexivity.
Qed.
Print Assumptions C44_same_switches_partial.
Example C44_case : named ("d+"%string, plain_options true) = true /\ multipliers_ok (plain_options true).
Proof. split; [reflexivity|]. unfold multipliers_ok, plain_options, unit_interval. cbn. lra. Qed.
(** The flags of the last species are used for all. *)
Theorem C44_own_switches_refuted : exists species chs fl, In ("d+"%string, plain_options true) species /\ opt_target (plain_options true) = true /\
  construct 1 species = Some (chs, Some fl) /\ target_recycle fl = false.
Proof.
  exists [("d+"%string, plain_options true); ("t+"%string, plain_options false)], [channel_of 1 ("d+"%string, plain_options true); channel_of 1 ("t+"%string, plain_options false)], (mkFlags false false false false).
  split; [now left|]. split; [reflexivity|]. split; [exact (second_switches_off 1)|reflexivity].
Qed.
Print Assumptions C44_own_switches_refuted.
(** With no species listed the flags are never set. *)
Theorem C44_flags_unset_refuted : exists species, construct 1 species = Some ([], None).
Proof. exists []. reflexivity. Qed.
Print Assumptions C44_flags_unset_refuted.
(** A species without a radial particle flow recycles the flow of the species before it. *)
Theorem C44_own_flow_refuted : exists fl m c chs w w' ms, In (quiet "t" "t+") chs /\ x_particle_flow (w "t+"%string) = None /\
  recycle_walls fl m c (fun _ => 0) chs (w, (None, None)) = Ok (w', ms) /\ x_density_source (w "t"%string) (xend m) = 0 /\ 0 < x_density_source (w' "t"%string) (xend m).
Proof.
  destruct stale_flow as (w' & ms & E & H1 & H2). exists sol_only, xm0, unit_x, [quiet "d" "d+"; quiet "t" "t+"]%string, xw0, w', ms.
  split; [right; now left|]. split; [exact H1|]. split; [exact E|]. split; [reflexivity|]. cbn [xm0 xend]. rewrite H2. lra.
Qed.
Print Assumptions C44_own_flow_refuted.

(** ** C69 *)

(** Energy given to the neutrals at the targets: between zero and that of the ions arriving, if these leave the plasma with at least
    the energy of re-emission each.  (Partial: not if the plasma flows in, see below.) *)
Theorem C69_energy_at_targets_partial : forall c m ch N V e, positive_cells c -> unit_interval (target_multiplier ch) -> unit_interval (target_fast_factor ch) ->
  unit_interval (target_fast_fraction ch) -> 0 <= target_energy ch ->
  (closed_low m = true -> target_energy ch * lower_outflow c m N V <= - e (ystart m) ->
     0 <= full_volume c (ystart m) * snd (target_lower c m ch N V e) <= - e (ystart m)) /\
  (closed_high m = true -> target_energy ch * upper_outflow c m N V <= e (yend m + 1)%Z ->
     0 <= full_volume c (yend m) * snd (target_upper c m ch N V e) <= e (yend m + 1)%Z).
Proof.
  intros c m ch N V e P U1 U2 U3 Hc. destruct (target_energy_gain c m ch N V e P) as [G1 G2]. destruct (outflow_nonneg c m N V) as [O1 O2]. split; intros C H.
  - rewrite (G1 C). exact (mixed_energy _ _ _ _ _ _ U1 U2 U3 Hc O1 H).
  - rewrite (G2 C). exact (mixed_energy _ _ _ _ _ _ U1 U2 U3 Hc O2 H).
Qed.
Print Assumptions C69_energy_at_targets_partial.
Example C69_case : unit_interval (target_multiplier ch0) /\ unit_interval (target_fast_factor ch0) /\ unit_interval (target_fast_fraction ch0) /\ 0 <= target_energy ch0.
Proof. unfold unit_interval, ch0. cbn [target_multiplier target_fast_factor target_fast_fraction target_energy]. lra. Qed.
(** The flow of particles is clamped at zero but that of energy is not: plasma flowing in takes energy from the neutrals. *)
Theorem C69_inflow_refuted : exists c m ch N V e, positive_cells c /\ unit_interval (target_multiplier ch) /\ unit_interval (target_fast_factor ch) /\
  unit_interval (target_fast_fraction ch) /\ 0 <= target_energy ch /\ closed_high m = true /\
  fst (target_upper c m ch N V e) = 0 /\ ~ 0 <= full_volume c (yend m) * snd (target_upper c m ch N V e).
Proof.
  exists unit_coords, mesh1, ch0, (fun _ => 1), (fun _ => -1), (fun _ => -2). split; [exact unit_cells|].
  destruct C69_case as (H1 & H2 & H3 & H4). split; [exact H1|]. split; [exact H2|]. split; [exact H3|]. split; [exact H4|]. split; [reflexivity|].
  rewrite inflow_cools, unit_full_volume. split; [|lra].
  pose proof (target_upper_gain unit_coords mesh1 ch0 (fun _ => 1) (fun _ => -1) (fun _ => -2) unit_cells eq_refl) as G. rewrite unit_full_volume, Rmult_1_l in G. rewrite G.
  unfold upper_outflow. cbn [closed_high mesh1 lastY periodicY negb andb yend]. rewrite unit_full_area. unfold end_particle_flux, face_value.
  rewrite Rmax_left by lra. ring.
Qed.
Print Assumptions C69_inflow_refuted.
