(** More about closures and walls: C42, C43, C52, C53, C57, C65. *)

From Coq Require Import List Bool ZArith Reals String Lra Lia.
From Verif Require Import StateMonad ParallelModel ClosureModel ClosureSpec ClosureLaws WallsModel WallsSpec WallsProofs WallsLaws Revisit1Proofs.
Import ListNotations.
Open Scope R_scope.

(** ** C52: by default (but for the factor, which is 0) every species counts, electrons too, with its thermal speed sqrt(T / A). *)
Theorem C52_thermal_speed : forall f A T Bxy, 0 <= T -> 0 < A ->
  snd (sound_speed (defaults_with f) true Bxy (thermal A T)) = f * sqrt (T / A) /\ snd (sound_speed (defaults_with f) true Bxy (thermal_e A T)) = f * sqrt (T / A).
Proof. exact (fun f A T B HT HA => conj (thermal_wave f A T B HT HA) (thermal_wave_e f A T B HT HA)). Qed.
Print Assumptions C52_thermal_speed.
Example C52_thermal_speed_case : snd (sound_speed (defaults_with 1) true 0 (thermal 1 4)) = 2.
Proof. rewrite thermal_wave by lra. replace (4 / 1) with (2 * 2) by lra. rewrite sqrt_square; lra. Qed.
(** On a line the wave speed is calculated in every cell of the domain, and 0 in the guard cells. *)
Theorem C52_in_the_domain : forall o m Bxy l j,
  ((ystart m <= j <= yend m)%Z -> fastest_wave_line o m Bxy l j = snd (sound_speed o true (Bxy j) (l j))) /\
  ((j < ystart m \/ yend m < j)%Z -> fastest_wave_line o m Bxy l j = 0).
Proof. exact (fun o m B l j => conj (fastest_wave_inside o m B l j) (fastest_wave_outside o m B l j)). Qed.
Print Assumptions C52_in_the_domain.
Example C52_in_the_domain_case : let m := mkMesh 2 4 7 true true false in (ystart m <= 2 <= yend m)%Z /\ (yend m < 5)%Z.
Proof. cbn. lia. Qed.

(** ** C53: the pressure is that of all charged species, and heat conduction comes with the diffusion by collisions. *)
Theorem C53_pressure_of_charged : forall l, classical_pressure l = rsum pressure_of (filter is_charged l).
Proof. exact classical_pressure_is. Qed.
Print Assumptions C53_pressure_of_charged.
Example C53_pressure_case : classical_pressure [electron 1 3; mkSpecies "d" (Some 0) None None None (Some 5) None None None None] = 3.
Proof.
  rewrite classical_pressure_is. unfold electron. cbn [filter is_charged s_charge].
  replace (Rleb 1e-5 (Rabs (-1))) with true by (symmetry; apply StateMonadProofs.Rleb_true; rewrite Rabs_left; lra).
  replace (Rleb 1e-5 (Rabs 0)) with false by (symmetry; apply StateMonadProofs.Rleb_false; rewrite Rabs_R0; lra).
  cbn [rsum]. unfold pressure_of. cbn [s_pressure]. ring.
Qed.
Theorem C53_conduction_with_collisions : forall custom, custom <> 0 -> classical_conducts custom = classical_calculated custom.
Proof. exact classical_conduction_with_collisions. Qed.
Print Assumptions C53_conduction_with_collisions.
(** With custom_D = 0 the coefficient is calculated from collisions but no heat is conducted. *)
Theorem C53_conduction_at_zero_refuted : exists custom, classical_calculated custom = true /\ classical_conducts custom = false.
Proof. exists 0. unfold classical_calculated, classical_conducts. rewrite (StateMonadProofs.Rltb_false 0 0) by lra. split; reflexivity. Qed.
Print Assumptions C53_conduction_at_zero_refuted.
Example C53_conduction_case : classical_conducts (-1) = true /\ classical_conducts 1 = false.
Proof. unfold classical_conducts. rewrite (StateMonadProofs.Rltb_true (-1) 0) by lra. rewrite (StateMonadProofs.Rltb_false 1 0) by lra. split; reflexivity. Qed.

(** ** C57: the time step of a cell is that of conduction, dy^2 g_22 / T^(5/2). *)
Theorem C57_time_of_conduction : forall g dy T, 1e-5 <= T -> cfl_dt g dy T ^ 2 * T ^ 5 = (g * dy ^ 2) ^ 2.
Proof. exact cfl_dt_law. Qed.
Print Assumptions C57_time_of_conduction.
Example C57_time_case : cfl_dt 1 2 1 ^ 2 = 16. Proof. pose proof (cfl_dt_law 1 2 1 ltac:(lra)). lra. Qed.

(** ** C65: the sheath closure takes gamma n T^(3/2) / L from the electrons, and its current is n (phi - offset) / L. *)
Theorem C65_closure_heat : forall o n T, 0 < L_par o -> 0 <= gamma_e o -> 0 <= n -> 0 <= T ->
  (L_par o * closure_electron_heat o n T) ^ 2 = gamma_e o ^ 2 * n ^ 2 * T ^ 3 /\ 0 <= closure_electron_heat o n T.
Proof. exact closure_heat_law. Qed.
Print Assumptions C65_closure_heat.
Theorem C65_closure_current : forall o n phi, L_par o <> 0 -> L_par o * fst (closure_current o n phi) = n * (phi - offset o).
Proof. exact closure_current_law. Qed.
Print Assumptions C65_closure_current.
Example C65_closure_case : let o := mkClosure 10 6.5 3.5 1 false in 0 < L_par o /\ 0 <= gamma_e o /\ fst (closure_current o 1 3) = 1 / 5.
Proof. cbn. repeat split; lra. Qed.

(** ** C42: both radial walls, and only where the domain ends: the energy of the cell goes through its face. *)
Theorem C42_radial_walls : forall ws wp sol pfr Tnorm A m c N T E i, x_positive c i -> 0 < A -> (xstart m < xend m)%Z -> (forall j, 0 <= T j) ->
  x_J c i * x_dx c i * x_dy c i * x_dz c i * (neutral_walls ws wp sol pfr Tnorm A m c N T E i - E i)
  = - ((if (Z.eqb i (xend m) && sol && lastX m)%bool then face_heat A ws Tnorm c N T i (i + 1) else 0)
       + (if (Z.eqb i (xstart m) && pfr && firstX m && negb (periodic_xstart m))%bool then face_heat A wp Tnorm c N T i (i - 1) else 0)).
Proof. exact neutral_walls_law. Qed.
Print Assumptions C42_radial_walls.
Example C42_radial_walls_case : x_positive unit_x 1 /\ let m := mkXmesh 1 3 true true false in (xstart m < xend m)%Z.
Proof. split; [unfold x_positive; cbn; repeat split; lra | cbn; lia]. Qed.

(** ** C43: recycling at the radial walls, without pumps. *)
Theorem C43_radial_walls : forall fl m c is_pump w pf ef ch i p e, x_positive c i -> (xstart m < xend m)%Z ->
  x_particle_flow (w (from ch)) = Some p -> x_energy_flow (w (from ch)) = Some e ->
  (neutral_pump fl = true -> forall j, is_pump j <> 1) ->
  exists w' st', recycle_walls1 fl m c is_pump (w, (pf, ef)) ch = Ok (w', st') /\
  let V := x_J c i * x_dx c i * x_dy c i * x_dz c i in
  let outer := (Z.eqb i (xend m) && sol_recycle fl && lastX m)%bool in
  let inner := (Z.eqb i (xstart m) && pfr_recycle fl && firstX m && negb (periodic_xstart m))%bool in
  V * (x_density_source (w' (to ch)) i - x_density_source (w (to ch)) i)
  = (if outer then sol_multiplier ch * Rmax 0 (p (i + 1)%Z) else 0) + (if inner then pfr_multiplier ch * Rmax 0 (- p i) else 0) /\
  V * (x_energy_source (w' (to ch)) i - x_energy_source (w (to ch)) i)
  = (if outer then sol_multiplier ch * (sol_fast_factor ch * sol_fast_fraction ch * e (i + 1)%Z + (1 - sol_fast_fraction ch) * sol_energy ch * Rmax 0 (p (i + 1)%Z)) else 0)
    + (if inner then pfr_multiplier ch * (pfr_fast_factor ch * pfr_fast_fraction ch * - e i + (1 - pfr_fast_fraction ch) * pfr_energy ch * Rmax 0 (- p i)) else 0).
Proof. exact recycle_walls_law. Qed.
Print Assumptions C43_radial_walls.
(** Cells are pumped where is_pump is 1, if pumps are switched on. *)
Theorem C43_pumped_cells : forall fl is_pump i, is_pumped fl is_pump i = true <-> neutral_pump fl = true /\ is_pump i = 1.
Proof. exact pump_cells. Qed.
Print Assumptions C43_pumped_cells.
Example C43_radial_walls_case : let t := mkXspecies (fun _ => 1) (fun _ => 1) 2 (Some (fun _ => 3)) (Some (fun _ => 2)) (fun _ => 0) (fun _ => 0) in
  let fl := mkFlags true true true false in x_particle_flow t = Some (fun _ => 2) /\ (neutral_pump fl = true -> forall j : Z, 1 <> 1).
Proof. split; [reflexivity|intros H; discriminate H]. Qed.
