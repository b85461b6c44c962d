(** Closures and walls: lemmas added after trying wrong variants of the model. *)

From Coq Require Import List Bool ZArith Reals String Ascii Lra Lia.
From Verif Require Import StateMonad StateMonadProofs StrModel ParallelModel ParallelSpec ParallelProofs ClosureModel ClosureSpec ClosureProofs ClosureProofs2 LimitersModel LimitersProofs ClosureLaws
  WallsModel WallsSpec WallsProofs.
Import ListNotations.
Open Scope R_scope.

(** ** Sound speed *)

(** One species of which only temperature and mass are known. *)
Definition thermal (A T : R) : list species := [mkSpecies "i" None (Some A) None None None (Some T) None None None].
(** The defaults, but for the factor (which is 0 by default). *)
Definition defaults_with (f : R) : sound_options :=
  mkSound (electron_dynamics sound_defaults) (alfven_wave sound_defaults) (beta_norm sound_defaults) (temperature_floor sound_defaults) f.
Lemma thermal_wave f A T Bxy : 0 <= T -> 0 < A -> snd (sound_speed (defaults_with f) true Bxy (thermal A T)) = f * sqrt (T / A).
Proof.
  intros HT HA. unfold defaults_with, sound_speed, thermal, sound_defaults.
  cbn [fold_left sound_step String.eqb Ascii.eqb Bool.eqb s_pressure s_name s_AA s_density s_temperature electron_dynamics negb temperature_floor alfven_wave andb fastest_wave_factor snd].
  rewrite (floor_above T 0 HT). rewrite (floor_below 0 1e-10) by lra. replace (0 / 1e-10) with 0 by lra. rewrite sqrt_0.
  pose proof (sqrt_pos (T / A)). rewrite (Rmax_right 0 (sqrt (T / A))) by assumption. rewrite Rmax_left by assumption. ring.
Qed.
(** One species "e": included by default. *)
Definition thermal_e (A T : R) : list species := [mkSpecies "e" None (Some A) None None None (Some T) None None None].
Lemma thermal_wave_e f A T Bxy : 0 <= T -> 0 < A -> snd (sound_speed (defaults_with f) true Bxy (thermal_e A T)) = f * sqrt (T / A).
Proof.
  intros HT HA. unfold defaults_with, sound_speed, thermal_e, sound_defaults.
  cbn [fold_left sound_step String.eqb Ascii.eqb Bool.eqb s_pressure s_name s_AA s_density s_temperature electron_dynamics negb temperature_floor alfven_wave andb fastest_wave_factor snd].
  rewrite (floor_above T 0 HT). rewrite (floor_below 0 1e-10) by lra. replace (0 / 1e-10) with 0 by lra. rewrite sqrt_0.
  pose proof (sqrt_pos (T / A)). rewrite (Rmax_right 0 (sqrt (T / A))) by assumption. rewrite Rmax_left by assumption. ring.
Qed.
Lemma fastest_wave_inside o m Bxy l j : (ystart m <= j <= yend m)%Z -> fastest_wave_line o m Bxy l j = snd (sound_speed o true (Bxy j) (l j)).
Proof.
  intros H. unfold fastest_wave_line. replace (Z.leb (ystart m) j) with true by (symmetry; apply Z.leb_le; lia).
  replace (Z.leb j (yend m)) with true by (symmetry; apply Z.leb_le; lia). reflexivity.
Qed.
Lemma outside_step o l a : snd a = 0 -> snd (fold_left (sound_step o false) l a) = 0.
Proof.
  revert a. induction l as [|s l IH]; intros [[p rho] w] H; [exact H|]. cbn [fold_left]. apply IH. cbn [snd] in H. unfold sound_step.
  destruct (String.eqb (s_name s) "e" && negb (electron_dynamics o))%bool; [exact H|].
  destruct (s_AA s); [|exact H]. destruct (s_temperature s); exact H.
Qed.
Lemma fastest_wave_outside o m Bxy l j : (j < ystart m \/ yend m < j)%Z -> fastest_wave_line o m Bxy l j = 0.
Proof.
  intros H. unfold fastest_wave_line. replace (Z.leb (ystart m) j && Z.leb j (yend m))%bool with false.
  2: { symmetry. apply andb_false_iff. destruct H; [left|right]; apply Z.leb_gt; lia. }
  unfold sound_speed. pose proof (outside_step o (l j) (0, 0, 0) eq_refl) as E. destruct (fold_left (sound_step o false) (l j) (0, 0, 0)) as [[p rho] w].
  cbn [snd] in E |- *. rewrite andb_false_r. rewrite E. ring.
Qed.

(** ** Classical diffusion *)

Definition is_charged (s : species) : bool := match s_charge s with Some q => Rleb 1e-5 (Rabs q) | None => false end.
Definition pressure_of (s : species) : R := match s_pressure s with Some p => p | None => 0 end.
Lemma pressure_fold l a : fold_left (fun p s => match s_charge s, s_pressure s with
      | Some q, Some x => if Rltb (Rabs q) 1e-5 then p else p + x | _, _ => p end) l a
  = a + rsum pressure_of (filter is_charged l).
Proof.
  revert a. induction l as [|s l IH]; intros a; cbn [fold_left filter rsum]; [lra|]. rewrite IH. unfold is_charged at 2.
  destruct (s_charge s) as [q|] eqn:Eq; [|reflexivity].
  pose proof (Rltb_spec (Rabs q) 1e-5) as S. destruct (Rltb (Rabs q) 1e-5).
  - replace (Rleb 1e-5 (Rabs q)) with false by (symmetry; apply Rleb_false; exact S). destruct (s_pressure s); reflexivity.
  - replace (Rleb 1e-5 (Rabs q)) with true by (symmetry; apply Rleb_true; exact S). cbn [rsum]. unfold pressure_of at 2. destruct (s_pressure s); ring.
Qed.
Lemma classical_pressure_is l : classical_pressure l = rsum pressure_of (filter is_charged l).
Proof. unfold classical_pressure. rewrite pressure_fold. ring. Qed.
Lemma classical_conduction_with_collisions custom : custom <> 0 -> classical_conducts custom = classical_calculated custom.
Proof.
  intros H. unfold classical_conducts, classical_calculated. pose proof (Rltb_spec custom 0). pose proof (Rltb_spec 0 custom).
  destruct (Rltb custom 0), (Rltb 0 custom); try reflexivity; exfalso; lra.
Qed.

(** ** Time steps and sheath closure *)

Lemma power_five_halves x : 0 < x -> Rpower x (5 / 2) * Rpower x (5 / 2) = x ^ 5.
Proof. intros H. rewrite <- Rpower_plus. replace (5 / 2 + 5 / 2) with (INR 5) by (cbn [INR]; lra). now apply Rpower_pow. Qed.
Lemma cfl_dt_law g dy T : 1e-5 <= T -> cfl_dt g dy T ^ 2 * T ^ 5 = (g * dy ^ 2) ^ 2.
Proof.
  intros H. unfold cfl_dt. rewrite (floor_above T 1e-5 H). unfold SQ. assert (HT : 0 < T) by lra.
  pose proof (power_five_halves T HT) as P. assert (0 < Rpower T (5 / 2)) by (unfold Rpower; apply exp_pos). rewrite <- P. set (r := Rpower T (5 / 2)) in *.
  field. lra.
Qed.
Lemma closure_heat_law o n T : 0 < L_par o -> 0 <= gamma_e o -> 0 <= n -> 0 <= T ->
  (L_par o * closure_electron_heat o n T) ^ 2 = gamma_e o ^ 2 * n ^ 2 * T ^ 3 /\ 0 <= closure_electron_heat o n T.
Proof.
  intros HL Hg Hn HT. unfold closure_electron_heat. assert (P : 0 <= gamma_e o * n * T * sqrt T).
  { apply Rmult_le_pos; [|apply sqrt_pos]. apply Rmult_le_pos; [|exact HT]. now apply Rmult_le_pos. }
  rewrite (floor_above _ 0 P). split.
  - replace (L_par o * (gamma_e o * n * T * sqrt T / L_par o)) with (gamma_e o * n * T * sqrt T) by (field; lra).
    replace ((gamma_e o * n * T * sqrt T) ^ 2) with (gamma_e o ^ 2 * n ^ 2 * T ^ 2 * (sqrt T * sqrt T)) by ring. rewrite sqrt_sqrt by exact HT. ring.
  - unfold Rdiv. apply Rmult_le_pos; [exact P|left; now apply Rinv_0_lt_compat].
Qed.
Lemma closure_current_law o n phi : L_par o <> 0 -> L_par o * fst (closure_current o n phi) = n * (phi - offset o).
Proof. intros H. unfold closure_current. cbn [fst]. now field. Qed.

(** ** Neutral walls *)

Definition x_positive (c : xcoords) (i : Z) : Prop := 0 < x_J c i /\ 0 < x_dx c i /\ 0 < x_dy c i /\ 0 < x_dz c i.
(** Heat through the radial face between cell i and guard cell g. *)
Definition face_heat (A : R) (w : wall) (Tnorm : R) (c : xcoords) (N T : Z -> R) (i g : Z) : R :=
  radial_area c i g * heat_to_wall A (energy_refl_factor w) (fast_refl_fraction w) (3 / Tnorm) ((N g + N i) / 2) ((T g + T i) / 2).
Lemma neutral_walls_law ws wp sol pfr Tnorm A m c N T E i : x_positive c i -> 0 < A -> (xstart m < xend m)%Z ->
  (forall j, 0 <= T j) ->
  x_J c i * x_dx c i * x_dy c i * x_dz c i * (neutral_walls ws wp sol pfr Tnorm A m c N T E i - E i)
  = - ((if (Z.eqb i (xend m) && sol && lastX m)%bool then face_heat A ws Tnorm c N T i (i + 1) else 0)
       + (if (Z.eqb i (xstart m) && pfr && firstX m && negb (periodic_xstart m))%bool then face_heat A wp Tnorm c N T i (i - 1) else 0)).
Proof.
  intros (P1 & P2 & P3 & P4) HA HX HT. unfold neutral_walls. assert (HF : forall a b, 0 <= (T a + T b) / 2) by (intros a b; pose proof (HT a); pose proof (HT b); lra).
  set (V := x_J c i * x_dx c i * x_dy c i * x_dz c i).
  set (E1 := if (sol && lastX m)%bool then neutral_wall ws Tnorm A c N T (xend m) (xend m + 1) E else E).
  assert (F1 : V * (E1 i - E i) = - (if (Z.eqb i (xend m) && sol && lastX m)%bool then face_heat A ws Tnorm c N T i (i + 1) else 0)).
  { unfold E1. destruct (Z.eqb_spec i (xend m)) as [->|Hi]; cbn [andb].
    - destruct (sol && lastX m)%bool; [|ring].
      destruct (neutral_wall_effect ws Tnorm A c N T (xend m) (xend m + 1) E P1 P2 P3 P4 (HF _ _) HA) as [_ X]. exact X.
    - destruct (sol && lastX m)%bool; [|ring]. unfold neutral_wall. rewrite upd_other by exact Hi. ring. }
  assert (F2 : forall E1, V * ((if (pfr && (firstX m && negb (periodic_xstart m)))%bool then neutral_wall wp Tnorm A c N T (xstart m) (xstart m - 1) E1 else E1) i - E1 i)
     = - (if (Z.eqb i (xstart m) && pfr && firstX m && negb (periodic_xstart m))%bool then face_heat A wp Tnorm c N T i (i - 1) else 0)).
  { intros E0. rewrite <- !andb_assoc. destruct (Z.eqb_spec i (xstart m)) as [->|Hi]; cbn [andb].
    - destruct (pfr && (firstX m && negb (periodic_xstart m)))%bool; [|ring].
      destruct (neutral_wall_effect wp Tnorm A c N T (xstart m) (xstart m - 1) E0 P1 P2 P3 P4 (HF _ _) HA) as [_ X]. exact X.
    - destruct (pfr && (firstX m && negb (periodic_xstart m)))%bool; [|ring]. unfold neutral_wall. rewrite upd_other by exact Hi. ring. }
  specialize (F2 E1). lra.
Qed.

(** ** Recycling at radial walls *)

Lemma recycle_walls_law fl m c is_pump w pf ef ch i p e : x_positive c i -> (xstart m < xend m)%Z ->
  x_particle_flow (w (from ch)) = Some p -> x_energy_flow (w (from ch)) = Some e ->
  (neutral_pump fl = true -> forall j, is_pump j <> 1) ->
  exists w' st', recycle_walls1 fl m c is_pump (w, (pf, ef)) ch = Ok (w', st') /\
  let V := x_J c i * x_dx c i * x_dy c i * x_dz c i in
  let outer := (Z.eqb i (xend m) && sol_recycle fl && lastX m)%bool in
  let inner := (Z.eqb i (xstart m) && pfr_recycle fl && firstX m && negb (periodic_xstart m))%bool in
  V * (x_density_source (w' (to ch)) i - x_density_source (w (to ch)) i)
  = (if outer then sol_multiplier ch * Rmax 0 (p (i + 1)%Z) else 0) + (if inner then pfr_multiplier ch * Rmax 0 (- p i) else 0) /\
  V * (x_energy_source (w' (to ch)) i - x_energy_source (w (to ch)) i)
  = (if outer then sol_multiplier ch * (sol_fast_factor ch * sol_fast_fraction ch * e (i + 1)%Z + (1 - sol_fast_fraction ch) * sol_energy ch * Rmax 0 (p (i + 1)%Z)) else 0)
    + (if inner then pfr_multiplier ch * (pfr_fast_factor ch * pfr_fast_fraction ch * - e i + (1 - pfr_fast_fraction ch) * pfr_energy ch * Rmax 0 (- p i)) else 0).
Proof.
  intros (P1 & P2 & P3 & P4) HX Hp He HN. assert (NP : forall j, is_pumped fl is_pump j = false).
  { intros j. unfold is_pumped. destruct (neutral_pump fl) eqn:Ef; [|apply andb_false_r].
    destruct (Reqb (is_pump j) 1) eqn:Er; [|reflexivity]. exfalso. apply Reqb_eq in Er. exact (HN eq_refl j Er). }
  assert (V0 : x_volume c i <> 0).
  { unfold x_volume. apply Rgt_not_eq. repeat apply Rmult_lt_0_compat; assumption. }
  unfold recycle_walls1. cbv zeta. rewrite Hp, He, !NP.
  set (ws := recycle_wall c false (pump_multiplier ch) (sol_multiplier ch) (sol_energy ch) (sol_fast_fraction ch) (sol_fast_factor ch) (w (to ch)) (xend m) (xend m - 1) (xend m + 1) (p (xend m + 1)%Z) (e (xend m + 1)%Z)).
  set (wp := recycle_wall c false (pump_multiplier ch) (pfr_multiplier ch) (pfr_energy ch) (pfr_fast_fraction ch) (pfr_fast_factor ch) (w (to ch)) (xstart m) (xstart m + 1) (xstart m - 1) (p (xstart m) * -1) (e (xstart m) * -1)).
  assert (A1 : i = xend m -> x_volume c i * fst ws = sol_multiplier ch * Rmax 0 (p (i + 1)%Z) /\
     x_volume c i * snd ws = sol_multiplier ch * (sol_fast_factor ch * sol_fast_fraction ch * e (i + 1)%Z + (1 - sol_fast_fraction ch) * sol_energy ch * Rmax 0 (p (i + 1)%Z))).
  { intros ->. apply recycle_wall_particles. exact V0. }
  assert (A2 : i = xstart m -> x_volume c i * fst wp = pfr_multiplier ch * Rmax 0 (- p i) /\
     x_volume c i * snd wp = pfr_multiplier ch * (pfr_fast_factor ch * pfr_fast_fraction ch * - e i + (1 - pfr_fast_fraction ch) * pfr_energy ch * Rmax 0 (- p i))).
  { intros ->. replace (- p (xstart m)) with (p (xstart m) * -1) by ring. replace (- e (xstart m)) with (e (xstart m) * -1) by ring. apply recycle_wall_particles. exact V0. }
  destruct ws as [sa sb] eqn:Ews, wp as [pa pb] eqn:Ewp. unfold ws in Ews. unfold wp in Ewp. clear ws wp. cbn [fst snd] in A1, A2. unfold x_volume in A1, A2.
  set (V := x_J c i * x_dx c i * x_dy c i * x_dz c i) in *. clearbody V. clear HN NP V0 Hp He.
  assert (SS : forall u s, x_density_source (xset w (to ch) (mkXspecies (xN (w (to ch))) (xT (w (to ch))) (xAA (w (to ch))) (x_energy_flow (w (to ch))) (x_particle_flow (w (to ch))) u s) (to ch)) = u /\
     x_energy_source (xset w (to ch) (mkXspecies (xN (w (to ch))) (xT (w (to ch))) (xAA (w (to ch))) (x_energy_flow (w (to ch))) (x_particle_flow (w (to ch))) u s) (to ch)) = s).
  { intros u s. unfold xset. rewrite String.eqb_refl. split; reflexivity. }
  destruct (sol_recycle fl), (pfr_recycle fl), (lastX m), (firstX m), (periodic_xstart m); cbn [orb andb negb]; cbv iota; rewrite ?Ews, ?Ewp;
    (eexists; eexists; split; [reflexivity|]); cbv zeta; cbn [orb andb negb]; try rewrite (proj1 (SS _ _)); try rewrite (proj2 (SS _ _)); rewrite ?andb_false_r, ?andb_true_r;
    destruct (Z.eqb_spec i (xend m)) as [Ee|Ee], (Z.eqb_spec i (xstart m)) as [Es|Es]; cbn [andb]; cbv iota; try (exfalso; lia);
    try (destruct (A1 Ee) as [B1 B2]); try (destruct (A2 Es) as [B3 B4]);
    try (rewrite Ee); try (rewrite Es); rewrite ?upd_eq, ?Z.eqb_refl;
    repeat match goal with |- context [Z.eqb ?a ?b] => destruct (Z.eqb_spec a b); try (exfalso; lia); cbv iota end; try rewrite <- Ee; try rewrite <- Es; split; lra.
Qed.

Lemma pump_cells fl is_pump i : is_pumped fl is_pump i = true <-> neutral_pump fl = true /\ is_pump i = 1.
Proof. unfold is_pumped. rewrite andb_true_iff, Reqb_eq. tauto. Qed.
