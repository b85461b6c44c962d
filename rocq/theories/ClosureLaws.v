(** Closures: witnesses. *)

From Coq Require Import List Bool ZArith Reals String Ascii Lra Lia.
From Verif Require Import StateMonad StateMonadProofs StrModel ParallelModel ParallelSpec ParallelProofs ParallelLaws ParallelHeating LimitersModel LimitersProofs ClosureModel ClosureSpec ClosureProofs ClosureProofs2.
Import ListNotations.
Open Scope R_scope.

(** A species with charge, mass, density, velocity. *)
Definition ion (name : string) (q A n v : R) : species := mkSpecies name (Some q) (Some A) (Some n) (Some v) None None None None None.
Definition electron (n p : R) : species := mkSpecies "e" (Some (-1)) (Some (1 / 1836)) (Some n) None (Some p) None None None None.
Definition two_ions : list species := [ion "d+" 1 2 3 1; ion "he+2" 2 4 1 2].
Lemma two_ions_unique : unique two_ions /\ unique (electron 5 1 :: two_ions).
Proof. split; unfold unique; cbn; repeat constructor; cbn; intuition discriminate. Qed.
Lemma two_ions_charge : rsum charge_density (others "e" two_ions) = 5 /\ rsum charge_density (electron 5 1 :: two_ions) = 0.
Proof. cbn [others filter two_ions ion electron s_name String.eqb negb rsum Ascii.eqb Bool.eqb]. unfold charge_density. cbn [ion electron s_charge s_density]. split; lra. Qed.

(** Temperature only: thermal speed sqrt T. *)
Definition warm (T : R) : list species := [mkSpecies "h" None (Some 1) None None None (Some T) None None None].
Definition factor1 : sound_options := mkSound true false 0 0 1.
Lemma warm_wave inside T : 0 <= T -> snd (sound_speed factor1 inside 1 (warm T)) = if inside then sqrt T else 0.
Proof.
  intros HT. unfold sound_speed, warm. cbn [fold_left sound_step String.eqb Ascii.eqb Bool.eqb s_pressure s_name s_AA s_density s_temperature electron_dynamics factor1 negb temperature_floor alfven_wave andb fastest_wave_factor].
  rewrite (floor_above T 0 HT). rewrite (floor_below 0 1e-10) by lra. replace (0 / 1e-10) with 0 by lra. rewrite sqrt_0. replace (T / 1) with T by lra.
  destruct inside; cbn [snd].
  - pose proof (sqrt_pos T). rewrite (Rmax_right 0 (sqrt T)) by assumption. rewrite Rmax_left by assumption. ring.
  - ring.
Qed.

Definition line_T (j : Z) : R := if Z.leb j 0 then 1 else 4.
Definition line_n (j : Z) : R := if Z.leb j 0 then 1 else 0.
Definition proc (a : Z) : mesh := piece 2 false 2 a 1.
Definition proc_wave (a : Z) : Z -> R := fastest_wave_line factor1 (proc a) (fun _ => 1) (fun j => warm (line_T (j + (a - 2)))).
Definition proc_run (a : Z) := Div_par_mod upwind_edges (proc a) unit_coords (local 2 a line_n) (fun _ => 0) (proc_wave a) true.
Lemma line_T_nonneg j : 0 <= line_T j.
Proof. unfold line_T. destruct (Z.leb j 0); lra. Qed.
Lemma processors_disagree : exists r0 w0 r1 w1, proc_run 0 = Some (r0, w0) /\ proc_run 1 = Some (r1, w1) /\
  integral unit_coords 2 1 r0 = 1 / 2 /\ integral unit_coords 2 1 r1 = - 1.
Proof.
  assert (M0 : mesh_ok (proc 0) 1) by (unfold mesh_ok, guards_ok; cbn; lia). assert (M1 : mesh_ok (proc 1) 1) by (unfold mesh_ok, guards_ok; cbn; lia).
  destruct (mod_integral upwind_edges (proc 0) unit_coords 1 (local 2 0 line_n) (fun _ => 0) (proc_wave 0) true M0 unit_positive) as (r0 & w0 & E0 & H0).
  destruct (mod_integral upwind_edges (proc 1) unit_coords 1 (local 2 1 line_n) (fun _ => 0) (proc_wave 1) true M1 unit_positive) as (r1 & w1 & E1 & H1).
  exists r0, w0, r1, w1. split; [exact E0|]. split; [exact E1|].
  change (ystart (proc 0)) with 2%Z in H0. change (ystart (proc 1)) with 2%Z in H1. change (2 + Z.of_nat 1)%Z with 3%Z in H0, H1. rewrite !unit_area in H0, H1.
  assert (W : forall a j, proc_wave a j = if (Z.leb 2 j && Z.leb j 2)%bool then sqrt (line_T (j + (a - 2))) else 0).
  { intros a j. unfold proc_wave, fastest_wave_line. rewrite warm_wave by apply line_T_nonneg. cbn [proc piece ystart yend]. reflexivity. }
  assert (S4 : sqrt 4 = 2) by (replace 4 with (2 * 2) by lra; apply sqrt_square; lra).
  split.
  - rewrite H0. unfold mod_line, line_flux. change (closed_low (proc 0)) with true. change (closed_high (proc 0)) with false. change (ystart (proc 0)) with 2%Z. change (2 + Z.of_nat 1)%Z with 3%Z.
    change (3 =? 2)%Z with false. change (2 =? 2)%Z with true. cbn [andb orb]. unfold mod_end, end_particle_flux, face_value, particle_flux, lax_friedrichs, below, above, face_speed, upwind_edges. cbn [fst snd].
    rewrite !W. zify_idx. cbn [andb Z.leb Z.compare Pos.compare Pos.compare_cont]. unfold local, line_n, line_T. zify_idx. cbn [Z.leb Z.compare]. rewrite sqrt_1, Rabs_R0. rewrite (Rmax_left 0 0) by lra. rewrite (Rmax_left 1 0) by lra. rewrite (Rmax_left 1 0) by lra. lra.
  - rewrite H1. unfold mod_line, line_flux. change (closed_low (proc 1)) with false. change (closed_high (proc 1)) with true. change (ystart (proc 1)) with 2%Z. change (2 + Z.of_nat 1)%Z with 3%Z.
    change (3 =? 3)%Z with true. change (2 =? 3)%Z with false. cbn [andb orb]. unfold mod_end, end_particle_flux, face_value, particle_flux, lax_friedrichs, below, above, face_speed, upwind_edges. cbn [fst snd].
    rewrite !W. zify_idx. cbn [andb Z.leb Z.compare Pos.compare Pos.compare_cont]. unfold local, line_n, line_T. zify_idx. cbn [Z.leb Z.compare]. rewrite S4, Rabs_R0. rewrite (Rmax_left 0 0) by lra. rewrite (Rmax_right 0 2) by lra. rewrite (Rmax_left 2 0) by lra. lra.
Qed.
(** The same line on one processor. *)
Lemma one_processor_conserves : exists r w, Div_par_mod upwind_edges (piece 2 false 2 0 2) unit_coords (local 2 0 line_n) (fun _ => 0)
    (fastest_wave_line factor1 (piece 2 false 2 0 2) (fun _ => 1) (fun j => warm (line_T (j - 2)))) true = Some (r, w) /\ integral unit_coords 2 2 r = 0.
Proof.
  assert (M : mesh_ok (piece 2 false 2 0 2) 2) by (unfold mesh_ok, guards_ok; cbn; lia).
  destruct (mod_closed upwind_edges (piece 2 false 2 0 2) unit_coords 2 (local 2 0 line_n) (fun _ => 0) (fastest_wave_line factor1 (piece 2 false 2 0 2) (fun _ => 1) (fun j => warm (line_T (j - 2)))) M unit_positive eq_refl eq_refl) as (r & w & E & H).
  exists r, w. split; [exact E|]. change (ystart (piece 2 false 2 0 2)) with 2%Z in H. rewrite H. unfold end_particle_flux, face_value. lra.
Qed.
