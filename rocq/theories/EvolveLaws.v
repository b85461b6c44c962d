(** The evolved equations and viscosities: composition with the operators, and witnesses. *)

From Coq Require Import List Bool ZArith Reals String Lra Lia.
From Verif Require Import StateMonad StateMonadProofs ReactionsModel ParallelModel ParallelSpec ParallelProofs ParallelHeating LimitersModel LimitersProofs DiffusionModel DiffusionSpec DiffusionProofs WallsModel WallsSpec WallsProofs EvolveModel EvolveSpec EvolveProofs.
Import ListNotations.
Open Scope R_scope.

Lemma density_out_ok N : 0 <= density_out N /\ (0 <= N -> density_out N = N).
Proof. split; [exact (rfloor_ge N 0)|exact (rfloor_above N 0)]. Qed.

(** ** C45 *)
Lemma negative_guard : exists l x, List.Forall (fun p => 0 <= p) l /\ In x l /\
  let '(P, T) := energy_out 1e-5 1 (average_guard l x) in P < 0 /\ T < 0.
Proof.
  exists [0; 0; 0; 4], 4. split; [repeat constructor; lra|]. split; [cbn; tauto|].
  unfold energy_out, average_guard, z_average. cbn [lsum List.length INR]. rewrite (rfloor_above 1 1e-5) by lra.
  split; lra.
Qed.

(** ** C46 *)
(** A cold plasma. *)
Lemma cold_limit : exists alpha kappa gradT N T AA, 0 < alpha /\ 0 < T /\ 0 < N /\ 0 < AA /\ 0 < kappa /\
  alpha * free_streaming AA N T < Rabs (kappa_limited alpha kappa gradT N T AA * gradT).
Proof.
  exists 1, 1, 1, 1, 1e-8, 1. assert (S : sqrt (1e-8 / 1) = 1e-4).
  { replace (1e-8 / 1) with (1e-4 * 1e-4) by lra. apply sqrt_square. lra. }
  repeat split; try lra. unfold free_streaming, kappa_limited. rewrite (Rltb_true 0 1) by lra. cbv zeta. rewrite S.
  rewrite (rfloor_below (1 * 1 * 1e-8 * 1e-4) 1e-10) by lra. rewrite Rmult_1_r, Rmult_1_r. 
  assert (E : Rabs (1 / 1e-10) = 1e10) by (rewrite Rabs_right by (apply Rle_ge; lra); lra). rewrite E. rewrite Rabs_right by (apply Rle_ge; lra). lra.
Qed.

(** The zigzag temperature. *)
Definition zig : Z -> R := values [1; 100; 1; 100; 1; 100].
Definition zig_mesh : mesh := mkMesh 1 4 6 false false false.
Definition zig_kappa : Z -> R := kappa_line zig_mesh (1 / 5) 1 (fun j => kappa_braginskii 3.16 (zig j) 1e-3 1) (central 1 zig) (fun _ => 1) zig.
Lemma zig_flux : 
  (1 / 5) * free_streaming 1 1 (zig 2) < Rabs (K_upper unit_coords zig_kappa zig 2) /\
  (1 / 5) * free_streaming 1 1 (zig 3) < Rabs (K_upper unit_coords zig_kappa zig 2).
Proof.
  assert (S1 : sqrt (1 / 1) = 1) by (replace (1 / 1) with 1 by lra; exact sqrt_1).
  assert (S2 : sqrt (100 / 1) = 10) by (replace (100 / 1) with (10 * 10) by lra; apply sqrt_square; lra).
  assert (K : forall j, zig (j + 1)%Z = zig (j - 1)%Z -> zig_kappa j = kappa_braginskii 3.16 (zig j) 1e-3 1).
  { intros j E. unfold zig_kappa, kappa_line. cbn [firstY lastY zig_mesh andb]. unfold kappa_limited. rewrite (Rltb_true 0 (1 / 5)) by lra. cbv zeta.
    assert (G : central 1 zig j = 0) by (unfold central; rewrite E; lra). rewrite G, Rmult_0_r. set (q := rfloor _ _). replace (0 / q) with 0 by (unfold Rdiv; ring). rewrite Rabs_R0. field. }
  assert (KB : forall P, kappa_braginskii 3.16 P 1e-3 1 = 3160 * P).
  { intros P. unfold kappa_braginskii. cbv zeta. rewrite (rfloor_above 1e-3 1e-10) by lra. replace (1 / 1e-3) with 1000 by lra. lra. }
  unfold K_upper. cbn [unit_coords c_J c_g22 c_dy]. rewrite (K 2%Z), (K (2 + 1)%Z) by reflexivity. rewrite !KB.
  assert (Z2 : zig 2 = 1) by reflexivity. assert (Z3 : zig (2 + 1)%Z = 100) by reflexivity. assert (Z3' : zig 3 = 100) by reflexivity. rewrite Z2, Z3, Z3'.
  unfold free_streaming. rewrite S1, S2. rewrite Rabs_right by (apply Rle_ge; lra). lra.
Qed.

(** ** C63 *)
Lemma viscous_heating m n c eta Bxy V : mesh_ok m n -> positive_metric c -> (forall j, 0 <= eta j) -> (forall j, 0 < Bxy j) -> closed_low m = true -> closed_high m = true ->
  let d j := sqrt (Bxy j) * fst (Div_par_K_Grad_par_mod m c (fun j => eta j / Bxy j) (fun j => sqrt (Bxy j) * V j) false j) in
  0 <= DiffusionSpec.total (cell_volume (c_J c) (c_dy c)) (ystart m) n (fun j => snd (ion_parallel_viscosity (V j) (d j))) /\
  DiffusionSpec.total (cell_volume (c_J c) (c_dy c)) (ystart m) n (fun j => V j * fst (ion_parallel_viscosity (V j) (d j)) + snd (ion_parallel_viscosity (V j) (d j))) = 0.
Proof.
  intros M PM He HB CL CH d. split.
  - pose proof (K_dissipates_closed m n c (fun j => eta j / Bxy j) (fun j => sqrt (Bxy j) * V j) M PM) as D.
    assert (HK : forall j, 0 <= eta j / Bxy j) by (intros j; apply Rmult_le_pos; [apply He|left; apply Rinv_0_lt_compat; apply HB]).
    specialize (D HK CL CH). unfold DiffusionSpec.total in *. 
    set (s := zsum _ _ _) in D. match goal with |- 0 <= ?x => replace x with (- s) end; [lra|]. unfold s.
    rewrite <- (Rmult_1_l (zsum _ _ (fun j => _ * (sqrt _ * _ * _)))), <- Ropp_mult_distr_l_reverse, <- zsum_scal. apply zsum_ext. intros j _. cbn [ion_parallel_viscosity snd]. unfold d. ring.
  - unfold DiffusionSpec.total. transitivity (0 * zsum (ystart m) n (fun _ => 0)); [|ring]. rewrite <- zsum_scal. apply zsum_ext. intros j _. cbn [ion_parallel_viscosity fst snd]. ring.
Qed.
Lemma perpendicular_pointwise : exists Vs d V ms es, In (V, (ms, es)) (combine Vs (ion_perpendicular_viscosity Vs d)) /\ V * ms + es <> 0.
Proof.
  exists [0; 2], 1, 2, 1, (- (z_average [0; 2] * 1)). split; [cbn [ion_perpendicular_viscosity map combine In]; tauto|].
  unfold z_average. cbn [lsum List.length INR]. lra.
Qed.
Lemma total_stress_bound P a b : 0 <= P -> Rabs (total_stress P a b) <= 2 * P.
Proof.
  intros H. unfold total_stress. destruct (stress_bound P a H) as (H1 & _). destruct (stress_bound P b H) as (H2 & _). pose proof (Rabs_triang (stress_limited P a) (stress_limited P b)). lra.
Qed.
Lemma total_stress_exceeds : exists P a b, 0 < P /\ P < Rabs (total_stress P a b).
Proof.
  exists 1, 2, 2. split; [lra|]. unfold total_stress, stress_limited, sign_of. rewrite (Rabs_right 2) by lra. rewrite (Rltb_true 1 2), (Rleb_true 0 2) by lra. rewrite Rabs_right by lra. lra.
Qed.
Lemma stress_boundary_two m n Pi : mesh_ok m n -> ystart m = 2%Z -> closed_low m = true -> closed_high m = true ->
  stress_boundary m Pi (ystart m - 1) = Pi (ystart m) /\ stress_boundary m Pi (yend m + 1) = Pi (yend m) /\ forall j, (ystart m <= j <= yend m)%Z -> stress_boundary m Pi j = Pi j.
Proof.
  intros (M1 & M2 & _) E CL CH. unfold stress_boundary. unfold closed_low, closed_high in *. rewrite CL, CH. cbv zeta.
  replace (1 + 1)%Z with 2%Z by lia. replace (yend m + 1 - 1)%Z with (yend m) by lia. rewrite E in *. change (2 - 1)%Z with 1%Z.
  split; [rewrite upd_other by lia; apply upd_same|]. split; [rewrite upd_same, upd_other by lia; reflexivity|]. intros j Hj. rewrite !upd_other by lia. reflexivity.
Qed.
Lemma stress_boundary_one : exists m n Pi j, mesh_ok m n /\ closed_low m = true /\ (ystart m <= j <= yend m)%Z /\ stress_boundary m Pi j <> Pi j.
Proof.
  exists mesh2, 2%nat, (fun j => IZR j), 1%Z. split; [exact mesh2_ok|]. split; [reflexivity|]. split; [cbn; lia|]. unfold stress_boundary. cbn [firstY lastY periodicY mesh2 negb andb yend].
  unfold upd. cbn. lra.
Qed.
Lemma vanished_pressure : exists N P, let '(P', _) := pressure_out 1e-5 N P in eta_limited 0.5 (eta_ion P' 1) 1 P' = None.
Proof.
  exists 1, (-1). unfold pressure_out. cbv zeta. rewrite (rfloor_below (-1) 0), (rfloor_above 1 1e-5) by lra. unfold eta_limited. rewrite (Rltb_true 0 0.5) by lra. cbv zeta.
  rewrite (Reqb_true (0.5 * (1 * (0 / 1))) 0) by lra. reflexivity.
Qed.
