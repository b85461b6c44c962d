(** Anomalous diffusion (continued), parallel diffusion of neutrals, simple conduction and the stellarator two point model. *)

From Coq Require Import List Bool ZArith Reals Lra Lia String Permutation.
From Verif Require Import StateMonad StateMonadProofs ParallelModel ParallelSpec ParallelProofs DiffusionModel DiffusionSpec DiffusionProofs
  PerpModel PerpSpec PerpProofs PerpLaws MetricModel MetricProofs TransportModel TransportSpec TransportProofs.
Import ListNotations.
Open Scope R_scope.

(** ** Anomalous diffusion: no new maximum of the temperature *)

Lemma profile_domain m nx ny nzn o f i j : pmesh_ok m nx ny nzn -> (ystart (pm_y m) <= j < ystart (pm_y m) + Z.of_nat ny)%Z ->
  profile m o f i j = z_mean nzn (f i j).
Proof.
  intros M Hj. destruct M as (_ & Hny & Hy & Hnz & Hz). unfold profile, neumann_y. rewrite Hz.
  destruct (anomalous_sheath_flux o); [now apply DC_mean|].
  replace (Z.eqb j (ystart (pm_y m) - 1)) with false by (symmetry; apply Z.eqb_neq; lia).
  replace (Z.eqb j (yend (pm_y m) + 1)) with false by (symmetry; apply Z.eqb_neq; lia). rewrite !andb_false_r. now apply DC_mean.
Qed.
Lemma z_mean_nonneg nzn f : (forall k, 0 <= f k) -> 0 <= z_mean nzn f.
Proof.
  intros H. unfold z_mean. destruct nzn as [|n].
  - cbn [zsum INR]. unfold Rdiv. lra.
  - apply Rmult_le_pos; [apply zsum_nonneg; auto|]. left. apply Rinv_0_lt_compat. apply lt_0_INR. lia.
Qed.
Lemma profile_nonneg m nx ny nzn o f i j : pmesh_ok m nx ny nzn -> (forall i j k, 0 <= f i j k) -> 0 <= profile m o f i j.
Proof.
  intros (_ & _ & _ & Hnz & Hz) H. unfold profile, neumann_y. rewrite Hz.
  destruct (anomalous_sheath_flux o); [rewrite DC_mean by exact Hnz; apply z_mean_nonneg; auto|].
  destruct (_ && Z.eqb j (ystart (pm_y m) - 1))%bool; [rewrite DC_mean by exact Hnz; apply z_mean_nonneg; auto|].
  destruct (_ && Z.eqb j (yend (pm_y m) + 1))%bool; rewrite DC_mean by exact Hnz; apply z_mean_nonneg; auto.
Qed.

Lemma anomalous_maximum toFA fromFA m c nx ny nzn o AA N T V t i j k :
  pmesh_ok m nx ny nzn -> pcoords_ok c -> keeps_axisymmetric nzn toFA -> keeps_axisymmetric nzn fromFA ->
  anomalous_transform toFA fromFA m c o (Some AA) N (Some T) V = Ok t ->
  (forall i j, p_g23 c i j = 0) -> (forall i j, 0 <= p_g11 c i j) ->
  (forall i j, 0 <= snd (anomalous_D o) i j) -> (forall i j, 0 <= snd (anomalous_chi o) i j) -> (forall i j k, 0 <= N i j k) ->
  (xstart (pm_x m) <= i < xstart (pm_x m) + Z.of_nat nx)%Z -> (ystart (pm_y m) <= j < ystart (pm_y m) + Z.of_nat ny)%Z -> (0 <= k < Z.of_nat nzn)%Z ->
  z_mean nzn (T (i + 1)%Z j) <= z_mean nzn (T i j) -> z_mean nzn (T (i - 1)%Z j) <= z_mean nzn (T i j) ->
  source (t_energy t) i j k <= 3 / 2 * z_mean nzn (T i j) * source (t_particles t) i j k.
Proof.
  intros M P HT HF Ht Hg23 Hg11 HD Hchi HN Hi Hj Hk H1 H2.
  destruct (anomalous_cell toFA fromFA m c nx ny nzn M P HT HF o AA N (Some T) V t Ht i j k Hi Hk) as (E1 & _ & E3). rewrite E1, E3. clear E1 E3.
  assert (Y0 : forall a f i j, poloidal c a f i j = 0) by (intros; unfold poloidal; rewrite !Hg23; unfold Rdiv; ring).
  unfold cell_rate. rewrite !Y0. unfold profile_or_zero.
  set (D := snd (anomalous_D o)) in *. set (chi := snd (anomalous_chi o)) in *.
  set (n2 := profile m o N). set (t2 := profile m o T).
  assert (Hn : forall i j, 0 <= n2 i j) by (intros; apply (profile_nonneg m nx ny nzn); assumption).
  assert (T1 : t2 (i + 1)%Z j <= t2 i j) by (unfold t2; rewrite !(profile_domain m nx ny nzn) by assumption; exact H1).
  assert (T2 : t2 (i - 1)%Z j <= t2 i j) by (unfold t2; rewrite !(profile_domain m nx ny nzn) by assumption; exact H2).
  replace (z_mean nzn (T i j)) with (t2 i j) by (unfold t2; rewrite !(profile_domain m nx ny nzn) by assumption; reflexivity).
  destruct (P i j) as (J & DX & DY & DZ).
  assert (IV : 0 < / (p_dx c i j * p_J c i j)) by (apply Rinv_0_lt_compat, Rmult_lt_0_compat; assumption).
  pose proof (radial_maximum_x c D n2 t2 i j HD T1 T2) as A.
  pose proof (conduction_maximum_x c P (fun i j => chi i j * n2 i j) t2 i j (fun i j => Rmult_le_pos _ _ (Hchi i j) (Hn i j)) Hg11 T1 T2) as B.
  unfold Rdiv. set (iv := / (p_dx c i j * p_J c i j)) in *. set (iw := / (p_dy c i j * p_J c i j)).
  apply (Rmult_le_compat_r iv) in A; [|lra]. apply (Rmult_le_compat_r iv) in B; [|lra].
  unfold Rdiv in A, B.
  assert (C1 : on (fst (anomalous_D o)) ((radial c (fun i j : Z => 3 * / 2 * t2 i j * D i j) n2 (i + 1) j
                 - radial c (fun i j : Z => 3 * / 2 * t2 i j * D i j) n2 i j) * iv + (0 - 0) * iw)
             <= 3 * / 2 * t2 i j * on (fst (anomalous_D o)) ((radial c D n2 (i + 1) j - radial c D n2 i j) * iv + (0 - 0) * iw)).
  { unfold on. destruct (fst (anomalous_D o)); lra. }
  assert (C2 : on (fst (anomalous_chi o)) ((radial c (fun i j : Z => chi i j * n2 i j) t2 (i + 1) j
                 - radial c (fun i j : Z => chi i j * n2 i j) t2 i j) * iv + (0 - 0) * iw) <= 0).
  { unfold on. destruct (fst (anomalous_chi o)); lra. }
  lra.
Qed.

(** ** Conduction along a line with zero gradient at closed ends *)

Section Line.
  Context (m : mesh) (n : nat) (c : coords).
  Hypothesis M : mesh_ok m n.
  Hypothesis P : positive_metric c.
  Hypothesis CL : closed_low m = true.
  Hypothesis CH : closed_high m = true.

  Lemma end_low_at j : end_low m j = Z.eqb j (ystart m - 1).
  Proof using CL. unfold end_low. unfold closed_low in CL. apply andb_prop in CL as [-> ->]. reflexivity. Qed.
  Lemma end_high_at j : end_high m j = Z.eqb j (yend m + 1).
  Proof using CH. unfold end_high. unfold closed_high in CH. apply andb_prop in CH as [-> ->]. reflexivity. Qed.
  Lemma inside_ends j : (ystart m <= j < ystart m + Z.of_nat n)%Z -> end_low m j = false /\ end_high m j = false.
  Proof using M CL CH. intros Hj. destruct M as (N & Ey & _). rewrite end_low_at, end_high_at. split; apply Z.eqb_neq; lia. Qed.
  Lemma neumann_inside f j : (ystart m <= j < ystart m + Z.of_nat n)%Z -> neumann m f j = f j.
  Proof using M CL CH. intros Hj. unfold neumann. destruct (inside_ends j Hj) as [-> ->]. reflexivity. Qed.
  Lemma dirichlet_inside f j : (ystart m <= j < ystart m + Z.of_nat n)%Z -> dirichlet_o2 m f j = f j.
  Proof using M CL CH. intros Hj. unfold dirichlet_o2. destruct (inside_ends j Hj) as [-> ->]. reflexivity. Qed.
  Lemma neumann_ends f : neumann m f (ystart m - 1)%Z = f (ystart m) /\ neumann m f (ystart m + Z.of_nat n)%Z = f (ystart m + Z.of_nat n - 1)%Z.
  Proof using M CL CH.
    destruct M as (N & Ey & _). unfold neumann. rewrite !end_low_at, !end_high_at, Z.eqb_refl.
    replace (Z.eqb (ystart m + Z.of_nat n) (ystart m - 1)) with false by (symmetry; apply Z.eqb_neq; lia).
    replace (Z.eqb (ystart m + Z.of_nat n) (yend m + 1)) with true by (symmetry; apply Z.eqb_eq; lia).
    split; [reflexivity|f_equal; lia].
  Qed.
  Lemma neumann_jumps f : jump (neumann m f) (ystart m) = 0 /\ jump (neumann m f) (ystart m + Z.of_nat n) = 0.
  Proof using M CL CH.
    destruct (neumann_ends f) as [E1 E2]. pose proof M as (N & _). unfold jump. rewrite E1, E2, !neumann_inside by lia. lra.
  Qed.

  (** Flux out of the domain: none. *)
  Lemma K_true K f j : K_face m c K f true j = line_conduction c K f j.
  Proof using. reflexivity. Qed.
  Lemma neumann_no_flux K f : line_conduction c K (neumann m f) (ystart m) = 0 /\ line_conduction c K (neumann m f) (ystart m + Z.of_nat n) = 0.
  Proof using M CL CH.
    destruct (neumann_jumps f) as [E1 E2]. unfold line_conduction, conductive_flux. rewrite E1, E2. unfold Rdiv. split; ring.
  Qed.
  Lemma K_Div_cell K f j : (ystart m <= j < ystart m + Z.of_nat n)%Z ->
    cell_volume (c_J c) (c_dy c) j * K_Div m c K f j = line_conduction c K f (j + 1) - line_conduction c K f j.
  Proof using M P. intros Hj. unfold K_Div. rewrite <- !K_true. now apply (K_cell m n). Qed.
  Lemma volume_pos j : 0 < cell_volume (c_J c) (c_dy c) j.
  Proof using P. unfold cell_volume. destruct (P j) as (A & B & C). now apply Rmult_lt_0_compat. Qed.
  Lemma K_Div_unique K K' f f' s j : (ystart m <= j < ystart m + Z.of_nat n)%Z ->
    line_conduction c K f (j + 1) = s * line_conduction c K' f' (j + 1) -> line_conduction c K f j = s * line_conduction c K' f' j ->
    K_Div m c K f j = s * K_Div m c K' f' j.
  Proof using M P.
    intros Hj E1 E2. pose proof (volume_pos j) as W. apply (Rmult_eq_reg_l (cell_volume (c_J c) (c_dy c) j)); [|lra].
    rewrite K_Div_cell, E1, E2 by exact Hj.
    replace (cell_volume (c_J c) (c_dy c) j * (s * K_Div m c K' f' j)) with (s * (cell_volume (c_J c) (c_dy c) j * K_Div m c K' f' j)) by ring.
    rewrite K_Div_cell by exact Hj. ring.
  Qed.
  Lemma K_Div_scale s K K' f j : (ystart m <= j < ystart m + Z.of_nat n)%Z -> (forall j, K' j = s * K j) -> K_Div m c K' f j = s * K_Div m c K f j.
  Proof using M P.
    intros Hj E. apply K_Div_unique; [exact Hj| |]; unfold line_conduction, conductive_flux, mean; rewrite !E; unfold Rdiv; ring.
  Qed.
  Lemma K_Div_const K f v j : (ystart m <= j < ystart m + Z.of_nat n)%Z -> (forall j, f j = v) -> K_Div m c K f j = 0.
  Proof using M P.
    intros Hj E. pose proof (volume_pos j) as W. apply (Rmult_eq_reg_l (cell_volume (c_J c) (c_dy c) j)); [|lra].
    rewrite K_Div_cell by exact Hj. unfold line_conduction, conductive_flux, jump. rewrite !E. replace (v - v) with 0 by ring. unfold Rdiv. ring.
  Qed.
  Lemma K_Div_total K f :
    total (cell_volume (c_J c) (c_dy c)) (ystart m) n (K_Div m c K f) = line_conduction c K f (ystart m + Z.of_nat n) - line_conduction c K f (ystart m).
  Proof using M P. apply (total_flux_form _ _ _ _ (line_conduction c K f)). intros j Hj. now apply K_Div_cell. Qed.

  (** The flux has the sign of the difference. *)
  Lemma flux_coefficient K f j : 0 <= K j -> 0 <= K (j - 1)%Z -> exists k, 0 <= k /\ line_conduction c K f j = k * jump f j.
  Proof using P.
    intros H1 H2. exists (mean K j * mean (c_J c) j / mean (c_g22 c) j / mean (c_dy c) j). split.
    - pose proof (mean_pos (c_g22 c) j (fun i => proj1 (proj2 (P i)))) as A. pose proof (mean_pos (c_dy c) j (fun i => proj2 (proj2 (P i)))) as B.
      pose proof (mean_pos (c_J c) j (fun i => proj1 (P i))) as C. assert (0 <= mean K j) by (unfold mean; lra).
      unfold Rdiv. apply Rmult_le_pos; [|left; now apply Rinv_0_lt_compat].
      apply Rmult_le_pos; [|left; now apply Rinv_0_lt_compat]. apply Rmult_le_pos; lra.
    - unfold line_conduction, conductive_flux, Rdiv. ring.
  Qed.
  Lemma flux_down K f j : 0 <= K j -> 0 <= K (j - 1)%Z ->
    (f j <= f (j - 1)%Z -> line_conduction c K f j <= 0) /\ (f (j - 1)%Z <= f j -> 0 <= line_conduction c K f j).
  Proof using P.
    intros H1 H2. destruct (flux_coefficient K f j H1 H2) as (k & Hk & ->). unfold jump. split; intros H; nra.
  Qed.

  (** ** Neutrals *)

  Context (o : npd) (s : neutral).
  Lemma log_floor_monotone x y : x <= y -> ln (rfloor x 1e-7) <= ln (rfloor y 1e-7).
  Proof using.
    intros H. unfold rfloor. pose proof (Rltb_spec x 1e-7) as HX. pose proof (Rltb_spec y 1e-7) as HY.
    destruct (Rltb x 1e-7), (Rltb y 1e-7).
    - lra.
    - destruct HY as [HY|HY]; [left; apply ln_increasing; lra|rewrite <- HY; lra].
    - exfalso. lra.
    - destruct H as [H|H]; [left; apply ln_increasing; lra|rewrite H; lra].
  Qed.
  Lemma npd_down : (forall j, (ystart m <= j < ystart m + Z.of_nat n)%Z -> 0 <= n_N s j /\ 0 <= n_T s j /\ 0 < n_nu s j) -> 0 <= dneut o -> 0 < n_AA s ->
    exists G, (forall j, (ystart m <= j < ystart m + Z.of_nat n)%Z -> cell_volume (c_J c) (c_dy c) j * npd_S m c o s j = G (j + 1)%Z - G j) /\
      G (ystart m) = 0 /\ G (ystart m + Z.of_nat n)%Z = 0 /\
      forall j, (ystart m < j < ystart m + Z.of_nat n)%Z ->
        (npd_P s j <= npd_P s (j - 1)%Z -> G j <= 0) /\ (npd_P s (j - 1)%Z <= npd_P s j -> 0 <= G j).
  Proof using M P CL CH.
    intros HD H1 H2. exists (line_conduction c (fun j => npd_D m o s j * n_N s j) (npd_logP m s)). repeat split.
    - intros j Hj. now apply K_Div_cell.
    - apply neumann_no_flux.
    - apply neumann_no_flux.
    - intros HP. apply flux_down.
      + apply Rmult_le_pos; [|now apply HD; lia]. unfold npd_D. rewrite dirichlet_inside by lia. destruct (HD j ltac:(lia)) as (A & B & C).
        apply Rmult_le_pos; [now apply Rmult_le_pos|]. left. apply Rinv_0_lt_compat. now apply Rmult_lt_0_compat.
      + apply Rmult_le_pos; [|now apply HD; lia]. unfold npd_D. rewrite dirichlet_inside by lia. destruct (HD (j - 1)%Z ltac:(lia)) as (A & B & C).
        apply Rmult_le_pos; [now apply Rmult_le_pos|]. left. apply Rinv_0_lt_compat. now apply Rmult_lt_0_compat.
      + unfold npd_logP. rewrite !neumann_inside by lia. now apply log_floor_monotone.
    - intros HP. apply flux_down.
      + apply Rmult_le_pos; [|now apply HD; lia]. unfold npd_D. rewrite dirichlet_inside by lia. destruct (HD j ltac:(lia)) as (A & B & C).
        apply Rmult_le_pos; [now apply Rmult_le_pos|]. left. apply Rinv_0_lt_compat. now apply Rmult_lt_0_compat.
      + apply Rmult_le_pos; [|now apply HD; lia]. unfold npd_D. rewrite dirichlet_inside by lia. destruct (HD (j - 1)%Z ltac:(lia)) as (A & B & C).
        apply Rmult_le_pos; [now apply Rmult_le_pos|]. left. apply Rinv_0_lt_compat. now apply Rmult_lt_0_compat.
      + unfold npd_logP. rewrite !neumann_inside by lia. now apply log_floor_monotone.
  Qed.
  Lemma npd_particles : total (cell_volume (c_J c) (c_dy c)) (ystart m) n (npd_S m c o s) = 0.
  Proof using M P CL CH.
    unfold npd_S. rewrite K_Div_total. unfold npd_logP. destruct (neumann_no_flux (fun j => npd_D m o s j * n_N s j) (fun j => ln (rfloor (npd_P s j) 1e-7))) as [-> ->].
    lra.
  Qed.
  Lemma npd_isobaric j : (ystart m <= j < ystart m + Z.of_nat n)%Z ->
    (forall i, (ystart m <= i < ystart m + Z.of_nat n)%Z -> npd_P s i = npd_P s (ystart m)) -> npd_S m c o s j = 0.
  Proof using M P CL CH.
    intros Hj HP. pose proof (volume_pos j) as W. apply (Rmult_eq_reg_l (cell_volume (c_J c) (c_dy c) j)); [|lra].
    unfold npd_S. rewrite K_Div_cell by exact Hj. rewrite Rmult_0_r.
    assert (E : forall i, (ystart m <= i <= ystart m + Z.of_nat n)%Z -> line_conduction c (fun j => npd_D m o s j * n_N s j) (npd_logP m s) i = 0).
    { intros i Hi. destruct (Z.eq_dec i (ystart m)) as [->|]; [apply neumann_no_flux|].
      destruct (Z.eq_dec i (ystart m + Z.of_nat n)) as [->|]; [apply neumann_no_flux|].
      unfold line_conduction, conductive_flux, jump, npd_logP. rewrite !neumann_inside by lia. rewrite (HP i), (HP (i - 1)%Z) by lia.
      match goal with |- context [?x - ?x] => replace (x - x) with 0 by ring end. unfold Rdiv. ring. }
    rewrite !E by lia. lra.
  Qed.
  Lemma npd_isothermal T0 j : (ystart m <= j < ystart m + Z.of_nat n)%Z ->
    (forall i, n_T s i = T0) -> (forall i, npd_P s i = n_N s i * T0) -> npd_E m c o s j = advection_factor o * T0 * npd_S m c o s j.
  Proof using M P.
    intros Hj HT HP. unfold npd_E.
    rewrite (K_Div_scale (advection_factor o * T0) (fun j => npd_D m o s j * n_N s j)) by (exact Hj || (intros i; rewrite HP; ring)).
    rewrite (K_Div_const (npd_kappa m o s) (n_T s) T0) by assumption. unfold npd_S. destruct (thermal_conduction o); ring.
  Qed.
  Lemma npd_uniform_flow V V0 j F : (ystart m <= j < ystart m + Z.of_nat n)%Z ->
    n_V s = Some V -> (forall i, V i = V0) -> (forall i, n_NV s i = n_AA s * n_N s i * V0) -> npd_F m c o s = Some F ->
    F j = n_AA s * V0 * npd_S m c o s j.
  Proof using M P.
    intros Hj HV HV0 HNV HF. unfold npd_F in HF. rewrite HV in HF. destruct (viscosity o); [|discriminate HF]. injection HF as <-.
    rewrite (K_Div_scale (n_AA s * V0) (fun j => npd_D m o s j * n_N s j)) by (exact Hj || (intros i; rewrite HNV; ring)).
    rewrite (K_Div_const _ V V0) by assumption. unfold npd_S. ring.
  Qed.
  Lemma npd_energy :
    total (cell_volume (c_J c) (c_dy c)) (ystart m) n (npd_E m c o s)
    = if thermal_conduction o
      then line_conduction c (npd_kappa m o s) (n_T s) (ystart m + Z.of_nat n) - line_conduction c (npd_kappa m o s) (n_T s) (ystart m)
      else 0.
  Proof using M P CL CH.
    set (A := K_Div m c (fun j => npd_D m o s j * advection_factor o * npd_P s j) (npd_logP m s)).
    set (B := K_Div m c (npd_kappa m o s) (n_T s)).
    assert (EA : total (cell_volume (c_J c) (c_dy c)) (ystart m) n A = 0).
    { unfold A. rewrite K_Div_total. unfold npd_logP. destruct (neumann_no_flux (fun j => npd_D m o s j * advection_factor o * npd_P s j) (fun j => ln (rfloor (npd_P s j) 1e-7))) as [-> ->]. lra. }
    transitivity (total (cell_volume (c_J c) (c_dy c)) (ystart m) n (fun j => A j + (if thermal_conduction o then B j else 0))).
    - apply zsum_ext. intros j _. unfold npd_E. fold (A j) (B j). destruct (thermal_conduction o); ring.
    - unfold total. rewrite (zsum_ext _ _ _ (fun j => cell_volume (c_J c) (c_dy c) j * A j
         + cell_volume (c_J c) (c_dy c) j * (if thermal_conduction o then B j else 0))) by (intros; ring).
      rewrite zsum_plus. fold (total (cell_volume (c_J c) (c_dy c)) (ystart m) n A). rewrite EA.
      destruct (thermal_conduction o).
      + fold (total (cell_volume (c_J c) (c_dy c)) (ystart m) n B). unfold B. rewrite K_Div_total. lra.
      + rewrite (zsum_ext _ _ _ (fun _ => 0)) by (intros; ring). rewrite zsum_const. ring.
  Qed.
End Line.
