(** SOL-KiT neutrals, simple conduction, the stellarator two point model. *)

From Coq Require Import List Bool ZArith Reals Lra Lia String Permutation.
From Verif Require Import StateMonad StateMonadProofs ParallelModel ParallelSpec ParallelProofs DiffusionModel DiffusionSpec DiffusionProofs
  NumericProofs TransportModel TransportSpec TransportProofs TransportLaws.
Import ListNotations.
Open Scope R_scope.

Ltac check := vm_compute; first [ reflexivity | intros E; discriminate E ].

(** ** SOL-KiT neutrals *)

Lemma inv_mfp_from Nnorm rho_s0 all v : 0 < Nnorm -> 0 < rho_s0 ->
  fold_left (inv_mfp_step (solkit_area Nnorm rho_s0)) all v = v + rho_s0 * collision_sum Nnorm all.
Proof.
  intros HN Hr. revert v. induction all as [|s rest IH]; intros v; cbn [fold_left collision_sum]; [ring|]. rewrite IH.
  unfold inv_mfp_step, cross_section, solkit_area. destruct (String.eqb (pt_name s) "e"), (charged s); cbn [negb andb]; field; lra.
Qed.
Lemma inv_mfp_is Nnorm rho_s0 all : 0 < Nnorm -> 0 < rho_s0 -> inv_mfp (solkit_area Nnorm rho_s0) all = rho_s0 * collision_sum Nnorm all.
Proof. intros HN Hr. unfold inv_mfp. rewrite inv_mfp_from by assumption. ring. Qed.
Lemma cross_section_pos s : 0 < cross_section s.
Proof. unfold cross_section. destruct (_ && _)%bool; lra. Qed.
Lemma collision_sum_nonneg Nnorm all : 0 < Nnorm -> (forall s, List.In s all -> 0 <= pt_density s) -> 0 <= collision_sum Nnorm all.
Proof.
  intros HN. induction all as [|s rest IH]; intros H; cbn [collision_sum]; [lra|].
  pose proof (cross_section_pos s). pose proof (H s (or_introl eq_refl)). specialize (IH (fun t Ht => H t (or_intror Ht))).
  apply Rplus_le_le_0_compat; [|exact IH]. apply Rmult_le_pos; [lra|]. apply Rmult_le_pos; lra.
Qed.
Lemma collision_sum_pos Nnorm all : 0 < Nnorm -> (forall s, List.In s all -> 0 <= pt_density s) -> (exists s, List.In s all /\ 0 < pt_density s) ->
  0 < collision_sum Nnorm all.
Proof.
  intros HN. induction all as [|s rest IH]; intros H [x [Hx Hp]]; [destruct Hx|]. cbn [collision_sum].
  pose proof (cross_section_pos s) as C. pose proof (H s (or_introl eq_refl)) as D.
  assert (R0 : 0 <= collision_sum Nnorm rest) by (apply collision_sum_nonneg; [exact HN|]; intros t Ht; apply H; right; exact Ht).
  assert (S0 : 0 <= cross_section s * (pt_density s * Nnorm)) by (apply Rmult_le_pos; [lra|apply Rmult_le_pos; lra]).
  destruct Hx as [->|Hx].
  - assert (0 < cross_section x * (pt_density x * Nnorm)) by (apply Rmult_lt_0_compat; [lra|apply Rmult_lt_0_compat; lra]). lra.
  - assert (0 < collision_sum Nnorm rest) by (apply IH; [intros t Ht; apply H; right; exact Ht|exists x; auto]). lra.
Qed.
Lemma collision_sum_perm Nnorm all all' : Permutation all all' -> collision_sum Nnorm all = collision_sum Nnorm all'.
Proof. induction 1; cbn [collision_sum]; lra. Qed.

Lemma solkit_SI Nnorm rho_s0 Omega Tnorm qe Mp T AA all :
  0 < Nnorm -> 0 < rho_s0 -> 0 < Omega -> 0 < Tnorm -> 0 < qe -> 0 < Mp -> 0 < T -> 0 < AA ->
  rho_s0 * Omega = sqrt (qe * Tnorm / Mp) ->
  (forall s, List.In s all -> 0 <= pt_density s) -> (exists s, List.In s all /\ 0 < pt_density s) ->
  rho_s0 * rho_s0 * Omega * solkit_D (solkit_area Nnorm rho_s0) (T / Tnorm) AA all
  = sqrt (2 * (qe * T) / (AA * Mp)) / (2 * collision_sum Nnorm all).
Proof.
  intros HN Hr HO HT Hq HM HTT HA E Hd Hx. pose proof (collision_sum_pos Nnorm all HN Hd Hx) as C.
  unfold solkit_D. rewrite inv_mfp_is by assumption.
  transitivity (rho_s0 * Omega * sqrt (2 * (T / Tnorm) / AA) / (2 * collision_sum Nnorm all)); [field; lra|].
  f_equal. rewrite E. rewrite <- sqrt_mult_alt.
  - f_equal. field. lra.
  - unfold Rdiv. apply Rmult_le_pos; [apply Rmult_le_pos; lra|]. left. now apply Rinv_0_lt_compat.
Qed.
Lemma solkit_order area T AA all all' : 0 < area -> Permutation all all' -> solkit_D area T AA all = solkit_D area T AA all'.
Proof.
  intros Ha Hp. unfold solkit_D. f_equal. f_equal. unfold inv_mfp.
  assert (G : forall (l : list particle) v, fold_left (inv_mfp_step area) l v = v + fold_left (inv_mfp_step area) l 0).
  { induction l as [|s r IH]; intros v; cbn [fold_left]; [ring|]. rewrite (IH (inv_mfp_step area v s)), (IH (inv_mfp_step area 0 s)).
    unfold inv_mfp_step. destruct (String.eqb _ _); [ring|]. destruct (charged s); ring. }
  induction Hp as [|x l l' Hp IH|x y l|l l' l'' H1 IH1 H2 IH2].
  - reflexivity.
  - cbn [fold_left]. rewrite (G l), (G l'), IH. reflexivity.
  - cbn [fold_left]. rewrite (G l (inv_mfp_step area (inv_mfp_step area 0 y) x)), (G l (inv_mfp_step area (inv_mfp_step area 0 x) y)). f_equal.
    unfold inv_mfp_step. destruct (String.eqb (pt_name x) "e"), (String.eqb (pt_name y) "e"), (charged x), (charged y); ring.
  - congruence.
Qed.
Lemma inv_mfp_nonneg area all : 0 < area -> (forall s, List.In s all -> 0 <= pt_density s) -> 0 <= inv_mfp area all.
Proof.
  intros Ha. unfold inv_mfp. assert (G : forall (l : list particle) v, 0 <= v -> (forall s, List.In s l -> 0 <= pt_density s) -> 0 <= fold_left (inv_mfp_step area) l v).
  { induction l as [|s r IH]; intros v Hv Hd; cbn [fold_left]; [exact Hv|]. apply IH; [|intros t Ht; apply Hd; right; exact Ht].
    pose proof (Hd s (or_introl eq_refl)) as D. unfold inv_mfp_step.
    assert (A1 : 0 <= 8.8e-21 / area) by (apply Rmult_le_pos; [lra|left; now apply Rinv_0_lt_compat]).
    assert (A2 : 0 <= 3e-19 / area) by (apply Rmult_le_pos; [lra|left; now apply Rinv_0_lt_compat]).
    destruct (String.eqb _ _); [|destruct (charged s)].
    - pose proof (Rmult_le_pos _ _ A1 D). lra.
    - pose proof (Rmult_le_pos _ _ A2 D). lra.
    - pose proof (Rmult_le_pos _ _ A1 D). lra. }
  apply G. lra.
Qed.
Lemma solkit_D_nonneg area T AA all : 0 < area -> (forall s, List.In s all -> 0 <= pt_density s) -> 0 <= solkit_D area T AA all.
Proof.
  intros Ha Hd. unfold solkit_D. pose proof (inv_mfp_nonneg area all Ha Hd) as I. unfold Rdiv at 1.
  apply Rmult_le_pos; [apply sqrt_pos|]. destruct I as [I|I]; [left; apply Rinv_0_lt_compat; lra|].
  rewrite <- I, Rmult_0_r, Rinv_0. lra.
Qed.

Section SolkitLine.
  Context (m : mesh) (n : nat) (c : coords).
  Hypothesis M : mesh_ok m n.
  Hypothesis P : positive_metric c.
  Hypothesis CL : closed_low m = true.
  Hypothesis CH : closed_high m = true.
  Lemma solkit_down area T AA all Nn : 0 < area -> 0 < T ->
    (forall j, (ystart m <= j < ystart m + Z.of_nat n)%Z -> 0 <= Nn j /\ forall s, List.In s (all j) -> 0 <= pt_density s) ->
    exists G, (forall j, (ystart m <= j < ystart m + Z.of_nat n)%Z ->
                cell_volume (c_J c) (c_dy c) j * solkit_S m c area T AA all Nn j = G (j + 1)%Z - G j) /\
      G (ystart m) = 0 /\ G (ystart m + Z.of_nat n)%Z = 0 /\
      forall j, (ystart m < j < ystart m + Z.of_nat n)%Z -> (Nn j <= Nn (j - 1)%Z -> G j <= 0) /\ (Nn (j - 1)%Z <= Nn j -> 0 <= G j).
  Proof using M P CL CH.
    intros Ha HT HD. set (Dn := dirichlet_o2 m (fun j => solkit_D area T AA (all j))).
    set (L := neumann m (fun j => ln (rfloor (Nn j * T) 1e-7))).
    exists (line_conduction c (fun j => Dn j * Nn j) L).
    assert (K0 : forall j, (ystart m <= j < ystart m + Z.of_nat n)%Z -> 0 <= Dn j * Nn j).
    { intros j Hj. destruct (HD j Hj) as [A B]. apply Rmult_le_pos; [|exact A]. unfold Dn. rewrite (dirichlet_inside m n) by assumption.
      now apply solkit_D_nonneg. }
    repeat split.
    - intros j Hj. now apply (K_Div_cell m n).
    - now apply (neumann_no_flux m n).
    - now apply (neumann_no_flux m n).
    - intros HN. apply flux_down; [exact P|apply K0; lia|apply K0; lia|]. unfold L. rewrite !(neumann_inside m n) by (assumption || lia).
      apply log_floor_monotone. apply Rmult_le_compat_r; lra.
    - intros HN. apply flux_down; [exact P|apply K0; lia|apply K0; lia|]. unfold L. rewrite !(neumann_inside m n) by (assumption || lia).
      apply log_floor_monotone. apply Rmult_le_compat_r; lra.
  Qed.

  (** ** Heat conduction *)

  Lemma conduction_down K T : (forall j, (ystart m <= j < ystart m + Z.of_nat n)%Z -> 0 <= K j) ->
    exists G, (forall j, (ystart m <= j < ystart m + Z.of_nat n)%Z ->
                cell_volume (c_J c) (c_dy c) j * fst (Div_par_K_Grad_par_mod m c K T false j) = G (j + 1)%Z - G j) /\
      G (ystart m) = 0 /\ G (ystart m + Z.of_nat n)%Z = 0 /\
      forall j, (ystart m < j < ystart m + Z.of_nat n)%Z -> (T j <= T (j - 1)%Z -> G j <= 0) /\ (T (j - 1)%Z <= T j -> 0 <= G j).
  Proof using M P CL CH.
    intros K0. exists (K_face m c K T false). destruct (K_face_closed m n c K T M CL CH) as [E1 E2]. repeat split; auto.
    - intros j Hj. now apply (K_cell m n).
    - intros HT. unfold K_face. destruct (closed_face m false j); [lra|]. apply flux_down; [exact P|apply K0; lia|apply K0; lia|exact HT].
    - intros HT. unfold K_face. destruct (closed_face m false j); [lra|]. apply flux_down; [exact P|apply K0; lia|apply K0; lia|exact HT].
  Qed.

  (** ** Two point model *)

  Lemma stpm_weighted o AA N T NV : (forall j, st_Theta o j <> 0) ->
    let '(Sn, F, E) := stpm_transform m c o AA N T NV in
    let W := fun j => st_Theta o j * cell_volume (c_J c) (c_dy c) j in
    total W (ystart m) n Sn = 0 /\ total W (ystart m) n F = 0 /\ total W (ystart m) n E = 0.
  Proof using M P CL CH.
    intros HT. unfold stpm_transform. cbv zeta beta iota.
    assert (G : forall K f, total (fun j => st_Theta o j * cell_volume (c_J c) (c_dy c) j) (ystart m) n
                  (fun j => 1 / st_Theta o j * fst (Div_par_K_Grad_par_mod m c K f false j)) = 0).
    { intros K f. transitivity (total (cell_volume (c_J c) (c_dy c)) (ystart m) n (fun j => fst (Div_par_K_Grad_par_mod m c K f false j))).
      - apply zsum_ext. intros j _. pose proof (HT j). field. assumption.
      - rewrite (K_total m n) by assumption. destruct (K_face_closed m n c K f M CL CH) as [-> ->]. lra. }
    repeat split; apply G.
  Qed.
End SolkitLine.

(** ** Braginskii conduction *)

Lemma Rpower_15 x : 0 < x -> Rpower x 1.5 = x * sqrt x.
Proof. intros H. replace 1.5 with (1 + / 2) by lra. rewrite Rpower_plus, Rpower_1, Rpower_sqrt by exact H. reflexivity. Qed.
Lemma Rpower_25 x : 0 < x -> Rpower x 2.5 = x * x * sqrt x.
Proof. intros H. replace 2.5 with (1 + (1 + / 2)) by lra. rewrite !Rpower_plus, !Rpower_1, Rpower_sqrt by exact H. ring. Qed.
Lemma sqrt_1p x : 0 <= x -> x = sqrt x * sqrt x.
Proof. intros. symmetry. now apply sqrt_sqrt. Qed.

Lemma conduction_SI si (electrons : bool) coef Tnorm Nnorm rho_s0 Omega fixed_T fixed_N AA N T :
  0 < si_Mp si -> 0 < si_qe si -> 0 < si_e0 si -> 0 < Tnorm -> 0 < Nnorm -> 0 < rho_s0 -> 0 < Omega -> 0 < AA -> 0 < N -> 0 < T ->
  fixed_T <= 0 -> fixed_N <= 0 ->
  rho_s0 * rho_s0 * (Omega * Omega) = si_qe si * Tnorm / si_Mp si ->
  let lnL := 6.6 - 0.5 * ln (N * Nnorm / 1e20) + 1.5 * ln (T * Tnorm) in
  lnL <> 0 ->
  Nnorm * (rho_s0 * rho_s0) * Omega * kappa_par (kappa0 si electrons coef Tnorm Nnorm Omega) Nnorm Tnorm fixed_T fixed_N AA N T
  = conductivity coef (N * Nnorm) (si_qe si * Tnorm * T)
      (tau si electrons lnL (AA * si_Mp si) (N * Nnorm) (si_qe si * Tnorm * T)) (AA * si_Mp si).
Proof.
  intros HM Hq He HT HN Hr HO HA Hn Ht HfT HfN ER lnL HL.
  unfold kappa_par, coefficient_value.
  replace (Rltb 0 fixed_T) with false by (symmetry; apply Rltb_false; lra). replace (Rltb 0 fixed_N) with false by (symmetry; apply Rltb_false; lra).
  unfold coulomb_log. fold lnL. rewrite Rpower_25 by exact Ht.
  assert (HP : 0 < PI) by apply PI_RGT_0.
  assert (K : kappa0 si electrons coef Tnorm Nnorm Omega
    = coef * (if electrons then 6 * sqrt 2 else 12) * sqrt (si_Mp si) * (PI * sqrt PI) * (si_qe si * Tnorm * sqrt (si_qe si * Tnorm))
      * (si_e0 si * si_e0 si) / (si_qe si * si_qe si * si_qe si * si_qe si * Nnorm) * Omega).
  { unfold kappa0, SQ. rewrite Rpower_15 by (apply Rmult_lt_0_compat; [apply Rmult_lt_0_compat|]; assumption).
    replace (PI * si_qe si * Tnorm) with (PI * (si_qe si * Tnorm)) by ring.
    assert (HqT0 : 0 < si_qe si * Tnorm) by now apply Rmult_lt_0_compat. rewrite (sqrt_mult PI (si_qe si * Tnorm)) by lra. destruct electrons.
    - rewrite (sqrt_mult 2 (si_Mp si)) by lra. field. lra.
    - field. lra. }
  rewrite K. unfold conductivity, tau. set (X := if electrons then _ else _).
  assert (HqT : 0 < si_qe si * Tnorm) by now apply Rmult_lt_0_compat.
  rewrite (sqrt_mult (si_qe si * Tnorm) T), (sqrt_mult AA (si_Mp si)) by lra.
  assert (SA : 0 < sqrt AA) by now apply sqrt_lt_R0. assert (SM : 0 < sqrt (si_Mp si)) by now apply sqrt_lt_R0.
  pose proof (sqrt_sqrt AA ltac:(lra)) as QA. pose proof (sqrt_sqrt (si_Mp si) ltac:(lra)) as QM.
  set (sA := sqrt AA) in *. set (sM := sqrt (si_Mp si)) in *. set (sP := sqrt PI). set (sq := sqrt (si_qe si * Tnorm)). set (sT := sqrt T).
  transitivity (rho_s0 * rho_s0 * (Omega * Omega) * (coef * X * sM * (PI * sP) * (si_qe si * Tnorm * sq) * (si_e0 si * si_e0 si)
     / (si_qe si * si_qe si * si_qe si * si_qe si) * (T * T * sT) / (lnL * sA))).
  - field. repeat split; lra.
  - rewrite ER. rewrite <- QA, <- QM. field. repeat split; lra.
Qed.

Lemma coulomb_log_hot Nnorm Tnorm N T : 0 < N * Nnorm -> N * Nnorm <= 1e25 -> 1 <= T * Tnorm -> 0 < coulomb_log Nnorm Tnorm N T.
Proof.
  intros H0 H1 H2. unfold coulomb_log.
  assert (A : ln (N * Nnorm / 1e20) <= 12).
  { apply ln_le; [apply Rmult_lt_0_compat; [exact H0|apply Rinv_0_lt_compat; lra]|].
    apply Rle_trans with 100000; [apply (Rmult_le_reg_r 1e20); [lra|]; unfold Rdiv; rewrite Rmult_assoc, Rinv_l by lra; lra|].
    replace 12 with (IZR 12 / IZR 1) by field. replace 100000 with (IZR 100000 / IZR 1) by field.
    apply (exp_ge_check 48 (2 ^ 100)); check. }
  assert (B : 0 <= ln (T * Tnorm)).
  { rewrite <- ln_1. destruct H2 as [H2|H2]; [left; apply ln_increasing; lra|rewrite <- H2; lra]. }
  lra.
Qed.
Lemma coulomb_log_cold Nnorm Tnorm N T : 1e20 <= N * Nnorm -> 0 < T * Tnorm -> T * Tnorm <= 0.01 -> coulomb_log Nnorm Tnorm N T < 0.
Proof.
  intros H0 H1 H2. unfold coulomb_log.
  assert (A : 0 <= ln (N * Nnorm / 1e20)).
  { rewrite <- ln_1. assert (Q : 1 <= N * Nnorm / 1e20) by (apply (Rmult_le_reg_r 1e20); [lra|]; unfold Rdiv; rewrite Rmult_assoc, Rinv_l by lra; lra).
    destruct Q as [Q|Q]; [left; apply ln_increasing; lra|rewrite <- Q; lra]. }
  assert (B : ln (T * Tnorm) <= - (9 / 2)).
  { apply ln_le; [exact H1|]. apply Rle_trans with 0.01; [exact H2|]. rewrite exp_Ropp.
    apply (Rmult_le_reg_r (exp (9 / 2))); [apply exp_pos|]. rewrite Rinv_l by (pose proof (exp_pos (9 / 2)); lra).
    assert (E : exp (9 / 2) <= 100).
    { replace 100 with (IZR 100 / IZR 1) by field. replace (9 / 2) with (IZR 9 / IZR 2) by lra. apply (exp_le_check 48 (2 ^ 100)); check. }
    lra. }
  lra.
Qed.
Lemma kappa0_pos si (electrons : bool) coef Tnorm Nnorm Omega : 0 < si_Mp si -> 0 < si_qe si -> 0 < si_e0 si -> 0 < coef -> 0 < Tnorm -> 0 < Nnorm -> 0 < Omega ->
  0 < kappa0 si electrons coef Tnorm Nnorm Omega.
Proof.
  intros HM Hq He HC HT HN HO. assert (HP : 0 < PI) by apply PI_RGT_0. unfold kappa0, SQ.
  assert (A : 0 < Rpower (PI * si_qe si * Tnorm) 1.5) by (apply exp_pos).
  assert (B : 0 < / (si_qe si * si_qe si * (si_qe si * si_qe si) * Nnorm)) by (apply Rinv_0_lt_compat; repeat apply Rmult_lt_0_compat; assumption).
  assert (C : 0 < sqrt (2 * si_Mp si)) by (apply sqrt_lt_R0; lra). assert (D : 0 < sqrt (si_Mp si)) by (apply sqrt_lt_R0; lra).
  assert (E : 0 < si_e0 si * si_e0 si) by now apply Rmult_lt_0_compat.
  unfold Rdiv. set (r := Rpower _ _) in *. set (b := / _) in *.
  assert (S1 : 0 < 6) by lra. assert (S2 : 0 < 12) by lra.
  destruct electrons; repeat (apply Rmult_lt_0_compat; [|assumption]); assumption.
Qed.
