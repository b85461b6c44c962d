(** Lemmas: collision frequencies against the reference formulas. *)

From Coq Require Import List Bool String Reals Lra Lia.
From Verif Require Import OptionsModel StateMonad StateMonadProofs CollisionsModel CollisionRatesSpec NumericProofs.
Import ListNotations.
Open Scope R_scope.
Open Scope string_scope.

Lemma power_15 x : 0 < x -> Rpower x 1.5 = x * sqrt x.
Proof.
  intros H. replace 1.5 with (1 + / 2) by lra. rewrite Rpower_plus, Rpower_1, Rpower_sqrt by assumption. reflexivity.
Qed.
Lemma rfloor_up x f : f <= x -> rfloor x f = x.
Proof. intros H. unfold rfloor. rewrite Rltb_false by lra. reflexivity. Qed.

Definition lambda_ee (Te Ne : R) : R := 30.4 - 0.5 * ln Ne + 5 / 4 * ln Te - sqrt (1e-5 + SQ (ln Te - 2) / 16).
Definition lambda_ii (temperature1 density1 AA1 Z1 temperature2 density2 AA2 Z2 : R) : R :=
  29.91 - ln (ii_log_argument temperature1 density1 AA1 Z1 temperature2 density2 AA2 Z2).

Lemma ee_formula c Te Ne : 0 < qe c -> 0 < Me c -> 0 < e0 c -> 0.1 <= Te -> 1e10 <= Ne ->
  nu_ee c Te Ne = coulomb_frequency (e0 c) (qe c) (Me c) (Te * qe c) (qe c) (Me c) (Te * qe c) Ne (Rmax (lambda_ee Te Ne) 1).
Proof.
  intros Hq Hm He HT HN. unfold nu_ee, coulomb_frequency. rewrite (rfloor_up Te), (rfloor_up Ne 1e10), (rfloor_up Ne 0) by lra.
  fold (lambda_ee Te Ne). rewrite rfloor_Rmax. cbv zeta. set (L := Rmax _ 1).
  assert (W : 0 < 2 * Te * qe c / Me c) by (apply Rdiv_lt_0_compat; [apply Rmult_lt_0_compat; lra|lra]).
  pose proof PI_RGT_0 as P.
  replace (2 * (Te * qe c) / Me c + 2 * (Te * qe c) / Me c) with (2 * (2 * Te * qe c / Me c)) by (field; lra).
  rewrite power_15 by (apply Rmult_lt_0_compat; lra).
  replace (PI * (2 * (2 * Te * qe c / Me c))) with (PI * 2 * (2 * Te * qe c / Me c)) by ring.
  set (w := 2 * Te * qe c / Me c) in *. set (r := sqrt (PI * 2 * w)).
  assert (0 < r) by (apply sqrt_lt_R0; apply Rmult_lt_0_compat; lra).
  unfold SQ. field. repeat split; lra.
Qed.

Lemma ei_formula c Te Ne Ti Ni Zi Ai : 0 < qe c -> 0 < Me c -> 0 < Mp c -> 0 < e0 c -> 0 < Ai -> 0.1 <= Te -> 0.1 <= Ti -> 0 <= Ni ->
  nu_ei c Te Ne Ti Ni Zi Ai
  = coulomb_frequency (e0 c) (qe c) (Me c) (Te * qe c) (Zi * qe c) (Mp c * Ai) (Ti * qe c) Ni (Rmax (ei_coulomb_log c Te Ne Ti Ni Zi Ai) 1) * ei_multiplier c.
Proof.
  intros Hq Hm Hp He HA HT HTi HN. unfold nu_ei. cbv zeta.
  rewrite (rfloor_up Te), (rfloor_up Ti), (rfloor_up Ni) by lra. rewrite rfloor_Rmax. set (L := Rmax _ 1).
  unfold coulomb_frequency.
  assert (HM : 0 < Mp c * Ai) by (apply Rmult_lt_0_compat; lra).
  assert (W1 : 0 < 2 * Te * qe c / Me c) by (apply Rdiv_lt_0_compat; [apply Rmult_lt_0_compat; lra|lra]).
  assert (W2 : 0 < 2 * Ti * qe c / (Mp c * Ai)) by (apply Rdiv_lt_0_compat; [apply Rmult_lt_0_compat; lra|lra]).
  pose proof PI_RGT_0 as P.
  replace (2 * (Te * qe c) / Me c) with (2 * Te * qe c / Me c) by (field; lra).
  replace (2 * (Ti * qe c) / (Mp c * Ai)) with (2 * Ti * qe c / (Mp c * Ai)) by (field; lra).
  set (w := 2 * Te * qe c / Me c + 2 * Ti * qe c / (Mp c * Ai)) in *.
  assert (W : 0 < PI * w) by (apply Rmult_lt_0_compat; unfold w; lra).
  rewrite power_15 by assumption.
  assert (0 < sqrt (PI * w)) by (now apply sqrt_lt_R0).
  set (r := sqrt (PI * w)) in *. clearbody r. assert (0 < w) by (unfold w; lra). clearbody w.
  unfold SQ. field. repeat split; lra.
Qed.

Lemma ii_formula c T1 n1 A1 Z1 T2 n2 A2 Z2 : 0 < qe c -> 0 < Mp c -> 0 < e0 c -> 0 < A1 -> 0 < A2 -> 0.1 <= T1 -> 0.1 <= T2 ->
  1e10 <= n1 -> 1e10 <= n2 ->
  nu_ii c T1 n1 A1 Z1 T2 n2 A2 Z2
  = coulomb_frequency (e0 c) (Z1 * qe c) (A1 * Mp c) (T1 * qe c) (Z2 * qe c) (A2 * Mp c) (T2 * qe c) n2 (Rmax (lambda_ii T1 n1 A1 Z1 T2 n2 A2 Z2) 1).
Proof.
  intros Hq Hp He HA1 HA2 HT1 HT2 HN1 HN2. unfold nu_ii. cbv zeta.
  rewrite (rfloor_up T1), (rfloor_up T2), (rfloor_up n1), (rfloor_up n2) by lra.
  fold (lambda_ii T1 n1 A1 Z1 T2 n2 A2 Z2). rewrite rfloor_Rmax. set (L := Rmax _ 1).
  unfold coulomb_frequency.
  assert (HM1 : 0 < A1 * Mp c) by (apply Rmult_lt_0_compat; lra).
  assert (HM2 : 0 < A2 * Mp c) by (apply Rmult_lt_0_compat; lra).
  assert (W1 : 0 < 2 * T1 * qe c / (A1 * Mp c)) by (apply Rdiv_lt_0_compat; [apply Rmult_lt_0_compat; lra|lra]).
  assert (W2 : 0 < 2 * T2 * qe c / (A2 * Mp c)) by (apply Rdiv_lt_0_compat; [apply Rmult_lt_0_compat; lra|lra]).
  pose proof PI_RGT_0 as P.
  replace (2 * (T1 * qe c) / (A1 * Mp c)) with (2 * T1 * qe c / (A1 * Mp c)) by (field; lra).
  replace (2 * (T2 * qe c) / (A2 * Mp c)) with (2 * T2 * qe c / (A2 * Mp c)) by (field; lra).
  set (w := 2 * T1 * qe c / (A1 * Mp c) + 2 * T2 * qe c / (A2 * Mp c)) in *.
  assert (W : 0 < PI * w) by (apply Rmult_lt_0_compat; unfold w; lra).
  rewrite power_15 by assumption.
  assert (0 < sqrt (PI * w)) by (now apply sqrt_lt_R0).
  set (r := sqrt (PI * w)) in *. clearbody r. assert (0 < w) by (unfold w; lra). clearbody w.
  unfold SQ. field. repeat split; lra.
Qed.

(** Neutrals.  Cs and rho_s0 as in src/../hermes-3.cxx: Cs^2 = qe Tnorm / Mp, rho_s0 = Cs / Omega_ci. *)
Lemma neutral_formula c a0 T1 A1 T2 n2 A2 Cs : 0 < Tnorm c -> 0 < Mp c -> 0 < Omega_ci c -> 0 <= Cs -> Cs * Cs = qe c * Tnorm c / Mp c ->
  rho_s0 c = Cs / Omega_ci c -> 0 < A1 -> 0 < A2 -> 0 <= T1 -> 0 <= T2 ->
  nu_neutral c a0 T1 A1 T2 n2 A2 * Omega_ci c = sphere_frequency (A1 * Mp c) (T1 * qe c) (A2 * Mp c) (T2 * qe c) n2 a0.
Proof.
  intros HT HM HO HC HCs Hr HA1 HA2 H1 H2. unfold nu_neutral, sphere_frequency. rewrite Hr.
  assert (P1 : 0 <= T1 / (Tnorm c * A1)) by (apply Rmult_le_pos; [assumption|left; apply Rinv_0_lt_compat; apply Rmult_lt_0_compat; lra]).
  assert (P2 : 0 <= T2 / (Tnorm c * A2)) by (apply Rmult_le_pos; [assumption|left; apply Rinv_0_lt_compat; apply Rmult_lt_0_compat; lra]).
  replace (T1 * qe c / (A1 * Mp c) + T2 * qe c / (A2 * Mp c))
    with ((T1 / (Tnorm c * A1) + T2 / (Tnorm c * A2)) * (Cs * Cs)) by (rewrite HCs; field; lra).
  rewrite sqrt_mult by (try lra; apply Rmult_le_pos; assumption). rewrite sqrt_square by assumption. field. lra.
Qed.
Lemma en_formula c Te Nn Cs : 0 < Tnorm c -> 0 < Mp c -> 0 < Me c -> 0 < Omega_ci c -> 0 <= Cs -> Cs * Cs = qe c * Tnorm c / Mp c ->
  rho_s0 c = Cs / Omega_ci c -> 0 <= Te ->
  nu_en c Te Nn * Omega_ci c = Nn * Nnorm c * 5e-19 * sqrt (Te * qe c / Me c).
Proof.
  intros HT HM HE HO HC HCs Hr H1. unfold nu_en. rewrite Hr.
  assert (P1 : 0 <= Mp c / Me c * Te / Tnorm c).
  { apply Rmult_le_pos; [apply Rmult_le_pos; [left; apply Rdiv_lt_0_compat; lra|lra]|left; apply Rinv_0_lt_compat; lra]. }
  replace (Te * qe c / Me c) with ((Mp c / Me c * Te / Tnorm c) * (Cs * Cs)) by (rewrite HCs; field; lra).
  rewrite sqrt_mult by (try lra; apply Rmult_le_pos; assumption). rewrite sqrt_square by assumption. field. lra.
Qed.

(** Coulomb logarithms. *)
Lemma ln_1000 : 6.9077 <= ln 1000 <= 6.9078.
Proof.
  assert (Hx : 6.907755278982 <= ln 1000 <= 6.907755278983).
  { split.
    - apply ln_ge. replace 6.907755278982 with (6907755278982 / 1000000000000) by lra. replace 1000 with (1000 / 1) by lra.
      apply (exp_le_check 60 (10 ^ 50)); vm_compute; reflexivity || (intros HH; discriminate HH).
    - apply ln_le; [lra|]. replace 6.907755278983 with (6907755278983 / 1000000000000) by lra. replace 1000 with (1000 / 1) by lra.
      apply (exp_ge_check 60 (10 ^ 50)); vm_compute; reflexivity || (intros HH; discriminate HH). }
  lra.
Qed.

Lemma ln_sqrt x : 0 < x -> ln (sqrt x) = ln x / 2.
Proof. intros H. pose proof (sqrt_lt_R0 x H) as P. rewrite <- (sqrt_sqrt x) at 2 by lra. rewrite ln_mult by assumption. lra. Qed.
Lemma ln_div x y : 0 < x -> 0 < y -> ln (x / y) = ln x - ln y.
Proof. intros. unfold Rdiv. rewrite ln_mult, ln_Rinv by (try apply Rinv_0_lt_compat; assumption). lra. Qed.
Lemma sqrt_cm n : 0 <= n -> sqrt (per_cm3 n) = sqrt n / 1000.
Proof.
  intros H. unfold per_cm3. replace (n / 1e6) with (n * Rsqr (1 / 1000)) by (unfold Rsqr; lra).
  rewrite sqrt_mult_alt by assumption. rewrite sqrt_Rsqr by lra. lra.
Qed.
Lemma Rpower_pos x y : 0 < Rpower x y.
Proof. unfold Rpower. apply exp_pos. Qed.
Lemma ln_Rpower x y : ln (Rpower x y) = y * ln x.
Proof. unfold Rpower. apply ln_exp. Qed.
Lemma SQ_pow x : SQ x = x ^ 2.
Proof. unfold SQ. ring. Qed.

Lemma lambda_ee_nrl n T : 0 < n -> 0 < T -> Rabs (lambda_ee T n - nrl_ee (per_cm3 n) T) <= 0.01.
Proof.
  intros Hn HT. unfold lambda_ee, nrl_ee. rewrite SQ_pow, sqrt_cm by lra. pose proof (sqrt_lt_R0 n Hn) as P. pose proof (Rpower_pos T 1.25) as Q.
  rewrite ln_div by (try assumption; lra). rewrite ln_div, ln_Rpower, ln_sqrt by lra.
  pose proof ln_1000 as L. apply Rabs_le. lra.
Qed.
Lemma lambda_ei_nrl c Te Ne Ti Ni Zi Ai : 0.1 <= Te -> 1e10 <= Ni -> 1e10 <= Ne -> 0 < Ti -> 0 < Zi -> 0 < Ai ->
  (Te < Ti * (Me c / (Mp c * Ai)) -> Rabs (ei_coulomb_log c Te Ne Ti Ni Zi Ai - nrl_ei_ions (per_cm3 Ni) Ti Zi Ai) <= 0.1) /\
  (Ti * (Me c / (Mp c * Ai)) <= Te -> Te < exp 2 * Zi ^ 2 -> Rabs (ei_coulomb_log c Te Ne Ti Ni Zi Ai - nrl_ei_cold (per_cm3 Ne) Te Zi) <= 0.1) /\
  (Ti * (Me c / (Mp c * Ai)) <= Te -> exp 2 * Zi ^ 2 <= Te -> Rabs (ei_coulomb_log c Te Ne Ti Ni Zi Ai - nrl_ei_hot (per_cm3 Ne) Te) <= 0.1).
Proof.
  intros HT HN1 HN2 HTi HZ HA. unfold ei_coulomb_log.
  rewrite (Rltb_false Te 0.1), (Rltb_false Ni), (Rltb_false Ne) by lra. cbn [orb]. rewrite SQ_pow.
  pose proof ln_1000 as L. pose proof (sqrt_lt_R0 Ne ltac:(lra)) as P1. pose proof (sqrt_lt_R0 Ni ltac:(lra)) as P2.
  assert (P3 : 0 < Zi ^ 2) by (apply pow_lt; assumption).
  split; [|split].
  - intros H. rewrite Rltb_true by assumption. unfold nrl_ei_ions. rewrite sqrt_cm by lra. pose proof (Rpower_pos Ti 1.5) as Q.
    assert (Q1 : 0 < sqrt Ni / 1000 / Rpower Ti 1.5) by (apply Rdiv_lt_0_compat; [lra|assumption]).
    rewrite (ln_mult (Zi ^ 2) Ai) by assumption.
    rewrite (ln_mult (sqrt Ni / 1000 / Rpower Ti 1.5 * Zi ^ 2) Ai) by (try assumption; apply Rmult_lt_0_compat; assumption).
    rewrite (ln_mult (sqrt Ni / 1000 / Rpower Ti 1.5) (Zi ^ 2)) by assumption.
    rewrite ln_div by (try assumption; lra). rewrite ln_div, ln_Rpower, ln_sqrt by lra. apply Rabs_le. lra.
  - intros H1 H2. rewrite (Rltb_false Te (Ti * _)) by lra. rewrite Rltb_true by assumption. unfold nrl_ei_cold. rewrite sqrt_cm by lra.
    pose proof (Rpower_pos Te 1.5) as Q.
    rewrite ln_div by (try assumption; apply Rmult_lt_0_compat; lra). rewrite ln_mult by lra. rewrite ln_div, ln_Rpower, ln_sqrt by lra.
    apply Rabs_le. lra.
  - intros H1 H2. rewrite (Rltb_false Te (Ti * _)) by lra. rewrite Rltb_false by lra. unfold nrl_ei_hot. rewrite sqrt_cm by lra.
    rewrite ln_div by lra. rewrite ln_div, ln_sqrt by lra. apply Rabs_le. lra.
Qed.
Lemma lambda_ii_nrl T1 n1 A1 Z1 T2 n2 A2 Z2 : 0 < T1 -> 0 < T2 -> 0 < n1 -> 0 < n2 -> 0 < A1 -> 0 < A2 -> 0 < Z1 * Z2 ->
  Rabs (lambda_ii T1 n1 A1 Z1 T2 n2 A2 Z2 - nrl_ii Z1 A1 T1 (per_cm3 n1) Z2 A2 T2 (per_cm3 n2)) <= 0.01.
Proof.
  intros HT1 HT2 Hn1 Hn2 HA1 HA2 HZ. unfold lambda_ii, nrl_ii, ii_log_argument.
  assert (Hz1 : Z1 <> 0) by (intros ->; lra). assert (Hz2 : Z2 <> 0) by (intros ->; lra).
  assert (S1 : 0 < Z1 ^ 2) by (replace (Z1 ^ 2) with (Rsqr Z1) by (unfold Rsqr; ring); now apply Rsqr_pos_lt).
  assert (S2 : 0 < Z2 ^ 2) by (replace (Z2 ^ 2) with (Rsqr Z2) by (unfold Rsqr; ring); now apply Rsqr_pos_lt).
  assert (X1 : 0 < n1 * Z1 ^ 2 / T1) by (apply Rdiv_lt_0_compat; [apply Rmult_lt_0_compat; assumption|assumption]).
  assert (X2 : 0 < n2 * Z2 ^ 2 / T2) by (apply Rdiv_lt_0_compat; [apply Rmult_lt_0_compat; assumption|assumption]).
  replace (per_cm3 n1 * Z1 ^ 2 / T1 + per_cm3 n2 * Z2 ^ 2 / T2) with (per_cm3 (n1 * Z1 ^ 2 / T1 + n2 * Z2 ^ 2 / T2)) by (unfold per_cm3; field; lra).
  rewrite !SQ_pow, sqrt_cm by lra. set (x := n1 * Z1 ^ 2 / T1 + n2 * Z2 ^ 2 / T2). assert (X : 0 < sqrt x) by (apply sqrt_lt_R0; unfold x; lra).
  assert (Y : 0 < Z1 * Z2 * (A1 + A2) / (A1 * T2 + A2 * T1)).
  { apply Rdiv_lt_0_compat; [apply Rmult_lt_0_compat; lra|]. apply Rplus_lt_0_compat; apply Rmult_lt_0_compat; assumption. }
  rewrite !(ln_mult (Z1 * Z2 * (A1 + A2) / (A1 * T2 + A2 * T1))) by (try assumption; lra). rewrite (ln_div (sqrt x) 1000) by lra.
  pose proof ln_1000 as L. apply Rabs_le. lra.
Qed.

Lemma lambda_ei_joins c Ne Ti Ni Zi Ai Te : 0.1 <= Te -> 1e10 <= Ni -> 1e10 <= Ne -> 0 < Zi -> Ti * (Me c / (Mp c * Ai)) <= Te ->
  Te = exp 2 * Zi ^ 2 -> ei_coulomb_log c Te Ne Ti Ni Zi Ai = 30 - 0.5 * ln Ne - ln Zi + 1.5 * ln Te.
Proof.
  intros HT HN1 HN2 HZ HTi E. unfold ei_coulomb_log. rewrite (Rltb_false Te 0.1), (Rltb_false Ni), (Rltb_false Ne) by lra. cbn [orb].
  rewrite (Rltb_false Te (Ti * _)) by lra. rewrite SQ_pow, Rltb_false by lra.
  assert (ln Te = 2 + 2 * ln Zi).
  { rewrite E. rewrite ln_mult by (try apply exp_pos; apply pow_lt; assumption). rewrite ln_exp.
    replace (Zi ^ 2) with (Zi * Zi) by ring. rewrite ln_mult by assumption. lra. }
  lra.
Qed.

Lemma neutral_reciprocal c a0 T1 A1 n1 T2 A2 n2 :
  nu_neutral c a0 T1 A1 T2 n2 A2 * n1 = nu_neutral c a0 T2 A2 T1 n1 A1 * n2.
Proof.
  unfold nu_neutral. rewrite (Rplus_comm (T2 / _)). ring.
Qed.

Lemma mom_coeff_table Z : (1 <= Z)%nat -> mom_coeff (INR Z) = braginskii_friction Z.
Proof.
  intros H. unfold mom_coeff. destruct Z as [|[|[|[|Z]]]]; [lia| | | |].
  - cbn [INR]. rewrite Reqb_true by reflexivity. reflexivity.
  - cbn [INR]. rewrite Reqb_false, Reqb_true by lra. reflexivity.
  - cbn [INR]. rewrite !Reqb_false, Reqb_true by lra. reflexivity.
  - rewrite !S_INR. pose proof (pos_INR Z). rewrite !Reqb_false by lra. reflexivity.
Qed.
Lemma friction_decreases Z1 Z2 : (Z1 <= Z2)%nat -> (1 <= Z1)%nat -> 0.38 <= braginskii_friction Z2 <= braginskii_friction Z1 /\ braginskii_friction Z1 <= 0.51.
Proof.
  intros H1 H2. destruct Z1 as [|[|[|[|Z1]]]], Z2 as [|[|[|[|Z2]]]]; try lia; cbn [braginskii_friction]; lra.
Qed.

(** The value 10 below 0.1 eV does not join the formula above. *)
Definition jump_config : config := mkConfig 1 1 1 1 true true true true true true true 1 1 1 1 1.
Lemma jump_scaled P Q D a b : 0 < P -> 0 < Q -> 0 < D -> 1.5 * a < b -> 1.5 * (P * a * Q / D * 1) < P * b * Q / D * 1.
Proof.
  intros HP HQ HD H. assert (K : 0 < P * Q / D) by (apply Rdiv_lt_0_compat; [apply Rmult_lt_0_compat; assumption|assumption]).
  replace (1.5 * (P * a * Q / D * 1)) with (1.5 * a * (P * Q / D)) by lra. replace (P * b * Q / D * 1) with (b * (P * Q / D)) by lra.
  now apply Rmult_lt_compat_r.
Qed.
Lemma cold_jump Te : Te < 0.1 -> 1.5 * nu_ei jump_config 0.1 (exp 40) 0.05 (exp 40) 1 1 < nu_ei jump_config Te (exp 40) 0.05 (exp 40) 1 1.
Proof.
  intros H. unfold nu_ei, ei_coulomb_log. cbv zeta. cbn [Me Mp qe e0 ei_multiplier jump_config].
  assert (E40 : 1e10 <= exp 40).
  { replace 40 with (40 / 1) by lra. replace 1e10 with (10000000000 / 1) by lra. apply (exp_ge_check 20 (10 ^ 30)); vm_compute; reflexivity || (intros HH; discriminate HH). }
  assert (E2 : 1 <= exp 2) by (rewrite <- exp_0 at 1; apply exp_monotone; lra).
  rewrite (Rltb_true Te 0.1) by assumption. cbn [orb]. rewrite (Rltb_false 0.1 0.1), !(Rltb_false (exp 40)) by lra. cbn [orb].
  rewrite (Rltb_false 0.1 (0.05 * _)) by lra. unfold SQ. rewrite (Rltb_true 0.1) by lra.
  rewrite ln_exp, ln_1. replace (ln 0.1) with (- (ln 1000 / 3)).
  2:{ replace 0.1 with (/ 10) by lra. rewrite ln_Rinv by lra. replace 1000 with (10 * 10 * 10) by lra. rewrite !ln_mult by lra. lra. }
  pose proof ln_1000 as L.
  assert (F1 : rfloor (30 - 0.5 * 40 - 0 + 1.5 * - (ln 1000 / 3)) 1 = 30 - 0.5 * 40 - 0 + 1.5 * - (ln 1000 / 3)) by (apply rfloor_up; lra).
  assert (F2 : rfloor 10 1 = 10) by (apply rfloor_up; lra). rewrite F1, F2.
  assert (F3 : rfloor Te 0.1 = 0.1) by (unfold rfloor; rewrite Rltb_true by lra; reflexivity).
  assert (F4 : rfloor 0.1 0.1 = 0.1) by (apply rfloor_up; lra). rewrite F3, F4.
  rewrite (rfloor_up (exp 40) 0) by lra.
  apply jump_scaled; [pose proof (exp_pos 40); lra|lra| |lra].
  apply Rmult_lt_0_compat; [apply Rmult_lt_0_compat; [lra|apply Rpower_pos]|lra].
Qed.

(** Statements with the logarithm quantified. *)
Lemma ee_reference c Te Ne : 0 < qe c -> 0 < Me c -> 0 < e0 c -> 0.1 <= Te -> 1e10 <= Ne ->
  exists lambda, Rabs (lambda - nrl_ee (per_cm3 Ne) Te) <= 0.01 /\
    nu_ee c Te Ne = coulomb_frequency (e0 c) (qe c) (Me c) (Te * qe c) (qe c) (Me c) (Te * qe c) Ne (Rmax lambda 1).
Proof.
  intros Hq Hm He HT HN. exists (lambda_ee Te Ne). split; [apply lambda_ee_nrl; lra|now apply ee_formula].
Qed.
Lemma ei_reference c Te Ne Ti Ni Zi Ai : 0 < qe c -> 0 < Me c -> 0 < Mp c -> 0 < e0 c -> 0 < Ai -> 0 < Zi -> 0.1 <= Te -> 0.1 <= Ti ->
  1e10 <= Ni -> 1e10 <= Ne ->
  exists lambda,
    (Te < Ti * (Me c / (Mp c * Ai)) -> Rabs (lambda - nrl_ei_ions (per_cm3 Ni) Ti Zi Ai) <= 0.1) /\
    (Ti * (Me c / (Mp c * Ai)) <= Te -> Te < exp 2 * Zi ^ 2 -> Rabs (lambda - nrl_ei_cold (per_cm3 Ne) Te Zi) <= 0.1) /\
    (Ti * (Me c / (Mp c * Ai)) <= Te -> exp 2 * Zi ^ 2 <= Te -> Rabs (lambda - nrl_ei_hot (per_cm3 Ne) Te) <= 0.1) /\
    nu_ei c Te Ne Ti Ni Zi Ai
    = coulomb_frequency (e0 c) (qe c) (Me c) (Te * qe c) (Zi * qe c) (Mp c * Ai) (Ti * qe c) Ni (Rmax lambda 1) * ei_multiplier c.
Proof.
  intros Hq Hm Hp He HA HZ HT HTi HN1 HN2. exists (ei_coulomb_log c Te Ne Ti Ni Zi Ai).
  destruct (lambda_ei_nrl c Te Ne Ti Ni Zi Ai) as (L1 & L2 & L3); try lra.
  split; [exact L1|]. split; [exact L2|]. split; [exact L3|]. apply ei_formula; lra.
Qed.
Lemma ii_reference c T1 n1 A1 Z1 T2 n2 A2 Z2 : 0 < qe c -> 0 < Mp c -> 0 < e0 c -> 0 < A1 -> 0 < A2 -> 0.1 <= T1 -> 0.1 <= T2 ->
  1e10 <= n1 -> 1e10 <= n2 -> 0 < Z1 * Z2 ->
  exists lambda, Rabs (lambda - nrl_ii Z1 A1 T1 (per_cm3 n1) Z2 A2 T2 (per_cm3 n2)) <= 0.01 /\
    nu_ii c T1 n1 A1 Z1 T2 n2 A2 Z2
    = coulomb_frequency (e0 c) (Z1 * qe c) (A1 * Mp c) (T1 * qe c) (Z2 * qe c) (A2 * Mp c) (T2 * qe c) n2 (Rmax lambda 1).
Proof.
  intros Hq Hp He HA1 HA2 HT1 HT2 HN1 HN2 HZ. exists (lambda_ii T1 n1 A1 Z1 T2 n2 A2 Z2).
  split; [apply lambda_ii_nrl; lra|apply ii_formula; assumption].
Qed.
(** The argument of the logarithm for ions of opposite charge. *)
Lemma ii_opposite T1 n1 A1 Z1 T2 n2 A2 Z2 : 0 < T1 -> 0 < T2 -> 0 < n1 -> 0 < n2 -> 0 < A1 -> 0 < A2 -> Z1 * Z2 < 0 ->
  ii_log_argument T1 n1 A1 Z1 T2 n2 A2 Z2 < 0.
Proof.
  unfold ii_log_argument. intros HT1 HT2 Hn1 Hn2 HA1 HA2 HZ.
  assert (Hz1 : Z1 <> 0) by (intros ->; lra). assert (Hz2 : Z2 <> 0) by (intros ->; lra).
  assert (S1 : 0 < SQ Z1) by (unfold SQ; now apply Rsqr_pos_lt).
  assert (S2 : 0 < SQ Z2) by (unfold SQ; now apply Rsqr_pos_lt).
  assert (X1 : 0 < n1 * SQ Z1 / T1) by (apply Rdiv_lt_0_compat; [apply Rmult_lt_0_compat; assumption|assumption]).
  assert (X2 : 0 < n2 * SQ Z2 / T2) by (apply Rdiv_lt_0_compat; [apply Rmult_lt_0_compat; assumption|assumption]).
  assert (X : 0 < sqrt (n1 * SQ Z1 / T1 + n2 * SQ Z2 / T2)) by (apply sqrt_lt_R0; lra).
  assert (Y : 0 < (A1 + A2) / (A1 * T2 + A2 * T1)).
  { apply Rdiv_lt_0_compat; [lra|]. apply Rplus_lt_0_compat; apply Rmult_lt_0_compat; assumption. }
  pose proof (Rmult_lt_0_compat _ _ Y X) as YX. unfold Rdiv in *.
  replace (Z1 * Z2 * (A1 + A2) * / (A1 * T2 + A2 * T1) * sqrt (n1 * SQ Z1 * / T1 + n2 * SQ Z2 * / T2))
    with (Z1 * Z2 * ((A1 + A2) * / (A1 * T2 + A2 * T1) * sqrt (n1 * SQ Z1 * / T1 + n2 * SQ Z2 * / T2))) by ring.
  assert (N : forall a b, a < 0 -> 0 < b -> a * b < 0) by (intros; nra). now apply N.
Qed.

Lemma opposite_pair : exists T n A Z1 Z2, 0 < T /\ 0 < n /\ 0 < A /\ ii_log_argument T n A Z1 T n A Z2 < 0.
Proof. exists 1, 1, 2, 1, (-1). split; [lra|]. split; [lra|]. split; [lra|]. apply ii_opposite; lra. Qed.
