(** C88: collision frequencies are the reference ones. *)

From Coq Require Import List Bool String Reals Lra Lia.
From Verif Require Import OptionsModel StateMonad CollisionsModel CollisionRatesSpec CollisionRatesProofs.
Import ListNotations.
Open Scope R_scope.

(** Above the floors, in SI units. *)
Theorem C88_electron_electron : forall c Te Ne, 0 < qe c -> 0 < Me c -> 0 < e0 c -> 0.1 <= Te -> 1e10 <= Ne ->
  exists lambda, Rabs (lambda - nrl_ee (per_cm3 Ne) Te) <= 0.01 /\
    nu_ee c Te Ne = coulomb_frequency (e0 c) (qe c) (Me c) (Te * qe c) (qe c) (Me c) (Te * qe c) Ne (Rmax lambda 1).
Proof. exact ee_reference. Qed.
Print Assumptions C88_electron_electron.

Theorem C88_electron_ion : forall c Te Ne Ti Ni Zi Ai,
  0 < qe c -> 0 < Me c -> 0 < Mp c -> 0 < e0 c -> 0 < Ai -> 0 < Zi -> 0.1 <= Te -> 0.1 <= Ti -> 1e10 <= Ni -> 1e10 <= Ne ->
  exists lambda,
    (Te < Ti * (Me c / (Mp c * Ai)) -> Rabs (lambda - nrl_ei_ions (per_cm3 Ni) Ti Zi Ai) <= 0.1) /\
    (Ti * (Me c / (Mp c * Ai)) <= Te -> Te < exp 2 * Zi ^ 2 -> Rabs (lambda - nrl_ei_cold (per_cm3 Ne) Te Zi) <= 0.1) /\
    (Ti * (Me c / (Mp c * Ai)) <= Te -> exp 2 * Zi ^ 2 <= Te -> Rabs (lambda - nrl_ei_hot (per_cm3 Ne) Te) <= 0.1) /\
    nu_ei c Te Ne Ti Ni Zi Ai
    = coulomb_frequency (e0 c) (qe c) (Me c) (Te * qe c) (Zi * qe c) (Mp c * Ai) (Ti * qe c) Ni (Rmax lambda 1) * ei_multiplier c.
Proof. exact ei_reference. Qed.
Print Assumptions C88_electron_ion.

Theorem C88_ion_ion : forall c T1 n1 A1 Z1 T2 n2 A2 Z2,
  0 < qe c -> 0 < Mp c -> 0 < e0 c -> 0 < A1 -> 0 < A2 -> 0.1 <= T1 -> 0.1 <= T2 -> 1e10 <= n1 -> 1e10 <= n2 -> 0 < Z1 * Z2 ->
  exists lambda, Rabs (lambda - nrl_ii Z1 A1 T1 (per_cm3 n1) Z2 A2 T2 (per_cm3 n2)) <= 0.01 /\
    nu_ii c T1 n1 A1 Z1 T2 n2 A2 Z2
    = coulomb_frequency (e0 c) (Z1 * qe c) (A1 * Mp c) (T1 * qe c) (Z2 * qe c) (A2 * Mp c) (T2 * qe c) n2 (Rmax lambda 1).
Proof. exact ii_reference. Qed.
Print Assumptions C88_ion_ion.

(** The two branches of the electron-ion logarithm meet at Te = e^2 Z^2 (the branch above is the one taken there). *)
Theorem C88_logarithm_joins : forall c Ne Ti Ni Zi Ai Te,
  0.1 <= Te -> 1e10 <= Ni -> 1e10 <= Ne -> 0 < Zi -> Ti * (Me c / (Mp c * Ai)) <= Te -> Te = exp 2 * Zi ^ 2 ->
  ei_coulomb_log c Te Ne Ti Ni Zi Ai = 30 - 0.5 * ln Ne - ln Zi + 1.5 * ln Te.
Proof. exact lambda_ei_joins. Qed.
Print Assumptions C88_logarithm_joins.

(** Refuted: that the frequency is continuous at 0.1 eV.  The constant 10 used below does not meet the formula used above: at n = e^40 m^-3 all colder
    plasmas collide more than 1.5 times as often. *)
Theorem C88_cold_refuted : exists c n Ti, forall Te, Te < 0.1 ->
  1.5 * nu_ei c 0.1 n Ti n 1 1 < nu_ei c Te n Ti n 1 1.
Proof. exact (ex_intro _ _ (ex_intro _ _ (ex_intro _ _ cold_jump))). Qed.
Print Assumptions C88_cold_refuted.

(** Refuted: that every pair of charged species has a Coulomb logarithm.  Between ions of opposite charge the argument of log is negative (the product of
    the charges has no absolute value), so that the frequency is not a number; pairs with electrons are skipped, pairs of ions are not. *)
Theorem C88_opposite_charges_refuted : exists T n A Z1 Z2,
  0 < T /\ 0 < n /\ 0 < A /\ ii_log_argument T n A Z1 T n A Z2 < 0.
Proof. exact opposite_pair. Qed.
Print Assumptions C88_opposite_charges_refuted.

(** It is so for all of them. *)
Theorem C88_opposite_charges T1 n1 A1 Z1 T2 n2 A2 Z2 :
  0 < T1 -> 0 < T2 -> 0 < n1 -> 0 < n2 -> 0 < A1 -> 0 < A2 -> Z1 * Z2 < 0 -> ii_log_argument T1 n1 A1 Z1 T2 n2 A2 Z2 < 0.
Proof. exact (ii_opposite T1 n1 A1 Z1 T2 n2 A2 Z2). Qed.
Print Assumptions C88_opposite_charges.

(** Collisions with neutrals: hard spheres, with the speed unit Cs = sqrt(qe Tnorm / Mp) and the length unit rho_s0 = Cs / Omega_ci. *)
Theorem C88_neutral : forall c a0 T1 A1 T2 n2 A2 Cs,
  0 < Tnorm c -> 0 < Mp c -> 0 < Omega_ci c -> 0 <= Cs -> Cs * Cs = qe c * Tnorm c / Mp c -> rho_s0 c = Cs / Omega_ci c ->
  0 < A1 -> 0 < A2 -> 0 <= T1 -> 0 <= T2 ->
  nu_neutral c a0 T1 A1 T2 n2 A2 * Omega_ci c = sphere_frequency (A1 * Mp c) (T1 * qe c) (A2 * Mp c) (T2 * qe c) n2 a0.
Proof. exact neutral_formula. Qed.
Print Assumptions C88_neutral.

Theorem C88_electron_neutral : forall c Te Nn Cs,
  0 < Tnorm c -> 0 < Mp c -> 0 < Me c -> 0 < Omega_ci c -> 0 <= Cs -> Cs * Cs = qe c * Tnorm c / Mp c -> rho_s0 c = Cs / Omega_ci c -> 0 <= Te ->
  nu_en c Te Nn * Omega_ci c = Nn * Nnorm c * 5e-19 * sqrt (Te * qe c / Me c).
Proof. exact en_formula. Qed.
Print Assumptions C88_electron_neutral.

(** Each collision of a particle of species 1 with one of species 2 is one of species 2 with species 1. *)
Theorem C88_neutral_reciprocal : forall c a0 T1 A1 n1 T2 A2 n2,
  nu_neutral c a0 T1 A1 T2 n2 A2 * n1 = nu_neutral c a0 T2 A2 T1 n1 A1 * n2.
Proof. exact neutral_reciprocal. Qed.
Print Assumptions C88_neutral_reciprocal.

Theorem C88_friction_coefficient : forall Z, (1 <= Z)%nat -> mom_coeff (INR Z) = braginskii_friction Z.
Proof. exact mom_coeff_table. Qed.
Print Assumptions C88_friction_coefficient.

Example C88_hypotheses_met :
  let c := mkConfig 100 1e19 1 1 true true true true true true true 1 1 1 2 1 in
  0 < qe c /\ 0 < Me c /\ 0 < Mp c /\ 0 < e0 c /\ 0.1 <= 10 /\ 1e10 <= 1e19 /\ 0 < 1 * 2 /\
  braginskii_friction 2 < braginskii_friction 1.
Proof. cbv zeta. cbn [qe Me Mp e0 braginskii_friction]. lra. Qed.
Example C88_neutral_met :
  let c := mkConfig 2 1 (1 / 3) 3 true true true true true true true 1 1 1 2 1 in
  1 * 1 = qe c * Tnorm c / Mp c /\ rho_s0 c = 1 / Omega_ci c.
Proof. cbv zeta. cbn [qe Tnorm Mp rho_s0 Omega_ci]. lra. Qed.
