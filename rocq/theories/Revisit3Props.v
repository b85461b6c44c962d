(** More about radiation and reactions: C56, C71, C72. *)

From Coq Require Import List Bool ZArith Reals Lra Lia String.
From Verif Require Import StateMonad StateMonadProofs LimitersModel RadiationModel RadiationSpec RadiationProofs Revisit3Proofs.
Import ListNotations.
Open Scope R_scope.

(** ** C56: the diagnostic times its conversion is minus the radiated power density in SI units: electron density times impurity density times the
    cooling curve. *)
Theorem C56_radiated_power : forall qe curve o ne te, qe <> 0 -> Tnorm o <> 0 -> FreqNorm o <> 0 -> 0 <= ne -> 0 <= te ->
  let out := radiation_output qe o (radiated qe curve o [ne; te]) in
  fst out * snd out = - ((Nnorm o * ne) * (fraction o * (Nnorm o * ne)) * curve (te * Tnorm o) * R_multiplier o).
Proof. exact radiation_output_law. Qed.
Print Assumptions C56_radiated_power.
Example C56_radiated_power_case : let o := mkFfr (1 / 100) false 1 100 1e19 1e6 in Tnorm o <> 0 /\ FreqNorm o <> 0 /\ fraction o = 1 / 100.
Proof. cbn [Tnorm FreqNorm fraction]. repeat split; lra. Qed.
(** The component with a carbon species uses the same curve as the fixed fraction. *)
Theorem C56_carbon_power : forall Te ne ni, HutchinsonCarbonRadiation Te ne ni = if (Rltb ne 0 || Rltb ni 0)%bool then 0 else ne * ni * HutchinsonCarbon Te.
Proof. exact hutchinson_power. Qed.
Print Assumptions C56_carbon_power.
Example C56_carbon_case : HutchinsonCarbonRadiation (-1) 1 1 = 0 /\ HutchinsonCarbonRadiation 1 (-1) 1 = 0.
Proof.
  unfold HutchinsonCarbonRadiation. rewrite (Rltb_true (-1) 0) by lra. rewrite (Rltb_false 1 0) by lra. split; reflexivity.
Qed.

(** ** C72: the legacy charge exchange rate is the cube root of temperature. *)
Theorem C72_charge_exchange_rate : forall T, (1 <= T -> hydrogen_charge_exchange T ^ 3 = Rpower 10 (-42) * T) /\ (T <= 1 -> hydrogen_charge_exchange T = hydrogen_charge_exchange 1).
Proof. exact (fun T => conj (cx_cubed T) (cx_cold T)). Qed.
Print Assumptions C72_charge_exchange_rate.
Example C72_charge_exchange_case : (hydrogen_charge_exchange 8 / hydrogen_charge_exchange 1) ^ 3 = 8.
Proof.
  pose proof (cx_cubed 8 ltac:(lra)) as A. pose proof (cx_cubed 1 ltac:(lra)) as B.
  assert (P : 0 < Rpower 10 (-42)) by (unfold Rpower; apply exp_pos). assert (Q : hydrogen_charge_exchange 1 <> 0) by (intros Q; rewrite Q in B; rewrite pow_ne_zero in B by discriminate; lra).
  unfold Rdiv. rewrite Rpow_mult_distr, A, pow_inv, B. field. lra.
Qed.
(** The atoms leave with momentum A V and energy 3/2 T each, and the electrons pay the ionisation energy for each. *)
Theorem C72_ionisation_per_particle : forall Tn Nn Freq Eion edges Jm J Jp Ne Nh Te AA Vn Th h i e,
  let '(h', i', e') := ionisation_transform Tn Nn Freq Eion edges Jm J Jp Ne Nh Te AA Vn Th h i e in
  let dn := val (density_source h') - val (density_source h) in
  val (energy_source h') - val (energy_source h) = 3 / 2 * Th * dn /\
  val (momentum_source h') - val (momentum_source h) = AA * Vn * dn /\
  val (energy_source e') - val (energy_source e) = Eion * dn.
Proof. exact ionisation_thermal. Qed.
Print Assumptions C72_ionisation_per_particle.
Example C72_ionisation_case : exists rate, 0 < rate /\ rate = ionisation_rate 10 1 1 [1; 1; 1].
Proof.
  eexists. split; [|reflexivity]. unfold ionisation_rate, updated_ionisation. set (P := poly _ _). pose proof (exp_pos P). set (E := exp P) in *. lra.
Qed.
(** SOL-KiT charge exchange: below 1e-5 the densities do not matter. *)
Theorem C72_solkit_low_density : forall AA Nn rho edges Jm J Jp Na Na' Ni Va Vi a i,
  t_m Na <= 1e-5 -> t_c Na <= 1e-5 -> t_p Na <= 1e-5 -> t_m Na' <= 1e-5 -> t_c Na' <= 1e-5 -> t_p Na' <= 1e-5 ->
  solkit_transform AA Nn rho edges Jm J Jp Na Ni Va Vi a i = solkit_transform AA Nn rho edges Jm J Jp Na' Ni Va Vi a i /\
  solkit_transform AA Nn rho edges Jm J Jp Ni Na Va Vi a i = solkit_transform AA Nn rho edges Jm J Jp Ni Na' Va Vi a i.
Proof. exact solkit_small. Qed.
Print Assumptions C72_solkit_low_density.
Example C72_solkit_low_case : let a := mkTriple 0 0 0 in let b := mkTriple 1e-6 1e-6 (-1) in t_m a <= 1e-5 /\ t_p b <= 1e-5 /\ t_c b <= 1e-5.
Proof. cbn [t_m t_p t_c]. lra. Qed.
