(** Fixed-fraction radiation (C56), its cooling curves (C71), the legacy ionisation and SOL-KiT charge exchange (C72). *)

From Coq Require Import List Bool ZArith Reals Lra String.
From Verif Require Import StateMonad LimitersModel LimitersProofs RadiationModel RadiationSpec RadiationProofs.
Import ListNotations.
Open Scope R_scope.

(** Every cooling curve is non-negative at every temperature. *)
Theorem C56_curves_nonnegative : forall name curve, List.In (name, curve) curves -> forall Te, 0 <= curve Te.
Proof. exact curves_nonneg. Qed.
Print Assumptions C56_curves_nonnegative.
Example C56_curves_case : List.length curves = 11%nat /\ Argon_simplified1 5 > 0.
Proof. split; [ reflexivity | ]. destruct (simplified_rise Argon_simplified1 (or_introl eq_refl)) as [_ H]. rewrite H by lra. unfold line. lra. Qed.

(** The radiated power is non-negative and is taken from the electrons. *)
Theorem C56_radiation_cools : forall qe curve o per edges Jm J Jp Ne Te S,
  0 < qe -> 0 < Tnorm o -> 0 < Nnorm o -> 0 < FreqNorm o -> 0 <= fraction o -> 0 <= R_multiplier o ->
  0 < Jm -> 0 < J -> 0 < Jp -> (forall T, 0 <= curve T) ->
  let S' := radiation_transform qe curve o per edges Jm J Jp Ne Te S in
  S' <= val S /\ val S - S' = radiation qe curve o per edges Jm J Jp Ne Te.
Proof. exact radiation_cools. Qed.
Print Assumptions C56_radiation_cools.
Example C56_radiation_case : radiation_transform 1 (fun T => T) (mkFfr 0.1 true 2 3 4 5) false upwind_edges 1 1 1 (mkTriple 0 1 0) (mkTriple 0 2 0) (Some 7)
  = 7 - 0.32.
Proof.
  unfold radiation_transform, radiation, subtract. cbn [no_core_radiation andb]. unfold cellAverage. cbn [map t_m t_c t_p]. unfold upwind_edges. cbn [fst snd].
  unfold radiated. rewrite !StateMonadProofs.Rltb_false by lra. cbn [orb fraction R_multiplier Tnorm Nnorm FreqNorm]. lra.
Qed.

(** In SI units it is n_e * n_i * L(T_e), with n_i the fraction of n_e, at every sample in the cell. *)
Theorem C56_units : forall qe curve o ne te, 0 < qe -> 0 < Tnorm o -> 0 < Nnorm o -> 0 < FreqNorm o -> 0 <= ne -> 0 <= te ->
  radiated qe curve o [ne; te] * (qe * Tnorm o * Nnorm o * FreqNorm o)
  = (ne * Nnorm o) * (fraction o * (ne * Nnorm o)) * (R_multiplier o * curve (te * Tnorm o)).
Proof. exact radiated_units. Qed.
Print Assumptions C56_units.

(** Nothing is radiated where the density or temperature of every sample (the middle and the two faces) is negative. *)
Theorem C56_unphysical_zero : forall qe curve o per (edges : R -> R -> R -> R * R) Jm J Jp Ne Te,
  (t_c Ne < 0 \/ t_c Te < 0) ->
  (fst (edges (t_m Ne) (t_c Ne) (t_p Ne)) < 0 \/ fst (edges (t_m Te) (t_c Te) (t_p Te)) < 0) ->
  (snd (edges (t_m Ne) (t_c Ne) (t_p Ne)) < 0 \/ snd (edges (t_m Te) (t_c Te) (t_p Te)) < 0) ->
  radiation qe curve o per edges Jm J Jp Ne Te = 0.
Proof. exact radiation_zero. Qed.
Print Assumptions C56_unphysical_zero.
Example C56_unphysical_case : fst (mc_edges (- (1) - 1) (- (1)) (- (1) + 1)) < 0 /\ snd (mc_edges (- (1) - 1) (- (1)) (- (1) + 1)) < 0.
Proof. rewrite mc_linear. cbn [fst snd]. lra. Qed.

(** A cell with a negative density can still radiate: its face value is positive. *)
Theorem C56_unphysical_cell_refuted : exists curve Ne Te, (forall T, 0 <= curve T) /\ t_c Ne < 0 /\ 0 < t_c Te
  /\ 0 < radiation 1 curve example_ffr false mc_edges 1 1 1 Ne Te.
Proof. exact unphysical_radiates. Qed.
Print Assumptions C56_unphysical_cell_refuted.

(** Nothing in the core when told so. *)
Theorem C56_no_core : forall qe curve o edges Jm J Jp Ne Te, no_core_radiation o = true ->
  radiation qe curve o true edges Jm J Jp Ne Te = 0.
Proof. exact no_core. Qed.
Print Assumptions C56_no_core.
Example C56_core_case : no_core_radiation example_ffr = true.
Proof. reflexivity. Qed.

(** At the low temperature end the fits agree, within 5%, with the constant used below. *)
Theorem C71_fits_join_low : Forall (fun f => joins (fit_curve f) (fit_lo f) (below f))
  [Argon_adas; Neon_adas; Nitrogen_adas; Carbon_adas; Krypton_adas; Xenon_adas; Tungsten_adas].
Proof. exact fits_join_low. Qed.
Print Assumptions C71_fits_join_low.

(** At the high temperature end all but xenon and tungsten do. *)
Theorem C71_fits_join_high_partial : Forall (fun f => joins (fit_curve f) (fit_hi f) (above f))
  [Argon_adas; Neon_adas; Nitrogen_adas; Carbon_adas; Krypton_adas].
Proof. exact fits_join_high. Qed.
Print Assumptions C71_fits_join_high_partial.

(** The xenon fit falls to less than 10^-43 at 1300 eV; just above it the curve is 1.3 * 10^-31. *)
Theorem C71_xenon_refuted : fit_curve Xenon_adas 1300 <= / IZR (10 ^ 43) /\ (forall Te, 1300 < Te -> fit_curve Xenon_adas Te = 1.29785519e-31).
Proof. exact xenon_collapses. Qed.
Print Assumptions C71_xenon_refuted.

(** The tungsten fit falls to less than 10^-198 at 1500 eV; just above it the curve is 1.9 * 10^-31. *)
Theorem C71_tungsten_refuted : fit_curve Tungsten_adas 1500 <= / IZR (10 ^ 198) /\ (forall Te, 1500 < Te -> fit_curve Tungsten_adas Te = 1.85078767e-31).
Proof. exact tungsten_collapses. Qed.
Print Assumptions C71_tungsten_refuted.

(** The simplified argon curves are straight between their knots, and therefore continuous from 0.52 eV. *)
Theorem C71_simplified_straight :
  (forall curve, curve = Argon_simplified1 \/ curve = Argon_simplified2 \/ curve = Argon_simplified3 ->
     straight curve 0.52 1.953534e-35 2.50 6.053680e-34 /\ straight curve 2.50 6.053680e-34 19.72 2.175237e-31)
  /\ straight Argon_simplified1 19.72 2.175237e-31 59.98 4.190918e-32 /\ straight Argon_simplified1 59.98 4.190918e-32 3000 1.226496e-32
  /\ (forall Te, 3000 <= Te -> Argon_simplified1 Te = 1.226496e-32)
  /\ straight Argon_simplified2 19.72 2.175237e-31 59.98 0 /\ (forall Te, 59.98 <= Te -> Argon_simplified2 Te = 0)
  /\ straight Argon_simplified3 19.72 2.175237e-31 38.02 0 /\ (forall Te, 38.02 <= Te -> Argon_simplified3 Te = 0).
Proof. exact (conj simplified_rise simplified_fall). Qed.
Print Assumptions C71_simplified_straight.

(** At 0.52 eV they jump from zero. *)
Theorem C71_simplified_refuted : forall curve, curve = Argon_simplified1 \/ curve = Argon_simplified2 \/ curve = Argon_simplified3 ->
  curve 0.52 = 1.953534e-35 /\ (forall Te, Te < 0.52 -> curve Te = 0).
Proof. exact simplified_jump. Qed.
Print Assumptions C71_simplified_refuted.

(** The legacy ionisation component moves particles, momentum and thermal energy from atoms to ions at the reaction rate, and takes the ionisation
    energy from the electrons. *)
Theorem C72_ionisation_conserves : forall Tn Nn Freq Eion edges Jm J Jp Ne Nh Te AA Vn Th h i e,
  let '(h', i', e') := ionisation_transform Tn Nn Freq Eion edges Jm J Jp Ne Nh Te AA Vn Th h i e in
  let rate := cellAverage edges Jm J Jp (ionisation_rate Tn Nn Freq) [Ne; Nh; Te] in
  val (density_source i') - val (density_source i) = rate
  /\ val (density_source h') + val (density_source i') = val (density_source h) + val (density_source i)
  /\ val (momentum_source h') + val (momentum_source i') = val (momentum_source h) + val (momentum_source i)
  /\ val (energy_source h') + val (energy_source i') = val (energy_source h) + val (energy_source i)
  /\ val (energy_source e') = val (energy_source e) - Eion * rate
  /\ density_source e' = density_source e /\ momentum_source e' = momentum_source e.
Proof. exact ionisation_conserves. Qed.
Print Assumptions C72_ionisation_conserves.

(** Its rate is never negative. *)
Theorem C72_ionisation_rate : forall Tn Nn Freq ne nn te, 0 < Nn -> 0 < Freq -> 0 <= ne -> 0 <= nn -> 0 <= ionisation_rate Tn Nn Freq [ne; nn; te].
Proof. exact ionisation_rate_nonneg. Qed.
Print Assumptions C72_ionisation_rate.

(** It loses total energy unless atoms and ions move together: the difference of the kinetic energies is not given to the ions as heat. *)
Theorem C72_ionisation_energy_refuted : exists Tn Nn Freq Eion Ne Nh Te AA Vn Vi Th,
  let '(h', i', _) := ionisation_transform Tn Nn Freq Eion upwind_edges 1 1 1 Ne Nh Te AA Vn Th none none none in
  energy_rate AA Vn h' + energy_rate AA Vi i' < 0.
Proof. exact ionisation_energy_lost. Qed.
Print Assumptions C72_ionisation_energy_refuted.
(** By how much. *)
Theorem C72_ionisation_energy_loss : forall Tn Nn Freq Eion edges Jm J Jp Ne Nh Te AA Vn Vi Th h i e,
  let '(h', i', e') := ionisation_transform Tn Nn Freq Eion edges Jm J Jp Ne Nh Te AA Vn Th h i e in
  let rate := cellAverage edges Jm J Jp (ionisation_rate Tn Nn Freq) [Ne; Nh; Te] in
  energy_rate AA Vn h' + energy_rate AA Vi i' = energy_rate AA Vn h + energy_rate AA Vi i - AA * ((Vn - Vi) * (Vn - Vi)) / 2 * rate.
Proof. exact ionisation_energy. Qed.
Print Assumptions C72_ionisation_energy_loss.

(** SOL-KiT charge exchange conserves momentum and moves nothing else. *)
Theorem C72_solkit_conserves : forall AA Nn rho edges Jm J Jp Na Ni Va Vi a i,
  let '(a', i') := solkit_transform AA Nn rho edges Jm J Jp Na Ni Va Vi a i in
  val (momentum_source a') + val (momentum_source i') = val (momentum_source a) + val (momentum_source i)
  /\ density_source a' = density_source a /\ density_source i' = density_source i
  /\ energy_source a' = energy_source a /\ energy_source i' = energy_source i.
Proof. exact solkit_conserves. Qed.
Print Assumptions C72_solkit_conserves.

(** Each sample of its friction slows ions relative to atoms, and in SI units is m n n sigma |v| (v_i - v_a). *)
Theorem C72_solkit_friction : forall AA Nn rho Omega na ni va vi, 0 < AA -> 0 < Nn -> 0 < rho -> 0 < Omega -> 0 <= na -> 0 <= ni ->
  0 <= solkit_friction AA Nn rho [na; ni; va; vi] * (vi - va)
  /\ solkit_friction AA Nn rho [na; ni; va; vi] * (Nn * (rho * Omega) * Omega)
     = AA * (vi * (rho * Omega) - va * (rho * Omega)) * ((na * Nn) * (ni * Nn) * 3e-19 * Rabs (vi * (rho * Omega))).
Proof.
  exact (fun AA Nn rho Omega na ni va vi HA HN Hr HO Hna Hni =>
    conj (friction_sign AA Nn rho na ni va vi HA HN Hr Hna Hni) (friction_units AA Nn rho Omega na ni va vi HO Hr)).
Qed.
Print Assumptions C72_solkit_friction.
Example C72_friction_case : solkit_friction 2 1e19 1e-3 [1; 2; 0; - (1)] * (- (1) - 0) = 1.2e-2.
Proof. unfold solkit_friction. rewrite Rabs_Ropp, Rabs_R1. lra. Qed.

(** The kinetic energy lost in it heats no species. *)
Theorem C72_solkit_energy_refuted : exists AA Nn rho Na Ni Va Vi,
  let '(a', i') := solkit_transform AA Nn rho upwind_edges 1 1 1 Na Ni Va Vi none none in
  energy_rate AA (t_c Va) a' + energy_rate AA (t_c Vi) i' < 0.
Proof. exact solkit_energy. Qed.
Print Assumptions C72_solkit_energy_refuted.
