(** Proofs about radiation and the legacy reactions. *)

From Coq Require Import List Bool ZArith Reals Lra Lia String.
From Verif Require Import StateMonad StateMonadProofs LimitersModel LimitersProofs RadiationModel RadiationSpec RadiationFits.
Import ListNotations.
Open Scope R_scope.

Ltac rcase a b H := destruct (Rlt_dec a b) as [H | H]; [ rewrite !(Rltb_true a b) by exact H | apply Rnot_lt_le in H; rewrite !(Rltb_false a b) by exact H ].

Lemma cpow_nonneg x y : 0 <= cpow x y.
Proof. unfold cpow. destruct (Reqb x 0); [ lra | ]. unfold Rpower. apply Rlt_le, exp_pos. Qed.
Lemma div_nonneg a b : 0 <= a -> 0 < b -> 0 <= a / b.
Proof. intros Ha Hb. apply Rmult_le_pos; [ assumption | apply Rlt_le, Rinv_0_lt_compat; assumption ]. Qed.
Lemma hutchinson_nonneg Te : 0 <= HutchinsonCarbon Te.
Proof.
  unfold HutchinsonCarbon. rcase Te 0 H; [ lra | ].
  pose proof (cpow_nonneg (Te / 10) 4.5) as Hc. apply div_nonneg; [ | lra ]. apply Rmult_le_pos; [ lra | ]. apply pow_le. lra.
Qed.
Lemma fit_nonneg f Te : 0 <= below f -> 0 <= above f -> 0 <= fit_curve f Te.
Proof.
  intros H1 H2. unfold fit_curve. destruct (_ && _)%bool; [ apply Rlt_le, exp_pos | ]. destruct (Rltb Te (fit_lo f)); assumption.
Qed.
Lemma combine_nonneg a b u v w : 0 <= a -> 0 <= b -> 0 <= u -> 0 <= v -> 0 < w -> 0 <= (a * u + b * v) / w.
Proof. intros. apply div_nonneg; [ | assumption ]. apply Rplus_le_le_0_compat; apply Rmult_le_pos; assumption. Qed.
Ltac pieces Te := repeat match goal with |- context [Rltb Te ?k] => let H := fresh in rcase Te k H end; try (apply combine_nonneg; lra); try lra.
Lemma simplified1_nonneg Te : 0 <= Argon_simplified1 Te.
Proof. unfold Argon_simplified1. pieces Te. Qed.
Lemma simplified2_nonneg Te : 0 <= Argon_simplified2 Te.
Proof. unfold Argon_simplified2. pieces Te. Qed.
Lemma simplified3_nonneg Te : 0 <= Argon_simplified3 Te.
Proof. unfold Argon_simplified3. pieces Te. Qed.
Lemma curves_nonneg : forall name curve, List.In (name, curve) curves -> forall Te, 0 <= curve Te.
Proof.
  intros name curve H Te. unfold curves in H. cbn [List.In] in H.
  repeat (destruct H as [H | H]; [ injection H as _ <- | ]); try contradiction;
    try apply hutchinson_nonneg; try apply simplified1_nonneg; try apply simplified2_nonneg; try apply simplified3_nonneg;
    apply fit_nonneg;
    cbn [below above Argon_adas Neon_adas Nitrogen_adas Carbon_adas Krypton_adas Xenon_adas Tungsten_adas]; lra.
Qed.

Lemma radiated_nonneg qe curve o ne te : 0 < qe -> 0 < Tnorm o -> 0 < Nnorm o -> 0 < FreqNorm o -> 0 <= fraction o -> 0 <= R_multiplier o ->
  (forall T, 0 <= curve T) -> 0 <= radiated qe curve o [ne; te].
Proof.
  intros Hq HT HN HF Hf Hm Hc. unfold radiated. rcase ne 0 H1; [ cbn [orb]; lra | ].
  rcase te 0 H2; cbn [orb]; [ lra | ].
  apply div_nonneg; [ | apply Rmult_lt_0_compat; [ apply Rmult_lt_0_compat | ]; assumption ].
  generalize (Hc (te * Tnorm o)). generalize (curve (te * Tnorm o)). intros y Hy.
  assert (0 <= fraction o * ne) by (apply Rmult_le_pos; lra).
  apply Rmult_le_pos; [ | lra ]. apply Rmult_le_pos; [ | lra ]. apply Rmult_le_pos; [ | lra ]. apply Rmult_le_pos; lra.
Qed.
Lemma radiation_nonneg qe curve o per edges Jm J Jp Ne Te : 0 < qe -> 0 < Tnorm o -> 0 < Nnorm o -> 0 < FreqNorm o -> 0 <= fraction o -> 0 <= R_multiplier o ->
  0 < Jm -> 0 < J -> 0 < Jp -> (forall T, 0 <= curve T) -> 0 <= radiation qe curve o per edges Jm J Jp Ne Te.
Proof.
  intros. unfold radiation. destruct (_ && _)%bool; [ lra | ]. apply average_nonneg; try assumption; cbn [map]; apply radiated_nonneg; assumption.
Qed.
Lemma radiation_cools qe curve o per edges Jm J Jp Ne Te S : 0 < qe -> 0 < Tnorm o -> 0 < Nnorm o -> 0 < FreqNorm o -> 0 <= fraction o -> 0 <= R_multiplier o ->
  0 < Jm -> 0 < J -> 0 < Jp -> (forall T, 0 <= curve T) ->
  let S' := radiation_transform qe curve o per edges Jm J Jp Ne Te S in
  S' <= val S /\ val S - S' = radiation qe curve o per edges Jm J Jp Ne Te.
Proof.
  intros. pose proof (radiation_nonneg qe curve o per edges Jm J Jp Ne Te) as Hr. unfold S', radiation_transform, subtract, val.
  destruct S; split; try ring; specialize (Hr H H0 H1 H2 H3 H4 H5 H6 H7 H8); lra.
Qed.
Lemma radiated_zero qe curve o ne te : ne < 0 \/ te < 0 -> radiated qe curve o [ne; te] = 0.
Proof.
  intros H. unfold radiated. rcase ne 0 H1; [ reflexivity | ]. rcase te 0 H2; [ reflexivity | lra ].
Qed.
Lemma radiation_zero qe curve o per (edges : R -> R -> R -> R * R) Jm J Jp Ne Te :
  (t_c Ne < 0 \/ t_c Te < 0) ->
  (fst (edges (t_m Ne) (t_c Ne) (t_p Ne)) < 0 \/ fst (edges (t_m Te) (t_c Te) (t_p Te)) < 0) ->
  (snd (edges (t_m Ne) (t_c Ne) (t_p Ne)) < 0 \/ snd (edges (t_m Te) (t_c Te) (t_p Te)) < 0) ->
  radiation qe curve o per edges Jm J Jp Ne Te = 0.
Proof.
  intros H1 H2 H3. unfold radiation. destruct (_ && _)%bool; [ reflexivity | ]. unfold cellAverage. cbn [map].
  rewrite !radiated_zero by assumption. ring.
Qed.
Lemma radiated_units qe curve o ne te : 0 < qe -> 0 < Tnorm o -> 0 < Nnorm o -> 0 < FreqNorm o -> 0 <= ne -> 0 <= te ->
  radiated qe curve o [ne; te] * (qe * Tnorm o * Nnorm o * FreqNorm o)
  = (ne * Nnorm o) * (fraction o * (ne * Nnorm o)) * (R_multiplier o * curve (te * Tnorm o)).
Proof.
  intros Hq HT HN HF Hn Ht. unfold radiated. rewrite !Rltb_false by assumption. cbn [orb]. field. lra.
Qed.
Definition example_ffr : ffr := mkFfr 1 true 1 1 1 1.
(** MC limiter, density rising from -5 to 3 along the field. *)
Lemma unphysical_radiates : exists curve Ne Te, (forall T, 0 <= curve T) /\ t_c Ne < 0 /\ 0 < t_c Te
  /\ 0 < radiation 1 curve example_ffr false mc_edges 1 1 1 Ne Te.
Proof.
  exists (fun _ => 1), (mkTriple (- (1) - 4) (- (1)) (- (1) + 4)), (mkTriple (1 - 0) 1 (1 + 0)). split; [ intros; lra | ]. cbn [t_c]. split; [ lra | split; [ lra | ] ].
  unfold radiation. cbn [no_core_radiation example_ffr andb]. unfold cellAverage. cbn [map t_m t_c t_p].
  rewrite !mc_linear. cbn [fst snd]. rewrite !radiated_zero by lra.
  unfold radiated. rewrite !Rltb_false by lra. cbn [orb fraction R_multiplier Tnorm Nnorm FreqNorm example_ffr]. lra.
Qed.

(** Fits. *)
Lemma fit_at_lo f : fit_lo f <= fit_hi f -> fit_curve f (fit_lo f) = exp (poly (coefs f) (ln (fit_lo f))).
Proof. intros H. unfold fit_curve. rewrite !Rleb_true by lra. reflexivity. Qed.
Lemma fit_at_hi f : fit_lo f <= fit_hi f -> fit_curve f (fit_hi f) = exp (poly (coefs f) (ln (fit_hi f))).
Proof. intros H. unfold fit_curve. rewrite !Rleb_true by lra. reflexivity. Qed.
Lemma fit_above f Te : fit_lo f <= fit_hi f -> fit_hi f < Te -> fit_curve f Te = above f.
Proof. intros H1 H2. unfold fit_curve. rewrite (Rleb_false Te (fit_hi f)) by lra. rewrite andb_false_r, Rltb_false by lra. reflexivity. Qed.
Lemma fit_below f Te : Te < fit_lo f -> fit_curve f Te = below f.
Proof. intros H. unfold fit_curve. rewrite (Rleb_false (fit_lo f) Te) by lra. cbn [andb]. rewrite Rltb_true by lra. reflexivity. Qed.

Ltac fitcbn := cbn [fit_lo fit_hi Argon_adas Neon_adas Nitrogen_adas Carbon_adas Krypton_adas Xenon_adas Tungsten_adas].
Lemma joins_lo f : fit_lo f <= fit_hi f -> 0.95 * below f <= exp (poly (coefs f) (ln (fit_lo f))) <= 1.05 * below f -> joins (fit_curve f) (fit_lo f) (below f).
Proof. intros H1 H2. unfold joins. rewrite fit_at_lo by assumption. exact H2. Qed.
Lemma joins_hi f : fit_lo f <= fit_hi f -> 0.95 * above f <= exp (poly (coefs f) (ln (fit_hi f))) <= 1.05 * above f -> joins (fit_curve f) (fit_hi f) (above f).
Proof. intros H1 H2. unfold joins. rewrite fit_at_hi by assumption. exact H2. Qed.
Lemma fits_join_low : Forall (fun f => joins (fit_curve f) (fit_lo f) (below f)) [Argon_adas; Neon_adas; Nitrogen_adas; Carbon_adas; Krypton_adas; Xenon_adas; Tungsten_adas].
Proof.
  apply Forall_cons; [ apply joins_lo; [ fitcbn; lra | exact Argon_adas_lo_close ] | ].
  apply Forall_cons; [ apply joins_lo; [ fitcbn; lra | exact Neon_adas_lo_close ] | ].
  apply Forall_cons; [ apply joins_lo; [ fitcbn; lra | exact Nitrogen_adas_lo_close ] | ].
  apply Forall_cons; [ apply joins_lo; [ fitcbn; lra | exact Carbon_adas_lo_close ] | ].
  apply Forall_cons; [ apply joins_lo; [ fitcbn; lra | exact Krypton_adas_lo_close ] | ].
  apply Forall_cons; [ apply joins_lo; [ fitcbn; lra | exact Xenon_adas_lo_close ] | ].
  apply Forall_cons; [ apply joins_lo; [ fitcbn; lra | exact Tungsten_adas_lo_close ] | ].
  apply Forall_nil.
Qed.
Lemma fits_join_high : Forall (fun f => joins (fit_curve f) (fit_hi f) (above f)) [Argon_adas; Neon_adas; Nitrogen_adas; Carbon_adas; Krypton_adas].
Proof.
  apply Forall_cons; [ apply joins_hi; [ fitcbn; lra | exact Argon_adas_hi_close ] | ].
  apply Forall_cons; [ apply joins_hi; [ fitcbn; lra | exact Neon_adas_hi_close ] | ].
  apply Forall_cons; [ apply joins_hi; [ fitcbn; lra | exact Nitrogen_adas_hi_close ] | ].
  apply Forall_cons; [ apply joins_hi; [ fitcbn; lra | exact Carbon_adas_hi_close ] | ].
  apply Forall_cons; [ apply joins_hi; [ fitcbn; lra | exact Krypton_adas_hi_close ] | ].
  apply Forall_nil.
Qed.
Lemma xenon_collapses : fit_curve Xenon_adas 1300 <= / IZR (10 ^ 43) /\ (forall Te, 1300 < Te -> fit_curve Xenon_adas Te = 1.29785519e-31).
Proof.
  split.
  - change 1300 with (fit_hi Xenon_adas). rewrite fit_at_hi by (fitcbn; lra). exact Xenon_adas_hi_tiny.
  - intros Te H. rewrite fit_above; [ reflexivity | fitcbn; lra | fitcbn; lra ].
Qed.
Lemma tungsten_collapses : fit_curve Tungsten_adas 1500 <= / IZR (10 ^ 198) /\ (forall Te, 1500 < Te -> fit_curve Tungsten_adas Te = 1.85078767e-31).
Proof.
  split.
  - change 1500 with (fit_hi Tungsten_adas). rewrite fit_at_hi by (fitcbn; lra). exact Tungsten_adas_hi_tiny.
  - intros Te H. rewrite fit_above; [ reflexivity | fitcbn; lra | fitcbn; lra ].
Qed.
Lemma tenth_le n : (34 <= n)%Z -> / IZR (10 ^ n) <= / IZR (10 ^ 34).
Proof.
  intros H. apply Rinv_le_contravar; [ apply IZR_lt; reflexivity | ]. apply IZR_le. apply Z.pow_le_mono_r; lia.
Qed.

(** Simplified argon curves. *)
Ltac knots x := intros x Hx; repeat match goal with |- context [Rltb x ?k] => let H := fresh in rcase x k H end; unfold line; try (exfalso; lra); lra.
Lemma simplified_rise curve : (curve = Argon_simplified1 \/ curve = Argon_simplified2 \/ curve = Argon_simplified3) ->
  straight curve 0.52 1.953534e-35 2.50 6.053680e-34 /\ straight curve 2.50 6.053680e-34 19.72 2.175237e-31.
Proof.
  intros [-> | [-> | ->]]; split; unfold straight, Argon_simplified1, Argon_simplified2, Argon_simplified3; knots x.
Qed.
Lemma simplified_fall :
  straight Argon_simplified1 19.72 2.175237e-31 59.98 4.190918e-32 /\ straight Argon_simplified1 59.98 4.190918e-32 3000 1.226496e-32
  /\ (forall Te, 3000 <= Te -> Argon_simplified1 Te = 1.226496e-32)
  /\ straight Argon_simplified2 19.72 2.175237e-31 59.98 0 /\ (forall Te, 59.98 <= Te -> Argon_simplified2 Te = 0)
  /\ straight Argon_simplified3 19.72 2.175237e-31 38.02 0 /\ (forall Te, 38.02 <= Te -> Argon_simplified3 Te = 0).
Proof.
  repeat split; unfold straight, Argon_simplified1, Argon_simplified2, Argon_simplified3; knots x.
Qed.
Lemma simplified_jump curve : (curve = Argon_simplified1 \/ curve = Argon_simplified2 \/ curve = Argon_simplified3) ->
  curve 0.52 = 1.953534e-35 /\ (forall Te, Te < 0.52 -> curve Te = 0).
Proof.
  intros Hc. split.
  - destruct (simplified_rise curve Hc) as [H _]. rewrite H by lra. unfold line. lra.
  - intros Te H. destruct Hc as [-> | [-> | ->]]; unfold Argon_simplified1, Argon_simplified2, Argon_simplified3; rewrite Rltb_true by assumption; reflexivity.
Qed.

(** The legacy ionisation. *)
Lemma val_subtract o x : val (Some (subtract o x)) = val o - x.
Proof. destruct o; unfold subtract, val; ring. Qed.
Lemma val_add o x : val (Some (add o x)) = val o + x.
Proof. destruct o; unfold add, val; ring. Qed.
Lemma ionisation_conserves Tn Nn Freq Eion edges Jm J Jp Ne Nh Te AA Vn Th h i e :
  let '(h', i', e') := ionisation_transform Tn Nn Freq Eion edges Jm J Jp Ne Nh Te AA Vn Th h i e in
  let rate := cellAverage edges Jm J Jp (ionisation_rate Tn Nn Freq) [Ne; Nh; Te] in
  val (density_source i') - val (density_source i) = rate
  /\ val (density_source h') + val (density_source i') = val (density_source h) + val (density_source i)
  /\ val (momentum_source h') + val (momentum_source i') = val (momentum_source h) + val (momentum_source i)
  /\ val (energy_source h') + val (energy_source i') = val (energy_source h) + val (energy_source i)
  /\ val (energy_source e') = val (energy_source e) - Eion * rate
  /\ density_source e' = density_source e /\ momentum_source e' = momentum_source e.
Proof.
  unfold ionisation_transform. cbn [density_source momentum_source energy_source]. rewrite !val_subtract, !val_add. repeat split; ring.
Qed.
Lemma updated_positive T : 0 < updated_ionisation T.
Proof. unfold updated_ionisation. apply Rmult_lt_0_compat; [ apply exp_pos | lra ]. Qed.
Lemma ionisation_rate_nonneg Tn Nn Freq ne nn te : 0 < Nn -> 0 < Freq -> 0 <= ne -> 0 <= nn -> 0 <= ionisation_rate Tn Nn Freq [ne; nn; te].
Proof.
  intros. unfold ionisation_rate. pose proof (updated_positive (te * Tn)) as Hp. revert Hp. generalize (updated_ionisation (te * Tn)). intros y Hy.
  apply div_nonneg; [ | assumption ]. apply Rmult_le_pos; [ | lra ]. apply Rmult_le_pos; [ | lra ]. apply Rmult_le_pos; assumption.
Qed.
Lemma ionisation_energy Tn Nn Freq Eion edges Jm J Jp Ne Nh Te AA Vn Vi Th h i e :
  let '(h', i', e') := ionisation_transform Tn Nn Freq Eion edges Jm J Jp Ne Nh Te AA Vn Th h i e in
  let rate := cellAverage edges Jm J Jp (ionisation_rate Tn Nn Freq) [Ne; Nh; Te] in
  energy_rate AA Vn h' + energy_rate AA Vi i' = energy_rate AA Vn h + energy_rate AA Vi i - AA * ((Vn - Vi) * (Vn - Vi)) / 2 * rate.
Proof.
  unfold ionisation_transform, energy_rate, kinetic_rate. cbn [density_source momentum_source energy_source].
  rewrite !val_subtract, !val_add. field.
Qed.

(** SOL-KiT charge exchange. *)
Lemma solkit_conserves AA Nn rho edges Jm J Jp Na Ni Va Vi a i :
  let '(a', i') := solkit_transform AA Nn rho edges Jm J Jp Na Ni Va Vi a i in
  val (momentum_source a') + val (momentum_source i') = val (momentum_source a) + val (momentum_source i)
  /\ density_source a' = density_source a /\ density_source i' = density_source i
  /\ energy_source a' = energy_source a /\ energy_source i' = energy_source i.
Proof.
  unfold solkit_transform. cbn [density_source momentum_source energy_source]. rewrite val_subtract, val_add. repeat split. ring.
Qed.
Lemma floor_nonneg x f : 0 < f -> 0 <= rfloor x f.
Proof. intros H. unfold rfloor. destruct (Rlt_dec x f) as [H1 | H1]; [ rewrite Rltb_true by assumption | rewrite Rltb_false by lra ]; lra. Qed.
Lemma friction_sign AA Nn rho na ni va vi : 0 < AA -> 0 < Nn -> 0 < rho -> 0 <= na -> 0 <= ni ->
  0 <= solkit_friction AA Nn rho [na; ni; va; vi] * (vi - va).
Proof.
  intros. unfold solkit_friction.
  replace (AA * (vi - va) * (na * ni * 3e-19 * Rabs vi * (Nn * rho)) * (vi - va)) with (AA * ((vi - va) * (vi - va)) * (na * ni * 3e-19 * Rabs vi * (Nn * rho))) by ring.
  pose proof (Rabs_pos vi) as Hv. assert (0 < Nn * rho) by (apply Rmult_lt_0_compat; assumption). pose proof (Rle_0_sqr (vi - va)) as Hs. unfold Rsqr in Hs.
  apply Rmult_le_pos; [ apply Rmult_le_pos; lra | ]. apply Rmult_le_pos; [ | lra ]. apply Rmult_le_pos; [ | lra ]. apply Rmult_le_pos; [ | lra ]. apply Rmult_le_pos; assumption.
Qed.
Lemma friction_units AA Nn rho Omega na ni va vi : 0 < Omega -> 0 < rho ->
  solkit_friction AA Nn rho [na; ni; va; vi] * (Nn * (rho * Omega) * Omega)
  = AA * (vi * (rho * Omega) - va * (rho * Omega)) * ((na * Nn) * (ni * Nn) * 3e-19 * Rabs (vi * (rho * Omega))).
Proof.
  intros HO Hr. unfold solkit_friction. rewrite Rabs_mult, (Rabs_pos_eq (rho * Omega)) by (apply Rmult_le_pos; lra).
  generalize (Rabs vi). intros w. lra.
Qed.
Lemma solkit_energy : exists AA Nn rho Na Ni Va Vi,
  let '(a', i') := solkit_transform AA Nn rho upwind_edges 1 1 1 Na Ni Va Vi none none in
  energy_rate AA (t_c Va) a' + energy_rate AA (t_c Vi) i' < 0.
Proof.
  exists 1, 1, 1, (mkTriple 1 1 1), (mkTriple 1 1 1), (mkTriple 0 0 0), (mkTriple 1 1 1).
  unfold solkit_transform, energy_rate, kinetic_rate. cbn [density_source momentum_source energy_source none]. rewrite val_subtract, val_add. unfold val.
  unfold cellAverage, floor_triple. cbn [map t_m t_c t_p upwind_edges fst snd]. unfold upwind_edges. cbn [fst snd]. unfold rfloor. rewrite !Rltb_false by lra.
  unfold solkit_friction. rewrite !Rabs_R1. lra.
Qed.
Lemma ionisation_energy_lost : exists Tn Nn Freq Eion Ne Nh Te AA Vn Vi Th,
  let '(h', i', _) := ionisation_transform Tn Nn Freq Eion upwind_edges 1 1 1 Ne Nh Te AA Vn Th none none none in
  energy_rate AA Vn h' + energy_rate AA Vi i' < 0.
Proof.
  exists 1, 1, 1, 1, (mkTriple 1 1 1), (mkTriple 1 1 1), (mkTriple 1 1 1), 1, 1, 0, 1.
  pose proof (ionisation_energy 1 1 1 1 upwind_edges 1 1 1 (mkTriple 1 1 1) (mkTriple 1 1 1) (mkTriple 1 1 1) 1 1 0 1 none none none) as E.
  destruct (ionisation_transform 1 1 1 1 upwind_edges 1 1 1 (mkTriple 1 1 1) (mkTriple 1 1 1) (mkTriple 1 1 1) 1 1 1 none none none) as [[h' i'] e'].
  cbn zeta in E. rewrite E. unfold energy_rate, kinetic_rate, none, val. cbn [density_source momentum_source energy_source].
  unfold cellAverage. cbn [map t_m t_c t_p]. unfold upwind_edges. cbn [fst snd]. unfold ionisation_rate.
  pose proof (updated_positive (1 * 1)) as Hp. revert Hp. generalize (updated_ionisation (1 * 1)). intros y Hy. lra.
Qed.
Lemma no_core qe curve o edges Jm J Jp Ne Te : no_core_radiation o = true -> radiation qe curve o true edges Jm J Jp Ne Te = 0.
Proof. intros H. unfold radiation. rewrite H. reflexivity. Qed.
