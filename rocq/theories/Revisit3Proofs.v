(** Radiation and reactions: lemmas added after trying wrong variants of the model. *)

From Coq Require Import List Bool ZArith Reals Lra Lia String.
From Verif Require Import StateMonad StateMonadProofs LimitersModel LimitersProofs RadiationModel RadiationSpec RadiationFits RadiationProofs.
Import ListNotations.
Open Scope R_scope.

(** ** Fixed fraction radiation *)

(** What is written, converted to SI: the power density of electrons and impurities by the cooling curve. *)
Lemma radiation_output_law qe curve o ne te : qe <> 0 -> Tnorm o <> 0 -> FreqNorm o <> 0 -> 0 <= ne -> 0 <= te ->
  let out := radiation_output qe o (radiated qe curve o [ne; te]) in
  fst out * snd out = - ((Nnorm o * ne) * (fraction o * (Nnorm o * ne)) * curve (te * Tnorm o) * R_multiplier o).
Proof.
  intros Hq HT HF Hn Ht out. unfold out, radiation_output, radiated. cbn [fst snd].
  replace (Rltb ne 0 || Rltb te 0)%bool with false.
  2: { symmetry. apply orb_false_iff. split; [now apply Rltb_false | now apply Rltb_false]. }
  cbv zeta iota. field. auto.
Qed.
Lemma hutchinson_power Te ne ni : HutchinsonCarbonRadiation Te ne ni = if (Rltb ne 0 || Rltb ni 0)%bool then 0 else ne * ni * HutchinsonCarbon Te.
Proof.
  unfold HutchinsonCarbonRadiation, HutchinsonCarbon. destruct (Rltb Te 0), (Rltb ne 0), (Rltb ni 0); cbn [orb]; try reflexivity; try ring.
  unfold Rdiv. ring.
Qed.

(** ** Hydrogen *)
Lemma cx_cubed T : 1 <= T -> hydrogen_charge_exchange T ^ 3 = Rpower 10 (-42) * T.
Proof.
  intros H. unfold hydrogen_charge_exchange. replace (Rltb T 1) with false by (symmetry; now apply Rltb_false). cbv zeta iota.
  rewrite <- (Rpower_pow 3) by (unfold Rpower; apply exp_pos). rewrite Rpower_mult. replace (INR 3) with 3 by (cbn [INR]; lra).
  replace ((- (14) + log10 T / 3) * 3) with (-42 + log10 T) by lra. rewrite Rpower_plus. f_equal. unfold log10, Rpower.
  replace (ln T / ln 10 * ln 10) with (ln T). { apply exp_ln. lra. }
  field. apply Rgt_not_eq. rewrite <- ln_1. apply ln_increasing; lra.
Qed.
Lemma cx_cold T : T <= 1 -> hydrogen_charge_exchange T = hydrogen_charge_exchange 1.
Proof.
  intros H. unfold hydrogen_charge_exchange. replace (Rltb 1 1) with false by (symmetry; apply Rltb_false; lra). cbv zeta iota.
  pose proof (Rltb_spec T 1) as S. destruct (Rltb T 1); [reflexivity|]. replace T with 1 by lra. reflexivity.
Qed.

(** ** Legacy ionisation: the atoms leave with their thermal energy. *)
Lemma ionisation_thermal Tn Nn Freq Eion edges Jm J Jp Ne Nh Te AA Vn Th h i e :
  let '(h', i', e') := ionisation_transform Tn Nn Freq Eion edges Jm J Jp Ne Nh Te AA Vn Th h i e in
  let dn := val (density_source h') - val (density_source h) in
  val (energy_source h') - val (energy_source h) = 3 / 2 * Th * dn /\
  val (momentum_source h') - val (momentum_source h) = AA * Vn * dn /\
  val (energy_source e') - val (energy_source e) = Eion * dn.
Proof.
  unfold ionisation_transform. cbv zeta. set (r := cellAverage _ _ _ _ _ _). clearbody r.
  cbn [density_source energy_source momentum_source]. destruct h as [[?|] [?|] [?|]], e as [[?|] [?|] [?|]]; cbn [density_source energy_source momentum_source]; unfold val, add, subtract; repeat split; lra.
Qed.
(** SOL-KiT charge exchange: densities below 1e-5 count as 1e-5. *)
Lemma solkit_floor AA Nn rho edges Jm J Jp Na Ni Va Vi a i :
  solkit_transform AA Nn rho edges Jm J Jp Na Ni Va Vi a i = solkit_transform AA Nn rho edges Jm J Jp (floor_triple Na 1e-5) (floor_triple Ni 1e-5) Va Vi a i.
Proof.
  unfold solkit_transform. assert (F : forall t, floor_triple (floor_triple t 1e-5) 1e-5 = floor_triple t 1e-5).
  { intros t. unfold floor_triple. cbn [t_m t_c t_p]. assert (G : forall x, rfloor (rfloor x 1e-5) 1e-5 = rfloor x 1e-5).
    { intros x. unfold rfloor. pose proof (Rltb_spec x 1e-5). destruct (Rltb x 1e-5) eqn:E; [destruct (Rltb 1e-5 1e-5); reflexivity|]. now rewrite E. }
    now rewrite !G. }
  now rewrite !F.
Qed.
Lemma solkit_small AA Nn rho edges Jm J Jp Na Na' Ni Va Vi a i :
  t_m Na <= 1e-5 -> t_c Na <= 1e-5 -> t_p Na <= 1e-5 -> t_m Na' <= 1e-5 -> t_c Na' <= 1e-5 -> t_p Na' <= 1e-5 ->
  solkit_transform AA Nn rho edges Jm J Jp Na Ni Va Vi a i = solkit_transform AA Nn rho edges Jm J Jp Na' Ni Va Vi a i /\
  solkit_transform AA Nn rho edges Jm J Jp Ni Na Va Vi a i = solkit_transform AA Nn rho edges Jm J Jp Ni Na' Va Vi a i.
Proof.
  intros H1 H2 H3 H4 H5 H6. assert (G : forall x, x <= 1e-5 -> rfloor x 1e-5 = 1e-5).
  { intros x Hx. unfold rfloor. pose proof (Rltb_spec x 1e-5). destruct (Rltb x 1e-5); [reflexivity|lra]. }
  assert (F : floor_triple Na 1e-5 = floor_triple Na' 1e-5).
  { unfold floor_triple. now rewrite !G. }
  unfold solkit_transform. rewrite F. split; reflexivity.
Qed.
