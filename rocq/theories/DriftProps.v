(** The diamagnetic drift (C76), the polarisation drift (C77), the exchange of energy with the diamagnetic current (C78), the relaxing
    potential (C79) and friction and damping of the vorticity (C80). *)

From Coq Require Import List Bool ZArith Reals Lra Lia.
From Verif Require Import StateMonad StateMonadProofs MetricModel MetricProofs ParallelSpec ParallelProofs DriftModel DriftSpec DriftProofs.
Import ListNotations.
Open Scope R_scope.

(** Operators on a line with unit spacing: central differences of f * w and of f. *)
Definition central (f : Z -> R) (i : Z) : R := (f (i + 1)%Z - f (i - 1)%Z) / 2.
Definition central_flow (f w : Z -> R) : Z -> R := central (fun k => f k * w k).
Lemma central_linear : linear central.
Proof.
  split; [ | split ]; [ intros f g i; unfold central; field | intros c f i; unfold central; field | intros f g H i; unfold central; rewrite !H; reflexivity ].
Qed.
Lemma central_flow_linear w : linear (fun f => central_flow f w).
Proof.
  split; [ | split ]; [ intros f g i; unfold central_flow, central; field | intros c f i; unfold central_flow, central; field
                      | intros f g H i; unfold central_flow, central; rewrite !H; reflexivity ].
Qed.
(** Deuterons and electrons with a density which varies along the line. *)
Definition bump (i : Z) : R := 1 + IZR i * IZR i.
Lemma bump_pos i : 1 <= bump i.
Proof. unfold bump. pose proof (Rle_0_sqr (IZR i)) as H. unfold Rsqr in H. lra. Qed.
Definition deuteron : species :=
  mkSpecies (Some 1) (Some 2) (Some (fun _ => 3)) (Some bump) (Some (fun i => bump i * 3)) (Some (fun i => 2 * bump i * 5)) (Some (fun _ => 1)).
Definition light : species :=
  mkSpecies (Some (-1)) (Some (1 / 1836)) (Some (fun _ => 3)) (Some bump) (Some (fun i => bump i * 3)) (Some (fun i => 1 / 1836 * bump i * 7)) (Some (fun _ => 4)).
Lemma one_charged : 1e-5 <= Rabs 1.
Proof. rewrite Rabs_R1. lra. Qed.
Lemma minus_charged : 1e-5 <= Rabs (-1).
Proof. rewrite Rabs_left by lra. lra. Qed.
Lemma deuteron_number : charge_number deuteron = 1.
Proof. unfold charge_number. cbn [charge deuteron]. pose proof one_charged. destruct (Rlt_dec (Rabs 1) 1e-5); lra. Qed.
Lemma light_number : charge_number light = -1.
Proof. unfold charge_number. cbn [charge light]. pose proof minus_charged. destruct (Rlt_dec (Rabs (-1)) 1e-5); lra. Qed.

(** C76: species without charge or temperature do not drift. *)
Theorem C76_untouched : forall div_f_v curl_grad form s,
  charge s = None \/ (exists q, charge s = Some q /\ Rabs q < 1e-5) \/ temperature s = None ->
  diamagnetic_drift div_f_v curl_grad form s = mkSources (fun _ => 0) (fun _ => 0) (fun _ => 0).
Proof. exact dia_untouched. Qed.
Print Assumptions C76_untouched.
Example C76_untouched_case : let atom := mkSpecies None (Some 2) (Some (fun _ => 3)) (Some bump) (Some (fun i => bump i * 3)) None None in
  diamagnetic_drift central_flow central (fun _ => 1) atom = no_sources /\ density_source (diamagnetic_drift central_flow central (fun _ => 1) deuteron) 1%Z <> 0.
Proof.
  cbn zeta. split; [ apply dia_untouched; left; reflexivity | ]. unfold diamagnetic_drift. rewrite (charged_set deuteron 1 eq_refl one_charged).
  cbn [deuteron temperature density density_source]. unfold drift_of, central_flow, central, bump. cbn [Z.add Z.sub Z.opp Pos.add Pos.succ Z.pos_sub]. lra.
Qed.

(** With uniform temperature and flow the drift carries 5/2 T and the mean momentum with each particle, in the divergence form, the gradient
    form and any mixture of the two. *)
Theorem C76_isothermal : forall div_f_v curl_grad form s q T N P NV T0 A V0, (forall w, linear (fun f => div_f_v f w)) -> linear curl_grad ->
  charge s = Some q -> 1e-5 <= Rabs q -> temperature s = Some T -> density s = Some N -> pressure s = Some P -> momentum s = Some NV ->
  same P (fun i => N i * T0) -> same NV (fun i => A * N i * V0) ->
  let out := diamagnetic_drift div_f_v curl_grad form s in
  same (energy_source out) (fun i => 5 / 2 * T0 * density_source out i) /\ same (momentum_source out) (fun i => A * V0 * density_source out i).
Proof. exact dia_isothermal. Qed.
Print Assumptions C76_isothermal.
Example C76_isothermal_case : let out := diamagnetic_drift central_flow central (fun i => IZR i) deuteron in
  same (energy_source out) (fun i => 5 / 2 * 3 * density_source out i) /\ same (momentum_source out) (fun i => 2 * 5 * density_source out i).
Proof.
  exact (dia_isothermal central_flow central (fun i => IZR i) deuteron 1 _ _ _ _ 3 2 5 central_flow_linear central_linear eq_refl one_charged
    eq_refl eq_refl eq_refl eq_refl (fun i => eq_refl) (fun i => eq_refl)).
Qed.

(** In the gradient form the drifts of all species together carry the diamagnetic current of the total pressure, whatever the charges. *)
Theorem C76_current : forall div_f_v curl_grad form l, linear curl_grad -> same form (fun _ => 0) ->
  List.Forall (fun s => exists q T N, charge s = Some q /\ 1e-5 <= Rabs q /\ temperature s = Some T /\ density s = Some N) l ->
  forall i, sum_over l (fun s => value (charge s) * density_source (diamagnetic_drift div_f_v curl_grad form s) i)
    = - curl_grad (fun k => sum_over l (fun s => fvalue (density s) k * fvalue (temperature s) k)) i.
Proof. exact dia_current. Qed.
Print Assumptions C76_current.
Example C76_current_case : forall i,
  sum_over [deuteron; light] (fun s => value (charge s) * density_source (diamagnetic_drift central_flow central (fun _ => 0) s) i) = - (24 * IZR i) / 2.
Proof.
  intros i. rewrite (dia_current central_flow central (fun _ => 0) [deuteron; light] central_linear (fun _ => eq_refl)).
  - unfold central, sum_over. cbn [map fold_right deuteron light density temperature fvalue]. unfold bump. rewrite plus_IZR, minus_IZR. field.
  - apply List.Forall_cons; [ | apply List.Forall_cons; [ | apply List.Forall_nil ] ].
    + exists 1, (fun _ => 3), bump. exact (conj eq_refl (conj one_charged (conj eq_refl eq_refl))).
    + exists (-1), (fun _ => 3), bump. exact (conj eq_refl (conj minus_charged (conj eq_refl eq_refl))).
Qed.

(** "Set drift to zero through sheath boundaries": the drift velocity at the wall, the mean of the last cell and the guard cell, is zero only if
    the temperature in the guard cell is that of the last cell. *)
Theorem C76_wall_partial : forall q curl T_last T_guard, q <> 0 -> curl <> 0 ->
  (mean (drift_y_last q curl T_last) (drift_y_guard q curl T_guard) = 0 <-> T_last = T_guard).
Proof. exact wall_drift. Qed.
Print Assumptions C76_wall_partial.
Lemma wall_drift_refuted : exists q curl T_last T_guard, 0 < T_guard < T_last /\ 1e-5 <= Rabs q /\ mean (drift_y_last q curl T_last) (drift_y_guard q curl T_guard) > 0.
Proof.
  exists 1, 1, 2, 1. split; [ lra | ]. split; [ exact one_charged | ]. unfold mean, drift_y_last, drift_y_guard. lra.
Qed.
Theorem C76_wall_refuted : exists q curl T_last T_guard, 0 < T_guard < T_last /\ 1e-5 <= Rabs q /\ mean (drift_y_last q curl T_last) (drift_y_guard q curl T_guard) > 0.
Proof. exact wall_drift_refuted. Qed.
Print Assumptions C76_wall_refuted.

(** C77: without the Boussinesq approximation and above the density floor the density sources of the polarisation drift add up to the divergence of
    all other currents, so that the plasma stays neutral. *)
Theorem C77_neutral : forall set div_par div_a_grad solve Bsq jd je jc l out,
  boussinesq set = false -> advection set = true -> 0 < density_floor set -> linear div_par -> (forall f, linear (fun a => div_a_grad a f)) -> (forall k, 0 < Bsq k) ->
  List.Forall complete l -> (forall k, density_floor set <= sum_over l (fun s => charged_mass s k)) ->
  (forall C rhs, (forall k, 0 < C k) -> solves div_a_grad C rhs (solve C rhs)) ->
  polarisation_drift set div_par div_a_grad solve Bsq jd je jc l = Some out ->
  same (charge_rate (combine l (map snd out))) (other_currents div_par jd je jc l).
Proof. exact polarisation_neutral. Qed.
Print Assumptions C77_neutral.

(** No exception with complete species, if the diamagnetic polarisation is only used with the Boussinesq approximation. *)
Theorem C77_defined : forall set div_par div_a_grad solve Bsq jd je jc l, (diamagnetic_polarisation set = true -> boussinesq set = true) ->
  List.Forall complete l -> exists out, polarisation_drift set div_par div_a_grad solve Bsq jd je jc l = Some out /\ List.length out = List.length l.
Proof. exact polarisation_defined. Qed.
Print Assumptions C77_defined.
Lemma both_complete : List.Forall complete [deuteron; light].
Proof. apply List.Forall_cons; [ | apply List.Forall_cons; [ | apply List.Forall_nil ] ]; intros _; split; discriminate. Qed.
Lemma both_mass k : sum_over [deuteron; light] (fun s => charged_mass s k) = (2 + 1 / 1836) * bump k.
Proof.
  unfold sum_over. cbn [map fold_right]. unfold charged_mass. rewrite deuteron_number, light_number.
  destruct (Req_EM_T 1 0); [ lra | ]. destruct (Req_EM_T (-1) 0); [ lra | ]. cbn [deuteron light AA density value fvalue]. lra.
Qed.
Example C77_neutral_case : exists out,
  polarisation_drift (mkPol false 1 1e-5 true false) central line_div line_solve (fun _ => 4) None (Some (fun i => IZR i)) None [deuteron; light] = Some out
  /\ forall i, charge_rate (combine [deuteron; light] (map snd out)) i = - 4 * IZR i + IZR i.
Proof.
  destruct (polarisation_defined (mkPol false 1 1e-5 true false) central line_div line_solve (fun _ => 4) None (Some (fun i => IZR i)) None [deuteron; light]) as (out & E & _).
  - discriminate.
  - exact both_complete.
  - exists out. split; [ exact E | ]. intros i.
    rewrite (polarisation_neutral (mkPol false 1 1e-5 true false) central line_div line_solve (fun _ => 4) None (Some (fun i => IZR i)) None [deuteron; light] out); try reflexivity.
    + unfold other_currents, central, sum_over. cbn [map fold_right fvalue]. unfold parallel_current. rewrite deuteron_number, light_number.
      cbn [deuteron light AA momentum value fvalue]. unfold bump. rewrite plus_IZR, minus_IZR. field.
    + cbn [density_floor]. lra.
    + exact central_linear.
    + exact (proj1 line_bilinear).
    + intros k. lra.
    + exact both_complete.
    + intros k. cbn [density_floor]. rewrite both_mass. pose proof (bump_pos k). lra.
    + exact line_solves.
    + exact E.
Qed.

(** With the Boussinesq approximation the species carry the current times the ratio of the real mass density to the assumed one ... *)
Theorem C77_boussinesq_partial : forall set div_par div_a_grad solve Bsq jd je jc l out m,
  boussinesq set = true -> advection set = true -> 0 < average_atomic_mass set -> linear div_par -> (forall f, linear (fun a => div_a_grad a f)) -> (forall k, 0 < Bsq k) ->
  (forall k, sum_over l (fun s => charged_mass s k) = m) ->
  (forall C rhs, (forall k, 0 < C k) -> solves div_a_grad C rhs (solve C rhs)) ->
  polarisation_drift set div_par div_a_grad solve Bsq jd je jc l = Some out ->
  same (charge_rate (combine l (map snd out))) (fun i => m / average_atomic_mass set * other_currents div_par jd je jc l i).
Proof. exact polarisation_boussinesq. Qed.
Print Assumptions C77_boussinesq_partial.

(** ... so that by default the plasma does not stay neutral: deuterium at half the reference density carries half of the current. *)
Definition thin : species := mkSpecies (Some 1) (Some 2) None (Some (fun _ => 1 / 2)) None None None.
Lemma thin_boussinesq : exists out, polarisation_drift pol_default central line_div line_solve (fun _ => 1) (Some (fun _ => 6)) None None [thin] = Some out
  /\ (forall i, other_currents central (Some (fun _ => 6)) None None [thin] i = 6) /\ forall i, charge_rate (combine [thin] (map snd out)) i = 3.
Proof.
  assert (Q : charge_number thin = 1) by (unfold charge_number; cbn [charge thin]; pose proof one_charged; destruct (Rlt_dec (Rabs 1) 1e-5); lra).
  assert (O : forall i, other_currents central (Some (fun _ => 6)) None None [thin] i = 6).
  { intros i. unfold other_currents, central, sum_over. cbn [map fold_right fvalue]. unfold parallel_current. cbn [thin AA momentum value fvalue]. field. }
  destruct (polarisation_defined pol_default central line_div line_solve (fun _ => 1) (Some (fun _ => 6)) None None [thin]) as (out & E & _).
  - reflexivity.
  - apply List.Forall_cons; [ intros _; split; discriminate | apply List.Forall_nil ].
  - exists out. split; [ exact E | ]. split; [ exact O | ]. intros i.
    rewrite (polarisation_boussinesq pol_default central line_div line_solve (fun _ => 1) (Some (fun _ => 6)) None None [thin] out 1); try reflexivity.
    + rewrite O. cbn [average_atomic_mass pol_default]. lra.
    + cbn [average_atomic_mass pol_default]. lra.
    + exact central_linear.
    + exact (proj1 line_bilinear).
    + intros k. lra.
    + intros k. unfold sum_over. cbn [map fold_right]. unfold charged_mass. rewrite Q. destruct (Req_EM_T 1 0); [ lra | ]. cbn [thin AA density value fvalue]. lra.
    + exact line_solves.
    + exact E.
Qed.
Lemma thin_refuted : exists l jd out, List.Forall complete l
  /\ polarisation_drift pol_default central line_div line_solve (fun _ => 1) jd None None l = Some out
  /\ forall i, charge_rate (combine l (map snd out)) i <> other_currents central jd None None l i.
Proof.
  destruct thin_boussinesq as (out & E & HO & HC). exists [thin], (Some (fun _ => 6)), out. split; [ | split; [ exact E | ] ].
  - apply List.Forall_cons; [ intros _; split; discriminate | apply List.Forall_nil ].
  - intros i. rewrite (HC i), (HO i). lra.
Qed.
Theorem C77_boussinesq_refuted : exists l jd out, List.Forall complete l
  /\ polarisation_drift pol_default central line_div line_solve (fun _ => 1) jd None None l = Some out
  /\ forall i, charge_rate (combine l (map snd out)) i <> other_currents central jd None None l i.
Proof. exact thin_refuted. Qed.
Print Assumptions C77_boussinesq_refuted.

(** Switching only the Boussinesq approximation off throws an exception, whatever the state. *)
Theorem C77_non_boussinesq_throws : forall average fl adv div_par div_a_grad solve Bsq jd je jc l,
  polarisation_drift (mkPol false average fl adv (diamagnetic_polarisation pol_default)) div_par div_a_grad solve Bsq jd je jc l = None.
Proof. exact pol_throws. Qed.
Print Assumptions C77_non_boussinesq_throws.

(** As for the diamagnetic drift: 5/2 T and the mean momentum go with each particle. *)
Theorem C77_isothermal : forall div_a_grad Bsq phi s q M N P NV T0 V0, (forall f, linear (fun a => div_a_grad a f)) ->
  charge s = Some q -> 1e-5 <= Rabs q -> AA s = Some M -> density s = Some N -> pressure s = Some P -> momentum s = Some NV ->
  same P (fun i => N i * T0) -> same NV (fun i => M * N i * V0) ->
  let out := polarisation_of div_a_grad Bsq phi s in
  same (energy_source out) (fun i => 5 / 2 * T0 * density_source out i) /\ same (momentum_source out) (fun i => M * V0 * density_source out i).
Proof. exact pol_isothermal. Qed.
Print Assumptions C77_isothermal.
Example C77_isothermal_case : let out := polarisation_of line_div (fun _ => 4) (fun i => IZR i) deuteron in
  same (energy_source out) (fun i => 5 / 2 * 3 * density_source out i) /\ density_source out 0%Z = 0 /\ density_source out 1%Z = 1.
Proof.
  cbn zeta. split.
  - exact (proj1 (pol_isothermal line_div (fun _ => 4) (fun i => IZR i) deuteron 1 2 _ _ _ 3 5 (proj1 line_bilinear) eq_refl one_charged eq_refl eq_refl eq_refl eq_refl
      (fun i => eq_refl) (fun i => eq_refl))).
  - unfold polarisation_of. rewrite (charged_set deuteron 1 eq_refl one_charged). cbn [deuteron AA density density_source]. unfold line_div, line_face, bump.
    cbn [Z.add Z.sub Z.opp Pos.add Pos.succ Z.pos_sub Pos.pred_double]. split; lra.
Qed.

(** C78: the energy which the species lose to the diamagnetic current is the energy which the potential gains, up to what flows through the ends
    of the line; for any metric, curvature, spacing, potential and pressures. *)
Theorem C78_exchange : forall J curl d phi l lo n, (forall i, J i <> 0) -> (forall i, d i <> 0) ->
  zsum lo n (fun i => J i * d i * sum_over l (fun s => dia_heat curl d phi s i)) - zsum lo n (fun i => J i * d i * (phi i * div_jdia J curl d l i))
  = power_through J curl phi l (lo - 1) - power_through J curl phi l (lo + Z.of_nat n - 1).
Proof. exact exchange. Qed.
Print Assumptions C78_exchange.
(** Without ends the balance is exact. *)
Theorem C78_periodic : forall J curl d phi l lo n, (forall i, J i <> 0) -> (forall i, d i <> 0) ->
  (forall i, J (i + Z.of_nat n)%Z = J i) -> (forall i, curl (i + Z.of_nat n)%Z = curl i) -> (forall i, phi (i + Z.of_nat n)%Z = phi i) ->
  (forall s P, List.In s l -> pressure s = Some P -> forall i, P (i + Z.of_nat n)%Z = P i) ->
  zsum lo n (fun i => J i * d i * sum_over l (fun s => dia_heat curl d phi s i)) = zsum lo n (fun i => J i * d i * (phi i * div_jdia J curl d l i)).
Proof. exact exchange_periodic. Qed.
Print Assumptions C78_periodic.
(** Period 3 with a varying potential and pressure: the exchanged energy is not zero. *)
Definition three (a b c : R) (i : Z) : R := if Z.eqb (i mod 3) 0 then a else if Z.eqb (i mod 3) 1 then b else c.
Lemma three_period a b c i : three a b c (i + Z.of_nat 3) = three a b c i.
Proof. unfold three. change (Z.of_nat 3) with (1 * 3)%Z. rewrite Z.mod_add by lia. reflexivity. Qed.
Lemma three_m1 a b c : three a b c (-1) = c. Proof. reflexivity. Qed.
Lemma three_0 a b c : three a b c 0 = a. Proof. reflexivity. Qed.
Lemma three_1 a b c : three a b c 1 = b. Proof. reflexivity. Qed.
Lemma three_2 a b c : three a b c 2 = c. Proof. reflexivity. Qed.
Lemma three_3 a b c : three a b c 3 = a. Proof. reflexivity. Qed.
Example C78_case : let s := mkSpecies (Some (-1)) (Some 1) None None (Some (three 1 5 2)) None None in
  zsum 0 3 (fun i => 1 * 1 * sum_over [s] (fun s => dia_heat (fun _ => 2) (fun _ => 1) (three 0 3 1) s i))
  = zsum 0 3 (fun i => 1 * 1 * (three 0 3 1 i * div_jdia (fun _ => 1) (fun _ => 2) (fun _ => 1) [s] i))
  /\ zsum 0 3 (fun i => 1 * 1 * sum_over [s] (fun s => dia_heat (fun _ => 2) (fun _ => 1) (three 0 3 1) s i)) <> 0.
Proof.
  intros s. split.
  - apply (exchange_periodic (fun _ => 1) (fun _ => 2) (fun _ => 1) (three 0 3 1) [s] 0 3); try (intros; lra); try reflexivity.
    + intros i. apply three_period.
    + intros s' P [ <- | [] ] E i. cbn [s pressure] in E. injection E as <-. apply three_period.
  - unfold sum_over. cbn [map fold_right zsum]. unfold dia_heat, Jdia_of. rewrite (charged_set s (-1) eq_refl minus_charged). cbn [s pressure]. unfold DD.
    cbn [Z.of_nat Pos.of_succ_nat Pos.succ Z.add Z.sub Z.opp Z.pos_sub Pos.add Pos.pred_double].
    rewrite !three_m1, !three_0, !three_1, !three_2, !three_3. lra.
Qed.

(** At a wall the vorticity equation still has the diamagnetic current which the drift of the species has not: Vorticity does not change the curvature in
    the guard cell.  Flat profiles, one cell next to the wall. *)
Lemma wall_current_refuted : exists q T N curl, 1e-5 <= Rabs q /\
  q * N * mean (drift_y_last q curl T) (drift_y_guard q curl T) = 0
  /\ mean (Jdia (fun _ => curl) [mkSpecies (Some q) None None None (Some (fun _ => N * T)) None None] 0%Z)
          (Jdia (fun _ => curl) [mkSpecies (Some q) None None None (Some (fun _ => N * T)) None None] 1%Z) <> 0.
Proof.
  exists 1, 1, 1, 1. split; [ exact one_charged | ]. split.
  - unfold mean, drift_y_last, drift_y_guard. lra.
  - unfold mean, Jdia. cbn [fold_left]. unfold Jdia_of. cbn [pressure]. rewrite (charged_set (mkSpecies (Some 1) None None None (Some (fun _ => 1 * 1)) None None) 1 eq_refl one_charged). lra.
Qed.
Theorem C78_wall_current_refuted : exists q T N curl, 1e-5 <= Rabs q /\
  q * N * mean (drift_y_last q curl T) (drift_y_guard q curl T) = 0
  /\ mean (Jdia (fun _ => curl) [mkSpecies (Some q) None None None (Some (fun _ => N * T)) None None] 0%Z)
          (Jdia (fun _ => curl) [mkSpecies (Some q) None None None (Some (fun _ => N * T)) None None] 1%Z) <> 0.
Proof. exact wall_current_refuted. Qed.
Print Assumptions C78_wall_current_refuted.

(** C79: at rest the relaxing potential satisfies the equation which Vorticity solves, if all charged species with pressure are singly charged ions. *)
Theorem C79_steady_partial : forall div_a_grad l1 average Bsq phi Vort l r, bilinear div_a_grad -> average <> 0 ->
  List.Forall (fun s => charge_number s = 1 \/ pressure s = None \/ charge_number s = 0) l ->
  ddt_phi1 div_a_grad l1 average true Bsq phi Vort l = Some r ->
  same r (fun i => l1 * (div_a_grad (fun k => average / Bsq k) (fun k => phi k + weighted_pressure average l k) i - Vort i)).
Proof. exact relax_steady_spec. Qed.
Print Assumptions C79_steady_partial.
Example C79_steady_case : exists r, ddt_phi1 line_div 1 2 true (fun _ => 4) bump (fun _ => 4) [deuteron] = Some r /\ same r (fun _ => 0).
Proof.
  eexists. split.
  - unfold ddt_phi1. cbn [fold_left]. unfold relax_dia. rewrite (charged_set deuteron 1 eq_refl one_charged). cbn [deuteron pressure AA]. reflexivity.
  - intros i. unfold line_div, line_face, bump. rewrite plus_IZR, minus_IZR. field.
Qed.
(** What Vorticity uses as Pi_hat is that weighted pressure. *)
Theorem C79_Pi_hat : forall average l i, average <> 0 -> Pi_hat average l i = weighted_pressure average l i.
Proof. exact Pi_spec. Qed.
Print Assumptions C79_Pi_hat.
Example C79_Pi_hat_case : Pi_hat 2 [deuteron; light] 0%Z = 3 - 3 / 3672.
Proof.
  unfold Pi_hat. cbn [fold_left]. unfold add_pi. rewrite (charged_set deuteron 1 eq_refl one_charged), (charged_set light (-1) eq_refl minus_charged).
  cbn [deuteron light pressure AA]. unfold bump, zero. lra.
Qed.
(** Electrons enter with the wrong sign (the charge is left out). *)
Lemma electrons_steady : exists r, ddt_phi1 line_div 1 2 true (fun _ => 1) zero (fun _ => 6) [mkSpecies (Some (-1)) (Some 1) None None (Some (fun i => 3 * bump i)) None None] = Some r
  /\ same r (fun _ => 0).
Proof.
  eexists. split.
  - unfold ddt_phi1. cbn [fold_left]. unfold relax_dia. rewrite (charged_set (mkSpecies (Some (-1)) (Some 1) None None (Some (fun i => 3 * bump i)) None None) (-1) eq_refl minus_charged). cbn [pressure AA]. reflexivity.
  - intros i. unfold line_div, line_face, bump, zero. rewrite plus_IZR, minus_IZR. field.
Qed.
Lemma electrons_vort i : line_div (fun _ => 2 / 1) (fun k => zero k + Pi_hat 2 [mkSpecies (Some (-1)) (Some 1) None None (Some (fun i => 3 * bump i)) None None] k) i = -6.
Proof.
  unfold Pi_hat. cbn [fold_left]. unfold add_pi. rewrite (charged_set (mkSpecies (Some (-1)) (Some 1) None None (Some (fun i => 3 * bump i)) None None) (-1) eq_refl minus_charged). cbn [pressure AA]. unfold line_div, line_face, bump, zero.
  rewrite plus_IZR, minus_IZR. field.
Qed.
Lemma electrons_refuted : exists Vort phi l r, ddt_phi1 line_div 1 2 true (fun _ => 1) phi Vort l = Some r /\ same r (fun _ => 0)
  /\ forall i, line_div (fun _ => 2 / 1) (fun k => phi k + Pi_hat 2 l k) i = - Vort i /\ Vort i <> 0.
Proof.
  destruct electrons_steady as (r & E & H). exists (fun _ => 6), zero, [mkSpecies (Some (-1)) (Some 1) None None (Some (fun i => 3 * bump i)) None None], r.
  split; [ exact E | ]. split; [ exact H | ]. intros i. split; [ exact (electrons_vort i) | lra ].
Qed.
Theorem C79_steady_refuted : exists Vort phi l r, ddt_phi1 line_div 1 2 true (fun _ => 1) phi Vort l = Some r /\ same r (fun _ => 0)
  /\ forall i, line_div (fun _ => 2 / 1) (fun k => phi k + Pi_hat 2 l k) i = - Vort i /\ Vort i <> 0.
Proof. exact electrons_refuted. Qed.
Print Assumptions C79_steady_refuted.

(** Only the ratio of the two parameters counts: the potential itself moves at lambda_1 / lambda_2. *)
Theorem C79_rate : forall div_a_grad l1 l2 average dia_pol Bsq phi1 Vort l r, l2 <> 0 -> bilinear div_a_grad ->
  ddt_phi1 div_a_grad l1 average dia_pol Bsq (scaled_phi l2 phi1) Vort l = Some r ->
  exists r', ddt_phi1 div_a_grad (l1 / l2) average dia_pol Bsq (scaled_phi 1 (scaled_phi l2 phi1)) Vort l = Some r' /\ same (scaled_phi l2 r) r'.
Proof. exact relax_rate. Qed.
Print Assumptions C79_rate.

(** The documented condition "lambda_1 > lambda_2 > 1" does not hold for the defaults. *)
Lemma lambdas_refuted : ~ (lambda_1_default > lambda_2_default /\ lambda_2_default > 1) /\ ~ lambda_1_default > 1.
Proof.
  unfold lambda_1_default, lambda_2_default. split; [ intros (H & _); lra | lra ].
Qed.
Theorem C79_defaults_refuted : ~ (lambda_1_default > lambda_2_default /\ lambda_2_default > 1) /\ ~ lambda_1_default > 1.
Proof. exact lambdas_refuted. Qed.
Print Assumptions C79_defaults_refuted.

(** The two components give the same species different energies for the same current: PolarisationDrift P DivJ, RelaxPotential 3/2 P DivJ. *)
Theorem C79_heat : forall set DivJ P A, 0 < A -> average_atomic_mass set = A ->
  let s := mkSpecies (Some 1) (Some A) None None (Some P) None None in
  forall i, relax_heat DivJ s i = 3 / 2 * polarisation_heat set DivJ s i /\ polarisation_heat set DivJ s i = P i * DivJ i.
Proof. exact heats_differ. Qed.
Print Assumptions C79_heat.
Lemma heat_refuted : exists DivJ s, charge s = Some 1 /\ AA s = Some 2 /\ relax_heat DivJ s 0%Z <> polarisation_heat pol_default DivJ s 0%Z.
Proof.
  exists (fun _ => 1), (mkSpecies (Some 1) (Some 2) None None (Some (fun _ => 1)) None None). split; [ reflexivity | ]. split; [ reflexivity | ].
  unfold relax_heat, polarisation_heat. rewrite (charged_set (mkSpecies (Some 1) (Some 2) None None (Some (fun _ => 1)) None None) 1 eq_refl one_charged).
  cbn [pressure charge AA average_atomic_mass pol_default]. lra.
Qed.
Theorem C79_heat_refuted : exists DivJ s, charge s = Some 1 /\ AA s = Some 2 /\ relax_heat DivJ s 0%Z <> polarisation_heat pol_default DivJ s 0%Z.
Proof. exact heat_refuted. Qed.
Print Assumptions C79_heat_refuted.
(** Atoms whose charge is set to zero are heated by RelaxPotential. *)
Lemma neutral_heat_refuted : exists DivJ s, charge s = Some 0 /\ relax_heat DivJ s 0%Z > 0 /\ polarisation_heat pol_default DivJ s 0%Z = 0.
Proof.
  exists (fun _ => 1), (mkSpecies (Some 0) (Some 2) None None (Some (fun _ => 1)) None None). split; [ reflexivity | ]. split.
  - unfold relax_heat. cbn [pressure charge AA]. lra.
  - unfold polarisation_heat. cbn [pressure]. rewrite (charged_none (mkSpecies (Some 0) (Some 2) None None (Some (fun _ => 1)) None None) (or_intror (ex_intro _ 0 (conj eq_refl zero_uncharged)))). reflexivity.
Qed.
Theorem C79_neutral_heat_refuted : exists DivJ s, charge s = Some 0 /\ relax_heat DivJ s 0%Z > 0 /\ polarisation_heat pol_default DivJ s 0%Z = 0.
Proof. exact neutral_heat_refuted. Qed.
Print Assumptions C79_neutral_heat_refuted.

(** C80: the collision frequency of the whole plasma lies between the smallest and the largest of its charged species. *)
Theorem C80_friction : forall i lo hi l nu, List.Forall (within i lo hi) l -> weighted_collision_frequency i l = Some nu -> lo <= nu <= hi.
Proof. exact friction_mean. Qed.
Print Assumptions C80_friction.
Example C80_friction_case : exists nu, weighted_collision_frequency 0 [deuteron; light] = Some nu /\ 1 <= nu <= 4 /\ nu < 1.01.
Proof.
  assert (V : weighted_collision_frequency 0 [deuteron; light] = Some ((0 + 2 * bump 0 * 1 + 1 / 1836 * bump 0 * 4) / (0 + 2 * bump 0 + 1 / 1836 * bump 0))).
  { unfold weighted_collision_frequency, friction_sums. cbn [fold_left]. unfold add_friction.
    rewrite (charged_set deuteron 1 eq_refl one_charged), (charged_set light (-1) eq_refl minus_charged). cbn [deuteron light AA density collision_frequency].
    rewrite Reqb_false; [ reflexivity | ]. pose proof (bump_pos 0). lra. }
  eexists. split; [ exact V | ]. split.
  - apply (friction_mean 0 1 4 [deuteron; light] _); [ | exact V ].
    apply List.Forall_cons; [ | apply List.Forall_cons; [ | apply List.Forall_nil ] ]; unfold within; cbn [deuteron light AA density collision_frequency value fvalue];
      pose proof (bump_pos 0); repeat split; intros; lra.
  - unfold bump. lra.
Qed.
(** Without charged particles there is no value: 0 / 0. *)
Lemma empty_refuted : exists i l, List.Forall (within i 0 1) l /\ friction_sums i l = Some (0, 0) /\ weighted_collision_frequency i l = None.
Proof.
  exists 0%Z, []. split; [ apply List.Forall_nil | ]. split; [ reflexivity | ].
  unfold weighted_collision_frequency, friction_sums. cbn [fold_left]. rewrite (Reqb_true 0 0 eq_refl). reflexivity.
Qed.
Theorem C80_empty_refuted : exists i l, List.Forall (within i 0 1) l /\ friction_sums i l = Some (0, 0) /\ weighted_collision_frequency i l = None.
Proof. exact empty_refuted. Qed.
Print Assumptions C80_empty_refuted.

(** The dissipation at the sheath is the potential there if it is negative and nothing otherwise. *)
Theorem C80_sheath : forall phi_last phi_guard, sheath_dissipation phi_last phi_guard = Rmin (mean phi_last phi_guard) 0.
Proof. exact sheath_dissipation_min. Qed.
Print Assumptions C80_sheath.
Example C80_sheath_case : sheath_dissipation (-3) (-1) = -2 /\ sheath_dissipation 3 (-1) = 0.
Proof. rewrite !sheath_dissipation_min. split; [ rewrite Rmin_left | rewrite Rmin_right ]; lra. Qed.

(** Damping near the core: the mean in z decays at the rate 0.01, differences in z are not changed. *)
Theorem C80_core : forall Nz Vort ddt, (0 < Nz)%nat ->
  z_sum Nz (damp_core Nz Vort ddt) = z_sum Nz ddt - 0.01 * z_sum Nz Vort
  /\ forall j k, damp_core Nz Vort ddt j - damp_core Nz Vort ddt k = ddt j - ddt k.
Proof. exact damp_core_mean. Qed.
Print Assumptions C80_core.
Example C80_core_case : z_sum 2 (damp_core 2 (fun k => 100 + 300 * IZR k) (fun k => IZR k)) = 1 - 5.
Proof.
  rewrite (proj1 (damp_core_mean 2 _ _ ltac:(lia))). unfold z_sum. cbn [seq fold_left Z.of_nat Pos.of_succ_nat]. lra.
Qed.
