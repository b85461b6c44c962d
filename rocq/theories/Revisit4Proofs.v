(** Neutrals, evolution, diagnostics and the sheath: lemmas added after trying wrong variants of the model. *)

From Coq Require Import List Bool ZArith Reals Lra Lia String.
From Verif Require Import StateMonad StateMonadProofs ParallelModel ParallelProofs ReactionsModel NeutralModel EvolveModel UnitsModel SheathModel SheathSpec SheathLaws.
Import ListNotations.
Open Scope R_scope.

Lemma neutral_sound_speed s T : lax_flux s = true -> 0 < NeutralModel.AA s -> 0 <= T -> NeutralModel.AA s * NeutralModel.sound_speed s T ^ 2 = 5 / 3 * T.
Proof.
  intros L HA HT. unfold NeutralModel.sound_speed. rewrite L. replace (sqrt (T * (5 / 3) / NeutralModel.AA s) ^ 2) with (sqrt (T * (5 / 3) / NeutralModel.AA s) * sqrt (T * (5 / 3) / NeutralModel.AA s)) by ring.
  rewrite sqrt_sqrt. { field. lra. } unfold Rdiv. apply Rmult_le_pos; [lra|left; now apply Rinv_0_lt_compat].
Qed.

Lemma kappa_guards m alpha A kappa gradT N T : (ystart m <= yend m)%Z ->
  let k := kappa_line m alpha A kappa gradT N T in
  let k0 j := kappa_limited alpha (kappa j) (gradT j) (N j) (T j) A in
  (forall j, (ystart m <= j <= yend m)%Z -> k j = k0 j) /\
  k (ystart m - 1)%Z = (if (firstY m && negb (periodicY m))%bool then k (ystart m) else k0 (ystart m - 1)%Z) /\
  k (yend m + 1)%Z = (if (lastY m && negb (periodicY m))%bool then k (yend m) else k0 (yend m + 1)%Z).
Proof.
  intros H k k0. unfold k, kappa_line. fold (k0). 
  assert (E : forall j, (fun j => kappa_limited alpha (kappa j) (gradT j) (N j) (T j) A) j = k0 j) by reflexivity.
  destruct (firstY m && negb (periodicY m))%bool, (lastY m && negb (periodicY m))%bool; (split; [intros j Hj|split]); rewrite ?upd_eq;
    repeat match goal with |- context [Z.eqb ?a ?b] => destruct (Z.eqb_spec a b); try (exfalso; lia); cbv iota end; reflexivity.
Qed.
Lemma braginskii_viscosities P nu : nu <> 0 -> eta_ion P nu * nu = 4 / 3 * 0.96 * P /\ eta_electron P nu * nu = 4 / 3 * 0.73 * P.
Proof.
  intros H. unfold eta_ion, eta_electron. split.
  - replace (1.28 * P * (1 / nu) * nu) with (1.28 * P * (nu / nu)) by (unfold Rdiv; ring). unfold Rdiv at 1. rewrite Rinv_r by exact H. lra.
  - replace (4 / 3 * 0.73 * P * (1 / nu) * nu) with (4 / 3 * 0.73 * P * (nu / nu)) by (unfold Rdiv; ring). unfold Rdiv at 2. rewrite Rinv_r by exact H. lra.
Qed.

Lemma momentum_flows_law species old :
  (forall x y f, species "momentum_flow_xlow"%string = Some x -> species "momentum_flux_ylow"%string = Some f -> species "momentum_flow_ylow"%string = Some y ->
     momentum_flows species old = Some (Some x, Some y)) /\
  (forall x, species "momentum_flow_xlow"%string = Some x -> species "momentum_flux_ylow"%string = None -> momentum_flows species old = Some (Some x, snd old)) /\
  (forall y f, species "momentum_flow_xlow"%string = None -> species "momentum_flux_ylow"%string = Some f -> species "momentum_flow_ylow"%string = Some y ->
     momentum_flows species old = Some (fst old, Some y)).
Proof.
  unfold momentum_flows. split; [|split].
  - intros x y f -> -> ->. reflexivity.
  - intros x -> ->. reflexivity.
  - intros y f -> -> ->. reflexivity.
Qed.

(** Charge exchange: the effective temperature. *)
Lemma cx_Teff_law nm T1 A1 T2 A2 : cx_Teff nm T1 A1 T2 A2 = cx_Teff nm T2 A2 T1 A1 /\ 0.01 <= cx_Teff nm T1 A1 T2 A2 <= 10000 /\
  (0.01 <= (T1 / A1 + T2 / A2) * ReactionsModel.Tnorm nm <= 10000 -> cx_Teff nm T1 A1 T2 A2 = (T1 / A1 + T2 / A2) * ReactionsModel.Tnorm nm).
Proof.
  unfold cx_Teff. cbv zeta. rewrite (Rplus_comm (T2 / A2)). split; [reflexivity|]. set (x := (T1 / A1 + T2 / A2) * ReactionsModel.Tnorm nm).
  pose proof (Rltb_spec x 0.01). pose proof (Rltb_spec 10000 x). destruct (Rltb x 0.01), (Rltb 10000 x); split; try split; try intros; lra.
Qed.

(** ** Ions at the upper end of the insulating sheath *)
Lemma insulating_ion_heat_upper g e i : geom_ok g -> (adiabatic i = 5 / 3 -> added_energy (insulating_ion_upper g e i) = 0) /\ added_energy (insulating_ion_upper g e i) <= 0.
Proof.
  intros Hg. split.
  - intros Ha. unfold insulating_ion_upper. cbn [added_energy]. set (C := insulating_C_i_sq_upper e i). set (T := rfloor (sheath_value (temp i)) 1e-5).
    assert (HT : 0 < T) by (unfold T, rfloor; destruct (Rltb (sheath_value (temp i)) 1e-5) eqn:E; [lra|];
      pose proof (Rltb_spec (sheath_value (temp i)) 1e-5) as S; rewrite E in S; lra).
    rewrite Ha. replace (1 / (5 / 3 - 1)) with (3 / 2) by lra.
    replace (((2.5 + 0.5 * mass i * C / T - 1 - 3 / 2) * T - 0.5 * C * mass i)) with 0.
    + rewrite !Rmult_0_l. destruct (Rlt_dec 0 0); unfold per_volume, Rdiv; ring.
    + replace 2.5 with (5 / 2) by lra. replace 0.5 with (/ 2) by lra. field. lra.
  - unfold insulating_ion_upper. cbn [added_energy]. cbv zeta.
    match goal with |- - per_volume g (if Rlt_dec ?q 0 then 0 else ?q) <= 0 => set (Q := q); destruct (Rlt_dec Q 0) as [L|L]; [destruct (per_volume_sign g 0 Hg) as [_ X]; pose proof (X (Rle_refl 0)); lra | destruct (per_volume_sign g Q Hg) as [_ X]; pose proof (X (Rnot_lt_le _ _ L)); lra] end.
Qed.
(** The sound speed at the sheath: with a density gradient of the ion below 1e-3 (between cell and sheath) the ratio of gradients is taken
    as one. *)
Lemma C_small limit gne gni ti te s i : 0 < limit -> Rabs gni < limit -> C_i_sq limit gne gni ti te s i = clip ((adiabatic i * ti + charge i * s * te) / mass i) 0 100.
Proof.
  intros HL H. unfold C_i_sq. destruct (Rlt_dec (Rabs gni) limit); [|lra]. f_equal. f_equal. f_equal. field. lra.
Qed.
Lemma C_large limit gne gni ti te s i : limit <= Rabs gni -> C_i_sq limit gne gni ti te s i = clip ((adiabatic i * ti + charge i * s * te * (gne / gni)) / mass i) 0 100.
Proof.
  intros H. unfold C_i_sq. destruct (Rlt_dec (Rabs gni) limit); [lra|]. f_equal. f_equal. f_equal. unfold Rdiv. ring.
Qed.
Definition gradient_factor (gne gni : R) : R := if Rlt_dec (Rabs gni) 1e-3 then 1 else gne / gni.
Lemma bohm_speeds e i : let ne := sheath_value (dens e) in let ni := sheath_value (dens i) in
  let ti := rfloor (sheath_value (temp i)) 1e-5 in let te := rfloor (sheath_value (temp e)) 1e-5 in
  let r := gradient_factor (at_c (dens e) - ne) (at_c (dens i) - ni) in
  full_C_i_sq e i = clip ((adiabatic i * ti + charge i * clip (ni / rfloor ne 1e-10) 0 1 * te * r) / mass i) 0 100 /\
  (1e-5 < ne -> insulating_C_i_sq_upper e i = clip ((adiabatic i * ti + charge i * (ni / ne) * te * r) / mass i) 0 100) /\
  (ne <= 1e-5 -> insulating_C_i_sq_upper e i = clip (adiabatic i * ti / mass i) 0 100).
Proof.
  intros ne ni ti te r. unfold full_C_i_sq, insulating_C_i_sq_upper. fold ne ni ti te. unfold r, gradient_factor.
  assert (K : forall s, C_i_sq 1e-3 (at_c (dens e) - ne) (at_c (dens i) - ni) ti te s i
     = clip ((adiabatic i * ti + charge i * s * te * (if Rlt_dec (Rabs (at_c (dens i) - ni)) 1e-3 then 1 else (at_c (dens e) - ne) / (at_c (dens i) - ni))) / mass i) 0 100).
  { intros s. destruct (Rlt_dec (Rabs (at_c (dens i) - ni)) 1e-3) as [L|L].
    - rewrite (C_small 1e-3 _ _ _ _ _ _ ltac:(lra) L). f_equal. f_equal. ring.
    - apply C_large. lra. }
  split; [apply K|]. split; intros H.
  - destruct (Rlt_dec 1e-5 ne); [|lra]. apply K.
  - destruct (Rlt_dec 1e-5 ne); [lra|]. rewrite K. f_equal. f_equal. ring.
Qed.

Lemma power_check : forallb (fun e => negb (String.prefix "W" (e_units e)) || negb (e_particles e))%bool outputs = true.
Proof. vm_compute. reflexivity. Qed.
Lemma power_entries e : List.In e outputs -> String.prefix "W" (e_units e) = true -> e_particles e = false.
Proof.
  intros H P. pose proof (proj1 (forallb_forall _ outputs) power_check e H) as X. cbv beta in X. rewrite P in X. cbn [negb orb] in X. now apply negb_true_iff in X.
Qed.
Lemma power_entry : exists e, List.In e outputs /\ e_units e = "W"%string.
Proof.
  pose (l := filter (fun e => String.eqb (e_units e) "W") outputs).
  assert (E : exists e, hd_error l = Some e). { vm_compute. eexists. reflexivity. }
  destruct E as [e E]. exists e. destruct l as [|x t] eqn:L; [discriminate E|]. cbn [hd_error] in E. injection E as ->.
  assert (I : List.In e (filter (fun e => String.eqb (e_units e) "W") outputs)) by (fold l; rewrite L; left; reflexivity).
  apply filter_In in I. destruct I as [I1 I2]. split; [exact I1|]. now apply String.eqb_eq.
Qed.
