(** The insulating sheath, and concrete plasmas. *)

From Coq Require Import List Bool Reals Lra.
From Verif Require Import StateMonad StateMonadProofs ReactionsModel SheathModel SheathSpec SheathProofs SheathLaws.
Import ListNotations.
Open Scope R_scope.

(** ** Insulating sheath *)

Lemma insulating_fold m (v : spec -> R) ions : forall a b,
  fold_left (fun '(ve, nve) i => (ve + 2 * v i * charge i, nve + 2 * m * sheath_value (dens i) * v i)) ions (a, b)
  = (a + 2 * fold_right (fun i s => charge i * v i + s) 0 ions, b + 2 * m * fold_right (fun i s => sheath_value (dens i) * v i + s) 0 ions).
Proof.
  induction ions as [|i ions IH]; intros a b; cbn [fold_left fold_right]; [f_equal; ring|]. rewrite IH. f_equal; ring.
Qed.

Definition v_lower (e i : spec) : R := - sqrt (full_C_i_sq e i).
Definition v_upper (e i : spec) : R := sqrt (insulating_C_i_sq_upper e i).

Lemma flow_lower_eq e ions : insulating_flow_lower e ions =
  (- vel_c e + 2 * fold_right (fun i s => charge i * v_lower e i + s) 0 ions, - mom_c e + 2 * mass e * fold_right (fun i s => sheath_value (dens i) * v_lower e i + s) 0 ions).
Proof. exact (insulating_fold (mass e) (v_lower e) ions _ _). Qed.
Lemma flow_upper_eq e ions : insulating_flow_upper e ions =
  (- vel_c e + 2 * fold_right (fun i s => charge i * v_upper e i + s) 0 ions, - mom_c e + 2 * mass e * fold_right (fun i s => sheath_value (dens i) * v_upper e i + s) 0 ions).
Proof. exact (insulating_fold (mass e) (v_upper e) ions _ _). Qed.

Lemma face_density p : face (at_c p) (limitFree (at_n p) (at_c p)) = sheath_value p.
Proof. unfold face, sheath_value. lra. Qed.

Lemma insulating_ion_flux_lower g e i : mass i <> 0 ->
  flux_of_momentum i (insulating_ion_lower g e i) = sheath_value (dens i) * v_lower e i /\
  flux_of_velocity i (insulating_ion_lower g e i) = sheath_value (dens i) * v_lower e i.
Proof.
  intros H. unfold flux_of_momentum, flux_of_velocity, insulating_ion_lower, full_ion_lower. cbn [mom_g vel_g dens_g].
  rewrite face_density. fold (v_lower e i). unfold face. split; [field; exact H|lra].
Qed.
Lemma insulating_ion_flux_upper g e i : mass i <> 0 ->
  flux_of_momentum i (insulating_ion_upper g e i) = sheath_value (dens i) * v_upper e i /\
  flux_of_velocity i (insulating_ion_upper g e i) = sheath_value (dens i) * v_upper e i.
Proof.
  intros H. unfold flux_of_momentum, flux_of_velocity, insulating_ion_upper. cbn [mom_g vel_g dens_g].
  rewrite face_density. fold (v_upper e i). unfold face. split; [field; exact H|lra].
Qed.

Lemma insulating_momentum gamma g e ions ve_n : mass e <> 0 -> (forall i, In i ions -> mass i <> 0 /\ charge i = 1) ->
  no_current flux_of_momentum e ions (insulating_lower gamma g e ions) /\ no_current flux_of_momentum e ions (insulating_upper gamma g ve_n e ions).
Proof.
  intros He Hi. unfold no_current, insulating_lower, insulating_upper. cbn [fst snd].
  unfold flux_of_momentum at 2 4. unfold insulating_electrons_lower, insulating_electrons_upper. rewrite flow_lower_eq, flow_upper_eq. cbn [mom_g].
  unfold face. split.
  - replace ((mom_c e + (- mom_c e + 2 * mass e * fold_right (fun i s => sheath_value (dens i) * v_lower e i + s) 0 ions)) / 2 / mass e)
      with (fold_right (fun i s => sheath_value (dens i) * v_lower e i + s) 0 ions) by (field; exact He).
    induction ions as [|i ions IH]; cbn [map ion_current fold_right]; [reflexivity|].
    rewrite IH by (intros; apply Hi; now right). destruct (Hi i) as [Hm ->]; [now left|]. destruct (insulating_ion_flux_lower g e i Hm) as [-> _]. ring.
  - replace ((mom_c e + (- mom_c e + 2 * mass e * fold_right (fun i s => sheath_value (dens i) * v_upper e i + s) 0 ions)) / 2 / mass e)
      with (fold_right (fun i s => sheath_value (dens i) * v_upper e i + s) 0 ions) by (field; exact He).
    induction ions as [|i ions IH]; cbn [map ion_current fold_right]; [reflexivity|].
    rewrite IH by (intros; apply Hi; now right). destruct (Hi i) as [Hm ->]; [now left|]. destruct (insulating_ion_flux_upper g e i Hm) as [-> _]. ring.
Qed.

Lemma insulating_velocity gamma g e i ve_n : mass i <> 0 -> charge i * sheath_value (dens i) = charge i * sheath_value (dens e) ->
  no_current flux_of_velocity e [i] (insulating_lower gamma g e [i]) /\ no_current flux_of_velocity e [i] (insulating_upper gamma g ve_n e [i]).
Proof.
  intros Hm Hq. unfold no_current, insulating_lower, insulating_upper. cbn [fst snd map ion_current].
  destruct (insulating_ion_flux_lower g e i Hm) as [_ ->]. destruct (insulating_ion_flux_upper g e i Hm) as [_ ->].
  unfold flux_of_velocity, insulating_electrons_lower, insulating_electrons_upper. rewrite flow_lower_eq, flow_upper_eq. cbn [vel_g dens_g fold_right].
  rewrite face_density. unfold face. rewrite <- !Rmult_assoc, Hq. split; lra.
Qed.

(** Electrons of the insulating sheath at the lower end: total heat flux. *)
Lemma insulating_electrons_heat gamma g e ions : geom_ok g -> adiabatic e = 5 / 3 ->
  let b := insulating_electrons_lower gamma g e ions in
  let n := face (at_c (dens e)) (dens_g b) in let T := face (at_c (temp e)) (temp_g b) in let v := face (vel_c e) (vel_g b) in
  exists q, heat_flux_is g (-1) b q /\ q + convected (mass e) n T v = gamma * T * n * v.
Proof.
  intros Hg Ha b n T v. subst b.
  exists (gamma * T * n * v - convected (mass e) n T v). split; [|ring]. unfold heat_flux_is. replace (- -1) with 1 by ring. rewrite Rmult_1_l, <- per_volume_eq by exact Hg.
  f_equal. subst n T v. unfold insulating_electrons_lower. destruct (insulating_flow_lower e ions) as [ve nve]. cbn [added_energy dens_g temp_g vel_g].
  rewrite !face_density, Ha. f_equal. unfold convected, face, SQ. replace (1 / (5 / 3 - 1)) with (3 / 2) by lra. lra.
Qed.

(** ** Concrete plasmas *)

Definition flat_prof (x : R) : prof := mkProf x x.
Definition me : R := / 1836.
(** Electrons of unit density and given temperature profile, at rest in the last cell. *)
Definition electrons (T : prof) : spec := mkSpec (-1) me (5/3) (flat_prof 1) T T 0 0.
Definition ion (Z A : R) (n T : R) (v : R) : spec := mkSpec Z A (5/3) (flat_prof n) (flat_prof T) (flat_prof (n * T)) v (A * n * v).
Definition unit_geom : geom := mkGeom 1 1 1 1 1.
Lemma unit_geom_ok : geom_ok unit_geom. Proof. unfold geom_ok, unit_geom. cbn [J_c J_g g22_c g22_g dy_c]. lra. Qed.

Lemma PI_bounds : 3 < PI <= 4. Proof. pose proof PI2_3_2. pose proof PI_4. unfold PI2 in *. lra. Qed.
Lemma me_pos : 0 < me. Proof. unfold me. lra. Qed.
Lemma saturation_square T : T / (TWOPI * me) = 918 * T / PI.
Proof. pose proof PI_bounds. unfold TWOPI, me. field. lra. Qed.
Lemma saturation_bounds T : 0 < T -> 200 * T <= T / (TWOPI * me) <= 306 * T.
Proof.
  intros H. rewrite saturation_square. pose proof PI_bounds as [H1 H2]. split.
  - apply (Rmult_le_reg_r PI); [lra|]. unfold Rdiv. rewrite (Rmult_assoc (918 * T)), Rinv_l, Rmult_1_r by lra.
    rewrite Rmult_assoc. replace (918 * T) with (200 * (4.59 * T)) by lra. apply Rmult_le_compat_l; [lra|]. rewrite (Rmult_comm 4.59). apply Rmult_le_compat_l; lra.
  - apply (Rmult_le_reg_r PI); [lra|]. unfold Rdiv. rewrite (Rmult_assoc (918 * T)), Rinv_l, Rmult_1_r by lra.
    rewrite Rmult_assoc. replace (918 * T) with (306 * (T * 3)) by lra. apply Rmult_le_compat_l; [lra|]. apply Rmult_le_compat_l; lra.
Qed.
Lemma sqrt_eq x y : 0 <= y -> x = y * y -> sqrt x = y.
Proof. intros H ->. apply sqrt_square. exact H. Qed.
Lemma fast_electrons : 1 <= sqrt (1 / (TWOPI * me)).
Proof. pose proof (saturation_bounds 1 ltac:(lra)). rewrite <- sqrt_1 at 1. apply sqrt_le_1_alt. lra. Qed.
Lemma not_so_fast_electrons : sqrt (1 / (TWOPI * me)) <= 20.
Proof. pose proof (saturation_bounds 1 ltac:(lra)). rewrite <- (sqrt_square 20) by lra. apply sqrt_le_1_alt. lra. Qed.

Definition simple_default : simple := mkSimple 0 3.5 3.5 1 false ExponentialFree ExponentialFree ExponentialFree.

Lemma limitFree_mode_flat m x : 0 <= x -> limitFree_mode m x x = x.
Proof.
  intros H. unfold limitFree_mode. rewrite Rltb_false by lra. cbn [andb]. destruct (Rlt_dec x 1e-10); [reflexivity|].
  destruct m; unfold SQ; [field; lra|field; lra|lra].
Qed.
Lemma flat_nsheath s p x : 0 <= x -> dens p = flat_prof x -> simple_nsheath s p = x.
Proof. intros H E. unfold simple_nsheath. rewrite E. cbn [at_c at_n flat_prof]. rewrite limitFree_mode_flat by exact H. lra. Qed.
Lemma flat_tsheath s p x : 0 <= x -> temp p = flat_prof x -> simple_tsheath s p = x.
Proof. intros H E. unfold simple_tsheath. rewrite E. cbn [at_c at_n flat_prof]. rewrite limitFree_mode_flat by exact H. lra. Qed.
Lemma flat_tfloored s p x : 1e-5 <= x -> temp p = flat_prof x -> simple_tsheath_floored s p = x.
Proof. intros H E. unfold simple_tsheath_floored. rewrite (flat_tsheath s p x) by (exact E || lra). apply rfloor_above. exact H. Qed.

(** A deuterium plasma with equal temperatures: the ions leave at unit speed. *)
Definition simple_e : spec := electrons (flat_prof 1).
Definition simple_i (v : R) : spec := ion 1 2 1 1 v.
Lemma simple_speed v : -1 <= v -> simple_visheath_lower simple_default 1 (simple_i v) = -1.
Proof.
  intros H. unfold simple_visheath_lower. change (0.5 * _) with (simple_tsheath simple_default (simple_i v)).
  rewrite (flat_tsheath _ _ 1) by (reflexivity || lra). rewrite rfloor_above by lra. cbn [simple_default polytropic simple_i ion charge mass vel_c].
  rewrite (sqrt_eq _ 1) by lra. destruct (Rlt_dec v (- (1))); lra.
Qed.
Lemma simple_sum v : -1 <= v -> simple_ion_sum_lower simple_default simple_e [simple_i v] = 1.
Proof.
  intros H. unfold simple_ion_sum_lower. cbn [fold_left]. rewrite (flat_tfloored _ simple_e 1) by (reflexivity || lra). rewrite simple_speed by exact H.
  rewrite (flat_nsheath _ _ 1) by (reflexivity || lra). cbn [simple_i ion charge]. ring.
Qed.
Lemma simple_saturation : saturation simple_default simple_e = sqrt (1 / (TWOPI * me)).
Proof.
  unfold saturation. rewrite (flat_tsheath _ simple_e 1), (flat_nsheath _ simple_e 1) by (reflexivity || lra). cbn [simple_e electrons simple_default s_Ge mass]. ring.
Qed.
Lemma simple_ok v : -1 <= v ->
  (forall i, In i [simple_i v] -> 0 < mass i) /\ 0 < mass simple_e /\ no_flow simple_default = false /\ s_Ge simple_default < 1 /\
  1e-5 <= simple_tsheath simple_default simple_e /\ 0 < simple_nsheath simple_default simple_e /\
  0 < simple_ion_sum_lower simple_default simple_e [simple_i v] <= saturation simple_default simple_e.
Proof.
  intros H. rewrite (flat_tsheath _ simple_e 1), (flat_nsheath _ simple_e 1), simple_saturation, simple_sum by (reflexivity || lra).
  pose proof fast_electrons. pose proof me_pos. split; [intros i [<-|[]]; cbn [simple_i ion mass]; lra|]. cbn [simple_e electrons simple_default mass no_flow s_Ge]. repeat split; lra.
Qed.

(** Ions faster than the saturated electrons: the potential is held at that of the wall, and a current flows. *)
Lemma simple_supersonic_speed : simple_visheath_lower simple_default 1 (simple_i (-100)) = -100.
Proof.
  unfold simple_visheath_lower. change (0.5 * _) with (simple_tsheath simple_default (simple_i (-100))).
  rewrite (flat_tsheath _ _ 1) by (reflexivity || lra). rewrite rfloor_above by lra. cbn [simple_default polytropic simple_i ion charge mass vel_c].
  rewrite (sqrt_eq _ 1) by lra. destruct (Rlt_dec (-100) (- (1))); lra.
Qed.
Lemma simple_supersonic_current W :
  ~ no_current flux_of_momentum simple_e [simple_i (-100)] (simple_lower simple_default unit_geom W None simple_e [simple_i (-100)]).
Proof.
  unfold no_current. intros H.
  assert (HI : ion_current flux_of_momentum [simple_i (-100)] (snd (simple_lower simple_default unit_geom W None simple_e [simple_i (-100)])) = -100).
  { unfold simple_lower. cbn [snd map ion_current]. destruct (simple_ion_flux_lower simple_default unit_geom simple_e (simple_i (-100))) as [-> _]; [cbn [simple_i ion mass]; lra|reflexivity|].
    rewrite (flat_tfloored _ simple_e 1), (flat_nsheath _ _ 1), simple_supersonic_speed by (reflexivity || lra). cbn [simple_i ion charge]. ring. }
  rewrite HI in H. unfold simple_lower in H. cbn [fst] in H.
  set (ph := simple_phi _ _ _ _) in H. unfold flux_of_momentum, simple_electrons_lower in H. cbn [mom_g at_c at_n no_flow simple_default s_Ge] in H.
  fold simple_default in H.
  rewrite (flat_tsheath _ simple_e 1), (flat_nsheath _ simple_e 1) in H by (reflexivity || lra). cbn [simple_e electrons mom_c mass] in H.
  set (x := - _ / _) in H.
  assert (Hx : exp x <= 1).
  { rewrite <- exp_0. assert (x <= 0). { unfold x. rewrite (rfloor_above 1) by lra. pose proof (Rltb_spec (0.5 * (2 * ph - ph + ph)) W) as S. unfold rfloor. destruct (Rltb _ W); lra. }
    destruct (Req_dec x 0) as [->|]; [lra|]. left. apply exp_increasing. lra. }
  pose proof not_so_fast_electrons as N. pose proof (exp_pos x). pose proof (sqrt_pos (1 / (TWOPI * me))).
  set (S := sqrt _) in *. assert (S * exp x <= 20 * 1) by (apply Rmult_le_compat; lra).
  unfold face in H. assert (E : (0 + (2 * me * 1 * (- S * (1 - 0) * exp x) - 0)) / 2 / me = - (S * exp x)) by (field; pose proof me_pos; lra).
  rewrite E in H. lra.
Qed.

(** The simple sheath heats a cell when the electrons are hotter than the ions. *)
Definition hot_e : spec := electrons (flat_prof 3).
Definition cold_i : spec := ion 1 4 1 1 0.
Lemma simple_heats : added_energy (simple_ion_lower simple_default unit_geom hot_e cold_i) = 1.
Proof.
  unfold simple_ion_lower. cbn [added_energy no_flow simple_default gamma_i]. fold simple_default.
  rewrite (flat_tfloored _ hot_e 3), (flat_tfloored _ cold_i 1), (flat_nsheath _ cold_i 1) by (reflexivity || lra).
  assert (E : simple_visheath_lower simple_default 3 cold_i = -1).
  { unfold simple_visheath_lower. change (0.5 * _) with (simple_tsheath simple_default cold_i). rewrite (flat_tsheath _ cold_i 1) by (reflexivity || lra). rewrite rfloor_above by lra.
    cbn [simple_default polytropic cold_i ion charge mass vel_c]. rewrite (sqrt_eq _ 1) by lra. destruct (Rlt_dec 0 (- (1))); lra. }
  rewrite E. unfold per_volume, unit_geom. cbn [J_c J_g g22_c g22_g dy_c cold_i ion mass]. rewrite sqrt_1. unfold SQ. lra.
Qed.

(** ** The full sheath *)

Definition full_default (alpha : R) (fl : bool) : full := mkFull 0 alpha fl.
Definition full_e : spec := electrons (flat_prof 1).
Definition full_i (v : R) : spec := ion 1 2 1 0.6 v.
Lemma full_e_flat : flat full_e. Proof. split; reflexivity. Qed.
Lemma full_i_flat v : flat_ion full_e (full_i v).
Proof. unfold flat_ion, flat. cbn [full_e full_i electrons ion mass dens temp flat_prof at_c at_n]. repeat split; lra. Qed.
Lemma full_sound v : sound full_e (full_i v) = 1.
Proof.
  unfold sound. cbn [full_e full_i electrons ion mass dens temp flat_prof at_c at_n adiabatic charge]. rewrite clip_inside by lra. apply sqrt_eq; lra.
Qed.
Lemma full_sum alpha fl v : ion_sum_lower (full_default alpha fl) full_e [full_i v] = alpha.
Proof.
  assert (Hf : forall i, In i [full_i v] -> flat_ion full_e i) by (intros i [<-|[]]; apply full_i_flat).
  pose proof (full_sum_flat (full_default alpha fl) full_e [full_i v] full_e_flat Hf) as E.
  cbn [fold_right] in E. rewrite full_sound in E. cbn [full_e full_i electrons ion dens temp flat_prof at_c at_n charge full_default sin_alpha] in E. 
  cbn [full_e full_i electrons ion dens temp flat_prof at_c at_n charge full_default sin_alpha]. lra.
Qed.
Lemma full_ok v : flat full_e /\ (forall i, In i [full_i v] -> flat_ion full_e i) /\ 1e-10 <= at_c (dens full_e) /\ 1e-5 <= at_c (temp full_e) /\
  0 < mass full_e /\ f_Ge (full_default 1 true) < 1 /\ sin_alpha (full_default 1 true) = 1 /\
  0 < ion_sum_lower (full_default 1 true) full_e [full_i v] <= sqrt (at_c (temp full_e) / (TWOPI * mass full_e)) * (1 - f_Ge (full_default 1 true)).
Proof.
  rewrite full_sum. pose proof fast_electrons. pose proof me_pos. split; [exact full_e_flat|]. split; [intros i [<-|[]]; apply full_i_flat|].
  cbn [full_e electrons dens temp flat_prof at_c at_n mass full_default f_Ge sin_alpha]. repeat split; lra.
Qed.

(** At a glancing angle the electrons carry sin(alpha) of the ion current. *)
Lemma full_glancing_current : ~ no_current flux_of_momentum full_e [full_i 0] (full_lower (full_default 0.5 true) unit_geom 0 None full_e [full_i 0]).
Proof.
  unfold no_current. intros H.
  assert (Hf : forall i, In i [full_i 0] -> flat_ion full_e i) by (intros i [<-|[]]; apply full_i_flat).
  assert (A1 : 1e-10 <= at_c (dens full_e)) by (cbn [full_e electrons dens flat_prof at_c]; lra).
  assert (A2 : 1e-5 <= at_c (temp full_e)) by (cbn [full_e electrons temp flat_prof at_c]; lra).
  destruct (full_flat_current (full_default 0.5 true) unit_geom 0 full_e [full_i 0]) as [E _]; try assumption.
  - exact full_e_flat.
  - exact me_pos.
  - cbn [full_default f_Ge]. lra.
  - rewrite full_sum. lra.
  - intros _. rewrite full_sum. pose proof fast_electrons. cbn [full_e electrons temp flat_prof at_c mass full_default f_Ge]. lra.
  - rewrite E in H. unfold full_lower in H. cbn [snd] in H.
    destruct (full_ion_current full_e unit_geom [full_i 0] full_e_flat Hf A1 A2) as [X _]. rewrite X in H.
    cbn [fold_right] in H. rewrite full_sound in H. cbn [full_i ion dens flat_prof at_c charge full_default sin_alpha] in H. lra.
Qed.

(** A temperature that falls towards the sheath. *)
Definition falling_e : spec := electrons (mkProf 1 2).
Lemma falling_te : sheath_value (temp falling_e) = 0.75.
Proof. unfold sheath_value, limitFree, falling_e, electrons, SQ. cbn [temp at_c at_n]. destruct (Rlt_dec 2 1); [exfalso; lra|]. destruct (Rlt_dec 2 1e-10); [exfalso; lra|]. lra. Qed.
Lemma falling_sum : ion_sum_lower (full_default 1 true) falling_e [full_i 0] = 1.
Proof.
  unfold ion_sum_lower. cbn [fold_left]. unfold concentration. cbn [falling_e full_i electrons ion dens temp flat_prof at_c at_n charge full_default sin_alpha].
  destruct (Req_EM_T 1 0); [exfalso; lra|]. rewrite (clip_inside (0.5 * _)) by lra. replace (1 - 1) with 0 by ring. rewrite C_i_sq_no_gradient by lra.
  unfold full_i, ion; cbn [adiabatic charge mass]. rewrite clip_inside by lra. rewrite (sqrt_eq _ 1) by lra. lra.
Qed.
Lemma falling_C : full_C_i_sq falling_e (full_i 0) = 0.875.
Proof.
  unfold full_C_i_sq. rewrite falling_te. rewrite !sheath_value_flat by (cbn [falling_e full_i electrons ion dens temp flat_prof at_c at_n]; lra).
  cbn [falling_e full_i electrons ion dens temp flat_prof at_c at_n]. rewrite !rfloor_above by lra. rewrite (clip_inside (1 / 1)) by lra. replace (1 - 1) with 0 by ring.
  rewrite C_i_sq_no_gradient by lra. unfold full_i, ion; cbn [adiabatic charge mass]. rewrite clip_inside by lra. lra.
Qed.
Lemma falling_current : ~ no_current flux_of_momentum falling_e [full_i 0] (full_lower (full_default 1 true) unit_geom 0 None falling_e [full_i 0]).
Proof.
  unfold no_current. intros H. unfold full_lower in H. cbn [fst snd map ion_current] in H. rewrite falling_sum in H.
  set (ph := full_phi _ _ _ _) in H. pose proof fast_electrons as F. set (S := sqrt (1 / (TWOPI * me))) in F.
  assert (Eph : ph = ln S).
  { unfold ph, full_phi. cbn [falling_e electrons temp at_c mass full_default f_Ge]. destruct (Rle_dec 1 0); [exfalso; lra|].
    rewrite (Rmult_comm me). fold S. replace (S * (1 - 0) / 1) with S by field. ring. }
  assert (P : 0 <= ph) by (rewrite Eph, <- ln_1; apply ln_mono; lra).
  unfold flux_of_momentum, full_electrons_lower, full_ion_lower in H. cbn [mom_g at_c at_n full_default floor_potential f_Ge] in H.
  rewrite falling_C, falling_te in H. replace (0.5 * (2 * ph - ph + ph)) with ph in H by lra. rewrite (rfloor_above ph 0) in H by exact P.
  rewrite !sheath_value_flat in H by (cbn [falling_e full_i electrons ion dens temp flat_prof at_c at_n]; lra).
  cbn [falling_e full_i electrons ion dens flat_prof at_c charge mass mom_c] in H. destruct (Rlt_dec 0.75 1e-10); [exfalso; lra|].
  set (x := exp _) in H. set (S' := sqrt (0.75 / (TWOPI * me))) in H. set (V := sqrt 0.875) in H. unfold face in H.
  assert (Hm : 0 < me) by exact me_pos.
  assert (E : S' * x = V).
  { assert (E1 : 1 * ((2 * 1 * 0 + (2 * 2 * 1 * (- V) - 2 * 1 * 0)) / 2 / 2) = - V) by field.
    assert (E2 : (0 + (2 * me * 1 * (- S' * (1 - 0) * x) - 0)) / 2 / me = - (S' * x)) by (field; lra). rewrite E2 in H. lra. }
  assert (HS : S' * S' = 0.75 * (S * S)).
  { unfold S', S. rewrite !sqrt_sqrt. { unfold Rdiv. ring. } { left. apply Rdiv_lt_0_compat; [lra|]. apply Rmult_lt_0_compat; [exact twopi_pos|exact Hm]. }
    left. apply Rdiv_lt_0_compat; [lra|]. apply Rmult_lt_0_compat; [exact twopi_pos|exact Hm]. }
  assert (HV : V * V = 0.875) by (unfold V; apply sqrt_sqrt; lra).
  assert (Hx : S * x <= 1).
  { assert (x <= exp (- ph)). { unfold x. destruct (Req_dec ph 0) as [->|]; [right; f_equal; lra|]. left. apply exp_increasing. lra. }
    rewrite exp_Ropp, Eph, exp_ln in H0 by lra. apply (Rmult_le_reg_l (/ S)); [apply Rinv_0_lt_compat; lra|]. rewrite <- Rmult_assoc, Rinv_l, Rmult_1_l, Rmult_1_r by lra. exact H0. }
  assert (Hx0 : 0 < x) by apply exp_pos.
  assert (0 <= S * x) by (apply Rmult_le_pos; lra).
  assert (Hq : (S * x) * (S * x) <= 1 * 1) by (apply Rmult_le_compat; lra).
  assert (Q : V * V = 0.75 * ((S * x) * (S * x))). { rewrite <- E. replace (S' * x * (S' * x)) with ((S' * S') * (x * x)) by ring. rewrite HS. ring. }
  lra.
Qed.

(** ** The insulating sheath *)

Definition ins_e (n : R) : spec := mkSpec (-1) me (5/3) (flat_prof n) (flat_prof 1) (flat_prof n) 0 0.

(** Doubly charged ions of half the density of the electrons. *)
Definition alpha_i : spec := ion 2 2 0.5 0.6 0.
Lemma alpha_flat : flat_ion full_e alpha_i.
Proof. unfold flat_ion, flat. cbn [full_e alpha_i electrons ion mass dens temp flat_prof at_c at_n]. repeat split; lra. Qed.
Lemma alpha_sound : v_lower full_e alpha_i = -1.
Proof.
  unfold v_lower. rewrite full_C_flat; [|exact full_e_flat|exact alpha_flat|cbn [full_e electrons dens flat_prof at_c]; lra|cbn [full_e electrons temp flat_prof at_c]; lra].
  unfold sound. cbn [full_e alpha_i electrons ion mass dens temp flat_prof at_c at_n adiabatic charge]. rewrite clip_inside by lra. rewrite (sqrt_eq _ 1) by lra. lra.
Qed.
Lemma alpha_current gamma :
  let r := insulating_lower gamma unit_geom full_e [alpha_i] in
  ion_current flux_of_momentum [alpha_i] (snd r) = -1 /\ flux_of_momentum full_e (fst r) = -0.5 /\ flux_of_velocity full_e (fst r) = -2.
Proof.
  unfold insulating_lower. cbn [fst snd map ion_current].
  destruct (insulating_ion_flux_lower unit_geom full_e alpha_i) as [-> _]; [cbn [alpha_i ion mass]; lra|].
  unfold flux_of_momentum, flux_of_velocity, insulating_electrons_lower. rewrite flow_lower_eq. cbn [fold_right mom_g vel_g dens_g]. rewrite alpha_sound.
  rewrite !face_density. rewrite !sheath_value_flat by (cbn [alpha_i full_e electrons ion dens flat_prof at_c at_n]; lra).
  cbn [alpha_i full_e electrons ion dens flat_prof at_c at_n charge mass vel_c mom_c]. unfold face. pose proof me_pos. split; [lra|]. split; [|lra].
  replace (2 * me * (0.5 * -1 + 0)) with (- me) by lra. replace (-0.5) with (- (1 / 2)) by lra. field. lra.
Qed.
(** Two singly charged species, each of half the density of the electrons. *)
Definition half_i : spec := ion 1 2 0.5 0.9 0.
Lemma half_flat : flat_ion full_e half_i.
Proof. unfold flat_ion, flat. cbn [full_e half_i electrons ion mass dens temp flat_prof at_c at_n]. repeat split; lra. Qed.
Lemma half_sound : v_lower full_e half_i = -1.
Proof.
  unfold v_lower. rewrite full_C_flat; [|exact full_e_flat|exact half_flat|cbn [full_e electrons dens flat_prof at_c]; lra|cbn [full_e electrons temp flat_prof at_c]; lra].
  unfold sound. cbn [full_e half_i electrons ion mass dens temp flat_prof at_c at_n adiabatic charge]. rewrite clip_inside by lra. rewrite (sqrt_eq _ 1) by lra. lra.
Qed.
Lemma half_current gamma :
  let r := insulating_lower gamma unit_geom full_e [half_i; half_i] in
  ion_current flux_of_velocity [half_i; half_i] (snd r) = -1 /\ flux_of_velocity full_e (fst r) = -2.
Proof.
  unfold insulating_lower. cbn [fst snd map ion_current].
  destruct (insulating_ion_flux_lower unit_geom full_e half_i) as [_ ->]; [cbn [half_i ion mass]; lra|].
  unfold flux_of_velocity, insulating_electrons_lower. rewrite flow_lower_eq. cbn [fold_right mom_g vel_g dens_g]. rewrite half_sound.
  rewrite !face_density. rewrite !sheath_value_flat by (cbn [half_i full_e electrons ion dens flat_prof at_c at_n]; lra).
  cbn [half_i full_e electrons ion dens flat_prof at_c at_n charge mass vel_c mom_c]. unfold face. split; lra.
Qed.

(** The two ends of the insulating sheath: the electron energy. *)
Lemma full_v_lower : v_lower full_e (full_i 0) = -1.
Proof.
  unfold v_lower. rewrite full_C_flat; [|exact full_e_flat|apply full_i_flat|cbn [full_e electrons dens flat_prof at_c]; lra|cbn [full_e electrons temp flat_prof at_c]; lra].
  rewrite full_sound. lra.
Qed.
Lemma insulating_lower_energy : added_energy (insulating_electrons_lower 3.5 unit_geom full_e [full_i 0]) = - (1 - 0.5 * me).
Proof.
  unfold insulating_electrons_lower. rewrite flow_lower_eq. cbn [fold_right]. rewrite full_v_lower. cbn [added_energy].
  rewrite !sheath_value_flat by (cbn [full_i full_e electrons ion dens temp flat_prof at_c at_n]; lra).
  cbn [full_i full_e electrons ion dens temp flat_prof at_c at_n charge mass vel_c mom_c adiabatic]. unfold per_volume, unit_geom. cbn [J_c J_g g22_c g22_g dy_c]. rewrite sqrt_1. unfold SQ.
  replace (1 / (5 / 3 - 1)) with (3 / 2) by lra. lra.
Qed.
Lemma insulating_upper_energy : added_energy (insulating_electrons_upper 3.5 unit_geom 0 (mirror_spec full_e) [mirror_spec (full_i 0)]) = 0.
Proof.
  unfold insulating_electrons_upper. destruct (insulating_flow_upper _ _) as [a b]. cbn [added_energy mirror_spec full_e electrons vel_c]. unfold per_volume, Rdiv. ring.
Qed.

(** The two ends at a low density: the ions leave at different speeds. *)
Definition thin_i : spec := ion 1 2 1e-6 0.6 0.
Lemma thin_flat : flat (ins_e 1e-6) /\ flat_ion (ins_e 1e-6) thin_i.
Proof. unfold flat_ion, flat. cbn [ins_e thin_i ion mass dens temp flat_prof at_c at_n]. repeat split; lra. Qed.
Lemma thin_lower : v_lower (ins_e 1e-6) thin_i = -1.
Proof.
  destruct thin_flat as [F1 F2]. unfold v_lower. rewrite full_C_flat; [|exact F1|exact F2|cbn [ins_e dens flat_prof at_c]; lra|cbn [ins_e temp flat_prof at_c]; lra].
  unfold sound. cbn [ins_e thin_i ion mass dens temp flat_prof at_c at_n adiabatic charge]. rewrite clip_inside by lra. rewrite (sqrt_eq _ 1) by lra. lra.
Qed.
Lemma thin_upper : v_upper (mirror_spec (ins_e 1e-6)) (mirror_spec thin_i) < 1.
Proof.
  unfold v_upper, insulating_C_i_sq_upper. rewrite !sheath_value_flat by (cbn [mirror_spec ins_e thin_i ion dens temp flat_prof at_c at_n]; lra).
  cbn [mirror_spec ins_e thin_i ion mass dens temp flat_prof at_c at_n]. destruct (Rlt_dec 1e-5 1e-6); [exfalso; lra|]. replace (1e-6 - 1e-6) with 0 by lra. rewrite C_i_sq_no_gradient by lra.
  rewrite !rfloor_above by lra. cbn [adiabatic charge mass mirror_spec thin_i ion]. rewrite clip_inside by lra. apply Rlt_le_trans with (sqrt 1); [apply sqrt_lt_1_alt; lra|rewrite sqrt_1; lra].
Qed.
