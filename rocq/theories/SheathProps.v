(** Property theorems for the sheath boundaries. *)

From Coq Require Import List Bool Reals Lra.
From Verif Require Import StateMonad StateMonadProofs ReactionsModel SheathModel SheathSpec SheathProofs SheathLaws SheathLaws2.
Import ListNotations.
Open Scope R_scope.

(** ** C36 *)

(** SheathBoundary and SheathBoundaryInsulating, and mode 0 of SheathBoundarySimple. *)
Theorem C36_extrapolation_between_zero_and_last_cell : forall fm fc, 0 <= fm -> 0 <= fc ->
  0 <= limitFree fm fc <= fc /\ (0 < fc -> 0 < limitFree fm fc) /\ limitFree_mode LimitFree fm fc = limitFree fm fc.
Proof. intros fm fc H1 H2. split; [exact (limitFree_range fm fc H1 H2)|]. split; [exact (limitFree_positive fm fc H1)|exact (limitFree_mode0 fm fc)]. Qed.
Print Assumptions C36_extrapolation_between_zero_and_last_cell.
Example C36_extrapolation_case : limitFree 4 2 = 1.
Proof. unfold limitFree, SQ. destruct (Rlt_dec 4 2); [exfalso; lra|]. destruct (Rlt_dec 4 1e-10); [exfalso; lra|]. field. Qed.

(** The values in the boundary face. *)
Theorem C36_sheath_value_between_zero_and_last_cell : forall p, prof_nonneg p -> 0 <= sheath_value p <= at_c p.
Proof. exact sheath_value_range. Qed.
Print Assumptions C36_sheath_value_between_zero_and_last_cell.
Example C36_sheath_value_case : prof_nonneg (mkProf 2 4). Proof. unfold prof_nonneg. cbn [at_c at_n]. lra. Qed.

(** The default mode of SheathBoundarySimple does grow outwards. *)
Theorem C36_exponential_mode_grows_refuted : exists fm fc, 0 <= fm /\ 0 <= fc /\ ~ limitFree_mode ExponentialFree fm fc <= fc.
Proof. exists 1, 2. rewrite exponential_grows. lra. Qed.
Print Assumptions C36_exponential_mode_grows_refuted.
(** ... though it is never negative, *)
Theorem C36_exponential_mode_not_negative : forall fm fc, 0 <= fm -> 0 <= fc -> 0 <= limitFree_mode ExponentialFree fm fc.
Proof. exact exponential_nonneg. Qed.
Print Assumptions C36_exponential_mode_not_negative.
(** while the linear one can be. *)
Theorem C36_linear_mode_negative_refuted : exists fm fc, 0 <= fm /\ 0 <= fc /\ ~ 0 <= limitFree_mode LinearFree fm fc.
Proof. exists 3, 1. rewrite linear_negative. lra. Qed.
Print Assumptions C36_linear_mode_negative_refuted.

(** ** C37 *)

(** Any number of ion species, any charges, densities, temperatures and speeds, so long as the ions' charge flux is positive and no
    larger than that of the electrons at the potential of the wall. *)
Theorem C37_simple_sheath_no_current_lower : forall s g W e ions,
  (forall i, In i ions -> 0 < mass i) -> 0 < mass e -> no_flow s = false -> s_Ge s < 1 -> 1e-5 <= simple_tsheath s e -> 0 < simple_nsheath s e ->
  0 < simple_ion_sum_lower s e ions <= saturation s e ->
  no_current flux_of_momentum e ions (simple_lower s g W None e ions) /\ no_current flux_of_velocity e ions (simple_lower s g W None e ions).
Proof. exact simple_no_current_lower. Qed.
Print Assumptions C37_simple_sheath_no_current_lower.
Theorem C37_simple_sheath_no_current_upper : forall s g W e ions,
  (forall i, In i ions -> 0 < mass i) -> 0 < mass e -> no_flow s = false -> s_Ge s < 1 -> 1e-5 <= simple_tsheath s e -> 0 < simple_nsheath s e ->
  0 < simple_ion_sum_upper s e ions <= saturation s e ->
  no_current flux_of_momentum e ions (simple_upper s g W None e ions) /\ no_current flux_of_velocity e ions (simple_upper s g W None e ions).
Proof. exact simple_no_current_upper. Qed.
Print Assumptions C37_simple_sheath_no_current_upper.
Example C37_simple_sheath_case :
  no_current flux_of_momentum simple_e [simple_i 0] (simple_lower simple_default unit_geom 0 None simple_e [simple_i 0]) /\
  no_current flux_of_momentum (mirror_spec simple_e) [mirror_spec (simple_i 0)] (simple_upper simple_default unit_geom 0 None (mirror_spec simple_e) [mirror_spec (simple_i 0)]).
Proof.
  destruct (simple_ok 0 ltac:(lra)) as (H1 & H2 & H3 & H4 & H5 & H6 & H7). split.
  - apply C37_simple_sheath_no_current_lower; assumption.
  - apply C37_simple_sheath_no_current_upper; try assumption.
    + intros i [<-|[]]. cbn [mirror_spec simple_i ion mass]. lra.
    + change [mirror_spec (simple_i 0)] with (map mirror_spec [simple_i 0]). rewrite simple_sum_mirror. exact H7.
Qed.

(** Faster ions: the potential is held at that of the wall, and a current flows. *)
Theorem C37_simple_sheath_supersonic_ions_refuted : exists s g W e ions,
  no_flow s = false /\ s_Ge s < 1 /\ geom_ok g /\ 0 < mass e /\ (forall i, In i ions -> 0 < mass i) /\
  ~ no_current flux_of_momentum e ions (simple_lower s g W None e ions).
Proof.
  exists simple_default, unit_geom, 0, simple_e, [simple_i (-100)]. split; [reflexivity|]. split; [cbn [simple_default s_Ge]; lra|]. split; [exact unit_geom_ok|].
  split; [exact me_pos|]. split; [intros i [<-|[]]; cbn [simple_i ion mass]; lra|exact (simple_supersonic_current 0)].
Qed.
Print Assumptions C37_simple_sheath_supersonic_ions_refuted.

(** SheathBoundary, profiles without gradients, normal incidence; any number of ions.  Missing for the full statement: gradients,
    except for the pure plasma below. *)
Theorem C37_full_sheath_no_current_flat_partial : forall f g W e ions,
  flat e -> (forall i, In i ions -> flat_ion e i) -> 1e-10 <= at_c (dens e) -> 1e-5 <= at_c (temp e) -> 0 < mass e -> f_Ge f < 1 -> sin_alpha f = 1 ->
  0 < ion_sum_lower f e ions <= sqrt (at_c (temp e) / (TWOPI * mass e)) * (1 - f_Ge f) ->
  no_current flux_of_momentum e ions (full_lower f g W None e ions) /\ no_current flux_of_velocity e ions (full_lower f g W None e ions).
Proof.
  intros f g W e ions H1 H2 H3 H4 H5 H6 H7 [H8 H9].
  destruct (full_flat_current f g W e ions H1 H2 H3 H4 H5 H6 H8 (fun _ => H9)) as [E1 E2]. rewrite H7 in E1, E2. unfold no_current. split; [rewrite E1|rewrite E2]; ring.
Qed.
Print Assumptions C37_full_sheath_no_current_flat_partial.
Example C37_full_sheath_flat_case :
  no_current flux_of_momentum full_e [full_i 0] (full_lower (full_default 1 true) unit_geom 0 None full_e [full_i 0]).
Proof. destruct (full_ok 0) as (H1 & H2 & H3 & H4 & H5 & H6 & H7 & H8). apply C37_full_sheath_no_current_flat_partial; assumption. Qed.

(** SheathBoundary, one singly charged ion species of the electrons' density: any density profile; temperatures that do not fall
    towards the sheath. *)
Theorem C37_full_sheath_no_current_pure_partial : forall f g W e i,
  charge i = 1 -> dens i = dens e -> prof_nonneg (dens e) -> 1e-10 <= sheath_value (dens e) -> 0 < mass i -> 0 < mass e ->
  at_n (temp e) <= at_c (temp e) -> at_n (temp i) <= at_c (temp i) -> 1e-5 <= at_c (temp e) -> 1e-5 <= at_c (temp i) ->
  sin_alpha f = 1 -> f_Ge f < 1 -> 0 < adiabatic i ->
  (floor_potential f = true -> sqrt (clip ((adiabatic i * at_c (temp i) + at_c (temp e)) / mass i) 0 100) <= sqrt (at_c (temp e) / (TWOPI * mass e)) * (1 - f_Ge f)) ->
  no_current flux_of_momentum e [i] (full_lower f g W None e [i]) /\ no_current flux_of_velocity e [i] (full_lower f g W None e [i]).
Proof. exact full_pure_current. Qed.
Print Assumptions C37_full_sheath_no_current_pure_partial.
Example C37_full_sheath_pure_case :
  let e := mkSpec (-1) me (5/3) (mkProf 1 3) (mkProf 1 0.5) (mkProf 1 1.5) 0 0 in
  let i := mkSpec 1 2 (5/3) (mkProf 1 3) (mkProf 0.6 0.5) (mkProf 0.6 1.5) 0 0 in
  no_current flux_of_momentum e [i] (full_lower (full_default 1 true) unit_geom 0 None e [i]).
Proof.
  intros e i. assert (Hs : 1e-10 <= sheath_value (dens e)).
  { pose proof (sheath_value_range (dens e)). unfold sheath_value, limitFree, SQ. cbn [e dens at_c at_n]. destruct (Rlt_dec 3 1); [lra|]. destruct (Rlt_dec 3 1e-10); lra. }
  apply C37_full_sheath_no_current_pure_partial; cbn [e i charge dens mass temp at_c at_n full_default sin_alpha f_Ge adiabatic]; try lra; try exact me_pos; try exact Hs; try reflexivity.
  - unfold prof_nonneg. cbn [at_c at_n]. lra.
  - intros _. pose proof fast_electrons. rewrite clip_inside by lra. rewrite (sqrt_eq _ 1) by lra. lra.
Qed.

(** At a glancing angle only the electrons are reduced by sin_alpha. *)
Theorem C37_full_sheath_glancing_refuted : exists f g W e ions,
  sin_alpha f = 0.5 /\ geom_ok g /\ flat e /\ (forall i, In i ions -> flat_ion e i) /\ 0 < mass e /\ ~ no_current flux_of_momentum e ions (full_lower f g W None e ions).
Proof.
  exists (full_default 0.5 true), unit_geom, 0, full_e, [full_i 0]. split; [reflexivity|]. split; [exact unit_geom_ok|]. split; [exact full_e_flat|].
  split; [intros i [<-|[]]; apply full_i_flat|]. split; [exact me_pos|exact full_glancing_current].
Qed.
Print Assumptions C37_full_sheath_glancing_refuted.
(** An electron temperature that falls towards the sheath: the potential is calculated with the temperature in the last cell, the
    electron flow with that in the face. *)
Theorem C37_full_sheath_falling_temperature_refuted : exists f g W e ions,
  sin_alpha f = 1 /\ f_Ge f = 0 /\ geom_ok g /\ 0 < mass e /\ (forall i, In i ions -> charge i = 1 /\ flat i /\ dens i = dens e) /\
  ~ no_current flux_of_momentum e ions (full_lower f g W None e ions).
Proof.
  exists (full_default 1 true), unit_geom, 0, falling_e, [full_i 0]. split; [reflexivity|]. split; [reflexivity|]. split; [exact unit_geom_ok|]. split; [exact me_pos|].
  split; [intros i [<-|[]]; split; [reflexivity|]; split; [split; reflexivity|reflexivity]|exact falling_current].
Qed.
Print Assumptions C37_full_sheath_falling_temperature_refuted.

(** ** C38 *)

(** Any number of singly charged ions: the momenta balance. *)
Theorem C38_insulating_no_current_single_charge : forall gamma g e ions ve_n,
  mass e <> 0 -> (forall i, In i ions -> mass i <> 0 /\ charge i = 1) ->
  no_current flux_of_momentum e ions (insulating_lower gamma g e ions) /\ no_current flux_of_momentum e ions (insulating_upper gamma g ve_n e ions).
Proof. exact insulating_momentum. Qed.
Print Assumptions C38_insulating_no_current_single_charge.
Example C38_insulating_single_charge_case : no_current flux_of_momentum full_e [half_i; half_i] (insulating_lower 3.5 unit_geom full_e [half_i; half_i]).
Proof.
  apply (C38_insulating_no_current_single_charge 3.5 unit_geom full_e [half_i; half_i] 0).
  - pose proof me_pos. cbn [full_e electrons mass]. lra.
  - intros i [<-|[<-|[]]]; cbn [half_i ion mass charge]; split; lra.
Qed.
(** One species of the electrons' density: the flux calculated from density and velocity balances too. *)
Theorem C38_insulating_no_current_pure : forall gamma g e i ve_n,
  mass i <> 0 -> charge i * sheath_value (dens i) = charge i * sheath_value (dens e) ->
  no_current flux_of_velocity e [i] (insulating_lower gamma g e [i]) /\ no_current flux_of_velocity e [i] (insulating_upper gamma g ve_n e [i]).
Proof. exact insulating_velocity. Qed.
Print Assumptions C38_insulating_no_current_pure.
Example C38_insulating_pure_case : no_current flux_of_velocity full_e [full_i 0] (insulating_lower 3.5 unit_geom full_e [full_i 0]).
Proof. apply (C38_insulating_no_current_pure 3.5 unit_geom full_e (full_i 0) 0); [cbn [full_i ion mass]; lra|reflexivity]. Qed.
(** Without gradients the ions leave at the speed of sound, whatever their speed in the last cell. *)
Theorem C38_insulating_ions_at_speed_of_sound : forall g e i, flat e -> flat_ion e i -> 1e-10 <= at_c (dens e) -> 1e-5 <= at_c (temp e) ->
  face (vel_c i) (vel_g (insulating_ion_lower g e i)) = - sound e i.
Proof.
  intros g e i H1 H2 H3 H4. rewrite <- (full_C_flat e i H1 H2 H3 H4). unfold face, insulating_ion_lower, full_ion_lower. cbn [vel_g]. lra.
Qed.
Print Assumptions C38_insulating_ions_at_speed_of_sound.
Example C38_insulating_ions_case : face (vel_c (full_i 0)) (vel_g (insulating_ion_lower unit_geom full_e (full_i 0))) = -1.
Proof.
  rewrite C38_insulating_ions_at_speed_of_sound; [rewrite full_sound; lra|exact full_e_flat|apply full_i_flat| |];
    cbn [full_e electrons dens temp flat_prof at_c]; lra.
Qed.
(** Doubly charged ions: the electron momentum is too small by the charge, and the velocity too large by it. *)
Theorem C38_insulating_double_charge_refuted : exists gamma g e ions,
  (forall i, In i ions -> flat_ion e i /\ charge i * at_c (dens i) = at_c (dens e)) /\ flat e /\
  ~ no_current flux_of_momentum e ions (insulating_lower gamma g e ions) /\
  ~ flux_of_velocity e (fst (insulating_lower gamma g e ions)) = ion_current flux_of_momentum ions (snd (insulating_lower gamma g e ions)).
Proof.
  exists 3.5, unit_geom, full_e, [alpha_i]. destruct (alpha_current 3.5) as (E1 & E2 & E3). split.
  - intros i [<-|[]]. split; [exact alpha_flat|]. cbn [alpha_i full_e electrons ion charge dens flat_prof at_c]. lra.
  - split; [exact full_e_flat|]. unfold no_current. rewrite E1, E2, E3. split; lra.
Qed.
Print Assumptions C38_insulating_double_charge_refuted.
(** Two species: the electron velocity is the sum of the ions' velocities, not their mean. *)
Theorem C38_insulating_two_species_refuted : exists gamma g e ions,
  (forall i, In i ions -> flat_ion e i /\ charge i = 1) /\ flat e /\ ~ no_current flux_of_velocity e ions (insulating_lower gamma g e ions).
Proof.
  exists 3.5, unit_geom, full_e, [half_i; half_i]. destruct (half_current 3.5) as (E1 & E2). split.
  - intros i [<-|[<-|[]]]; (split; [exact half_flat|reflexivity]).
  - split; [exact full_e_flat|]. unfold no_current. rewrite E1, E2. lra.
Qed.
Print Assumptions C38_insulating_two_species_refuted.

(** ** C39 *)

(** The simple sheath: what is taken from the last cell, with what is convected through the face, is gamma T n v; with no_flow it is
    all taken from the cell.  Upper ends: C40. *)
Theorem C39_simple_electron_heat : forall s g W phi e, geom_ok g ->
  let b := simple_electrons_lower s g W phi e in
  let n := face (at_c (dens e)) (dens_g b) in let T := face (at_c (temp e)) (temp_g b) in let v := face (vel_c e) (vel_g b) in
  exists q vs, heat_flux_is g (-1) b q /\ q + convected (mass e) n T v = gamma_e s * T * n * vs /\ (v = if no_flow s then 0 else vs) /\ (s_Ge s <= 1 -> vs <= 0).
Proof. exact simple_electrons_heat_lower. Qed.
Print Assumptions C39_simple_electron_heat.
Theorem C39_simple_ion_heat : forall s g e i, geom_ok g -> 1e-5 <= simple_tsheath s i ->
  let b := simple_ion_lower s g e i in
  let n := face (at_c (dens i)) (dens_g b) in let T := face (at_c (temp i)) (temp_g b) in let v := face (vel_c i) (vel_g b) in
  exists q vs, heat_flux_is g (-1) b q /\ q + convected (mass i) n T v = gamma_i s * T * n * vs /\ (v = if no_flow s then 0 else vs) /\
    vs <= - sqrt ((polytropic s * T + charge i * simple_tsheath_floored s e) / mass i).
Proof. exact simple_ion_heat_lower. Qed.
Print Assumptions C39_simple_ion_heat.
Example C39_simple_heat_case : geom_ok unit_geom /\ 1e-5 <= simple_tsheath simple_default cold_i.
Proof. split; [exact unit_geom_ok|]. rewrite (flat_tsheath _ _ 1) by (reflexivity || lra). lra. Qed.
(** With electrons hotter than ions the default transmission coefficient is less than the convected energy: the cell is heated. *)
Theorem C39_simple_sheath_heats_refuted : exists s g e i,
  geom_ok g /\ gamma_i s = 3.5 /\ flat i /\ flat e /\ ~ added_energy (simple_ion_lower s g e i) <= 0.
Proof.
  exists simple_default, unit_geom, hot_e, cold_i. split; [exact unit_geom_ok|]. split; [reflexivity|]. split; [split; reflexivity|]. split; [split; reflexivity|].
  rewrite simple_heats. lra.
Qed.
Print Assumptions C39_simple_sheath_heats_refuted.

(** SheathBoundary: never heats, at either end, for any state. *)
Theorem C39_full_sheath_never_heats : forall f g W phi e ions, geom_ok g ->
  (added_energy (fst (full_lower f g W phi e ions)) <= 0 /\ forall b, In b (snd (full_lower f g W phi e ions)) -> added_energy b <= 0) /\
  (added_energy (fst (full_upper f g W phi e ions)) <= 0 /\ forall b, In b (snd (full_upper f g W phi e ions)) -> added_energy b <= 0).
Proof. exact full_never_heats. Qed.
Print Assumptions C39_full_sheath_never_heats.
(** The electrons' total is gamma T n v, unless that is less than what is convected. *)
Theorem C39_full_electron_heat : forall f g W phi e, geom_ok g -> adiabatic e = 5 / 3 ->
  let b := full_electrons_lower f g W phi e in
  let n := face (at_c (dens e)) (dens_g b) in let T := face (at_c (temp e)) (temp_g b) in let v := face (vel_c e) (vel_g b) in
  exists q gamma, 0 <= gamma /\ heat_flux_is g (-1) b q /\
    (q + convected (mass e) n T v = gamma * T * n * v \/ (q = 0 /\ gamma * T * n * v - convected (mass e) n T v > 0)).
Proof. exact full_electrons_heat. Qed.
Print Assumptions C39_full_electron_heat.
(** The ions' coefficient is exactly what is convected. *)
Theorem C39_full_ion_heat : forall g e i, geom_ok g -> adiabatic i = 5 / 3 -> added_energy (full_ion_lower g e i) = 0.
Proof. exact full_ion_heat. Qed.
Print Assumptions C39_full_ion_heat.
Example C39_full_heat_case : geom_ok unit_geom /\ adiabatic full_e = 5 / 3 /\ adiabatic (full_i 0) = 5 / 3.
Proof. split; [exact unit_geom_ok|]. split; reflexivity. Qed.

(** SheathBoundaryInsulating: the electrons' total at the lower end. *)
Theorem C39_insulating_electron_heat_lower : forall gamma g e ions, geom_ok g -> adiabatic e = 5 / 3 ->
  let b := insulating_electrons_lower gamma g e ions in
  let n := face (at_c (dens e)) (dens_g b) in let T := face (at_c (temp e)) (temp_g b) in let v := face (vel_c e) (vel_g b) in
  exists q, heat_flux_is g (-1) b q /\ q + convected (mass e) n T v = gamma * T * n * v.
Proof. exact insulating_electrons_heat. Qed.
Print Assumptions C39_insulating_electron_heat_lower.
Example C39_insulating_electron_heat_case : added_energy (insulating_electrons_lower 3.5 unit_geom full_e [full_i 0]) = - (1 - 0.5 * me).
Proof. exact insulating_lower_energy. Qed.
(** At the upper end the velocity further inside is used in place of that in the face: electrons at rest in both cells lose
    nothing, with the ions leaving at unit speed. *)
Theorem C39_insulating_electron_heat_upper_refuted : exists gamma g ve_n e ions,
  geom_ok g /\ adiabatic e = 5 / 3 /\
  let b := insulating_electrons_upper gamma g ve_n e ions in
  let n := face (at_c (dens e)) (dens_g b) in let T := face (at_c (temp e)) (temp_g b) in let v := face (vel_c e) (vel_g b) in
  forall q, heat_flux_is g 1 b q -> ~ q + convected (mass e) n T v = gamma * T * n * v.
Proof.
  exists 3.5, unit_geom, 0, (mirror_spec full_e), [mirror_spec (full_i 0)]. split; [exact unit_geom_ok|]. split; [reflexivity|]. intros b n T v q Hq.
  unfold heat_flux_is in Hq. unfold b in Hq. rewrite insulating_upper_energy in Hq.
  unfold face_area, cell_volume, unit_geom in Hq. cbn [J_c J_g g22_c g22_g dy_c] in Hq. rewrite sqrt_1 in Hq. assert (q = 0) by lra. subst q.
  unfold n, T, v, b, insulating_electrons_upper. rewrite flow_upper_eq. cbn [dens_g temp_g vel_g fold_right]. rewrite !face_density, !sheath_value_flat
    by (cbn [mirror_spec full_e electrons dens temp flat_prof at_c at_n]; lra). 
  assert (V : v_upper (mirror_spec full_e) (mirror_spec (full_i 0)) = 1).
  { unfold v_upper, insulating_C_i_sq_upper. rewrite !sheath_value_flat by (cbn [mirror_spec full_e full_i electrons ion dens temp flat_prof at_c at_n]; lra).
    cbn [mirror_spec full_e full_i electrons ion mass dens temp flat_prof at_c at_n]. destruct (Rlt_dec 1e-5 1); [|exfalso; lra]. replace (1 - 1) with 0 by ring. rewrite C_i_sq_no_gradient by lra.
    rewrite !rfloor_above by lra. unfold mirror_spec, full_i, ion. cbn [adiabatic charge mass]. rewrite clip_inside by lra. apply sqrt_eq; lra. }
  rewrite V. cbn [mirror_spec full_e full_i electrons ion dens temp flat_prof at_c charge mass vel_c]. unfold face, convected. pose proof me_pos.
  assert (me < 1) by (unfold me; lra). lra.
Qed.
Print Assumptions C39_insulating_electron_heat_upper_refuted.

(** ** C40 *)

Theorem C40_simple_sheath_mirrored : forall s g W phi e ions,
  simple_upper s g W phi (mirror_spec e) (map mirror_spec ions) = mirror_result (simple_lower s g W phi e ions).
Proof. exact simple_mirror. Qed.
Print Assumptions C40_simple_sheath_mirrored.
Theorem C40_full_sheath_mirrored : forall f g W phi e ions,
  full_upper f g W phi (mirror_spec e) (map mirror_spec ions) = mirror_result (full_lower f g W phi e ions).
Proof. exact full_mirror. Qed.
Print Assumptions C40_full_sheath_mirrored.
(** A result that mirroring changes. *)
Example C40_mirror_case : vel_g (mirror_bdry (simple_ion_lower simple_default unit_geom simple_e (simple_i 0))) = 2.
Proof.
  cbn [mirror_bdry vel_g simple_ion_lower no_flow simple_default]. fold simple_default. rewrite (flat_tfloored _ simple_e 1) by (reflexivity || lra).
  rewrite simple_speed by lra. cbn [simple_i ion vel_c]. lra.
Qed.
(** The insulating sheath: different electron energies, for any velocity further inside that is not that in the guard cell; and
    different ion speeds in a thin plasma. *)
Theorem C40_insulating_sheath_refuted : exists gamma g ve_n e ions,
  added_energy (fst (insulating_upper gamma g (- ve_n) (mirror_spec e) (map mirror_spec ions))) <> added_energy (mirror_bdry (fst (insulating_lower gamma g e ions))).
Proof.
  exists 3.5, unit_geom, 0, full_e, [full_i 0]. unfold insulating_upper, insulating_lower. cbn [fst map mirror_bdry added_energy]. fold (mirror_bdry).
  replace (-0) with 0 by ring. rewrite insulating_upper_energy, insulating_lower_energy. unfold me. lra.
Qed.
Print Assumptions C40_insulating_sheath_refuted.
Theorem C40_insulating_ion_speed_refuted : exists g e i,
  flat e /\ flat_ion e i /\ vel_g (insulating_ion_upper g (mirror_spec e) (mirror_spec i)) <> vel_g (mirror_bdry (insulating_ion_lower g e i)).
Proof.
  exists unit_geom, (ins_e 1e-6), thin_i. destruct thin_flat as [F1 F2]. split; [exact F1|]. split; [exact F2|].
  unfold insulating_ion_upper, insulating_ion_lower, full_ion_lower, mirror_bdry. cbn [vel_g]. fold (v_lower (ins_e 1e-6) thin_i). fold (v_upper (mirror_spec (ins_e 1e-6)) (mirror_spec thin_i)).
  rewrite thin_lower. pose proof thin_upper. cbn [mirror_spec thin_i ion vel_c]. cbn [mirror_spec thin_i ion vel_c] in H. lra.
Qed.
Print Assumptions C40_insulating_ion_speed_refuted.
