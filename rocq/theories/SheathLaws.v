(** Current and heat at the sheath boundaries. *)

From Coq Require Import List Bool Reals Lra.
From Verif Require Import StateMonad StateMonadProofs ReactionsModel SheathModel SheathSpec SheathProofs.
Import ListNotations.
Open Scope R_scope.

(** ** Heat *)

Lemma sqrt_sum_pos g : geom_ok g -> 0 < sqrt (g22_c g) + sqrt (g22_g g).
Proof. intros (_ & _ & H3 & H4 & _). pose proof (sqrt_lt_R0 _ H3). pose proof (sqrt_lt_R0 _ H4). lra. Qed.

Lemma per_volume_eq g q : geom_ok g -> per_volume g q * cell_volume g = face_area g * q.
Proof.
  intros H. pose proof (sqrt_sum_pos g H). destruct H as (H1 & H2 & _ & _ & H5). unfold per_volume, cell_volume, face_area. field. repeat split; lra.
Qed.

Lemma face_area_pos g : geom_ok g -> 0 < face_area g.
Proof. intros H. pose proof (sqrt_sum_pos g H). destruct H as (H1 & H2 & _). apply Rdiv_lt_0_compat; lra. Qed.
Lemma cell_volume_pos g : geom_ok g -> 0 < cell_volume g.
Proof. intros (H1 & H2 & _ & _ & H5). apply Rmult_lt_0_compat; lra. Qed.

Lemma per_volume_sign g q : geom_ok g -> (q <= 0 -> per_volume g q <= 0) /\ (0 <= q -> 0 <= per_volume g q).
Proof.
  intros H. pose proof (per_volume_eq g q H) as E. pose proof (face_area_pos g H). pose proof (cell_volume_pos g H). split; intros Hq.
  - apply (Rmult_le_reg_r (cell_volume g)); [assumption|]. rewrite E, Rmult_0_l. replace 0 with (face_area g * 0) by ring. apply Rmult_le_compat_l; lra.
  - apply (Rmult_le_reg_r (cell_volume g)); [assumption|]. rewrite E, Rmult_0_l. apply Rmult_le_pos; lra.
Qed.

(** The heat flux q in the boundary face that was taken out of (or, at the lower end, added to) the last cell. *)
Definition heat_flux_is (g : geom) (direction : R) (b : bdry) (q : R) : Prop :=
  added_energy b * cell_volume g = - direction * (face_area g * q).

Lemma simple_electrons_heat_lower s g W phi e : geom_ok g ->
  let b := simple_electrons_lower s g W phi e in
  let n := face (at_c (dens e)) (dens_g b) in let T := face (at_c (temp e)) (temp_g b) in let v := face (vel_c e) (vel_g b) in
  exists q vs, heat_flux_is g (-1) b q /\ q + convected (mass e) n T v = gamma_e s * T * n * vs /\ (v = if no_flow s then 0 else vs) /\ (s_Ge s <= 1 -> vs <= 0).
Proof.
  intros Hg b n T v. subst b.
  exists (gamma_e s * simple_tsheath s e * simple_nsheath s e * (- sqrt (simple_tsheath s e / (TWOPI * mass e)) * (1 - s_Ge s) *
     exp (- (rfloor (0.5 * (2 * at_c phi - at_n phi + at_c phi)) W - W) / rfloor (simple_tsheath s e) 1e-5)) - convected (mass e) n T v).
  exists (- sqrt (simple_tsheath s e / (TWOPI * mass e)) * (1 - s_Ge s) *
     exp (- (rfloor (0.5 * (2 * at_c phi - at_n phi + at_c phi)) W - W) / rfloor (simple_tsheath s e) 1e-5)).
  assert (En : n = simple_nsheath s e) by (unfold n, face, simple_electrons_lower, simple_nsheath; cbn [dens_g]; lra).
  assert (ET : T = simple_tsheath s e) by (unfold T, face, simple_electrons_lower, simple_tsheath; cbn [temp_g]; lra).
  set (vs := - sqrt _ * _ * _).
  assert (Ev : v = if no_flow s then 0 else vs) by (unfold v, face, simple_electrons_lower; cbn [vel_g]; fold vs; destruct (no_flow s); lra).
  split; [|split; [rewrite En, ET; ring|split; [exact Ev|]]].
  - unfold heat_flux_is. replace (- -1) with 1 by ring. rewrite Rmult_1_l. rewrite <- per_volume_eq by exact Hg. f_equal.
    unfold simple_electrons_lower. cbn [added_energy]. fold vs. f_equal. rewrite En, ET, Ev. unfold convected, SQ. destruct (no_flow s); lra.
  - intros HG. unfold vs. match goal with |- - sqrt ?a * ?b * exp ?c <= 0 => pose proof (sqrt_pos a); pose proof (exp_pos c);
      assert (0 <= sqrt a * b * exp c) by (apply Rmult_le_pos; [apply Rmult_le_pos; lra|lra]) end. lra.
Qed.
Lemma simple_ion_heat_lower s g e i : geom_ok g -> 1e-5 <= simple_tsheath s i ->
  let b := simple_ion_lower s g e i in
  let n := face (at_c (dens i)) (dens_g b) in let T := face (at_c (temp i)) (temp_g b) in let v := face (vel_c i) (vel_g b) in
  exists q vs, heat_flux_is g (-1) b q /\ q + convected (mass i) n T v = gamma_i s * T * n * vs /\ (v = if no_flow s then 0 else vs) /\
    vs <= - sqrt ((polytropic s * T + charge i * simple_tsheath_floored s e) / mass i).
Proof.
  intros Hg HT b n T v. subst b.
  assert (En : n = simple_nsheath s i) by (unfold n, face, simple_ion_lower, simple_nsheath; cbn [dens_g]; lra).
  assert (ET : T = simple_tsheath s i) by (unfold T, face, simple_ion_lower, simple_tsheath; cbn [temp_g]; lra).
  assert (EF : simple_tsheath_floored s i = simple_tsheath s i) by (apply rfloor_above; exact HT).
  set (vs := simple_visheath_lower s (simple_tsheath_floored s e) i).
  assert (Ev : v = if no_flow s then 0 else vs) by (unfold v, face, simple_ion_lower; cbn [vel_g]; fold vs; destruct (no_flow s); lra).
  exists (gamma_i s * T * n * vs - convected (mass i) n T v), vs. split; [|split; [ring|split; [exact Ev|]]].
  - unfold heat_flux_is. replace (- -1) with 1 by ring. rewrite Rmult_1_l. rewrite <- per_volume_eq by exact Hg. f_equal.
    unfold simple_ion_lower. cbn [added_energy]. fold vs. f_equal. rewrite EF, En, ET, Ev. unfold convected, SQ. destruct (no_flow s); lra.
  - unfold vs, simple_visheath_lower. change (0.5 * (limitFree_mode (temperature_mode s) (at_n (temp i)) (at_c (temp i)) + at_c (temp i))) with (simple_tsheath s i).
    rewrite (rfloor_above _ _ HT), ET. destruct (Rlt_dec _ _); lra.
Qed.

(** The full sheath: what is left after the clamp. *)
Lemma full_never_heats f g W phi e ions : geom_ok g ->
  (added_energy (fst (full_lower f g W phi e ions)) <= 0 /\ forall b, In b (snd (full_lower f g W phi e ions)) -> added_energy b <= 0) /\
  (added_energy (fst (full_upper f g W phi e ions)) <= 0 /\ forall b, In b (snd (full_upper f g W phi e ions)) -> added_energy b <= 0).
Proof.
  intros Hg.
  assert (L : forall q, per_volume g (if Rlt_dec 0 q then 0 else q) <= 0).
  { intros q. apply (per_volume_sign g _ Hg). destruct (Rlt_dec 0 q); lra. }
  assert (U : forall q, - per_volume g (if Rlt_dec q 0 then 0 else q) <= 0).
  { intros q. assert (0 <= per_volume g (if Rlt_dec q 0 then 0 else q)); [|lra]. apply (per_volume_sign g _ Hg). destruct (Rlt_dec q 0); lra. }
  split; split; cbn [full_lower full_upper fst snd]; try (intros b Hb; apply in_map_iff in Hb; destruct Hb as (i & <- & _)).
  - apply L.
  - apply L.
  - apply U.
  - apply U.
Qed.

Lemma full_ion_heat g e i : geom_ok g -> adiabatic i = 5 / 3 ->
  let b := full_ion_lower g e i in added_energy b = 0.
Proof.
  intros Hg Ha b. unfold b, full_ion_lower. cbn [added_energy]. set (C := full_C_i_sq e i). set (T := rfloor (sheath_value (temp i)) 1e-5).
  assert (HT : 0 < T) by (unfold T, rfloor; destruct (Rltb (sheath_value (temp i)) 1e-5) eqn:E; [lra|];
    pose proof (Rltb_spec (sheath_value (temp i)) 1e-5) as S; rewrite E in S; lra).
  rewrite Ha. replace (1 / (5 / 3 - 1)) with (3 / 2) by lra.
  replace (((2.5 + 0.5 * mass i * C / T - 1 - 3 / 2) * T - 0.5 * mass i * C)) with 0.
  - rewrite !Rmult_0_l. destruct (Rlt_dec 0 0); unfold per_volume, Rdiv; ring.
  - replace 2.5 with (5 / 2) by lra. replace 0.5 with (/ 2) by lra. field. lra.
Qed.

(** Electrons: with the clamp inactive, the total flux is gamma_e n T v. *)
Lemma full_electrons_heat f g W phi e : geom_ok g -> adiabatic e = 5 / 3 ->
  let b := full_electrons_lower f g W phi e in
  let n := face (at_c (dens e)) (dens_g b) in let T := face (at_c (temp e)) (temp_g b) in let v := face (vel_c e) (vel_g b) in
  exists q gamma, 0 <= gamma /\ heat_flux_is g (-1) b q /\
    (q + convected (mass e) n T v = gamma * T * n * v \/ (q = 0 /\ gamma * T * n * v - convected (mass e) n T v > 0)).
Proof.
  intros Hg Ha b n T v. subst b.
  assert (En : n = sheath_value (dens e)) by (unfold n, face, full_electrons_lower, sheath_value; cbn [dens_g]; lra).
  assert (ET : T = sheath_value (temp e)) by (unfold T, face, full_electrons_lower, sheath_value; cbn [temp_g]; lra).
  set (ph := if floor_potential f then rfloor (0.5 * (2 * at_c phi - at_n phi + at_c phi)) W else 0.5 * (2 * at_c phi - at_n phi + at_c phi)).
  set (vs := if Rlt_dec T 1e-10 then 0 else - sqrt (T / (TWOPI * mass e)) * (1 - f_Ge f) * exp (- (ph - W) / T)).
  assert (Ev : v = vs) by (unfold v, face, full_electrons_lower; cbn [vel_g]; fold ph; rewrite <- ET; fold vs; lra).
  set (gam := full_gamma_e f ph W T).
  set (q0 := ((gam - 1 - 1 / (adiabatic e - 1)) * T - 0.5 * mass e * SQ vs) * n * vs).
  assert (Q : q0 = gam * T * n * v - convected (mass e) n T v).
  { unfold q0, convected, SQ. rewrite Ha, Ev. replace (1 / (5 / 3 - 1)) with (3 / 2) by lra. lra. }
  exists (if Rlt_dec 0 q0 then 0 else q0), gam. split; [|split].
  - unfold gam, full_gamma_e, rfloor at 1. match goal with |- context [Rltb ?x 0] => pose proof (Rltb_spec x 0) as S; destruct (Rltb x 0); lra end.
  - unfold heat_flux_is. replace (- -1) with 1 by ring. rewrite Rmult_1_l, <- per_volume_eq by exact Hg. f_equal.
    unfold full_electrons_lower. cbn [added_energy]. fold ph. rewrite <- ET, <- En. fold vs gam q0. reflexivity.
  - destruct (Rlt_dec 0 q0) as [H|H]; [right; split; [reflexivity|lra]|left; lra].
Qed.

(** ** Current at the full sheath *)

Lemma clip_inside x lo hi : lo <= x <= hi -> clip x lo hi = x.
Proof. intros H. unfold clip. rewrite !Rltb_false by lra. reflexivity. Qed.

Lemma limitFree_flat fm fc : fm <= fc -> limitFree fm fc = fc.
Proof.
  intros H. unfold limitFree. destruct (Rlt_dec fm fc); [reflexivity|]. destruct (Rlt_dec fm 1e-10); [reflexivity|].
  replace fm with fc by lra. unfold SQ. field. lra.
Qed.
Lemma sheath_value_flat p : at_n p <= at_c p -> sheath_value p = at_c p.
Proof. intros H. unfold sheath_value. rewrite limitFree_flat by exact H. lra. Qed.

(** The speed of sound in a plasma without gradients. *)
Definition sound (e i : spec) : R := sqrt (clip ((adiabatic i * at_c (temp i) + charge i * (at_c (dens i) / at_c (dens e)) * at_c (temp e)) / mass i) 0 100).
Definition flat (s : spec) : Prop := at_n (dens s) = at_c (dens s) /\ at_n (temp s) = at_c (temp s).
Definition flat_ion (e i : spec) : Prop := 0 < mass i /\ flat i /\ 0 <= at_c (dens i) <= at_c (dens e) /\ 1e-5 <= at_c (temp i).

Lemma ratio_range a b : 0 <= a <= b -> 0 < b -> 0 <= a / b <= 1.
Proof.
  intros [H1 H2] H3. split; [apply Rle_mult_inv_pos; assumption|]. apply (Rmult_le_reg_r b); [exact H3|]. unfold Rdiv. rewrite Rmult_assoc, Rinv_l; lra.
Qed.

Lemma C_i_sq_no_gradient limit x ti te s i : 0 < limit -> C_i_sq limit x 0 ti te s i = clip ((adiabatic i * ti + charge i * s * te) / mass i) 0 100.
Proof.
  intros H. unfold C_i_sq. rewrite Rabs_R0. destruct (Rlt_dec 0 limit); [|contradiction]. f_equal. f_equal. f_equal. field. lra.
Qed.

Lemma full_C_flat e i : flat e -> flat_ion e i -> 1e-10 <= at_c (dens e) -> 1e-5 <= at_c (temp e) -> sqrt (full_C_i_sq e i) = sound e i.
Proof.
  intros [F1 F2] (Hm & [F3 F4] & Hn & Ht) He Hte. unfold full_C_i_sq. rewrite !sheath_value_flat by lra. rewrite !rfloor_above by lra.
  rewrite clip_inside by (apply ratio_range; lra). replace (at_c (dens i) - at_c (dens i)) with 0 by ring.
  rewrite C_i_sq_no_gradient by lra. reflexivity.
Qed.

Lemma concentration_flat e i : flat e -> flat_ion e i -> 1e-10 <= at_c (dens e) -> concentration (dens i) (dens e) = at_c (dens i) / at_c (dens e).
Proof.
  intros [F1 F2] (Hm & [F3 F4] & Hn & Ht) He. unfold concentration. rewrite F1, F3. destruct (Req_EM_T (at_c (dens e)) 0); [exfalso; lra|].
  rewrite clip_inside; [|pose proof (ratio_range (at_c (dens i)) (at_c (dens e)))].
  - replace 0.5 with (/ 2) by lra. field. assumption.
  - replace (0.5 * (3 * at_c (dens i) / at_c (dens e) - at_c (dens i) / at_c (dens e))) with (at_c (dens i) / at_c (dens e)) by (replace 0.5 with (/ 2) by lra; field; assumption).
    apply H; lra.
Qed.

Lemma full_sum_flat f e ions : flat e -> (forall i, In i ions -> flat_ion e i) -> 1e-10 <= at_c (dens e) -> 1e-5 <= at_c (temp e) ->
  ion_sum_lower f e ions * at_c (dens e) = sin_alpha f * fold_right (fun i acc => charge i * (at_c (dens i) * sound e i) + acc) 0 ions.
Proof.
  intros Fe Fi He Hte. unfold ion_sum_lower. rewrite fold_plus. rewrite Rplus_0_l.
  induction ions as [|i ions IH]; cbn [fold_right]; [ring|].
  rewrite Rmult_plus_distr_r, IH by (intros; apply Fi; now right). rewrite Rmult_plus_distr_l. f_equal.
  assert (Hi : flat_ion e i) by (apply Fi; now left). rewrite concentration_flat by assumption.
  destruct Hi as (Hm & [F3 F4] & _). replace (at_n (dens i) - at_c (dens i)) with 0 by lra. rewrite C_i_sq_no_gradient by lra.
  fold (sound e i). unfold sound. field. lra.
Qed.

Lemma full_ion_current e g ions : flat e -> (forall i, In i ions -> flat_ion e i) -> 1e-10 <= at_c (dens e) -> 1e-5 <= at_c (temp e) ->
  ion_current flux_of_momentum ions (map (full_ion_lower g e) ions) = - fold_right (fun i acc => charge i * (at_c (dens i) * sound e i) + acc) 0 ions /\
  ion_current flux_of_velocity ions (map (full_ion_lower g e) ions) = - fold_right (fun i acc => charge i * (at_c (dens i) * sound e i) + acc) 0 ions.
Proof.
  intros Fe Fi He Hte. induction ions as [|i ions IH]; cbn [ion_current map fold_right]; [split; ring|].
  destruct IH as [I1 I2]; [intros; apply Fi; now right|]. rewrite I1, I2.
  assert (Hi : flat_ion e i) by (apply Fi; now left). pose proof (full_C_flat e i Fe Hi He Hte) as EC. destruct Hi as (Hm & [F3 F4] & _).
  unfold flux_of_momentum, flux_of_velocity, full_ion_lower. cbn [mom_g vel_g dens_g]. rewrite EC, !limitFree_flat, !sheath_value_flat by lra. unfold face.
  split; [|lra]. field. lra.
Qed.

Lemma full_phi_speed f W e X : 0 < at_c (temp e) -> 0 < mass e -> f_Ge f < 1 -> 0 < X ->
  sqrt (at_c (temp e) / (TWOPI * mass e)) * (1 - f_Ge f) * exp (- (full_phi f W X e - W) / at_c (temp e)) = X.
Proof.
  intros HT Hm HG HX. unfold full_phi. destruct (Rle_dec (at_c (temp e)) 0); [exfalso; lra|]. rewrite (Rmult_comm (mass e) TWOPI).
  apply boltzmann; [exact HT| |exact HX]. apply Rmult_lt_0_compat; [now apply sqrt_pos_arg|lra].
Qed.
Lemma full_phi_above f W e X : 0 < at_c (temp e) -> 0 < X -> X <= sqrt (at_c (temp e) / (TWOPI * mass e)) * (1 - f_Ge f) -> W <= full_phi f W X e.
Proof.
  intros HT HX HS. unfold full_phi. destruct (Rle_dec (at_c (temp e)) 0); [exfalso; lra|]. rewrite (Rmult_comm (mass e) TWOPI).
  set (S := sqrt _ * _) in *. assert (L : 0 <= ln (S / X)).
  { rewrite <- ln_1. apply ln_mono; [lra|]. apply (Rmult_le_reg_r X); [exact HX|]. unfold Rdiv. rewrite Rmult_assoc, Rinv_l; lra. }
  pose proof (Rmult_le_pos _ _ (Rlt_le _ _ HT) L). lra.
Qed.

Lemma full_electron_flux f g W e X : flat e -> 1e-5 <= at_c (temp e) -> 0 < mass e -> f_Ge f < 1 -> 0 < X ->
  (floor_potential f = true -> X <= sqrt (at_c (temp e) / (TWOPI * mass e)) * (1 - f_Ge f)) ->
  let phi := mkProf (full_phi f W X e) (full_phi f W X e) in
  flux_of_momentum e (full_electrons_lower f g W phi e) = - (at_c (dens e) * X) /\
  flux_of_velocity e (full_electrons_lower f g W phi e) = - (at_c (dens e) * X).
Proof.
  intros [F1 F2] HT Hm HG HX HS phi. assert (HT0 : 0 < at_c (temp e)) by lra.
  pose proof (full_phi_speed f W e X HT0 Hm HG HX) as E.
  unfold flux_of_momentum, flux_of_velocity, full_electrons_lower. cbn [mom_g vel_g dens_g phi at_c at_n]. rewrite !limitFree_flat, !sheath_value_flat by lra.
  replace (0.5 * (2 * full_phi f W X e - full_phi f W X e + full_phi f W X e)) with (full_phi f W X e) by lra.
  assert (P : (if floor_potential f then rfloor (full_phi f W X e) W else full_phi f W X e) = full_phi f W X e).
  { destruct (floor_potential f); [|reflexivity]. apply rfloor_above. apply full_phi_above; auto. }
  rewrite P. destruct (Rlt_dec (at_c (temp e)) 1e-10); [exfalso; lra|].
  assert (E' : - sqrt (at_c (temp e) / (TWOPI * mass e)) * (1 - f_Ge f) * exp (- (full_phi f W X e - W) / at_c (temp e)) = - X) by (rewrite <- E at 2; ring).
  rewrite E'. unfold face. split; [field; lra|lra].
Qed.

(** Without gradients, the electron flux is sin(alpha) times the ion current. *)
Lemma full_flat_current f g W e ions : flat e -> (forall i, In i ions -> flat_ion e i) -> 1e-10 <= at_c (dens e) -> 1e-5 <= at_c (temp e) ->
  0 < mass e -> f_Ge f < 1 -> 0 < ion_sum_lower f e ions ->
  (floor_potential f = true -> ion_sum_lower f e ions <= sqrt (at_c (temp e) / (TWOPI * mass e)) * (1 - f_Ge f)) ->
  let r := full_lower f g W None e ions in
  flux_of_momentum e (fst r) = sin_alpha f * ion_current flux_of_momentum ions (snd r) /\
  flux_of_velocity e (fst r) = sin_alpha f * ion_current flux_of_velocity ions (snd r).
Proof.
  intros Fe Fi He Hte Hm HG HX HS r. unfold r, full_lower. cbn [fst snd].
  destruct (full_ion_current e g ions Fe Fi He Hte) as [-> ->].
  destruct (full_electron_flux f g W e _ Fe Hte Hm HG HX HS) as [-> ->].
  rewrite (Rmult_comm (at_c (dens e))), (full_sum_flat f e ions Fe Fi He Hte). split; ring.
Qed.

(** A pure plasma with any density profile. *)
Lemma grad_ratio limit a : 0 < limit -> (let '(x, y) := if Rlt_dec (Rabs a) limit then (limit, limit) else (a, a) in x / y) = 1.
Proof.
  intros H. destruct (Rlt_dec (Rabs a) limit); [field; lra|]. field. intros ->. rewrite Rabs_R0 in *. contradiction.
Qed.
Lemma C_i_sq_pure limit a ti te i : 0 < limit -> C_i_sq limit a a ti te 1 i = clip ((adiabatic i * ti + charge i * te) / mass i) 0 100.
Proof.
  intros H. pose proof (grad_ratio limit a H) as G. unfold C_i_sq. destruct (Rlt_dec (Rabs a) limit).
  - f_equal. f_equal. f_equal. field. lra.
  - f_equal. f_equal. f_equal. unfold Rdiv in G |- *. rewrite Rmult_assoc, G. ring.
Qed.

Lemma full_pure_current f g W e i : charge i = 1 -> dens i = dens e -> prof_nonneg (dens e) -> 1e-10 <= sheath_value (dens e) -> 0 < mass i -> 0 < mass e ->
  at_n (temp e) <= at_c (temp e) -> at_n (temp i) <= at_c (temp i) -> 1e-5 <= at_c (temp e) -> 1e-5 <= at_c (temp i) -> 
  sin_alpha f = 1 -> f_Ge f < 1 -> 0 < adiabatic i ->
  (floor_potential f = true -> sqrt (clip ((adiabatic i * at_c (temp i) + at_c (temp e)) / mass i) 0 100) <= sqrt (at_c (temp e) / (TWOPI * mass e)) * (1 - f_Ge f)) ->
  no_current flux_of_momentum e [i] (full_lower f g W None e [i]) /\ no_current flux_of_velocity e [i] (full_lower f g W None e [i]).
Proof.
  intros HZ Hd Hnn Hns Hmi Hme Fe Fi HTe HTi Hs HG Ha HS.
  set (C := clip ((adiabatic i * at_c (temp i) + at_c (temp e)) / mass i) 0 100) in *.
  assert (HC : 0 < C).
  { unfold C, clip. assert (P : 0 < (adiabatic i * at_c (temp i) + at_c (temp e)) / mass i).
    { apply Rdiv_lt_0_compat; [|exact Hmi]. pose proof (Rmult_lt_0_compat _ (at_c (temp i)) Ha). lra. }
    rewrite (Rltb_false _ 0) by lra. destruct (Rltb 100 _); lra. }
  assert (Ec : concentration (dens i) (dens e) = 1).
  { rewrite Hd. unfold concentration. destruct (Req_EM_T (at_c (dens e)) 0); [reflexivity|]. destruct (Req_EM_T (at_n (dens e)) 0); [reflexivity|].
    rewrite clip_inside; replace (0.5 * (3 * at_c (dens e) / at_c (dens e) - at_n (dens e) / at_n (dens e))) with 1 by (replace 0.5 with (/ 2) by lra; field; split; assumption); lra. }
  assert (ES : ion_sum_lower f e [i] = sqrt C).
  { unfold ion_sum_lower. cbn [fold_left]. rewrite Ec, Hs, HZ, Hd. rewrite C_i_sq_pure by lra. rewrite ?HZ, (Rmult_1_l (at_c (temp e))). fold C. ring. }
  assert (EF : full_C_i_sq e i = C).
  { unfold full_C_i_sq. rewrite Hd. rewrite (rfloor_above (sheath_value (dens e))) by exact Hns.
    replace (sheath_value (dens e) / sheath_value (dens e)) with 1 by (field; lra). rewrite (clip_inside 1) by lra.
    rewrite C_i_sq_pure by lra. rewrite !sheath_value_flat by assumption. rewrite !rfloor_above by assumption. rewrite HZ, Rmult_1_l. reflexivity. }
  pose proof (sqrt_lt_R0 C HC) as Hq.
  assert (HT0 : 0 < at_c (temp e)) by lra.
  pose proof (full_phi_speed f W e (sqrt C) HT0 Hme HG Hq) as E.
  unfold no_current, full_lower. cbn [fst snd map ion_current]. rewrite ES. rewrite HZ.
  assert (P : (if floor_potential f then rfloor (full_phi f W (sqrt C) e) W else full_phi f W (sqrt C) e) = full_phi f W (sqrt C) e).
  { destruct (floor_potential f); [|reflexivity]. apply rfloor_above. apply full_phi_above; auto. }
  unfold flux_of_momentum, flux_of_velocity, full_electrons_lower, full_ion_lower. cbn [mom_g vel_g dens_g at_c at_n].
  replace (0.5 * (2 * full_phi f W (sqrt C) e - full_phi f W (sqrt C) e + full_phi f W (sqrt C) e)) with (full_phi f W (sqrt C) e) by lra.
  rewrite P, (sheath_value_flat (temp e)) by exact Fe. destruct (Rlt_dec (at_c (temp e)) 1e-10); [exfalso; lra|]. rewrite EF, Hd.
  assert (E' : - sqrt (at_c (temp e) / (TWOPI * mass e)) * (1 - f_Ge f) * exp (- (full_phi f W (sqrt C) e - W) / at_c (temp e)) = - sqrt C) by (rewrite !Ropp_mult_distr_l_reverse; now rewrite E).
  rewrite E'. unfold face. split; [field; lra|lra].
Qed.
