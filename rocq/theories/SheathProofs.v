(** Proofs about the sheath boundaries. *)

From Coq Require Import List Bool Reals Lra.
From Verif Require Import StateMonad StateMonadProofs ReactionsModel SheathModel SheathSpec.
Import ListNotations.
Open Scope R_scope.

(** ** Extrapolation *)

Lemma square_over fm fc : 0 < fm -> 0 <= fc -> fc <= fm -> 0 <= SQ fc / fm <= fc.
Proof.
  intros H1 H2 H3. unfold SQ. split; [apply Rle_mult_inv_pos; [apply Rmult_le_pos; assumption|assumption]|].
  apply (Rmult_le_reg_r fm); [exact H1|]. unfold Rdiv. rewrite Rmult_assoc, Rinv_l, Rmult_1_r by lra. apply Rmult_le_compat_l; assumption.
Qed.

Lemma limitFree_range fm fc : 0 <= fm -> 0 <= fc -> 0 <= limitFree fm fc <= fc.
Proof.
  intros H1 H2. unfold limitFree. destruct (Rlt_dec fm fc); [lra|]. destruct (Rlt_dec fm 1e-10); [lra|]. apply square_over; lra.
Qed.

Lemma limitFree_mode0 fm fc : limitFree_mode LimitFree fm fc = limitFree fm fc.
Proof. unfold limitFree_mode, limitFree. rewrite andb_true_r. unfold Rltb. destruct (Rlt_dec fm fc); reflexivity. Qed.

Lemma limitFree_positive fm fc : 0 <= fm -> 0 < fc -> 0 < limitFree fm fc.
Proof.
  intros H1 H2. unfold limitFree. destruct (Rlt_dec fm fc); [lra|]. destruct (Rlt_dec fm 1e-10); [lra|]. unfold SQ. apply Rmult_lt_0_compat.
  - apply Rmult_lt_0_compat; lra.
  - apply Rinv_0_lt_compat. lra.
Qed.

Lemma exponential_nonneg fm fc : 0 <= fm -> 0 <= fc -> 0 <= limitFree_mode ExponentialFree fm fc.
Proof.
  intros H1 H2. unfold limitFree_mode. rewrite andb_false_r. destruct (Rlt_dec fm 1e-10); [lra|]. unfold SQ. apply Rle_mult_inv_pos; [|lra].
  apply Rmult_le_pos; assumption.
Qed.

Lemma exponential_grows : limitFree_mode ExponentialFree 1 2 = 4.
Proof. unfold limitFree_mode. rewrite andb_false_r. destruct (Rlt_dec 1 1e-10); [exfalso; lra|]. unfold SQ. lra. Qed.
Lemma linear_negative : limitFree_mode LinearFree 3 1 = -1.
Proof. unfold limitFree_mode. rewrite andb_false_r. destruct (Rlt_dec 3 1e-10); [exfalso; lra|]. lra. Qed.

Lemma sheath_value_range p : prof_nonneg p -> 0 <= sheath_value p <= at_c p.
Proof. intros [H1 H2]. unfold sheath_value. pose proof (limitFree_range (at_n p) (at_c p) H2 H1). lra. Qed.

(** ** Current at the simple sheath *)

Lemma rfloor_above x m : m <= x -> rfloor x m = x.
Proof. intros H. unfold rfloor. rewrite Rltb_false by exact H. reflexivity. Qed.

Lemma fold_minus {A} (f : A -> R) l : forall a, fold_left (fun s x => s - f x) l a = a - fold_right (fun x s => f x + s) 0 l.
Proof. induction l as [|x l IH]; intros a; cbn [fold_left fold_right]; [lra|]. rewrite IH. lra. Qed.
Lemma fold_plus {A} (f : A -> R) l : forall a, fold_left (fun s x => s + f x) l a = a + fold_right (fun x s => f x + s) 0 l.
Proof. induction l as [|x l IH]; intros a; cbn [fold_left fold_right]; [lra|]. rewrite IH. lra. Qed.

Lemma simple_ion_flux_lower s g e i : mass i <> 0 -> no_flow s = false ->
  flux_of_momentum i (simple_ion_lower s g e i) = simple_nsheath s i * simple_visheath_lower s (simple_tsheath_floored s e) i /\
  flux_of_velocity i (simple_ion_lower s g e i) = simple_nsheath s i * simple_visheath_lower s (simple_tsheath_floored s e) i.
Proof.
  intros Hm Hf. unfold flux_of_momentum, flux_of_velocity, simple_ion_lower. rewrite Hf. cbn [mom_g vel_g dens_g]. unfold face. split.
  - field. exact Hm.
  - unfold simple_nsheath. lra.
Qed.
Lemma simple_ion_flux_upper s g e i : mass i <> 0 -> no_flow s = false ->
  flux_of_momentum i (simple_ion_upper s g e i) = simple_nsheath s i * simple_visheath_upper s (simple_tsheath_floored s e) i /\
  flux_of_velocity i (simple_ion_upper s g e i) = simple_nsheath s i * simple_visheath_upper s (simple_tsheath_floored s e) i.
Proof.
  intros Hm Hf. unfold flux_of_momentum, flux_of_velocity, simple_ion_upper. rewrite Hf. cbn [mom_g vel_g dens_g]. unfold face. split.
  - field. exact Hm.
  - unfold simple_nsheath. lra.
Qed.

Lemma simple_current_lower s g e ions : (forall i, In i ions -> 0 < mass i) -> no_flow s = false ->
  ion_current flux_of_momentum ions (map (simple_ion_lower s g e) ions) = - simple_ion_sum_lower s e ions /\
  ion_current flux_of_velocity ions (map (simple_ion_lower s g e) ions) = - simple_ion_sum_lower s e ions.
Proof.
  intros Hm Hf. unfold simple_ion_sum_lower. rewrite fold_minus.
  assert (G : forall l, (forall i, In i l -> 0 < mass i) ->
    ion_current flux_of_momentum l (map (simple_ion_lower s g e) l)
    = fold_right (fun i acc => charge i * simple_nsheath s i * simple_visheath_lower s (simple_tsheath_floored s e) i + acc) 0 l /\
    ion_current flux_of_velocity l (map (simple_ion_lower s g e) l)
    = fold_right (fun i acc => charge i * simple_nsheath s i * simple_visheath_lower s (simple_tsheath_floored s e) i + acc) 0 l).
  { induction l as [|i l IH]; intros H; cbn [ion_current map fold_right]; [split; reflexivity|].
    assert (Hi : mass i <> 0) by (apply Rgt_not_eq, H; now left).
    destruct (simple_ion_flux_lower s g e i Hi Hf) as [E1 E2]. destruct IH as [I1 I2]; [intros; apply H; now right|].
    rewrite E1, E2, I1, I2. split; ring. }
  destruct (G ions Hm) as [G1 G2]. rewrite G1, G2. split; ring.
Qed.
Lemma simple_current_upper s g e ions : (forall i, In i ions -> 0 < mass i) -> no_flow s = false ->
  ion_current flux_of_momentum ions (map (simple_ion_upper s g e) ions) = simple_ion_sum_upper s e ions /\
  ion_current flux_of_velocity ions (map (simple_ion_upper s g e) ions) = simple_ion_sum_upper s e ions.
Proof.
  intros Hm Hf. unfold simple_ion_sum_upper. rewrite fold_plus.
  assert (G : forall l, (forall i, In i l -> 0 < mass i) ->
    ion_current flux_of_momentum l (map (simple_ion_upper s g e) l)
    = fold_right (fun i acc => charge i * simple_nsheath s i * simple_visheath_upper s (simple_tsheath_floored s e) i + acc) 0 l /\
    ion_current flux_of_velocity l (map (simple_ion_upper s g e) l)
    = fold_right (fun i acc => charge i * simple_nsheath s i * simple_visheath_upper s (simple_tsheath_floored s e) i + acc) 0 l).
  { induction l as [|i l IH]; intros H; cbn [ion_current map fold_right]; [split; reflexivity|].
    assert (Hi : mass i <> 0) by (apply Rgt_not_eq, H; now left).
    destruct (simple_ion_flux_upper s g e i Hi Hf) as [E1 E2]. destruct IH as [I1 I2]; [intros; apply H; now right|].
    rewrite E1, E2, I1, I2. split; ring. }
  destruct (G ions Hm) as [G1 G2]. rewrite G1, G2. split; ring.
Qed.

Lemma ln_mono x y : 0 < x -> x <= y -> ln x <= ln y.
Proof. intros H1 [H2| ->]; [left; now apply ln_increasing|lra]. Qed.

(** The electron speed for which the potential was chosen. *)
Lemma twopi_pos : 0 < TWOPI. Proof. unfold TWOPI. pose proof PI_RGT_0. lra. Qed.

Lemma boltzmann T S X W : 0 < T -> 0 < S -> 0 < X -> S * exp (- (T * ln (S / X) + W - W) / T) = X.
Proof.
  intros HT HS HX. replace (- (T * ln (S / X) + W - W) / T) with (- ln (S / X)) by (field; lra).
  rewrite exp_Ropp, exp_ln; [field; lra|]. apply Rdiv_lt_0_compat; assumption.
Qed.

(** The thermal electron flux times (1 - Ge), which is the largest that the sheath can draw. *)
Definition saturation (s : simple) (e : spec) : R :=
  simple_nsheath s e * sqrt (simple_tsheath s e / (TWOPI * mass e)) * (1 - s_Ge s).

Lemma sqrt_pos_arg T m : 0 < T -> 0 < m -> 0 < sqrt (T / (TWOPI * m)).
Proof. intros H1 H2. apply sqrt_lt_R0, Rdiv_lt_0_compat; [exact H1|]. apply Rmult_lt_0_compat; [exact twopi_pos|exact H2]. Qed.

Lemma simple_phi_speed s W e X : 1e-5 <= simple_tsheath s e -> 0 < mass e -> s_Ge s < 1 -> 0 < simple_nsheath s e -> 0 < X -> X <= saturation s e ->
  W <= simple_phi s W X e /\
  sqrt (simple_tsheath s e / (TWOPI * mass e)) * (1 - s_Ge s) * exp (- (simple_phi s W X e - W) / rfloor (simple_tsheath s e) 1e-5)
  = X / simple_nsheath s e.
Proof.
  intros HT Hm HG Hn HX HS. unfold simple_phi, simple_tsheath_floored. rewrite (rfloor_above _ 1e-5) by exact HT. unfold saturation in HS.
  rewrite (Rmult_comm (mass e) TWOPI). set (T := simple_tsheath s e) in *. set (n := simple_nsheath s e) in *.
  assert (HT0 : 0 < T) by lra. pose proof (sqrt_pos_arg T (mass e) HT0 Hm) as Hq. set (v := sqrt (T / (TWOPI * mass e))) in *.
  assert (HB : 0 < v * (1 - s_Ge s)) by (apply Rmult_lt_0_compat; lra).
  set (S := v * (1 - s_Ge s)) in *. replace (S * n / X) with (S / (X / n)) by (field; lra).
  assert (HXn : 0 < X / n) by (apply Rdiv_lt_0_compat; assumption).
  split; [|apply boltzmann; assumption].
  assert (L : 0 <= ln (S / (X / n))).
  { rewrite <- ln_1. apply ln_mono; [lra|]. apply (Rmult_le_reg_r (X / n)); [exact HXn|]. unfold Rdiv at 2. rewrite Rmult_assoc, Rinv_l by lra.
    rewrite Rmult_1_l, Rmult_1_r. apply (Rmult_le_reg_r n); [exact Hn|]. replace (X / n * n) with X by (field; lra). unfold S. lra. }
  pose proof (Rmult_le_pos T _ (Rlt_le _ _ HT0) L). lra.
Qed.

Lemma simple_electron_flux_lower s g W phi e : mass e <> 0 -> no_flow s = false -> W <= phi ->
  let v := - sqrt (simple_tsheath s e / (TWOPI * mass e)) * (1 - s_Ge s) * exp (- (phi - W) / rfloor (simple_tsheath s e) 1e-5) in
  flux_of_momentum e (simple_electrons_lower s g W (mkProf phi phi) e) = simple_nsheath s e * v /\
  flux_of_velocity e (simple_electrons_lower s g W (mkProf phi phi) e) = simple_nsheath s e * v.
Proof.
  intros Hm Hf Hp v. unfold flux_of_momentum, flux_of_velocity, simple_electrons_lower. rewrite Hf. cbn [mom_g vel_g dens_g at_c at_n].
  replace (0.5 * (2 * phi - phi + phi)) with phi by lra. rewrite (rfloor_above phi W Hp). fold v. unfold face. split.
  - field. exact Hm.
  - unfold simple_nsheath. lra.
Qed.
Lemma simple_electron_flux_upper s g W phi e : mass e <> 0 -> no_flow s = false -> W <= phi ->
  let v := sqrt (simple_tsheath s e / (TWOPI * mass e)) * (1 - s_Ge s) * exp (- (phi - W) / rfloor (simple_tsheath s e) 1e-5) in
  flux_of_momentum e (simple_electrons_upper s g W (mkProf phi phi) e) = simple_nsheath s e * v /\
  flux_of_velocity e (simple_electrons_upper s g W (mkProf phi phi) e) = simple_nsheath s e * v.
Proof.
  intros Hm Hf Hp v. unfold flux_of_momentum, flux_of_velocity, simple_electrons_upper. rewrite Hf. cbn [mom_g vel_g dens_g at_c at_n].
  replace (0.5 * (2 * phi - phi + phi)) with phi by lra. rewrite (rfloor_above phi W Hp). fold v. unfold face. split.
  - field. exact Hm.
  - unfold simple_nsheath. lra.
Qed.

Lemma simple_no_current_lower s g W e ions :
  (forall i, In i ions -> 0 < mass i) -> 0 < mass e -> no_flow s = false -> s_Ge s < 1 -> 1e-5 <= simple_tsheath s e -> 0 < simple_nsheath s e ->
  0 < simple_ion_sum_lower s e ions <= saturation s e ->
  no_current flux_of_momentum e ions (simple_lower s g W None e ions) /\ no_current flux_of_velocity e ions (simple_lower s g W None e ions).
Proof.
  intros Hm He Hf HG HT Hn [HX HS]. unfold no_current, simple_lower. cbn [fst snd].
  destruct (simple_current_lower s g e ions Hm Hf) as [-> ->].
  destruct (simple_phi_speed s W e _ HT He HG Hn HX HS) as [Hp Hv].
  destruct (simple_electron_flux_lower s g W (simple_phi s W (simple_ion_sum_lower s e ions) e) e) as [-> ->]; [lra|exact Hf|exact Hp|].
  assert (E : simple_nsheath s e * (- sqrt (simple_tsheath s e / (TWOPI * mass e)) * (1 - s_Ge s) * exp (- (simple_phi s W (simple_ion_sum_lower s e ions) e - W) / rfloor (simple_tsheath s e) 1e-5))
    = - simple_ion_sum_lower s e ions).
  { transitivity (- (simple_nsheath s e * (sqrt (simple_tsheath s e / (TWOPI * mass e)) * (1 - s_Ge s) * exp (- (simple_phi s W (simple_ion_sum_lower s e ions) e - W) / rfloor (simple_tsheath s e) 1e-5)))).
    - ring.
    - rewrite Hv. field. lra. }
  rewrite E. split; reflexivity.
Qed.
Lemma simple_no_current_upper s g W e ions :
  (forall i, In i ions -> 0 < mass i) -> 0 < mass e -> no_flow s = false -> s_Ge s < 1 -> 1e-5 <= simple_tsheath s e -> 0 < simple_nsheath s e ->
  0 < simple_ion_sum_upper s e ions <= saturation s e ->
  no_current flux_of_momentum e ions (simple_upper s g W None e ions) /\ no_current flux_of_velocity e ions (simple_upper s g W None e ions).
Proof.
  intros Hm He Hf HG HT Hn [HX HS]. unfold no_current, simple_upper. cbn [fst snd].
  destruct (simple_current_upper s g e ions Hm Hf) as [-> ->].
  destruct (simple_phi_speed s W e _ HT He HG Hn HX HS) as [Hp Hv].
  destruct (simple_electron_flux_upper s g W (simple_phi s W (simple_ion_sum_upper s e ions) e) e) as [-> ->]; [lra|exact Hf|exact Hp|].
  rewrite Hv. split; field; lra.
Qed.

(** ** Mirror symmetry *)

Lemma simple_visheath_mirror s t i : simple_visheath_upper s t (mirror_spec i) = - simple_visheath_lower s t i.
Proof.
  unfold simple_visheath_upper, simple_visheath_lower. cbn [mirror_spec temp charge mass vel_c]. set (C := sqrt _).
  destruct (Rlt_dec C (- vel_c i)), (Rlt_dec (vel_c i) (- C)); lra.
Qed.
Lemma simple_nsheath_mirror s i : simple_nsheath s (mirror_spec i) = simple_nsheath s i. Proof. reflexivity. Qed.
Lemma simple_sum_mirror s e ions : simple_ion_sum_upper s (mirror_spec e) (map mirror_spec ions) = simple_ion_sum_lower s e ions.
Proof.
  unfold simple_ion_sum_upper, simple_ion_sum_lower. generalize 0. induction ions as [|i ions IH]; intros a; cbn [map fold_left]; [reflexivity|].
  rewrite <- IH. f_equal. rewrite simple_nsheath_mirror. change (charge (mirror_spec i)) with (charge i).
  change (simple_tsheath_floored s (mirror_spec e)) with (simple_tsheath_floored s e). rewrite simple_visheath_mirror. ring.
Qed.

Lemma bdry_eq a b c v m x v' m' x' : v = v' -> m = m' -> x = x' -> mkBdry a b c v m x = mkBdry a b c v' m' x'.
Proof. intros -> -> ->. reflexivity. Qed.

Lemma per_volume_opp g q : per_volume g (- q) = - per_volume g q.
Proof. unfold per_volume, Rdiv. ring. Qed.

Lemma simple_electrons_mirror s g W phi e : simple_electrons_upper s g W phi (mirror_spec e) = mirror_bdry (simple_electrons_lower s g W phi e).
Proof.
  unfold simple_electrons_upper, simple_electrons_lower, mirror_bdry. cbn [dens_g temp_g pres_g vel_g mom_g added_energy].
  change (simple_tsheath s (mirror_spec e)) with (simple_tsheath s e). change (simple_nsheath s (mirror_spec e)) with (simple_nsheath s e).
  cbn [mirror_spec mass dens temp pres vel_c mom_c].
  set (v := sqrt _ * (1 - s_Ge s) * exp _). replace (- sqrt (simple_tsheath s e / (TWOPI * mass e)) * (1 - s_Ge s) * exp (- (rfloor (0.5 * (2 * at_c phi - at_n phi + at_c phi)) W - W) / rfloor (simple_tsheath s e) 1e-5))
    with (- v) by (unfold v; ring).
  apply bdry_eq.
  - destruct (no_flow s); ring.
  - destruct (no_flow s); ring.
  - rewrite <- per_volume_opp. f_equal. unfold SQ. destruct (no_flow s); ring.
Qed.
Lemma simple_ion_mirror s g e i : simple_ion_upper s g (mirror_spec e) (mirror_spec i) = mirror_bdry (simple_ion_lower s g e i).
Proof.
  unfold simple_ion_upper, simple_ion_lower, mirror_bdry. cbn [dens_g temp_g pres_g vel_g mom_g added_energy].
  change (simple_tsheath_floored s (mirror_spec e)) with (simple_tsheath_floored s e). change (simple_tsheath_floored s (mirror_spec i)) with (simple_tsheath_floored s i).
  change (simple_nsheath s (mirror_spec i)) with (simple_nsheath s i). rewrite simple_visheath_mirror.
  cbn [mirror_spec mass dens temp pres vel_c mom_c]. apply bdry_eq.
  - destruct (no_flow s); ring.
  - destruct (no_flow s); ring.
  - rewrite <- per_volume_opp. f_equal. unfold SQ. destruct (no_flow s); ring.
Qed.
Lemma simple_mirror s g W phi e ions :
  simple_upper s g W phi (mirror_spec e) (map mirror_spec ions) = mirror_result (simple_lower s g W phi e ions).
Proof.
  unfold simple_upper, simple_lower, mirror_result. cbn [fst snd]. rewrite !map_map. f_equal.
  - destruct phi as [p|]; [apply simple_electrons_mirror|]. rewrite simple_sum_mirror. apply simple_electrons_mirror.
  - apply map_ext. intros i. apply simple_ion_mirror.
Qed.

Lemma C_i_sq_mirror limit a b ti te s i : C_i_sq limit (- a) (- b) ti te s (mirror_spec i) = C_i_sq limit a b ti te s i.
Proof.
  unfold C_i_sq. rewrite Rabs_Ropp. cbn [mirror_spec adiabatic charge mass]. destruct (Rlt_dec (Rabs b) limit); [reflexivity|].
  f_equal. unfold Rdiv. f_equal. f_equal. rewrite Rinv_opp. ring.
Qed.
Lemma full_sum_mirror f e ions : ion_sum_upper f (mirror_spec e) (map mirror_spec ions) = ion_sum_lower f e ions.
Proof.
  unfold ion_sum_upper, ion_sum_lower. generalize 0. induction ions as [|i ions IH]; intros a; cbn [map fold_left]; [reflexivity|].
  rewrite <- IH. f_equal. f_equal. f_equal. f_equal. cbn [mirror_spec dens temp].
  replace (at_c (dens e) - at_n (dens e)) with (- (at_n (dens e) - at_c (dens e))) by ring.
  replace (at_c (dens i) - at_n (dens i)) with (- (at_n (dens i) - at_c (dens i))) by ring. apply C_i_sq_mirror.
Qed.

Lemma clamp_mirror q q' : q' = - q -> - (if Rlt_dec q' 0 then 0 else q') = if Rlt_dec 0 q then 0 else q.
Proof. intros ->. destruct (Rlt_dec (- q) 0), (Rlt_dec 0 q); lra. Qed.

Lemma full_electrons_mirror f g W phi e : full_electrons_upper f g W phi (mirror_spec e) = mirror_bdry (full_electrons_lower f g W phi e).
Proof.
  unfold full_electrons_upper, full_electrons_lower, mirror_bdry. cbn [dens_g temp_g pres_g vel_g mom_g added_energy mirror_spec mass adiabatic dens temp pres vel_c mom_c].
  set (ph := if floor_potential f then _ else _). set (T := sheath_value (temp e)). set (n := sheath_value (dens e)).
  set (v := if Rlt_dec T 1e-10 then 0 else sqrt _ * _ * _).
  replace (if Rlt_dec T 1e-10 then 0 else - sqrt (T / (TWOPI * mass e)) * (1 - f_Ge f) * exp (- (ph - W) / T)) with (- v)
    by (unfold v; destruct (Rlt_dec T 1e-10); ring).
  apply bdry_eq; [ring|ring|]. rewrite <- per_volume_opp. f_equal. apply clamp_mirror. unfold SQ. ring.
Qed.
Lemma full_ion_mirror g e i : full_ion_upper g (mirror_spec e) (mirror_spec i) = mirror_bdry (full_ion_lower g e i).
Proof.
  unfold full_ion_upper, full_ion_lower, mirror_bdry.
  assert (E : full_C_i_sq (mirror_spec e) (mirror_spec i) = full_C_i_sq e i) by reflexivity. rewrite E.
  cbn [dens_g temp_g pres_g vel_g mom_g added_energy mirror_spec mass adiabatic dens temp pres vel_c mom_c].
  apply bdry_eq; [ring|ring|]. rewrite <- per_volume_opp. f_equal. apply clamp_mirror. ring.
Qed.
Lemma full_mirror f g W phi e ions :
  full_upper f g W phi (mirror_spec e) (map mirror_spec ions) = mirror_result (full_lower f g W phi e ions).
Proof.
  unfold full_upper, full_lower, mirror_result. cbn [fst snd]. rewrite !map_map. f_equal.
  - destruct phi as [p|]; [apply full_electrons_mirror|]. rewrite full_sum_mirror. apply full_electrons_mirror.
  - apply map_ext. intros i. apply full_ion_mirror.
Qed.
