(** The evolved equations and viscosities: lemmas. *)

From Coq Require Import List Bool ZArith Reals String Lra Lia.
From Coquelicot Require Import Coquelicot.
From Verif Require Import StateMonad StateMonadProofs ReactionsModel ParallelModel ParallelSpec ParallelProofs ParallelLaws ParallelHeating LimitersModel LimitersProofs DiffusionModel WallsModel WallsSpec WallsProofs EvolveModel EvolveSpec.
Import ListNotations.
Open Scope R_scope.

Lemma rfloor_ge x f : f <= rfloor x f.
Proof. unfold rfloor. pose proof (Rltb_spec x f). destruct (Rltb x f); lra. Qed.
Lemma rfloor_above x f : f <= x -> rfloor x f = x.
Proof. intros H. unfold rfloor. pose proof (Rltb_spec x f). destruct (Rltb x f); lra. Qed.
Lemma rfloor_below x f : x <= f -> rfloor x f = f.
Proof. intros H. unfold rfloor. pose proof (Rltb_spec x f). destruct (Rltb x f); lra. Qed.
Lemma rfloor_le x f : x <= rfloor x f.
Proof. unfold rfloor. pose proof (Rltb_spec x f). destruct (Rltb x f); lra. Qed.

(** ** C45 *)

Lemma pressure_out_ok nf N P : 0 < nf -> 0 <= N ->
  let '(P', T) := pressure_out nf N P in
  0 <= P' /\ 0 <= T /\ P' = N * T /\ P' <= Rmax P 0 /\ (nf <= N -> 0 <= P -> P' = P).
Proof.
  intros Hf HN. unfold pressure_out. cbv zeta.
  pose proof (rfloor_ge P 0) as H1. pose proof (rfloor_ge N nf) as H2. pose proof (rfloor_le N nf) as H3.
  assert (HT : 0 <= rfloor P 0 / rfloor N nf) by (apply Rmult_le_pos; [lra|left; apply Rinv_0_lt_compat; lra]).
  split; [apply Rmult_le_pos; lra|]. split; [exact HT|]. split; [reflexivity|]. split.
  - apply Rle_trans with (rfloor P 0).
    + apply Rmult_le_reg_r with (rfloor N nf); [lra|]. replace (N * (rfloor P 0 / rfloor N nf) * rfloor N nf) with (N * rfloor P 0) by (field; lra).
      rewrite Rmult_comm. apply Rmult_le_compat_l; lra.
    + unfold rfloor, Rmax. pose proof (Rltb_spec P 0). destruct (Rltb P 0), (Rle_dec P 0); lra.
  - intros HN' HP. rewrite (rfloor_above N nf HN'), (rfloor_above P 0 HP). field. lra.
Qed.

(** The relaxation added to ddt(P). *)
Lemma relaxation_sign nf N P : 0 < nf -> 0 <= N ->
  let '(P', _) := pressure_out nf N P in
  (nf <= N -> 0 <= P -> P' - P = 0) /\ (P <= 0 -> P' - P = - P) /\ (0 <= P -> P' - P <= 0 /\ 0 <= P').
Proof.
  intros Hf HN. pose proof (pressure_out_ok nf N P Hf HN) as H. destruct (pressure_out nf N P) as [P' T] eqn:E. destruct H as (H1 & H2 & H3 & H4 & H5).
  split; [intros A B; rewrite (H5 A B); ring|]. split.
  - intros HP. rewrite Rmax_right in H4 by exact HP. lra.
  - intros HP. rewrite Rmax_left in H4 by exact HP. lra.
Qed.

Lemma energy_out_ok nf N P : 0 < nf -> 0 <= N -> 0 <= P ->
  let '(P', T) := energy_out nf N P in
  0 <= P' /\ 0 <= T /\ P' = N * T /\ P' <= P /\ (nf <= N -> P' = P).
Proof.
  intros Hf HN HP. pose proof (pressure_out_ok nf N P Hf HN) as H. unfold pressure_out in H. cbv zeta in H. rewrite (rfloor_above P 0 HP) in H.
  unfold energy_out. cbv zeta. destruct H as (H1 & H2 & H3 & H4 & H5). rewrite Rmax_left in H4 by exact HP. repeat split; try assumption. intros A. exact (H5 A HP).
Qed.
Lemma pressure_of_energy_nonneg Cv AA N V E : 0 <= pressure_of_energy Cv AA N V E.
Proof. unfold pressure_of_energy. cbv zeta. set (p := _ / _). pose proof (Rltb_spec p 0). destruct (Rltb p 0); lra. Qed.

Lemma momentum_out_ok nf AA N NV : 0 < nf -> 0 < AA -> 0 <= N ->
  let '(V, NV', err) := momentum_out nf AA N NV in
  NV' = AA * N * V /\ NV' = NV + err /\ (nf <= N -> NV' = NV /\ err = 0) /\ Rabs NV' <= Rabs NV /\ 0 <= NV' * NV /\ err * NV <= 0.
Proof.
  intros Hf HA HN. unfold momentum_out. cbv zeta. pose proof (rfloor_ge N nf) as H2. pose proof (rfloor_le N nf) as H3.
  set (L := rfloor N nf) in *. set (x := N / L).
  assert (E : AA * N * (NV / (AA * L)) = x * NV) by (unfold x; field; lra). rewrite E.
  assert (Hx : 0 <= x <= 1). { unfold x. split; [apply Rmult_le_pos; [lra|left; apply Rinv_0_lt_compat; lra]|]. apply Rmult_le_reg_r with L; [lra|]. unfold Rdiv. rewrite Rmult_assoc, Rinv_l by lra. lra. }
  split; [reflexivity|]. split; [ring|]. split.
  - intros HN'. assert (x = 1) as -> by (unfold x, L; rewrite rfloor_above by exact HN'; field; lra). split; ring.
  - pose proof (Rle_0_sqr NV) as S. unfold Rsqr in S. split.
    + rewrite Rabs_mult, (Rabs_right x) by lra. rewrite <- (Rmult_1_l (Rabs NV)) at 2. apply Rmult_le_compat_r; [apply Rabs_pos|lra].
    + split; [rewrite Rmult_assoc; apply Rmult_le_pos; lra|].
      replace ((x * NV - NV) * NV) with (- ((1 - x) * (NV * NV))) by ring. apply Rge_le, Ropp_0_le_ge_contravar. apply Rmult_le_pos; lra.
Qed.

Lemma low_n_coeff_ok dy g nf N : 0 < nf -> 0 <= g ->
  0 <= low_n_coeff dy g nf N /\ (nf <= N -> low_n_coeff dy g nf N = 0) /\ low_n_coeff dy g nf N <= SQ dy * g * ln 1000.
Proof.
  intros Hf Hg. unfold low_n_coeff. assert (HS : 0 <= SQ dy * g) by (apply Rmult_le_pos; [unfold SQ; apply Rle_0_sqr|exact Hg]).
  set (q := SQ dy * g) in *. clearbody q. set (f3 := 1e-3 * nf). assert (H3 : 0 < f3 < nf) by (unfold f3; lra). assert (H4 : 1000 * f3 = nf) by (unfold f3; lra).
  assert (C : f3 <= clip N f3 nf <= nf). { unfold clip. pose proof (Rltb_spec N f3). pose proof (Rltb_spec nf N). destruct (Rltb N f3), (Rltb nf N); lra. }
  assert (Hq : 1 <= nf / clip N f3 nf <= 1000).
  { split; apply Rmult_le_reg_r with (clip N f3 nf); try lra; unfold Rdiv; rewrite Rmult_assoc, Rinv_l by lra; lra. }
  assert (L : 0 <= ln (nf / clip N f3 nf) <= ln 1000).
  { rewrite <- ln_1. split.
    - destruct (proj1 Hq) as [Q|Q]; [left; apply ln_increasing; lra|right; f_equal; exact Q].
    - destruct (proj2 Hq) as [Q|Q]; [left; apply ln_increasing; lra|right; f_equal; exact Q]. }
  split; [apply Rmult_le_pos; tauto|]. split; [|apply Rmult_le_compat_l; tauto].
  intros HN. assert (clip N f3 nf = nf) as ->. { unfold clip. pose proof (Rltb_spec N f3). pose proof (Rltb_spec nf N). destruct (Rltb N f3), (Rltb nf N); lra. }
  replace (nf / nf) with 1 by (field; lra). rewrite ln_1. ring.
Qed.

Lemma guard_average l x : (average_guard l x + x) / 2 = z_average l.
Proof. unfold average_guard. field. Qed.

(** ** C46 *)

Lemma limited_flux k g q : 0 < q ->
  let f := k / (1 + Rabs (k * g / q)) * g in
  Rabs f <= q /\ Rabs f <= Rabs (k * g) /\ 0 <= f * (k * g) /\ (k * g <> 0 -> / Rabs f = / Rabs (k * g) + / q) /\ Rabs (k * g) - Rabs f <= Rabs (k * g) * (Rabs (k * g) / q).
Proof.
  intros Hq f. unfold f. assert (E : Rabs (k * g / q) = Rabs (k * g) / q).
  { unfold Rdiv. rewrite Rabs_mult. f_equal. apply Rabs_right. apply Rle_ge. left. apply Rinv_0_lt_compat. exact Hq. }
  rewrite E. set (a := Rabs (k * g)). pose proof (Rabs_pos (k * g)) as Ha. fold a in Ha.
  assert (Haq : 0 <= a / q) by (apply Rmult_le_pos; [exact Ha|left; apply Rinv_0_lt_compat; exact Hq]).
  assert (F : k / (1 + a / q) * g = (k * g) / (1 + a / q)) by (field; split; lra).
  assert (Fa : Rabs (k / (1 + a / q) * g) = a / (1 + a / q)).
  { rewrite F. change (Rabs (k * g * / (1 + a / q)) = a * / (1 + a / q)). rewrite Rabs_mult. fold a. f_equal. apply Rabs_right. apply Rle_ge. left. apply Rinv_0_lt_compat. lra. }
  rewrite Fa. split; [|split; [|split; [|split]]].
  - apply Rmult_le_reg_r with (1 + a / q); [lra|]. replace (a / (1 + a / q) * (1 + a / q)) with a by (field; split; lra). replace (q * (1 + a / q)) with (q + a) by (field; lra). lra.
  - apply Rmult_le_reg_r with (1 + a / q); [lra|]. replace (a / (1 + a / q) * (1 + a / q)) with a by (field; split; lra). replace (a * (1 + a / q)) with (a + a * (a / q)) by ring.
    assert (0 <= a * (a / q)) by (apply Rmult_le_pos; assumption). lra.
  - rewrite F. replace (k * g / (1 + a / q) * (k * g)) with ((k * g) * (k * g) / (1 + a / q)) by (field; split; lra). apply Rmult_le_pos; [apply Rle_0_sqr|left; apply Rinv_0_lt_compat; lra].
  - intros Hn. assert (0 < a) by (apply Rabs_pos_lt; exact Hn). field. repeat split; lra.
  - replace (a - a / (1 + a / q)) with (a * (a / q) / (1 + a / q)) by (field; split; lra). apply Rmult_le_reg_r with (1 + a / q); [lra|].
    replace (a * (a / q) / (1 + a / q) * (1 + a / q)) with (a * (a / q)) by (field; split; lra). assert (0 <= a * (a / q)) by (apply Rmult_le_pos; assumption).
    rewrite <- (Rmult_1_r (a * (a / q))) at 1. apply Rmult_le_compat_l; lra.
Qed.

Lemma kappa_flux alpha kappa gradT N T AA : 0 < alpha -> 
  let f := kappa_limited alpha kappa gradT N T AA * gradT in
  let q := Rmax (alpha * free_streaming AA N T) 1e-10 in
  Rabs f <= q /\ Rabs f <= Rabs (kappa * gradT) /\ 0 <= f * (kappa * gradT) /\
  (kappa * gradT <> 0 -> / Rabs f = / Rabs (kappa * gradT) + / q) /\ Rabs (kappa * gradT) - Rabs f <= Rabs (kappa * gradT) * (Rabs (kappa * gradT) / q).
Proof.
  intros Ha f q. assert (Eq : rfloor (alpha * N * T * sqrt (T / AA)) 1e-10 = q).
  { unfold q, free_streaming. replace (alpha * (N * T * sqrt (T / AA))) with (alpha * N * T * sqrt (T / AA)) by ring. unfold rfloor, Rmax. set (z := alpha * N * T * sqrt (T / AA)). pose proof (Rltb_spec z 1e-10).
    destruct (Rltb z 1e-10), (Rle_dec z 1e-10); lra. }
  assert (Hq : 0 < q) by (unfold q; apply Rlt_le_trans with 1e-10; [lra|apply Rmax_r]).
  unfold f, kappa_limited. pose proof (Rltb_spec 0 alpha). destruct (Rltb 0 alpha); [|exfalso; lra]. cbv zeta. rewrite Eq. exact (limited_flux kappa gradT q Hq).
Qed.
Lemma kappa_nonneg alpha kappa gradT N T AA : 0 <= kappa -> 0 <= kappa_limited alpha kappa gradT N T AA <= kappa.
Proof.
  intros Hk. unfold kappa_limited. destruct (Rltb 0 alpha); [|lra]. cbv zeta. set (d := 1 + Rabs _). assert (1 <= d) by (unfold d; pose proof (Rabs_pos (kappa * gradT / rfloor (alpha * N * T * sqrt (T / AA)) 1e-10)); lra).
  split; [apply Rmult_le_pos; [lra|left; apply Rinv_0_lt_compat; lra]|]. apply Rmult_le_reg_r with d; [lra|]. unfold Rdiv. rewrite Rmult_assoc, Rinv_l by lra.
  apply Rmult_le_compat_l; lra.
Qed.
Lemma kappa_braginskii_nonneg kc P nu AA : 0 <= kc -> 0 <= P -> 0 < AA -> 0 <= kappa_braginskii kc P nu AA.
Proof.
  intros H1 H2 H3. unfold kappa_braginskii. pose proof (rfloor_ge nu 1e-10) as H. set (x := rfloor nu 1e-10) in *.
  assert (0 <= / x) by (left; apply Rinv_0_lt_compat; lra). assert (0 <= / AA) by (left; apply Rinv_0_lt_compat; lra).
  replace (1 / x) with (/ x) by (field; lra). generalize dependent (/ x). intros y Hy. repeat apply Rmult_le_pos; assumption.
Qed.

Lemma eta_stress alpha eta gradV P : 0 < alpha -> 0 < P ->
  exists e, eta_limited alpha eta gradV P = Some e /\ 
  Rabs (e * gradV) <= alpha * P /\ Rabs (e * gradV) <= Rabs (eta * gradV) /\ 0 <= e * gradV * (eta * gradV) /\
  Rabs (eta * gradV) - Rabs (e * gradV) <= Rabs (eta * gradV) * (Rabs (eta * gradV) / (alpha * P)).
Proof.
  intros Ha HP. assert (Hq : 0 < alpha * P) by now apply Rmult_lt_0_compat. unfold eta_limited. pose proof (Rltb_spec 0 alpha). destruct (Rltb 0 alpha); [|exfalso; lra]. cbv zeta.
  destruct (Reqb (alpha * P) 0) eqn:E; [apply Reqb_eq in E; exfalso; lra|]. eexists. split; [reflexivity|].
  destruct (limited_flux eta gradV (alpha * P) Hq) as (H1 & H2 & H3 & _ & H5). repeat split; assumption.
Qed.

(** ** C47 *)

Lemma energy_roundtrip Cv AA N V P : 0 < Cv -> 0 <= P -> pressure_of_energy Cv AA N V (Cv * P + 0.5 * AA * N * SQ V) = P.
Proof.
  intros HC HP. unfold pressure_of_energy. cbv zeta. replace ((Cv * P + 0.5 * AA * N * SQ V - 0.5 * AA * N * SQ V) / Cv) with P.
  - pose proof (Rltb_spec P 0). destruct (Rltb P 0); lra.
  - apply Rmult_eq_reg_r with Cv; [|lra]. unfold Rdiv. rewrite Rmult_assoc, Rinv_l by lra. lra.
Qed.
Lemma energy_roundtrip_back Cv AA N V E : 0 < Cv -> 0.5 * AA * N * SQ V <= E -> Cv * pressure_of_energy Cv AA N V E + 0.5 * AA * N * SQ V = E.
Proof.
  intros HC HE. unfold pressure_of_energy. cbv zeta. set (p := (E - 0.5 * AA * N * SQ V) / Cv).
  assert (Hp : Cv * p = E - 0.5 * AA * N * SQ V) by (unfold p, Rdiv; rewrite Rmult_comm, Rmult_assoc, Rinv_l by lra; lra).
  assert (0 <= p) by (apply Rmult_le_reg_l with Cv; [exact HC|]; lra). pose proof (Rltb_spec p 0). destruct (Rltb p 0); lra.
Qed.
Lemma energy_density_code Cv AA N V P : 0 < AA -> 0 < N -> energy_density Cv AA P N (AA * N * V) = Cv * P + 0.5 * AA * N * SQ V.
Proof. intros HA HN. unfold energy_density, SQ. replace 0.5 with (/ 2) by lra. field. lra. Qed.

Lemma energy_rate_is_derivative C A (P N M : R -> R) t dP dN dM : 0 < A -> 0 < N t ->
  is_derive P t dP -> is_derive N t dN -> is_derive M t dM ->
  is_derive (fun t => energy_density C A (P t) (N t) (M t)) t (energy_rate C A (M t / (A * N t)) dP dN dM).
Proof.
  intros HA HN H1 H2 H3. unfold energy_density, energy_rate. auto_derive.
  - split; [eexists; exact H1|]. split; [eexists; exact H3|]. split; [eexists; exact H3|]. split; [eexists; exact H2|]. split; [|trivial]. apply Rgt_not_eq. apply Rmult_lt_0_compat; lra.
  - replace (Derive (fun x : R => P x) t) with dP by (symmetry; apply is_derive_unique; exact H1).
    replace (Derive (fun x : R => N x) t) with dN by (symmetry; apply is_derive_unique; exact H2).
    replace (Derive (fun x : R => M x) t) with dM by (symmetry; apply is_derive_unique; exact H3). field. lra.
Qed.

Lemma energy_sources_iff AA V psrc es ms ns :
  energy_sources (3 / 2 * psrc) es ms V = energy_rate (3 / 2) AA V (psrc + 2 / 3 * es) ns ms <-> AA * (V * V) * ns = 0.
Proof. unfold energy_sources, energy_rate. split; intros H; [lra|]. lra. Qed.

Lemma energy_guard_face Cv AA Pg Pi Ng Ni Vg Vi Ei :
  (energy_guard Cv AA Pg Pi Ng Ni Vg Vi Ei + Ei) / 2 = Cv * ((Pg + Pi) / 2) + 1 / 2 * AA * ((Ng + Ni) / 2) * SQ ((Vg + Vi) / 2).
Proof. unfold energy_guard, SQ. cbv zeta. replace 0.5 with (/ 2) by lra. field. Qed.

(** Work. *)
Lemma work_V_grad_P t P N T : p_scale t = 1 ->
  3 / 2 * ddt_P false t P N T + p_V t * - p_gradP t
  = - (3 / 2 * p_exb t) - 5 / 2 * p_adv t + 3 / 2 * p_nvh t + p_cond t + 3 / 2 * p_source t + p_energy_source t + 3 / 2 * (N * T - P).
Proof. intros E. unfold ddt_P. cbv zeta. rewrite E. lra. Qed.
Lemma work_P_div_V t P N T : p_scale t = 1 -> 0 <= P ->
  3 / 2 * ddt_P true t P N T + p_V t * - p_gradP t
  = - (3 / 2 * p_exb t) - 3 / 2 * p_adv t - (P * p_divV t + p_V t * p_gradP t) + 3 / 2 * p_nvh t + p_cond t + 3 / 2 * p_source t + p_energy_source t + 3 / 2 * (N * T - P).
Proof. intros E HP. unfold ddt_P. cbv zeta. rewrite E, (rfloor_above P 0 HP). lra. Qed.

(** Central differences. *)
Lemma central_product h P V lo n : h <> 0 ->
  zsum lo n (fun j => P j * central h V j + V j * central h P j)
  = (P (lo + Z.of_nat n - 1)%Z * V (lo + Z.of_nat n)%Z + V (lo + Z.of_nat n - 1)%Z * P (lo + Z.of_nat n)%Z - P (lo - 1)%Z * V lo - V (lo - 1)%Z * P lo) / (2 * h).
Proof.
  intros Hh. induction n as [|n IH].
  - cbn [zsum Z.of_nat]. rewrite Z.add_0_r. field. exact Hh.
  - cbn [zsum]. rewrite IH. unfold central. replace (lo + Z.of_nat (S n) - 1)%Z with (lo + Z.of_nat n)%Z by lia. replace (lo + Z.of_nat (S n))%Z with (lo + Z.of_nat n + 1)%Z by lia. field. exact Hh.
Qed.

(** A closed line without flow through its ends: what pressure gains or loses by advection and compression is the work done. *)
Definition line_terms (adv divV gradP V : R) : p_terms := mkPterms 0 adv divV gradP V 0 0 0 0 1.
Section Line.
  Variables (edges : R -> R -> R -> R * R) (m : mesh) (c : coords) (n : nat) (P V ws : Z -> R).
  Hypothesis M : mesh_ok m n.
  Hypothesis PM : positive_metric c.
  Hypothesis CL : closed_low m = true.
  Hypothesis CH : closed_high m = true.
  Let P' := noflow_scalar m true true P.
  Let V' := noflow_flow m true true V.

  Lemma thermal_and_kinetic gradP : exists r w, Div_par_mod edges m c P' V' ws true = Some (r, w) /\
    integral c (ystart m) n (fun j => 3 / 2 * ddt_P false (line_terms (r j) 0 (gradP j) (V' j)) (P' j) (P' j) 1 + V' j * - gradP j) = 0.
  Proof using M PM CL CH.
    destruct (noflow_conserves edges m c n P V ws M PM CL CH) as ((r & w & E & H) & _). exists r, w. split; [exact E|].
    transitivity (- (5 / 2) * integral c (ystart m) n r); [|rewrite H; ring]. unfold integral. rewrite <- zsum_scal. apply zsum_ext. intros j _.
    pose proof (work_V_grad_P (line_terms (r j) 0 (gradP j) (V' j)) (P' j) (P' j) 1 eq_refl) as W. cbn [line_terms p_V p_gradP p_exb p_adv p_nvh p_cond p_source p_energy_source] in W.
    rewrite W. field.
  Qed.

  Lemma thermal_and_kinetic_div h : h <> 0 -> (forall j, cell_volume (c_J c) (c_dy c) j = h) -> (forall j, 0 <= P' j) ->
    exists r w, Div_par_mod edges m c P' V' ws true = Some (r, w) /\
    integral c (ystart m) n (fun j => 3 / 2 * ddt_P true (line_terms (r j) (central h V' j) (central h P' j) (V' j)) (P' j) (P' j) 1 + V' j * - central h P' j) = 0.
  Proof using M PM CL CH.
    intros Hh Hv HP. destruct (noflow_conserves edges m c n P V ws M PM CL CH) as ((r & w & E & H) & _). exists r, w. split; [exact E|].
    assert (Ee : (yend m + 1 = ystart m + Z.of_nat n)%Z /\ (ystart m <= yend m)%Z) by (destruct M as (H1 & H2 & _); lia). destruct Ee as [Ee Hle].
    pose proof (central_product h P' V' (ystart m) n Hh) as CP.
    rewrite <- Ee in CP. replace (yend m + 1 - 1)%Z with (yend m) in CP by lia.
    destruct (noflow_low m n M true V CL) as [_ L1]. destruct (noflow_low m n M true P CL) as [L2 _]. destruct (noflow_high m n M true V CH) as [_ L3]. destruct (noflow_high m n M true P CH) as [L4 _].
    destruct (noflow_inside m n M true true V (ystart m)) as [_ I1]; [lia|]. destruct (noflow_inside m n M true true P (ystart m)) as [I2 _]; [lia|].
    destruct (noflow_inside m n M true true V (yend m)) as [_ I3]; [lia|]. destruct (noflow_inside m n M true true P (yend m)) as [I4 _]; [lia|].
    fold V' in L1, L3, I1, I3. fold P' in L2, L4, I2, I4. rewrite L1, L2, L3, L4, I1, I2, I3, I4 in CP.
    replace ((P (yend m) * - V (yend m) + V (yend m) * P (yend m) - P (ystart m) * V (ystart m) - - V (ystart m) * P (ystart m)) / (2 * h)) with 0 in CP by (field; exact Hh).
    assert (G : integral c (ystart m) n (fun j => 3 / 2 * ddt_P true (line_terms (r j) (central h V' j) (central h P' j) (V' j)) (P' j) (P' j) 1 + V' j * - central h P' j)
                = - (3 / 2) * integral c (ystart m) n r + - h * zsum (ystart m) n (fun j => P' j * central h V' j + V' j * central h P' j)).
    { unfold integral. rewrite <- !zsum_scal, <- zsum_plus. apply zsum_ext. intros j _.
      pose proof (work_P_div_V (line_terms (r j) (central h V' j) (central h P' j) (V' j)) (P' j) (P' j) 1 eq_refl (HP j)) as W. cbn [line_terms p_V p_gradP p_divV p_exb p_adv p_nvh p_cond p_source p_energy_source] in W.
      rewrite W, Hv. field. }
    rewrite G, H, CP. ring.
  Qed.
End Line.

(** ** C63 *)

Lemma stress_bound P Pi : 0 <= P -> Rabs (stress_limited P Pi) <= P /\ (Rabs Pi <= P -> stress_limited P Pi = Pi) /\ 0 <= stress_limited P Pi * Pi.
Proof.
  intros HP. unfold stress_limited, sign_of. pose proof (Rltb_spec P (Rabs Pi)) as S. destruct (Rltb P (Rabs Pi)).
  - unfold Rleb. destruct (Rle_dec 0 Pi) as [E|E].
    + rewrite Rmult_1_l. rewrite Rabs_right by lra. repeat split; try lra. apply Rmult_le_pos; lra.
    + replace (-1 * P) with (- P) by ring. rewrite Rabs_Ropp, Rabs_right by lra. repeat split; try lra.
      replace (- P * Pi) with (P * - Pi) by ring. apply Rmult_le_pos; lra.
  - repeat split; try lra. pose proof (Rle_0_sqr Pi) as Q. unfold Rsqr in Q. exact Q.
Qed.

Lemma lsum_scale l d : lsum (map (fun v => v * d) l) = lsum l * d.
Proof. induction l as [|x l IH]; cbn [map lsum]; [ring|]. rewrite IH. ring. Qed.
Lemma lsum_const (l : list R) a : lsum (map (fun _ => a) l) = INR (List.length l) * a.
Proof. induction l as [|x l IH]; [cbn; ring|]. cbn [map lsum List.length]. rewrite IH, S_INR. ring. Qed.
(** Over Z, the kinetic energy lost is the heat gained. *)
Lemma perpendicular_viscosity_conserves Vs d : Vs <> [] ->
  lsum (map (fun '(V, (ms, es)) => V * ms + es) (combine Vs (ion_perpendicular_viscosity Vs d))) = 0.
Proof.
  intros H. unfold ion_perpendicular_viscosity. set (a := z_average Vs).
  assert (G : forall l, lsum (map (fun '(V, (ms, es)) => V * ms + es) (combine l (map (fun _ : R => (d, - (a * d))) l))) = (lsum l - INR (List.length l) * a) * d).
  { induction l as [|x l IH]; [cbn; ring|]. cbn [map combine lsum List.length]. rewrite IH, S_INR. ring. }
  rewrite G. unfold a, z_average. assert (INR (List.length Vs) <> 0) by (apply not_0_INR; destruct Vs; [congruence|discriminate]). field. assumption.
Qed.
