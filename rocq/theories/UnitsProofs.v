(** Proofs about the tables of units: factors are monomials in five independent quantities, whose exponents decide the matter. *)

From Coq Require Import List Bool ZArith Reals Lra Lia String.
From Verif Require Import UnitsModel UnitsSpec.
Import ListNotations.
Open Scope R_scope.

(** Monomials in qe, Mp, Nnorm, Cs0, Omega_ci. *)
Record expo := mkExpo { x_q : Z; x_M : Z; x_N : Z; x_c : Z; x_w : Z }.
Definition xadd (a b : expo) : expo := mkExpo (x_q a + x_q b) (x_M a + x_M b) (x_N a + x_N b) (x_c a + x_c b) (x_w a + x_w b).
Definition xscale (k : Z) (a : expo) : expo := mkExpo (k * x_q a) (k * x_M a) (k * x_N a) (k * x_c a) (k * x_w a).
Definition mono (n : norms) (x : expo) : R :=
  powerRZ (qe n) (x_q x) * powerRZ (Mp n) (x_M x) * powerRZ (Nnorm n) (x_N x) * powerRZ (Cs0 n) (x_c x) * powerRZ (Omega_ci n) (x_w x).

Lemma Cs0_pos n : positive_norms n -> 0 < Cs0 n.
Proof.
  intros (Hq & HM & HN & HT & HB). unfold Cs0. apply sqrt_lt_R0. apply Rdiv_lt_0_compat; [ apply Rmult_lt_0_compat; assumption | exact HM ].
Qed.
Lemma Omega_pos n : positive_norms n -> 0 < Omega_ci n.
Proof.
  intros (Hq & HM & HN & HT & HB). unfold Omega_ci. apply Rdiv_lt_0_compat; [ apply Rmult_lt_0_compat; assumption | exact HM ].
Qed.
Lemma Cs0_sq n : positive_norms n -> Cs0 n * Cs0 n = qe n * Tnorm n / Mp n.
Proof.
  intros (Hq & HM & HN & HT & HB). unfold Cs0. apply sqrt_sqrt. left. apply Rdiv_lt_0_compat; [ apply Rmult_lt_0_compat; assumption | exact HM ].
Qed.

Lemma powerRZ_m1 x : powerRZ x (-1) = / x.
Proof. change (powerRZ x (-1)) with (/ (x * 1)). rewrite Rmult_1_r. reflexivity. Qed.
Lemma powerRZ_scale x a k : x <> 0 -> powerRZ x (k * a) = powerRZ (powerRZ x a) k.
Proof.
  intros Hx. assert (Hp : powerRZ x a <> 0) by (apply powerRZ_NOR; exact Hx).
  induction k using Z.peano_ind.
  - reflexivity.
  - replace (Z.succ k * a)%Z with (k * a + a)%Z by lia. replace (Z.succ k) with (k + 1)%Z by lia.
    rewrite !powerRZ_add by assumption. rewrite IHk. f_equal. symmetry. apply (powerRZ_1 (powerRZ x a)).
  - replace (Z.pred k * a)%Z with (k * a + (- a))%Z by lia. replace (Z.pred k) with (k + (- 1))%Z by lia.
    rewrite !powerRZ_add by assumption. rewrite IHk. f_equal. rewrite powerRZ_neg'. symmetry. apply powerRZ_m1.
Qed.

Lemma mono_nz n x : positive_norms n -> mono n x <> 0.
Proof.
  intros Hn. pose proof (Cs0_pos n Hn). pose proof (Omega_pos n Hn). destruct Hn as (Hq & HM & HN & HT & HB).
  unfold mono. repeat apply Rmult_integral_contrapositive_currified; apply powerRZ_NOR; lra.
Qed.
Lemma mono_add n a b : positive_norms n -> mono n (xadd a b) = mono n a * mono n b.
Proof.
  intros Hn. pose proof (Cs0_pos n Hn). pose proof (Omega_pos n Hn). destruct Hn as (Hq & HM & HN & HT & HB).
  unfold mono, xadd. cbn [x_q x_M x_N x_c x_w]. rewrite !powerRZ_add by lra. ring.
Qed.
Lemma mono_scale n k a : positive_norms n -> mono n (xscale k a) = powerRZ (mono n a) k.
Proof.
  intros Hn. pose proof (Cs0_pos n Hn). pose proof (Omega_pos n Hn). destruct Hn as (Hq & HM & HN & HT & HB).
  unfold mono, xscale. cbn [x_q x_M x_N x_c x_w]. rewrite !powerRZ_scale by lra. rewrite !powerRZ_mult. reflexivity.
Qed.

(** Exponents of an expression, and of a dimension. *)
Fixpoint cexpo (e : cexpr) : expo :=
  match e with
  | C1 => mkExpo 0 0 0 0 0 | CN => mkExpo 0 0 1 0 0 | CT => mkExpo (-1) 1 0 2 0 | CB => mkExpo (-1) 1 0 0 1 | COmega => mkExpo 0 0 0 0 1
  | CRho => mkExpo 0 0 0 1 (-1) | CCs => mkExpo 0 0 0 1 0 | Cqe => mkExpo 1 0 0 0 0 | CMp => mkExpo 0 1 0 0 0
  | CMul a b => xadd (cexpo a) (cexpo b)
  | CDiv a b => xadd (cexpo a) (xscale (-1) (cexpo b))
  | CSQ a => xadd (cexpo a) (cexpo a)
  end.
Definition x_length : expo := mkExpo 0 0 0 1 (-1).
Definition x_time : expo := mkExpo 0 0 0 0 (-1).
Definition x_count : expo := mkExpo 0 0 1 3 (-3).
Definition x_mass : expo := mkExpo 0 1 1 3 (-3).
Definition x_charge : expo := mkExpo 1 0 1 3 (-3).
Definition dexpo (d : dims) : expo :=
  xadd (xadd (xadd (xadd (xscale (d_m d) x_length) (xscale (d_kg d) x_mass)) (xscale (d_s d) x_time)) (xscale (d_C d) x_charge))
       (xscale (d_n d) x_count).

Ltac mono_cbn := cbn [x_q x_M x_N x_c x_w x_length x_time x_count x_mass x_charge powerRZ]; change (Pos.to_nat 1) with 1%nat; change (Pos.to_nat 2) with 2%nat; change (Pos.to_nat 3) with 3%nat; cbn [pow].
Lemma cexpo_ok n e : positive_norms n -> ceval n e = mono n (cexpo e).
Proof.
  intros Hn. pose proof (Cs0_pos n Hn) as Hc. pose proof (Omega_pos n Hn) as Hw. pose proof (Cs0_sq n Hn) as Hsq.
  assert (HT : Tnorm n = Mp n * (Cs0 n * Cs0 n) / qe n) by (rewrite Hsq; destruct Hn as (Hq & HM & _); field; lra).
  assert (HB : Bnorm n = Mp n * Omega_ci n / qe n) by (unfold Omega_ci; destruct Hn as (Hq & HM & _); field; lra).
  assert (Hq : qe n <> 0) by (destruct Hn; lra).
  assert (Hw' : Omega_ci n <> 0) by lra.
  induction e; cbn [ceval cexpo].
  - unfold mono; mono_cbn; ring.
  - unfold mono; mono_cbn; ring.
  - rewrite HT. unfold mono; mono_cbn; field. assumption.
  - rewrite HB. unfold mono; mono_cbn; field. assumption.
  - unfold mono; mono_cbn; ring.
  - unfold rho_s0. unfold mono; mono_cbn; field. assumption.
  - unfold mono; mono_cbn; ring.
  - unfold mono; mono_cbn; ring.
  - unfold mono; mono_cbn; ring.
  - rewrite IHe1, IHe2. symmetry. apply mono_add. exact Hn.
  - rewrite IHe1, IHe2. rewrite mono_add by exact Hn. rewrite mono_scale by exact Hn. rewrite powerRZ_m1. reflexivity.
  - rewrite IHe. symmetry. apply mono_add. exact Hn.
Qed.

Lemma length_unit_rho n : positive_norms n -> length_unit n = rho_s0 n.
Proof.
  intros Hn. pose proof (Cs0_pos n Hn) as Hc. pose proof (Omega_pos n Hn) as Hw. pose proof (Cs0_sq n Hn) as Hsq.
  destruct Hn as (Hq & HM & HN & HT & HB). unfold length_unit, rho_s0.
  assert (E : sqrt (qe n * Tnorm n * Mp n) = Mp n * Cs0 n).
  { replace (qe n * Tnorm n * Mp n) with ((Mp n * Cs0 n) * (Mp n * Cs0 n)).
    - apply sqrt_square. apply Rmult_le_pos; lra.
    - transitivity (Mp n * Mp n * (Cs0 n * Cs0 n)); [ ring | rewrite Hsq; field; lra ]. }
  rewrite E. unfold Omega_ci. field. lra.
Qed.
Lemma units_expo n : positive_norms n ->
  length_unit n = mono n x_length /\ time_unit n = mono n x_time /\ count_unit n = mono n x_count /\ mass_unit n = mono n x_mass /\ charge_unit n = mono n x_charge.
Proof.
  intros Hn. pose proof (length_unit_rho n Hn) as HL. pose proof (Cs0_pos n Hn) as Hc. pose proof (Omega_pos n Hn) as Hw.
  assert (Hw' : Omega_ci n <> 0) by lra.
  unfold charge_unit, mass_unit, count_unit. rewrite HL. unfold rho_s0.
  repeat split; unfold mono; mono_cbn; try (field; assumption).
  unfold time_unit, Omega_ci. destruct Hn as (Hq & HM & HN & HT & HB). field. lra.
Qed.
Lemma dexpo_ok n d : positive_norms n -> in_SI n d = mono n (dexpo d).
Proof.
  intros Hn. destruct (units_expo n Hn) as (E1 & E2 & E3 & E4 & E5).
  unfold in_SI, dexpo. rewrite !mono_add, !mono_scale by exact Hn. rewrite E1, E2, E3, E4, E5. ring.
Qed.

(** A decision procedure. *)
Definition expo_eqb (a b : expo) : bool :=
  (Z.eqb (x_q a) (x_q b) && Z.eqb (x_M a) (x_M b) && Z.eqb (x_N a) (x_N b) && Z.eqb (x_c a) (x_c b) && Z.eqb (x_w a) (x_w b))%bool.
Lemma expo_eqb_eq a b : expo_eqb a b = true -> a = b.
Proof.
  destruct a as [a1 a2 a3 a4 a5], b as [b1 b2 b3 b4 b5]. unfold expo_eqb. cbn [x_q x_M x_N x_c x_w]. rewrite !andb_true_iff, !Z.eqb_eq.
  intros ((((-> & ->) & ->) & ->) & ->). reflexivity.
Qed.
Definition entry_ok (e : entry) : bool :=
  match entry_dims e with Some d => expo_eqb (cexpo (e_factor e)) (dexpo d) | None => false end.
Lemma entry_ok_right e : entry_ok e = true -> right_entry e.
Proof.
  unfold entry_ok, right_entry. destruct (entry_dims e) as [d |]; [ | discriminate ]. intros H. apply expo_eqb_eq in H.
  exists d. split; [ reflexivity | ]. intros n Hn. rewrite cexpo_ok, dexpo_ok, H by exact Hn. reflexivity.
Qed.
Lemma entries_right (l : list entry) (keep : entry -> bool) :
  forallb (fun e => implb (keep e) (entry_ok e)) l = true -> forall e, List.In e l -> keep e = true -> right_entry e.
Proof.
  intros H e Hin Hk. rewrite forallb_forall in H. specialize (H e Hin). rewrite Hk in H. apply entry_ok_right. exact H.
Qed.

(** The three entries which are not right. *)
Definition wrong_places : list (string * Z) := [("src/evolve_energy.cxx", 436%Z); ("src/evolve_pressure.cxx", 567%Z); ("src/neutral_parallel_diffusion.cxx", 127%Z)]%string.
Definition place_in (l : list (string * Z)) (e : entry) : bool := existsb (fun p => (String.eqb (fst p) (e_file e) && Z.eqb (snd p) (e_line e))%bool) l.

Lemma place_in_false l e : ~ List.In (e_file e, e_line e) l -> place_in l e = false.
Proof.
  intros H. unfold place_in. destruct (existsb _ l) eqn:E; [ | reflexivity ]. exfalso. apply H. apply existsb_exists in E.
  destruct E as ([f k] & Hin & Hb). cbn [fst snd] in Hb. apply andb_true_iff in Hb. destruct Hb as [Hf Hk].
  apply String.eqb_eq in Hf. apply Z.eqb_eq in Hk. subst. exact Hin.
Qed.
Lemma outputs_right e : List.In e outputs -> ~ List.In (e_file e, e_line e) wrong_places -> right_entry e.
Proof.
  intros Hin Hw. apply (entries_right outputs (fun e => negb (place_in wrong_places e))); [ vm_compute; reflexivity | exact Hin | ].
  rewrite (place_in_false _ _ Hw). reflexivity.
Qed.
Lemma inputs_right e : List.In e inputs -> right_entry e.
Proof.
  intros Hin. apply (entries_right inputs (fun _ => true)); [ vm_compute; reflexivity | exact Hin | reflexivity ].
Qed.

(** A normalisation with Cs0 = rho_s0 = 2, Omega_ci = 1. *)
Definition norms4 : norms := mkNorms 1 1 1 4 1.
Lemma norms4_pos : positive_norms norms4.
Proof. unfold positive_norms, norms4. cbn [qe Mp Nnorm Tnorm Bnorm]. lra. Qed.
Lemma norms4_Cs : Cs0 norms4 = 2.
Proof. unfold Cs0, norms4. cbn [qe Mp Nnorm Tnorm Bnorm]. replace (1 * 4 / 1) with (2 * 2) by lra. apply sqrt_square. lra. Qed.
Lemma norms4_Omega : Omega_ci norms4 = 1.
Proof. unfold Omega_ci, norms4. cbn [qe Mp Nnorm Tnorm Bnorm]. lra. Qed.
Lemma mono4 x : mono norms4 x = powerRZ 2 (x_c x).
Proof.
  unfold mono. rewrite norms4_Cs, norms4_Omega. cbn [norms4 qe Mp Nnorm]. rewrite !powerRZ_R1. ring.
Qed.
Lemma powerRZ2_inj a b : powerRZ 2 a = powerRZ 2 b -> a = b.
Proof.
  intros H. assert (G : forall u v, (u < v)%Z -> powerRZ 2 u < powerRZ 2 v) by (intros u v Huv; rewrite !powerRZ_Rpower by lra; apply Rpower_lt; [ lra | apply IZR_lt; exact Huv ]).
  destruct (Z.lt_trichotomy a b) as [L | [E | L]]; [ apply G in L; lra | exact E | apply G in L; lra ].
Qed.
Lemma not_right e d : entry_dims e = Some d -> x_c (cexpo (e_factor e)) <> x_c (dexpo d) -> ~ right_entry e.
Proof.
  intros Hd Hx (d' & Hd' & Hr). assert (d' = d) by congruence. subst d'. specialize (Hr norms4 norms4_pos).
  rewrite cexpo_ok, dexpo_ok, !mono4 in Hr by exact norms4_pos. apply Hx. apply powerRZ2_inj. exact Hr.
Qed.
Lemma wrong_wrong e : List.In e outputs -> List.In (e_file e, e_line e) wrong_places -> ~ right_entry e.
Proof.
  intros Hin Hw.
  assert (H : forallb (fun e => implb (place_in wrong_places e) (match entry_dims e with Some d => negb (Z.eqb (x_c (cexpo (e_factor e))) (x_c (dexpo d))) | None => false end)) outputs = true)
    by (vm_compute; reflexivity).
  rewrite forallb_forall in H. specialize (H e Hin).
  assert (Hp : place_in wrong_places e = true).
  { unfold place_in. apply existsb_exists. exists (e_file e, e_line e). split; [ exact Hw | ]. cbn [fst snd]. rewrite String.eqb_refl, Z.eqb_refl. reflexivity. }
  rewrite Hp in H. cbn [implb] in H. destruct (entry_dims e) as [d |] eqn:Hd; [ | discriminate ].
  apply (not_right e d Hd). intros E. rewrite E, Z.eqb_refl in H. discriminate.
Qed.
Lemma wrong_nonempty : forall p, List.In p wrong_places -> exists e, List.In e outputs /\ (e_file e, e_line e) = p.
Proof.
  intros p Hp.
  assert (H : forallb (fun p => existsb (fun e => (String.eqb (e_file e) (fst p) && Z.eqb (e_line e) (snd p))%bool) outputs) wrong_places = true) by (vm_compute; reflexivity).
  rewrite forallb_forall in H. specialize (H p Hp). apply existsb_exists in H. destruct H as (e & Hin & Hb). apply andb_true_iff in Hb.
  exists e. split; [ exact Hin | ]. destruct Hb as [H1 H2]. apply String.eqb_eq in H1. apply Z.eqb_eq in H2. destruct p as [f k]. cbn [fst snd] in *. congruence.
Qed.

(** Consistency of the derived constants. *)
Lemma derived_norms n : positive_norms n ->
  Cs0 n = rho_s0 n * Omega_ci n /\ Mp n * (Cs0 n * Cs0 n) = qe n * Tnorm n /\ qe n * Bnorm n = Mp n * Omega_ci n
  /\ ceval n u_meters / ceval n u_seconds = Cs0 n.
Proof.
  intros Hn. pose proof (Omega_pos n Hn) as Hw. pose proof (Cs0_sq n Hn) as Hsq. destruct Hn as (Hq & HM & HN & HT & HB).
  repeat split.
  - unfold rho_s0. field. lra.
  - rewrite Hsq. field. lra.
  - unfold Omega_ci. field. lra.
  - cbn [ceval u_meters u_seconds]. unfold rho_s0. field. lra.
Qed.

(** Ampere's law Laplace(A) = - mu0 j in SI, with A in units of B rho, j in units of qe N Cs0 and lengths in rho, has coefficient beta_em. *)
Lemma beta_em_ampere mu0 n lapA j : positive_norms n ->
  (lapA * (Bnorm n * rho_s0 n / (rho_s0 n * rho_s0 n)) = - mu0 * (j * (qe n * Nnorm n * Cs0 n)) <-> lapA = - beta_em mu0 n * j).
Proof.
  intros Hn. pose proof (Omega_pos n Hn) as Hw. pose proof (Cs0_pos n Hn) as Hc. pose proof (Cs0_sq n Hn) as Hsq.
  assert (Hrho : 0 < rho_s0 n) by (unfold rho_s0; apply Rdiv_lt_0_compat; assumption).
  destruct Hn as (Hq & HM & HN & HT & HB).
  assert (E : beta_em mu0 n * (Bnorm n * rho_s0 n / (rho_s0 n * rho_s0 n)) = mu0 * (qe n * Nnorm n * Cs0 n)).
  { replace (Bnorm n * rho_s0 n / (rho_s0 n * rho_s0 n)) with (Bnorm n / rho_s0 n) by (field; lra).
    unfold beta_em. replace (mu0 * qe n * Tnorm n * Nnorm n / (Bnorm n * Bnorm n)) with (mu0 * Nnorm n * Mp n / (Bnorm n * Bnorm n) * (Cs0 n * Cs0 n)) by (rewrite Hsq; field; lra).
    unfold rho_s0. unfold Omega_ci. field. repeat split; try lra. }
  assert (Hb : 0 < Bnorm n * rho_s0 n / (rho_s0 n * rho_s0 n)) by (apply Rdiv_lt_0_compat; apply Rmult_lt_0_compat; assumption).
  split; intros H.
  - apply (Rmult_eq_reg_r (Bnorm n * rho_s0 n / (rho_s0 n * rho_s0 n))); [ | lra ]. rewrite H.
    transitivity (- j * (beta_em mu0 n * (Bnorm n * rho_s0 n / (rho_s0 n * rho_s0 n)))); [ rewrite E; ring | ring ].
  - rewrite H. transitivity (- j * (beta_em mu0 n * (Bnorm n * rho_s0 n / (rho_s0 n * rho_s0 n)))); [ ring | rewrite E; ring ].
Qed.
Lemma beta_norm_alfven mu0 n B N : positive_norms n -> 0 < mu0 -> 0 < N ->
  beta_norm mu0 n * B / sqrt N * Cs0 n = (B * Bnorm n) / sqrt (mu0 * (N * Nnorm n) * Mp n).
Proof.
  intros Hn Hmu HN0. destruct (derived_norms n Hn) as (_ & _ & _ & E). pose proof (Cs0_pos n Hn) as Hc. destruct Hn as (Hq & HM & HN & HT & HB).
  unfold beta_norm. rewrite E.
  replace (mu0 * (N * Nnorm n) * Mp n) with ((mu0 * Nnorm n * Mp n) * N) by ring.
  assert (0 < mu0 * Nnorm n * Mp n) by (repeat apply Rmult_lt_0_compat; assumption).
  rewrite (sqrt_mult (mu0 * Nnorm n * Mp n) N) by lra. pose proof (sqrt_lt_R0 N HN0). pose proof (sqrt_lt_R0 (mu0 * Nnorm n * Mp n) ltac:(assumption)). field. lra.
Qed.
Lemma area_norm_frequency n sigma v N : positive_norms n ->
  (v * (sigma / area_norm n) * N) * Omega_ci n = (v * Cs0 n) * sigma * (N * Nnorm n).
Proof.
  intros Hn. destruct (derived_norms n Hn) as (E & _). pose proof (Omega_pos n Hn) as Hw. pose proof (Cs0_pos n Hn) as Hc.
  destruct Hn as (Hq & HM & HN & HT & HB). unfold area_norm. rewrite E.
  assert (0 < rho_s0 n) by (unfold rho_s0; apply Rdiv_lt_0_compat; assumption). field. lra.
Qed.
Lemma three_wrong : exists l, List.length l = 3%nat /\ NoDup (map (fun e => (e_file e, e_line e)) l)
  /\ (forall e, List.In e l -> List.In e outputs /\ ~ right_entry e).
Proof.
  exists (filter (place_in wrong_places) outputs). split; [ vm_compute; reflexivity | split ].
  - replace (map (fun e => (e_file e, e_line e)) (filter (place_in wrong_places) outputs)) with wrong_places by (vm_compute; reflexivity).
    unfold wrong_places. repeat constructor; cbn [List.In]; intuition congruence.
  - intros e He. apply filter_In in He. destruct He as [Hin Hp]. split; [ exact Hin | ]. apply wrong_wrong; [ exact Hin | ].
    unfold place_in in Hp. apply existsb_exists in Hp. destruct Hp as ([f k] & Hw & Hb). cbn [fst snd] in Hb. apply andb_true_iff in Hb.
    destruct Hb as [Hf Hk]. apply String.eqb_eq in Hf. apply Z.eqb_eq in Hk. subst. exact Hw.
Qed.
Lemma flow_factors : exists flow,
  advection_flow flow <> 5 / 2 * flow /\ conduction_flow flow <> 3 / 2 * flow /\ advection_flow flow = 2 * flow /\ conduction_flow flow = flow.
Proof.
  exists 1. unfold advection_flow, conduction_flow. change (5 / 2)%Z with 2%Z. change (3 / 2)%Z with 1%Z. repeat split; lra.
Qed.
Lemma flow_y_lost : exists species x y old,
  species "momentum_flow_xlow"%string = Some x /\ species "momentum_flow_ylow"%string = Some y
  /\ momentum_flows species old = Some (Some x, None).
Proof.
  exists (fun k => if String.eqb k "momentum_flow_xlow" then Some 1 else if String.eqb k "momentum_flow_ylow" then Some 2 else None)%string, 1, 2, (None, None).
  repeat split; reflexivity.
Qed.
