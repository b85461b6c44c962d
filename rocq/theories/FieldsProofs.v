From Coq Require Import List Bool ZArith Reals Lra Lia.
From Verif Require Import StateMonad StateMonadProofs MetricModel MetricProofs FieldsModel FieldsSpec.
Import ListNotations.
Open Scope R_scope.

(** * The radial boundary of phi *)

Lemma set_face_at Nz i s v phi z : (0 <= z < Z.of_nat Nz)%Z -> s <> 0%Z ->
  set_face Nz i s v phi i z = phi i z /\ set_face Nz i s v phi (i + s)%Z z = 2 * v - phi i z /\ set_face Nz i s v phi (i + 2 * s)%Z z = 2 * v - phi i z.
Proof.
  intros Hz Hs. unfold set_face.
  replace (0 <=? z)%Z with true by (symmetry; apply Z.leb_le; lia).
  replace (z <? Z.of_nat Nz)%Z with true by (symmetry; apply Z.ltb_lt; lia). cbn [andb].
  replace (i =? i + s)%Z with false by (symmetry; apply Z.eqb_neq; lia).
  replace (i =? i + 2 * s)%Z with false by (symmetry; apply Z.eqb_neq; lia).
  rewrite !Z.eqb_refl, orb_true_r. cbn [orb]. auto.
Qed.
Lemma set_face_face Nz i s v phi : s <> 0%Z -> face_is Nz i s (set_face Nz i s v phi) v.
Proof.
  intros Hs z Hz. destruct (set_face_at Nz i s v phi z Hz Hs) as (H1 & H2 & _). unfold face. rewrite H1, H2. field.
Qed.
Lemma set_face_inside Nz i s v phi x z : x <> (i + s)%Z -> x <> (i + 2 * s)%Z -> set_face Nz i s v phi x z = phi x z.
Proof.
  intros H1 H2. unfold set_face. replace (x =? i + s)%Z with false by (symmetry; apply Z.eqb_neq; lia).
  replace (x =? i + 2 * s)%Z with false by (symmetry; apply Z.eqb_neq; lia). cbn [orb]. rewrite andb_false_r. reflexivity.
Qed.

Lemma z_sum_fold Nz f : z_sum Nz f = fold_right Rplus 0 (map (fun k => f (Z.of_nat k)) (seq 0 Nz)).
Proof.
  unfold z_sum. assert (G : forall l a, fold_left (fun a k => a + f (Z.of_nat k)) l a = a + fold_right Rplus 0 (map (fun k => f (Z.of_nat k)) l)).
  { induction l as [ | k l IH ]; intros a; cbn [fold_left map fold_right]; [ ring | ]. rewrite IH. ring. }
  rewrite G. ring.
Qed.
Lemma next_to_boundary_mean Nz i phi m : (0 < Nz)%nat -> mean_is Nz i phi m -> next_to_boundary Nz i phi = m.
Proof.
  intros HN H. unfold next_to_boundary. rewrite z_sum_fold. unfold mean_is in H. rewrite H. field.
  apply not_0_INR. lia.
Qed.
Lemma mean_exists Nz i phi : (0 < Nz)%nat -> mean_is Nz i phi (next_to_boundary Nz i phi).
Proof.
  intros HN. unfold mean_is, next_to_boundary. rewrite z_sum_fold. field. apply not_0_INR. lia.
Qed.

Lemma weight_range t tau : 0 < t -> 0 < tau -> 0 < exp (- t / tau) < 1.
Proof.
  intros Ht Htau. split; [ apply exp_pos | ]. rewrite <- exp_0. apply exp_increasing.
  assert (0 < t / tau) by (apply Rdiv_lt_0_compat; assumption). replace (- t / tau) with (- (t / tau)) by (field; lra). lra.
Qed.
Lemma convex_between w a b : 0 <= w <= 1 -> between a b (w * a + (1 - w) * b).
Proof.
  intros H. unfold between, Rmin, Rmax. destruct (Rle_dec a b) as [ L | L ].
  - split; nra.
  - assert (b < a) by lra. split; nra.
Qed.

(** One evaluation: the new face value. *)
Lemma phi_boundary_face Nz i s tau t last phi b m :
  s <> 0%Z -> (0 < Nz)%nat -> 0 <= last -> last < t -> face i s phi 0%Z = b -> mean_is Nz i phi m ->
  fst (phi_boundary Nz i s tau t (last, phi)) = t /\ face_is Nz i s (snd (phi_boundary Nz i s tau t (last, phi))) (decayed tau (t - last) m b).
Proof.
  intros Hs HN H0 H1 Hb Hm. unfold phi_boundary.
  rewrite (Rltb_false last 0) by lra. rewrite (Rltb_true last t) by lra. cbn [fst snd]. split; [ reflexivity | ].
  unfold relax_face. rewrite (next_to_boundary_mean _ _ _ _ HN Hm).
  replace (decayed tau (t - last) m b) with
    (exp (- (t - last) / tau) * (0.5 * (phi (i + s)%Z 0%Z + phi i 0%Z)) + (1 - exp (- (t - last) / tau)) * m).
  - apply set_face_face. exact Hs.
  - unfold decayed. rewrite <- Hb. unfold face. replace (- ((t - last) / tau)) with (- (t - last) / tau) by (unfold Rdiv; ring).
    lra.
Qed.
Lemma phi_boundary_inside Nz i s tau t last phi x z : x <> (i + s)%Z -> x <> (i + 2 * s)%Z ->
  snd (phi_boundary Nz i s tau t (last, phi)) x z = phi x z.
Proof.
  intros H1 H2. unfold phi_boundary. destruct (Rltb last 0); [ reflexivity | ]. destruct (Rltb last t); [ | reflexivity ].
  cbn [snd]. unfold relax_face. apply set_face_inside; assumption.
Qed.
Lemma phi_boundary_same Nz i s tau t last phi : last < 0 \/ t <= last -> snd (phi_boundary Nz i s tau t (last, phi)) = phi.
Proof.
  intros [ H | H ]; unfold phi_boundary.
  - rewrite (Rltb_true last 0) by lra. reflexivity.
  - destruct (Rltb last 0); [ reflexivity | ]. rewrite (Rltb_false last t) by lra. reflexivity.
Qed.

(** A run: at each evaluation the boundary is updated, then a solve replaces phi, keeping the values on the face. *)
Fixpoint run (Nz : nat) (i s : Z) (tau : R) (st : R * (Z -> Z -> R)) (evals : list (R * (Z -> Z -> R))) : R * (Z -> Z -> R) :=
  match evals with
  | [] => st
  | (t, solved) :: rest => run Nz i s tau (fst (phi_boundary Nz i s tau t st), solved) rest
  end.
Fixpoint keeps_faces (Nz : nat) (i s : Z) (tau : R) (st : R * (Z -> Z -> R)) (evals : list (R * (Z -> Z -> R))) : Prop :=
  match evals with
  | [] => True
  | (t, solved) :: rest =>
      (forall z, (0 <= z < Z.of_nat Nz)%Z -> face i s solved z = face i s (snd (phi_boundary Nz i s tau t st)) z)
      /\ keeps_faces Nz i s tau (fst (phi_boundary Nz i s tau t st), solved) rest
  end.
Definition last_time_of (t0 : R) (evals : list (R * (Z -> Z -> R))) : R := fold_left (fun _ e => fst e) evals t0.
Fixpoint increasing (t0 : R) (evals : list (R * (Z -> Z -> R))) : Prop :=
  match evals with [] => True | (t, _) :: rest => t0 <= t /\ increasing t rest end.

Lemma decayed_add tau a b m x : decayed tau b m (decayed tau a m x) = decayed tau (a + b) m x.
Proof.
  unfold decayed. replace (- ((a + b) / tau)) with (- (a / tau) + - (b / tau)) by (unfold Rdiv; ring). rewrite exp_plus. ring.
Qed.
Lemma decayed_0 tau m x : decayed tau 0 m x = x.
Proof. unfold decayed. replace (- (0 / tau)) with 0 by (unfold Rdiv; ring). rewrite exp_0. ring. Qed.

Lemma run_exact Nz i s tau m : s <> 0%Z -> (0 < Nz)%nat -> forall evals last phi b,
  0 <= last -> increasing last evals -> face_is Nz i s phi b -> mean_is Nz i phi m -> List.Forall (fun e => mean_is Nz i (snd e) m) evals ->
  keeps_faces Nz i s tau (last, phi) evals ->
  face_is Nz i s (snd (run Nz i s tau (last, phi) evals)) (decayed tau (last_time_of last evals - last) m b).
Proof.
  intros Hs HN. induction evals as [ | [ t solved ] rest IH ]; intros last phi b H0 Hi Hb Hm Hms Hk.
  - cbn [run snd]. unfold last_time_of. cbn [fold_left]. replace (last - last) with 0 by ring. rewrite decayed_0. exact Hb.
  - cbn [run keeps_faces increasing] in *. destruct Hi as [ Hle Hi ]. destruct Hk as [ Hf Hk ].
    apply Forall_cons_iff in Hms. destruct Hms as [ Hms1 Hms2 ]. cbn [snd] in Hms1.
    assert (Hb0 : face i s phi 0%Z = b) by (apply Hb; lia).
    assert (E : fst (phi_boundary Nz i s tau t (last, phi)) = t /\
                face_is Nz i s (snd (phi_boundary Nz i s tau t (last, phi))) (decayed tau (t - last) m b)).
    { destruct (Req_dec last t) as [ E | E ].
      - subst t. unfold phi_boundary. rewrite (Rltb_false last 0) by lra. rewrite (Rltb_false last last) by lra. cbn [fst snd].
        split; [ reflexivity | ]. replace (last - last) with 0 by ring. rewrite decayed_0. exact Hb.
      - apply phi_boundary_face; try assumption. lra. }
    destruct E as [ E1 E2 ]. rewrite E1 in Hk |- *.
    assert (Hb' : face_is Nz i s solved (decayed tau (t - last) m b)).
    { intros z Hz. rewrite Hf by exact Hz. apply E2. exact Hz. }
    specialize (IH t solved _ ltac:(lra) Hi Hb' Hms1 Hms2 Hk).
    rewrite decayed_add in IH. unfold last_time_of in *. cbn [fold_left fst].
    replace (fold_left (fun _ e => fst e) rest t - last) with (t - last + (fold_left (fun _ e => fst e) rest t - t)) by ring.
    exact IH.
Qed.

Lemma decayed_range tau t m b lo hi : 0 < t -> 0 < tau -> lo <= m <= hi -> lo <= b <= hi -> lo <= decayed tau t m b <= hi.
Proof.
  intros Ht Htau Hm Hb. destruct (weight_range t tau Ht Htau) as [ W1 W2 ]. unfold decayed.
  replace (- (t / tau)) with (- t / tau) by (unfold Rdiv; ring). set (w := exp (- t / tau)) in *. split; nra.
Qed.
Lemma run_bounded Nz i s tau lo hi : s <> 0%Z -> (0 < Nz)%nat -> 0 < tau -> forall evals last phi,
  (exists b, face_is Nz i s phi b /\ lo <= b <= hi) -> (exists m, mean_is Nz i phi m /\ lo <= m <= hi) ->
  List.Forall (fun e => exists m, mean_is Nz i (snd e) m /\ lo <= m <= hi) evals -> keeps_faces Nz i s tau (last, phi) evals ->
  exists b, face_is Nz i s (snd (run Nz i s tau (last, phi) evals)) b /\ lo <= b <= hi.
Proof.
  intros Hs HN Htau. induction evals as [ | [ t solved ] rest IH ]; intros last phi Hb Hm Hms Hk; [ exact Hb | ].
  cbn [run keeps_faces] in *. destruct Hk as [ Hf Hk ]. apply Forall_cons_iff in Hms. destruct Hms as [ Hms1 Hms2 ]. cbn [snd] in Hms1.
  apply IH; try assumption. destruct Hb as (b & Hb & Hb1). destruct Hm as (m & Hm & Hm1).
  destruct (Rlt_dec last 0) as [ L | L ].
  - exists b. split; [ | exact Hb1 ]. intros z Hz. rewrite Hf by exact Hz. rewrite phi_boundary_same by (left; exact L). apply Hb. exact Hz.
  - destruct (Rlt_dec last t) as [ L' | L' ].
    + exists (decayed tau (t - last) m b). split; [ | apply decayed_range; try assumption; lra ].
      intros z Hz. rewrite Hf by exact Hz. apply phi_boundary_face; try assumption; try lra. apply Hb. lia.
    + exists b. split; [ | exact Hb1 ]. intros z Hz. rewrite Hf by exact Hz. rewrite phi_boundary_same by (right; lra). apply Hb. exact Hz.
Qed.

(** What the solver is given: the value it puts on the face, less that of Pi_hat, is the face value of phi. *)
Lemma solve_keeps_face i s phi Pi u z :
  (u i + u (i + s)%Z) / 2 = phi_plus_pi_guard i s phi Pi z -> face i s (fun x z' => u x - Pi x z') z = face i s phi z.
Proof.
  intros H. unfold phi_plus_pi_guard in H. unfold face. lra.
Qed.

(** * The average over the core *)

Lemma fold_left_plus l a : fold_left Rplus l a = a + fold_right Rplus 0 l.
Proof.
  revert a. induction l as [ | x l IH ]; intros a; cbn [fold_left fold_right]; [ ring | ]. rewrite IH. ring.
Qed.
Lemma core_total p a : fold_left (fun acc row => fold_left Rplus row acc) p a = a + fold_right Rplus 0 (map (fold_right Rplus 0) p).
Proof.
  revert a. induction p as [ | r p IH ]; intros a; cbn [fold_left fold_right map]; [ ring | ]. rewrite IH, fold_left_plus. ring.
Qed.
Lemma core_sum procs :
  list_sum (map (fun p => fold_left (fun acc row => fold_left Rplus row acc) p 0) procs) = rows_total procs.
Proof.
  unfold list_sum, rows_total. rewrite fold_left_plus, Rplus_0_l. f_equal. apply map_ext. intros p. rewrite core_total. ring.
Qed.
Lemma core_average_scaled Nz rows guards procs : (0 < Nz)%nat -> (0 < rows)%nat -> procs <> [] ->
  core_average Nz rows guards procs = INR rows / (INR rows + 2 * INR guards) * true_mean Nz rows procs.
Proof.
  intros HN Hr Hp. unfold core_average, true_mean. rewrite core_sum, plus_INR, mult_INR. cbn [INR].
  assert (0 < INR (List.length procs)) by (apply lt_0_INR; destruct procs; [ contradiction | cbn [List.length]; lia ]).
  assert (0 < INR Nz) by (apply lt_0_INR; lia). assert (0 < INR rows) by (apply lt_0_INR; lia). assert (0 <= INR guards) by apply pos_INR.
  field. repeat split; lra.
Qed.

(** * The potential from the temperature *)

Lemma sheath_zero_current n Te Me : 0 < Te -> 0 < Me -> 0 < n ->
  electron_flux n Te Me (sheathmult true Me * Te) = ion_flux n Te Te 1.
Proof.
  intros HT HM Hn. unfold electron_flux, ion_flux, sheathmult. assert (HP := PI_RGT_0).
  assert (HMP : 0 < Me * PI) by (apply Rmult_lt_0_compat; assumption).
  replace (- (ln (0.5 * sqrt (1 / (Me * PI))) * Te / Te)) with (- ln (0.5 * sqrt (1 / (Me * PI)))) by (field; lra).
  assert (Hs : 0 < sqrt (1 / (Me * PI))) by (apply sqrt_lt_R0; apply Rdiv_lt_0_compat; lra).
  rewrite exp_Ropp, exp_ln by lra.
  rewrite Rmult_assoc. f_equal.
  replace ((Te + Te) / 1) with (2 * Te) by field.
  apply (Rmult_eq_reg_r (0.5 * sqrt (1 / (Me * PI)))); [ | lra ].
  rewrite Rmult_assoc, Rinv_l, Rmult_1_r by lra.
  replace (sqrt (2 * Te) * (0.5 * sqrt (1 / (Me * PI)))) with (/ 2 * (sqrt (2 * Te) * sqrt (1 / (Me * PI)))) by lra.
  rewrite <- sqrt_mult; [ | lra | apply Rlt_le, Rdiv_lt_0_compat; lra ].
  rewrite <- (sqrt_Rsqr (/ 2)) by lra. rewrite <- sqrt_mult; [ | unfold Rsqr; lra | ].
  - f_equal. unfold Rsqr. field. split; lra.
  - apply Rlt_le, Rmult_lt_0_compat; [ lra | apply Rdiv_lt_0_compat; lra ].
Qed.
Lemma sheath_other_mass n Te Ti Me mi : 0 < Te -> 0 < Me -> 0 < n -> 0 < mi -> 0 <= Ti ->
  electron_flux n Te Me (sheathmult true Me * Te) = ion_flux n Te Ti mi -> Te + Ti = 2 * mi * Te.
Proof.
  intros HT HM Hn Hm HTi H. rewrite (sheath_zero_current n Te Me HT HM Hn) in H. unfold ion_flux in H.
  apply Rmult_eq_reg_l in H; [ | lra ].
  apply sqrt_inj in H.
  - apply (Rmult_eq_compat_r mi) in H. field_simplify in H; lra.
  - lra.
  - apply Rlt_le, Rdiv_lt_0_compat; lra.
Qed.

(** * Electromagnetic *)

(** Momentum is mass times floored density times velocity. *)
Definition consistent (s : em_species) : Prop :=
  forall nv v, momentum s = Some nv -> velocity s = Some v -> nv = AA s * rfloor (density s) 1e-5 * v.

Lemma em_floor_pos N : 0 < rfloor N 1e-5.
Proof. unfold rfloor. assert (H := Rltb_spec N 1e-5). destruct (Rltb N 1e-5); lra. Qed.
Lemma em_floor_above N : 1e-5 <= N -> rfloor N 1e-5 = N.
Proof. intros H. unfold rfloor. rewrite (Rltb_false N 1e-5) by lra. reflexivity. Qed.

Lemma takes_part_set s Z nv : takes_part s = Some (Z, nv) -> charge s = Some Z /\ momentum s = Some nv /\ 1e-5 <= Rabs Z.
Proof.
  unfold takes_part. destruct (charge s) as [ c | ]; [ | congruence ]. destruct (momentum s) as [ n | ]; [ | congruence ].
  assert (H := Rltb_spec (Rabs c) 1e-5). destruct (Rltb (Rabs c) 1e-5); [ congruence | ]. intros E.
  assert (c = Z) by congruence. assert (n = nv) by congruence. subst. auto.
Qed.

Lemma correct_consistent Apar s s' : AA s <> 0 -> consistent s -> correct Apar s = Some s' -> consistent s'.
Proof.
  intros HA H E. unfold correct in E. destruct (takes_part s) as [ [ Z nv ] | ] eqn:Et; [ | assert (s = s') by congruence; subst; exact H ].
  destruct (velocity s) as [ v | ] eqn:Ev; [ | congruence ].
  assert (Em : momentum s = Some nv).
  { apply (takes_part_set s Z nv Et). }
  assert (E' : s' = mkEm (charge s) (density s) (AA s) (Some (nv - Z * density s * Apar))
                         (Some (v - (Z / AA s) * density s * Apar / rfloor (density s) 1e-5))) by congruence.
  subst s'. unfold consistent. cbn [momentum velocity AA density]. intros nv' v' E1 E2.
  assert (E1' : nv' = nv - Z * density s * Apar) by congruence.
  assert (E2' : v' = v - (Z / AA s) * density s * Apar / rfloor (density s) 1e-5) by congruence.
  rewrite E1', E2', (H nv v Em Ev).
  assert (Hf := em_floor_pos (density s)). field. split; [ exact HA | lra ].
Qed.

Lemma correct_neutral Apar s : takes_part s = None -> correct Apar s = Some s.
Proof. intros H. unfold correct. rewrite H. reflexivity. Qed.
Lemma correct_keeps Apar s s' : correct Apar s = Some s' -> charge s' = charge s /\ density s' = density s /\ AA s' = AA s.
Proof.
  intros E. unfold correct in E. destruct (takes_part s) as [ [ Z nv ] | ].
  - destruct (velocity s); [ | congruence ].
    assert (E' := E). injection E' as E'. subst s'. cbn [charge density AA]. auto.
  - assert (s' = s) by congruence. subst. auto.
Qed.
(** The current carried by one species and by all. *)
Definition current_of (s : em_species) : R := match takes_part s with Some (Z, nv) => nv * (Z / AA s) | None => 0 end.
Definition inertia_of (s : em_species) : R := match takes_part s with Some (Z, _) => rfloor (density s) 1e-5 * (SQ Z / AA s) | None => 0 end.
Lemma Ajpar_sum l : Ajpar l = fold_right Rplus 0 (map current_of l).
Proof.
  unfold Ajpar. assert (G : forall l a, fold_left (fun acc s => match takes_part s with Some (Z, nv) => acc + nv * (Z / AA s) | None => acc end) l a
     = a + fold_right Rplus 0 (map current_of l)).
  { induction l0 as [ | s l0 IH ]; intros a; cbn [fold_left map fold_right]; [ ring | ]. rewrite IH. unfold current_of at 2.
    destruct (takes_part s) as [ [ Z nv ] | ]; ring. }
  rewrite G. ring.
Qed.
Lemma alpha_sum l : alpha_em l = fold_right Rplus 0 (map inertia_of l).
Proof.
  unfold alpha_em. assert (G : forall l a, fold_left (fun acc s => match takes_part s with Some (Z, _) => acc + rfloor (density s) 1e-5 * (SQ Z / AA s) | None => acc end) l a
     = a + fold_right Rplus 0 (map inertia_of l)).
  { induction l0 as [ | s l0 IH ]; intros a; cbn [fold_left map fold_right]; [ ring | ]. rewrite IH. unfold inertia_of at 2.
    destruct (takes_part s) as [ [ Z nv ] | ]; ring. }
  rewrite G. ring.
Qed.
Lemma inertia_nonneg l : List.Forall (fun s => 0 < AA s) l -> 0 <= alpha_em l.
Proof.
  rewrite alpha_sum. induction 1 as [ | s l H Hl IH ]; cbn [map fold_right]; [ lra | ].
  assert (0 <= inertia_of s); [ | lra ]. unfold inertia_of. destruct (takes_part s) as [ [ Z nv ] | ]; [ | lra ].
  apply Rmult_le_pos; [ apply Rlt_le, em_floor_pos | ]. unfold SQ. apply Rle_mult_inv_pos; [ nra | exact H ].
Qed.

Lemma correct_current Apar s s' : AA s <> 0 -> 1e-5 <= density s -> correct Apar s = Some s' ->
  current_of s' = current_of s - inertia_of s * Apar.
Proof.
  intros HA HN E. destruct (takes_part s) as [ [ Z nv ] | ] eqn:Et.
  - destruct (takes_part_set s Z nv Et) as (Hc & Hm & HZ). unfold correct in E. rewrite Et in E.
    destruct (velocity s) as [ v | ]; [ | congruence ]. injection E as E. subst s'.
    unfold current_of, inertia_of. rewrite Et. unfold takes_part. cbn [charge momentum density AA]. rewrite Hc.
    rewrite (Rltb_false (Rabs Z) 1e-5) by exact HZ. rewrite (em_floor_above _ HN). unfold SQ. field. exact HA.
  - rewrite (correct_neutral Apar s Et) in E. assert (s' = s) by congruence. subst. unfold current_of, inertia_of. rewrite Et. ring.
Qed.
Lemma correct_all_current Apar l : forall l', List.Forall (fun s => AA s <> 0 /\ 1e-5 <= density s) l -> correct_all Apar l = Some l' ->
  Ajpar l' = Ajpar l - alpha_em l * Apar.
Proof.
  induction l as [ | s l IH ]; intros l' H E; cbn [correct_all] in E.
  - assert (l' = []) by congruence. subst. rewrite !Ajpar_sum, alpha_sum. cbn [map fold_right]. ring.
  - destruct (correct Apar s) as [ s1 | ] eqn:E1; [ | congruence ]. destruct (correct_all Apar l) as [ l1 | ] eqn:E2; [ | congruence ].
    assert (l' = s1 :: l1) by congruence. subst. apply Forall_cons_iff in H. destruct H as [ [ HA HN ] Hl ].
    specialize (IH l1 Hl eq_refl). rewrite !Ajpar_sum, alpha_sum in IH |- *. cbn [map fold_right].
    rewrite IH, (correct_current Apar s s1 HA HN E1). ring.
Qed.
Lemma ampere beta lapA Apar l l' : List.Forall (fun s => AA s <> 0 /\ 1e-5 <= density s) l ->
  apar_equation beta lapA Apar l -> correct_all Apar l = Some l' -> lapA = - (beta * fold_right Rplus 0 (map current_of l')).
Proof.
  intros H E E'. rewrite <- Ajpar_sum, (correct_all_current Apar l l' H E'). unfold apar_equation in E. lra.
Qed.
Lemma correct_all_consistent Apar l : forall l', List.Forall (fun s => AA s <> 0 /\ consistent s) l -> correct_all Apar l = Some l' -> List.Forall consistent l'.
Proof.
  induction l as [ | s l IH ]; intros l' H E; cbn [correct_all] in E.
  - assert (l' = []) by congruence. subst. constructor.
  - destruct (correct Apar s) as [ s1 | ] eqn:E1; [ | congruence ]. destruct (correct_all Apar l) as [ l1 | ] eqn:E2; [ | congruence ].
    assert (l' = s1 :: l1) by congruence. subst. apply Forall_cons_iff in H. destruct H as [ [ HA HN ] Hl ].
    constructor; [ | apply (IH l1 Hl eq_refl) ]. apply (correct_consistent Apar s s1 HA HN E1).
Qed.
Lemma correct_all_defined Apar l : List.Forall (fun s => takes_part s <> None -> velocity s <> None) l <-> correct_all Apar l <> None.
Proof.
  induction l as [ | s l IH ]; cbn [correct_all]; [ split; [ congruence | constructor ] | ].
  rewrite Forall_cons_iff, IH. unfold correct.
  destruct (takes_part s) as [ [ Z nv ] | ]; destruct (velocity s); destruct (correct_all Apar l); split; intuition congruence.
Qed.
(** One species below the floor: the current in Ampere's law is not the sum of the corrected ones. *)
Definition thin : em_species := mkEm (Some 1) 0 1 (Some 0) (Some 0).
Lemma thin_values : takes_part thin = Some (1, 0).
Proof.
  unfold takes_part, thin. cbn [charge momentum]. rewrite (Rltb_false (Rabs 1) 1e-5); [ reflexivity | ]. rewrite Rabs_R1. lra.
Qed.
Lemma thin_correct Apar : correct_all Apar [thin] = Some [mkEm (Some 1) 0 1 (Some (0 - 1 * 0 * Apar)) (Some (0 - 1 / 1 * 0 * Apar / rfloor 0 1e-5))].
Proof. cbn [correct_all]. unfold correct. rewrite thin_values. reflexivity. Qed.
Lemma thin_ampere : exists l', apar_equation 1 1e-5 1 [thin] /\ correct_all 1 [thin] = Some l' /\
  1e-5 <> - (1 * fold_right Rplus 0 (map current_of l')).
Proof.
  eexists. split; [ | split; [ apply thin_correct | ] ].
  - unfold apar_equation. rewrite alpha_sum, Ajpar_sum. cbn [map fold_right]. unfold inertia_of, current_of. rewrite thin_values.
    unfold thin. cbn [density AA]. unfold rfloor. rewrite (Rltb_true 0 1e-5) by lra. unfold SQ. lra.
  - cbn [map fold_right]. unfold current_of, takes_part. cbn [charge momentum AA]. rewrite (Rltb_false (Rabs 1) 1e-5) by (rewrite Rabs_R1; lra).
    lra.
Qed.

(** * The gradient of Apar at the boundary *)

Lemma apar_between tau t inner last outer : 0 < tau ->
  between outer inner (snd (apar_gradient tau t inner (last, outer))).
Proof.
  intros Ht. unfold apar_gradient, apar_weight. cbn [snd]. apply convex_between.
  assert (H := Rltb_spec last t). destruct (Rltb last t); [ | lra ].
  destruct (weight_range (t - last) tau ltac:(lra) Ht) as [ W1 W2 ].
  replace ((last - t) / tau) with (- (t - last) / tau) by (unfold Rdiv; ring). lra.
Qed.
Definition apar_run (tau inner : R) (st : R * R) (times : list R) : R * R := fold_left (fun st t => apar_gradient tau t inner st) times st.
Fixpoint ascending (t0 : R) (times : list R) : Prop := match times with [] => True | t :: rest => t0 <= t /\ ascending t rest end.
Lemma apar_step tau inner last outer t : last <= t -> apar_gradient tau t inner (last, outer) = (t, decayed tau (t - last) inner outer).
Proof.
  intros H. unfold apar_gradient, apar_weight, decayed. f_equal. assert (H' := Rltb_spec last t). destruct (Rltb last t).
  - replace ((last - t) / tau) with (- ((t - last) / tau)) by (unfold Rdiv; ring). ring.
  - assert (t = last) by lra. subst. replace (- ((last - last) / tau)) with 0 by (unfold Rdiv; ring). rewrite exp_0. ring.
Qed.
Lemma apar_run_exact tau inner times : forall last outer, ascending last times ->
  apar_run tau inner (last, outer) times = (List.last times last, decayed tau (List.last times last - last) inner outer).
Proof.
  induction times as [ | t rest IH ]; intros t0 outer H.
  - cbn [apar_run fold_left List.last]. replace (t0 - t0) with 0 by ring. rewrite decayed_0. reflexivity.
  - destruct H as [ Hle H ]. unfold apar_run. cbn [fold_left]. rewrite (apar_step _ _ _ _ _ Hle). fold (apar_run tau inner).
    unfold apar_run in IH. rewrite (IH t _ H), decayed_add.
    assert (E : List.last (t :: rest) t0 = List.last rest t).
    { destruct rest as [ | a rest ]; [ reflexivity | ]. cbn [List.last]. clear. revert a. induction rest as [ | b rest IH ]; intros a; [ reflexivity | ].
      cbn [List.last]. apply IH. }
    rewrite E. f_equal. f_equal. ring.
Qed.
(** A step that is rejected and repeated: evaluated at 0, 2, then again at 1 and 2. *)
Lemma apar_rejected : snd (apar_run 1 0 (0, 1) [2; 1; 2]) < snd (apar_run 1 0 (0, 1) [2]).
Proof.
  unfold apar_run. cbn [fold_left]. rewrite (apar_step 1 0 0 1 2) by lra.
  assert (E : apar_gradient 1 1 0 (2, decayed 1 (2 - 0) 0 1) = (1, decayed 1 (2 - 0) 0 1)).
  { unfold apar_gradient, apar_weight. rewrite (Rltb_false 2 1) by lra. f_equal. ring. }
  rewrite E, (apar_step 1 0 1 _ 2) by lra. cbn [snd]. rewrite decayed_add. unfold decayed.
  assert (exp (- ((2 - 0 + (2 - 1)) / 1)) < exp (- ((2 - 0) / 1))) by (apply exp_increasing; lra). lra.
Qed.
