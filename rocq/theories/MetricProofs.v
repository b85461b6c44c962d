(** Proofs about metrics and boundaries. *)

From Coq Require Import List Bool ZArith Reals Lra Lia.
From Verif Require Import StateMonad StateMonadProofs ParallelModel MetricModel MetricSpec.
Import ListNotations.
Open Scope R_scope.

Ltac mcbn := cbn [dx dy dz Bxy J g11 g22 g33 g12 g13 g23 g_11 g_22 g_33 g_12 g_13 g_23 Rxy Bpxy Btxy hthe sinty eq_dx eq_dy eq_dz eq_Bxy up down Nat.eqb].
Ltac cases3 i Hi := destruct i as [ | [ | [ | i ] ] ]; [ | | | exfalso; lia ]; clear Hi.

(** Each product is a multiple of the product before. *)
Definition scale (rho B : R) (i : nat) : R := match i with 0%nat => / (rho * B) | _ => rho end.
Lemma scale_nz rho B i : 0 < rho -> 0 < B -> scale rho B i <> 0.
Proof.
  intros Hr HB. unfold scale. destruct i; [ | lra ]. apply Rinv_neq_0_compat. apply Rgt_not_eq. apply Rmult_lt_0_compat; lra.
Qed.
Lemma normalise_up rho B c i j : 0 < rho -> 0 < B -> up (normalise_metric rho B c) i j = scale rho B i * scale rho B j * up c i j.
Proof.
  intros Hr HB. unfold normalise_metric, scale, SQ.
  destruct i as [ | [ | [ | i ] ] ]; destruct j as [ | [ | [ | j ] ] ]; mcbn; try (field; lra); ring.
Qed.
Lemma normalise_down rho B c i j : 0 < rho -> 0 < B -> down (normalise_metric rho B c) i j = / scale rho B i * / scale rho B j * down c i j.
Proof.
  intros Hr HB. assert (0 < rho * B) by (apply Rmult_lt_0_compat; lra).
  unfold normalise_metric, scale, SQ.
  destruct i as [ | [ | [ | i ] ] ]; destruct j as [ | [ | [ | j ] ] ]; mcbn; try (field; lra); ring.
Qed.
Lemma normalise_inverse rho B c : 0 < rho -> 0 < B -> (inverse (normalise_metric rho B c) <-> inverse c).
Proof.
  intros Hr HB.
  assert (E : forall i k, up (normalise_metric rho B c) i 0%nat * down (normalise_metric rho B c) 0%nat k
      + up (normalise_metric rho B c) i 1%nat * down (normalise_metric rho B c) 1%nat k
      + up (normalise_metric rho B c) i 2%nat * down (normalise_metric rho B c) 2%nat k
      = scale rho B i * / scale rho B k * (up c i 0%nat * down c 0%nat k + up c i 1%nat * down c 1%nat k + up c i 2%nat * down c 2%nat k)).
  { intros i k. rewrite !normalise_up, !normalise_down by assumption. field. repeat split; apply scale_nz; assumption. }
  unfold inverse. split; intros H i k Hi Hk; specialize (H i k Hi Hk).
  - rewrite E in H. destruct (Nat.eqb i k) eqn:Eik.
    + apply Nat.eqb_eq in Eik. subst k. rewrite Rinv_r, Rmult_1_l in H by (apply scale_nz; assumption). exact H.
    + apply Rmult_integral in H. destruct H as [H | H]; [ | exact H ]. exfalso. apply Rmult_integral in H.
      destruct H as [H | H]; [ exact (scale_nz rho B i Hr HB H) | exact (Rinv_neq_0_compat _ (scale_nz rho B k Hr HB) H) ].
  - rewrite E, H. destruct (Nat.eqb i k) eqn:Eik; [ | ring ].
    apply Nat.eqb_eq in Eik. subst k. rewrite Rinv_r by (apply scale_nz; assumption). ring.
Qed.
Lemma normalise_det rho B c : 0 < rho -> 0 < B -> det3 (up (normalise_metric rho B c)) = (rho / B) * (rho / B) * det3 (up c).
Proof.
  intros Hr HB. unfold det3. rewrite !normalise_up by assumption. unfold scale. field. lra.
Qed.
Lemma normalise_jacobian rho B c : 0 < rho -> 0 < B -> (jacobian (normalise_metric rho B c) <-> jacobian c).
Proof.
  intros Hr HB. unfold jacobian. rewrite normalise_det by assumption.
  replace (J (normalise_metric rho B c)) with (J c * (B / rho)) by reflexivity.
  replace (J c * (B / rho) * (J c * (B / rho)) * (rho / B * (rho / B) * det3 (up c))) with (J c * J c * det3 (up c)) by (field; lra).
  tauto.
Qed.
Lemma normalise_aligned rho B c : 0 < rho -> 0 < B -> (field_aligned (normalise_metric rho B c) <-> field_aligned c).
Proof.
  intros Hr HB. unfold field_aligned, normalise_metric, SQ. mcbn.
  assert (Hrr : 0 < rho * rho) by (apply Rmult_lt_0_compat; lra).
  split; intros H.
  - apply (Rmult_eq_reg_r (/ (rho * rho))); [ | apply Rinv_neq_0_compat; lra ].
    change (g_22 c / (rho * rho) = (J c * Bxy c * (J c * Bxy c)) / (rho * rho)). rewrite H. field. lra.
  - rewrite H. field. lra.
Qed.
Lemma normalise_form rho B c a b d : 0 < rho -> 0 < B ->
  form (up (normalise_metric rho B c)) a b d = form (up c) (a / (rho * B)) (b * rho) (d * rho).
Proof. intros Hr HB. unfold form. rewrite !normalise_up by assumption. unfold scale. field. lra. Qed.
Lemma normalise_positive rho B c : 0 < rho -> 0 < B -> (positive_definite (up (normalise_metric rho B c)) <-> positive_definite (up c)).
Proof.
  intros Hr HB. assert (HrB : 0 < rho * B) by (apply Rmult_lt_0_compat; lra).
  unfold positive_definite. split; intros H a b d Hn.
  - specialize (H (a * (rho * B)) (b / rho) (d / rho)). rewrite normalise_form in H by assumption.
    replace (a * (rho * B) / (rho * B)) with a in H by (field; lra). replace (b / rho * rho) with b in H by (field; lra).
    replace (d / rho * rho) with d in H by (field; lra). apply H.
    destruct Hn as [Hn | [Hn | Hn]]; [ left | right; left | right; right ]; try (apply Rmult_integral_contrapositive_currified; [ exact Hn | try lra ]);
      apply Rinv_neq_0_compat; lra.
  - rewrite normalise_form by assumption. apply H.
    destruct Hn as [Hn | [Hn | Hn]]; [ left | right; left | right; right ]; apply Rmult_integral_contrapositive_currified; try assumption; try lra.
    apply Rinv_neq_0_compat. lra.
Qed.

(** Lengths, areas, volumes. *)
Lemma sqrt_scale a x : 0 < a -> sqrt (x * (a * a)) = sqrt x * a.
Proof.
  intros Ha. destruct (Rle_dec 0 x) as [Hx | Hx].
  - rewrite sqrt_mult by (try assumption; apply Rmult_le_pos; lra). rewrite sqrt_square by lra. reflexivity.
  - rewrite (sqrt_neg_0 x) by lra. rewrite sqrt_neg_0; [ ring | ]. replace 0 with (0 * (a * a)) by ring. apply Rmult_le_compat_r; [ apply Rmult_le_pos; lra | lra ].
Qed.
Lemma normalise_geometry rho B c : 0 < rho -> 0 < B -> let c' := normalise_metric rho B c in
  edge_x c = rho * edge_x c' /\ edge_y c = rho * edge_y c' /\ edge_z c = rho * edge_z c'
  /\ area_x c = (rho * rho) * area_x c' /\ area_y c = (rho * rho) * area_y c' /\ volume c = (rho * rho * rho) * volume c'
  /\ (forall d1 d2 d3, gradient_sq c' d1 d2 d3 = (rho * rho) * gradient_sq c d1 d2 d3).
Proof.
  intros Hr HB. cbn zeta. assert (HrB : 0 < rho * B) by (apply Rmult_lt_0_compat; lra). assert (0 < B * rho) by (apply Rmult_lt_0_compat; lra).
  assert (Hir : 0 < / rho) by (apply Rinv_0_lt_compat; lra). assert (HiB : 0 < / (B * rho)) by (apply Rinv_0_lt_compat; lra).
  repeat split.
  - unfold edge_x, normalise_metric, SQ. mcbn. rewrite sqrt_scale by assumption. field. lra.
  - unfold edge_y, normalise_metric, SQ. mcbn. replace (g_22 c / (rho * rho)) with (g_22 c * (/ rho * / rho)) by (field; lra). rewrite sqrt_scale by assumption. field. lra.
  - unfold edge_z, normalise_metric, SQ. mcbn. replace (g_33 c / (rho * rho)) with (g_33 c * (/ rho * / rho)) by (field; lra). rewrite sqrt_scale by assumption. field. lra.
  - unfold area_x, normalise_metric, SQ. mcbn. replace (g11 c / (B * rho * (B * rho))) with (g11 c * (/ (B * rho) * / (B * rho))) by (field; lra). rewrite sqrt_scale by assumption. field. lra.
  - unfold area_y, normalise_metric, SQ. mcbn. rewrite sqrt_scale by assumption. field. lra.
  - unfold volume, normalise_metric. mcbn. field. lra.
  - intros d1 d2 d3. unfold gradient_sq. rewrite normalise_form by assumption. unfold normalise_metric. mcbn. unfold form.
    replace (d1 / (dx c / (rho * rho * B)) / (rho * B)) with (rho * (d1 / dx c)).
    + replace (d2 / dy c * rho) with (rho * (d2 / dy c)) by ring. replace (d3 / dz c * rho) with (rho * (d3 / dz c)) by ring. ring.
    + unfold Rdiv. rewrite !Rinv_mult, !Rinv_inv. generalize (/ dx c). intros u. field. lra.
Qed.
Lemma metric_ext a b : dx a = dx b -> dy a = dy b -> dz a = dz b -> Bxy a = Bxy b -> J a = J b -> g11 a = g11 b -> g22 a = g22 b -> g33 a = g33 b -> g12 a = g12 b -> g13 a = g13 b -> g23 a = g23 b -> g_11 a = g_11 b -> g_22 a = g_22 b -> g_33 a = g_33 b -> g_12 a = g_12 b -> g_13 a = g_13 b -> g_23 a = g_23 b -> a = b.
Proof. destruct a as [a0 a1 a2 a3 a4 a5 a6 a7 a8 a9 a10 a11 a12 a13 a14 a15 a16], b as [b0 b1 b2 b3 b4 b5 b6 b7 b8 b9 b10 b11 b12 b13 b14 b15 b16]. cbn [dx dy dz Bxy J g11 g22 g33 g12 g13 g23 g_11 g_22 g_33 g_12 g_13 g_23]. intros. subst. reflexivity. Qed.
Lemma normalise_twice rho B rho' B' c : 0 < rho -> 0 < B -> 0 < rho' -> 0 < B' ->
  normalise_metric rho' B' (normalise_metric rho B c) = normalise_metric (rho * rho') (B * B') c.
Proof. intros. apply metric_ext; unfold normalise_metric, SQ; mcbn; first [ field; lra | ring ]. Qed.
Lemma normalise_one c : normalise_metric 1 1 c = c.
Proof. apply metric_ext; unfold normalise_metric, SQ; mcbn; first [ field | ring ]. Qed.

(** Curvature: normalised as rho_s0 times a vector, contravariant components, then curl(b/B) = (2/B) bxcv. *)
Lemma curvature_scale rho B b bx by_ bz : 0 < rho -> 0 < B -> b <> 0 ->
  normalise_curvature rho B (b / B) (bx, by_, bz)
  = (scale rho B 0 * (rho * B) * (2 / b * bx), scale rho B 1 * (rho * B) * (2 / b * by_), scale rho B 2 * (rho * B) * (2 / b * bz)).
Proof. intros Hr HB Hb. unfold normalise_curvature, scale, SQ. f_equal; [ f_equal | ]; field; lra. Qed.

(** Recalculated metric. *)
Lemma sign_square l : sign_Bp l * sign_Bp l = 1.
Proof. unfold sign_Bp. destruct (existsb _ l); ring. Qed.
Ltac eqcbn := unfold metric_of, SQ; mcbn.
Lemma recalculated_inverse s e : s * s = 1 -> Rxy e <> 0 -> Bpxy e <> 0 -> hthe e <> 0 ->
  (inverse (metric_of s e) <-> eq_Bxy e * eq_Bxy e = Bpxy e * Bpxy e + Btxy e * Btxy e).
Proof.
  intros Hs HR HBp Hh. destruct e as [R0 Bp Bt h I x y z B]. cbn [Rxy Bpxy Btxy hthe sinty eq_dx eq_dy eq_dz eq_Bxy] in *. split.
  - intros H. specialize (H 1%nat 1%nat ltac:(lia) ltac:(lia)). revert H. eqcbn. intros H.
    apply (f_equal (fun t => t * (Bp * Bp))) in H.
    replace ((0 * (s * Bt * h * I * R0 / Bp) + 1 / (h * h) * (B * h / Bp * (B * h / Bp)) + - s * Bt / (h * Bp * R0) * (s * Bt * h * R0 / Bp)) * (Bp * Bp))
      with (B * B - (s * s) * (Bt * Bt)) in H by (field; repeat split; assumption).
    rewrite Hs in H. lra.
  - intros HB i k Hi Hk.
    assert (HB2 : B * B = Bp * Bp + s * s * (Bt * Bt)) by (rewrite Hs; lra).
    cases3 i Hi; cases3 k Hk; eqcbn.
    + field. repeat split; assumption.
    + field. repeat split; assumption.
    + field. repeat split; assumption.
    + field. repeat split; assumption.
    + transitivity ((B * B - s * s * (Bt * Bt)) / (Bp * Bp)); [ field; repeat split; assumption | rewrite HB2; field; assumption ].
    + field. repeat split; assumption.
    + transitivity (I * ((B * B - s * s * (Bt * Bt)) / (Bp * Bp) - 1)); [ field; repeat split; assumption | rewrite HB2; field; assumption ].
    + field. repeat split; assumption.
    + transitivity ((B * B - s * s * (Bt * Bt)) / (Bp * Bp)); [ field; repeat split; assumption | rewrite HB2; field; assumption ].
Qed.

Lemma recalculated_jacobian s e : s * s = 1 -> equilibrium_ok e -> jacobian (metric_of s e).
Proof.
  intros Hs (HR & HBp & Hh & HB). destruct e as [R0 Bp Bt h I x y z B]. cbn [Rxy Bpxy Btxy hthe sinty eq_dx eq_dy eq_dz eq_Bxy] in *.
  unfold jacobian, det3. eqcbn.
  transitivity ((B * B - s * s * (Bt * Bt)) / (Bp * Bp)); [ field; repeat split; assumption | ].
  rewrite Hs, HB. field. assumption.
Qed.
Lemma recalculated_aligned s e : Bpxy e <> 0 -> field_aligned (metric_of s e).
Proof. intros HBp. unfold field_aligned. eqcbn. field. assumption. Qed.
Lemma recalculated_positive s e : s * s = 1 -> equilibrium_ok e -> positive_definite (up (metric_of s e)).
Proof.
  intros Hs (HR & HBp & Hh & HB). destruct e as [R0 Bp Bt h I x y z B]. cbn [Rxy Bpxy Btxy hthe sinty eq_dx eq_dy eq_dz eq_Bxy] in *.
  intros a b c Hn. unfold form. eqcbn.
  assert (E : R0 * Bp * (R0 * Bp) * (a * a) + 1 / (h * h) * (b * b) + (I * I * (R0 * Bp * (R0 * Bp)) + B * B / (R0 * Bp * (R0 * Bp))) * (c * c)
     + 2 * (0 * (a * b) + - I * (R0 * Bp * (R0 * Bp)) * (a * c) + - s * Bt / (h * Bp * R0) * (b * c))
     = (R0 * Bp * (a - I * c)) * (R0 * Bp * (a - I * c)) + (b / h - s * Bt / (Bp * R0) * c) * (b / h - s * Bt / (Bp * R0) * c) + (c / R0) * (c / R0)).
  { transitivity ((R0 * Bp * (a - I * c)) * (R0 * Bp * (a - I * c)) + (b / h - s * Bt / (Bp * R0) * c) * (b / h - s * Bt / (Bp * R0) * c)
      + (c / R0) * (c / R0) * ((B * B - s * s * (Bt * Bt)) / (Bp * Bp))); [ field; repeat split; assumption | ].
    rewrite Hs, HB. field. repeat split; assumption. }
  rewrite E. clear E.
  pose proof (Rle_0_sqr (R0 * Bp * (a - I * c))) as H1. pose proof (Rle_0_sqr (b / h - s * Bt / (Bp * R0) * c)) as H2. pose proof (Rle_0_sqr (c / R0)) as H3.
  destruct (Req_dec c 0) as [Hc | Hc].
  - subst c. destruct (Req_dec b 0) as [Hb | Hb].
    + subst b. assert (Ha : a <> 0) by tauto.
      assert (H : 0 < Rsqr (R0 * Bp * (a - I * 0))).
      { apply Rsqr_pos_lt. replace (a - I * 0) with a by ring. repeat apply Rmult_integral_contrapositive_currified; assumption. }
      unfold Rsqr in *. lra.
    + assert (H : 0 < Rsqr (b / h - s * Bt / (Bp * R0) * 0)).
      { apply Rsqr_pos_lt. replace (b / h - s * Bt / (Bp * R0) * 0) with (b / h) by (rewrite Rmult_0_r; ring).
        apply Rmult_integral_contrapositive_currified; [ assumption | apply Rinv_neq_0_compat; assumption ]. }
      unfold Rsqr in *. lra.
  - assert (H : 0 < Rsqr (c / R0)).
    { apply Rsqr_pos_lt. apply Rmult_integral_contrapositive_currified; [ assumption | apply Rinv_neq_0_compat; assumption ]. }
    unfold Rsqr in *. lra.
Qed.
(** Recalculating in normalised units is normalising the recalculated metric. *)
Lemma recalculated_normalised s L B e : 0 < L -> 0 < B -> Rxy e <> 0 -> Bpxy e <> 0 -> hthe e <> 0 ->
  metric_of s (normalise_equilibrium L B false e) = normalise_metric L B (metric_of s e).
Proof.
  intros HL HB HR HBp Hh. destruct e as [R0 Bp Bt h I x y z b]. cbn [Rxy Bpxy Btxy hthe sinty eq_dx eq_dy eq_dz eq_Bxy] in *.
  apply metric_ext; unfold metric_of, normalise_metric, normalise_equilibrium, SQ; mcbn; try reflexivity; try (field; repeat split; try assumption; lra); ring.
Qed.
Lemma shifted_unsheared L B e : normalise_equilibrium L B true e = normalise_equilibrium L B false (unsheared e).
Proof. unfold normalise_equilibrium, unsheared. mcbn. rewrite Rmult_0_l. reflexivity. Qed.
Lemma sign_scale B l : 0 < B -> sign_Bp (map (fun b => b / B) l) = sign_Bp l.
Proof.
  intros HB. unfold sign_Bp. assert (E : existsb (fun b => Rltb b 0) (map (fun b => b / B) l) = existsb (fun b => Rltb b 0) l).
  { induction l as [ | b l IH ]; [ reflexivity | ]. cbn [map existsb]. rewrite IH. f_equal.
    assert (HiB : 0 < / B) by (apply Rinv_0_lt_compat; lra).
    destruct (Rlt_dec b 0) as [Hb | Hb].
    - rewrite (Rltb_true b 0) by assumption. apply Rltb_true. unfold Rdiv. replace 0 with (0 * / B) by ring. apply Rmult_lt_compat_r; assumption.
    - rewrite (Rltb_false b 0) by lra. apply Rltb_false. unfold Rdiv. apply Rmult_le_pos; lra. }
  rewrite E. reflexivity.
Qed.
Lemma recalculate_whole L B shifted grid : 0 < L -> 0 < B -> Forall (fun e => Rxy e <> 0 /\ Bpxy e <> 0 /\ hthe e <> 0) grid ->
  recalculate_metric L B shifted grid
  = map (fun e => normalise_metric L B (metric_of (sign_Bp (map Bpxy grid)) (if shifted then unsheared e else e))) grid.
Proof.
  intros HL HB Hok. unfold recalculate_metric.
  assert (Es : sign_Bp (map Bpxy (map (normalise_equilibrium L B shifted) grid)) = sign_Bp (map Bpxy grid)).
  { rewrite map_map. rewrite <- (sign_scale B (map Bpxy grid)) by assumption. rewrite map_map. reflexivity. }
  rewrite Es, map_map. apply map_ext_in. intros e He. rewrite Forall_forall in Hok. destruct (Hok e He) as (H1 & H2 & H3).
  destruct shifted; [ rewrite shifted_unsheared | ]; apply recalculated_normalised; assumption.
Qed.
Lemma volume_sign s e : hthe e > 0 -> eq_dy e > 0 -> eq_dz e > 0 -> Bpxy e <> 0 -> (0 < volume (metric_of s e) <-> 0 < eq_dx e * Bpxy e).
Proof.
  intros Hh Hy Hz HB. unfold volume. eqcbn.
  assert (HB2 : 0 < Bpxy e * Bpxy e) by (apply Rsqr_pos_lt; assumption).
  assert (Hp : 0 < hthe e * eq_dy e * eq_dz e / (Bpxy e * Bpxy e)).
  { apply Rdiv_lt_0_compat; [ | assumption ]. apply Rmult_lt_0_compat; [ apply Rmult_lt_0_compat | ]; lra. }
  replace (hthe e / Bpxy e * eq_dx e * eq_dy e * eq_dz e) with (eq_dx e * Bpxy e * (hthe e * eq_dy e * eq_dz e / (Bpxy e * Bpxy e))) by (field; assumption).
  split; intros H.
  - apply (Rmult_lt_reg_r _ _ _ Hp). rewrite Rmult_0_l. exact H.
  - apply Rmult_lt_0_compat; assumption.
Qed.

(** Boundaries. *)
Lemma decay_others cdx cg lambda width i s f j : (s = 1 \/ s = -1)%Z -> (forall k, (1 <= k <= Z.of_nat width)%Z -> j <> (i + k * s)%Z) -> (1 <= width)%nat ->
  decay_boundary cdx cg lambda width i s f j = f j.
Proof.
  intros Hs Hj Hw. unfold decay_boundary.
  set (f1 := upd f (i + s) _).
  assert (H : forall l g, (forall k, In k l -> (1 <= k < width)%nat) ->
     fold_left (fun f (k : nat) => upd f (i + s + Z.of_nat k * s) (f (i + s)%Z)) l g j = g j).
  { induction l as [ | k l IH ]; intros g Hl; [ reflexivity | ]. cbn [fold_left]. rewrite IH by (intros k' Hk'; apply Hl; right; exact Hk').
    unfold upd. destruct (Z.eqb_spec j (i + s + Z.of_nat k * s)) as [E | E]; [ | reflexivity ]. exfalso.
    specialize (Hl k ltac:(left; reflexivity)). apply (Hj (Z.of_nat (k + 1))); [ lia | lia ]. }
  rewrite H.
  - unfold f1, upd. destruct (Z.eqb_spec j (i + s)) as [E | E]; [ | reflexivity ]. exfalso. apply (Hj 1%Z); lia.
  - intros k Hk. apply in_seq in Hk. lia.
Qed.
Lemma decay_guards cdx cg lambda width i s f k : (s = 1 \/ s = -1)%Z -> (1 <= k <= Z.of_nat width)%Z ->
  decay_boundary cdx cg lambda width i s f (i + k * s) = f i * exp (- (0.5 * (radial_length cdx cg (i + s) + radial_length cdx cg i)) / lambda).
Proof.
  intros Hs Hk. unfold decay_boundary.
  replace (- (1) * (0.5 * (radial_length cdx cg (i + s) + radial_length cdx cg i)) / lambda)
    with (- (0.5 * (radial_length cdx cg (i + s) + radial_length cdx cg i)) / lambda) by (unfold Rdiv; generalize (/ lambda); intros; lra).
  set (v := f i * exp _). set (f1 := upd f (i + s) v).
  assert (H1 : f1 (i + s)%Z = v) by (unfold f1, upd; rewrite Z.eqb_refl; reflexivity).
  assert (H : forall l g, (forall k, In k l -> (1 <= k)%nat) -> g (i + s)%Z = v ->
     (forall j, g j = v -> fold_left (fun f (k : nat) => upd f (i + s + Z.of_nat k * s) (f (i + s)%Z)) l g j = v)
     /\ (forall k, In k l -> fold_left (fun f (k : nat) => upd f (i + s + Z.of_nat k * s) (f (i + s)%Z)) l g (i + s + Z.of_nat k * s)%Z = v)).
  { induction l as [ | k0 l IH ]; intros g Hl Hg; cbn [fold_left].
    - split; [ intros j Hj; exact Hj | intros k0 [] ].
    - assert (Hg' : upd g (i + s + Z.of_nat k0 * s) (g (i + s)%Z) (i + s)%Z = v) by (unfold upd; destruct (Z.eqb _ _); assumption).
      destruct (IH _ (fun k' Hk' => Hl k' (or_intror Hk')) Hg') as [A1 A2]. split.
      + intros j Hj. apply A1. unfold upd. destruct (Z.eqb _ _); assumption.
      + intros k' [-> | Hk']; [ apply A1; unfold upd; rewrite Z.eqb_refl; exact Hg | apply A2; exact Hk' ]. }
  destruct (H (seq 1 (width - 1)) f1) as [A1 A2]; [ intros k0 Hk0; apply in_seq in Hk0; lia | exact H1 | ].
  destruct (Z.eq_dec k 1) as [-> | Hk1].
  - replace (i + 1 * s)%Z with (i + s)%Z by ring. apply A1. exact H1.
  - replace (i + k * s)%Z with (i + s + Z.of_nat (Z.to_nat (k - 1)) * s)%Z by (rewrite Z2Nat.id by lia; ring).
    apply A2. apply in_seq. lia.
Qed.

Lemma fold_sum_from Nz f a0 a : fold_left (fun a k => a + f (Z.of_nat k)) (seq a0 Nz) a = a + fold_left (fun a k => a + f (Z.of_nat k)) (seq a0 Nz) 0.
Proof.
  revert a0 a. induction Nz as [ | n IH ]; intros a0 a; cbn [seq fold_left]; [ ring | ].
  rewrite IH. rewrite (IH (S a0) (0 + f (Z.of_nat a0))). ring.
Qed.
Lemma z_sum_linear Nz f g a b : z_sum Nz (fun z => a * f z + b * g z) = a * z_sum Nz f + b * z_sum Nz g.
Proof.
  unfold z_sum. generalize 0%nat. induction Nz as [ | n IH ]; intros a0; cbn [seq fold_left]; [ ring | ].
  rewrite (fold_sum_from n (fun z => a * f z + b * g z)), (fold_sum_from n f), (fold_sum_from n g). rewrite IH. ring.
Qed.
Lemma z_sum_ext Nz f g : (forall z, (0 <= z < Z.of_nat Nz)%Z -> f z = g z) -> z_sum Nz f = z_sum Nz g.
Proof.
  intros H. unfold z_sum. assert (G : forall l a, (forall k, In k l -> (k < Nz)%nat) ->
     fold_left (fun a k => a + f (Z.of_nat k)) l a = fold_left (fun a k => a + g (Z.of_nat k)) l a).
  { induction l as [ | k l IH ]; intros a Hl; [ reflexivity | ]. cbn [fold_left]. rewrite H by (specialize (Hl k (or_introl eq_refl)); lia).
    apply IH. intros k' Hk'. apply Hl. right. exact Hk'. }
  apply G. intros k Hk. apply in_seq in Hk. lia.
Qed.
Lemma z_sum_const Nz a : z_sum Nz (fun _ => a) = INR Nz * a.
Proof.
  unfold z_sum. generalize 0%nat. induction Nz as [ | n IH ]; intros a0; cbn [seq fold_left]; [ cbn [INR]; ring | ].
  rewrite (fold_sum_from n (fun _ => a)), IH, S_INR. ring.
Qed.

Lemma decay_value cdx cg lambda width i s f k : (s = 1 \/ s = -1)%Z -> (1 <= k <= Z.of_nat width)%Z ->
  let v := decay_boundary cdx cg lambda width i s f (i + k * s) in
  let d := (cdx i / sqrt (cg i) + cdx (i + s)%Z / sqrt (cg (i + s)%Z)) / 2 in
  v = f i * exp (- d / lambda) /\ (0 < f i -> 0 < v) /\ (f i < 0 -> v < 0) /\ (f i = 0 -> v = 0)
  /\ (0 < lambda -> 0 < d -> f i <> 0 -> Rabs v < Rabs (f i)).
Proof.
  intros Hs Hk v d.
  assert (E : v = f i * exp (- d / lambda)).
  { unfold v. rewrite decay_guards by assumption. unfold radial_length, d. f_equal. f_equal. f_equal. lra. }
  pose proof (exp_pos (- d / lambda)) as Hp.
  split; [ exact E | ]. rewrite E. split; [ | split; [ | split ] ].
  - intros H. apply Rmult_lt_0_compat; assumption.
  - intros H. rewrite <- (Rmult_0_l (exp (- d / lambda))). apply Rmult_lt_compat_r; assumption.
  - intros ->. ring.
  - intros Hl Hd Hf. rewrite Rabs_mult, (Rabs_pos_eq (exp _)) by lra.
    rewrite <- (Rmult_1_r (Rabs (f i))) at 2. apply Rmult_lt_compat_l; [ apply Rabs_pos_lt; assumption | ].
    rewrite <- exp_0. apply exp_increasing. unfold Rdiv. rewrite Ropp_mult_distr_l_reverse.
    assert (0 < d * / lambda) by (apply Rmult_lt_0_compat; [ assumption | apply Rinv_0_lt_compat; assumption ]). lra.
Qed.
Lemma exp_neq x y : x <> y -> exp x <> exp y.
Proof. intros H E. apply H. apply exp_inv. exact E. Qed.
Lemma decay_continue_fails : exists cdx cg lambda i s f,
  (forall j, 0 < cdx j /\ 0 < cg j) /\ 0 < lambda /\ 0 < f i
  /\ decay_boundary cdx cg lambda 2 i s f (i + 2 * s) <> f i * exp (- distance_to (fun j => cdx j / sqrt (cg j)) i s 2 / lambda).
Proof.
  exists (fun _ => 1), (fun _ => 1), 1, 0%Z, 1%Z, (fun _ => 1). split; [ intros j; lra | split; [ lra | split; [ lra | ] ] ].
  rewrite decay_guards by (try (left; reflexivity); lia). unfold radial_length, distance_to. rewrite sqrt_1.
  rewrite !Rmult_1_l. apply exp_neq. lra.
Qed.
Lemma decay_negative_dx : exists cdx cg lambda i s f,
  (forall j, cdx j < 0 /\ 0 < cg j) /\ 0 < lambda /\ 0 < f i /\ f i < decay_boundary cdx cg lambda 2 i s f (i + s).
Proof.
  exists (fun _ => - (1)), (fun _ => 1), 1, 0%Z, 1%Z, (fun _ => 1). split; [ intros j; lra | split; [ lra | split; [ lra | ] ] ].
  replace (0 + 1)%Z with (0 + 1 * 1)%Z by reflexivity. rewrite decay_guards by (try (left; reflexivity); lia). unfold radial_length. rewrite sqrt_1.
  rewrite Rmult_1_l. rewrite <- exp_0 at 1. apply exp_increasing. lra.
Qed.
Lemma decay_wrong_length : exists (cdx cg cdy cg_22 : Z -> R) lambda i s f,
  (forall j, 0 < cdx j /\ 0 < cg j /\ 0 < cdy j /\ 0 < cg_22 j) /\ 0 < lambda
  /\ decay_boundary cdx cg lambda 2 i s f (i + s) <> f i * exp (- distance_to (fun j => cdy j * sqrt (cg_22 j)) i s 1 / lambda).
Proof.
  exists (fun _ => 1), (fun _ => 1), (fun _ => 2), (fun _ => 1), 1, 0%Z, 1%Z, (fun _ => 1). split; [ intros j; lra | split; [ lra | ] ].
  replace (0 + 1)%Z with (0 + 1 * 1)%Z by reflexivity. rewrite decay_guards by (try (left; reflexivity); lia). unfold radial_length, distance_to. rewrite sqrt_1.
  rewrite !Rmult_1_l. apply exp_neq. lra.
Qed.

Lemma z_average_face Nz i s f : (0 < Nz)%nat -> s <> 0%Z ->
  let f' := neumann_average_z Nz i s f in
  let avg := z_sum Nz (f i) / INR Nz in
  (forall z, (0 <= z < Z.of_nat Nz)%Z -> (f' (i + s)%Z z + f' i z) / 2 = avg /\ f' (i + 2 * s)%Z z = f' (i + s)%Z z)
  /\ (forall x z, x <> (i + s)%Z -> x <> (i + 2 * s)%Z -> f' x z = f x z)
  /\ z_sum Nz (f' (i + s)%Z) / INR Nz = avg
  /\ (forall a, (forall z, (0 <= z < Z.of_nat Nz)%Z -> f i z = a) -> forall z, (0 <= z < Z.of_nat Nz)%Z -> f' (i + s)%Z z = a).
Proof.
  intros HN Hs f' avg.
  assert (HNR : INR Nz <> 0) by (apply not_0_INR; lia).
  assert (G : forall z, (0 <= z < Z.of_nat Nz)%Z -> f' (i + s)%Z z = 2 * avg - f i z).
  { intros z Hz. unfold f', neumann_average_z. replace (Z.leb 0 z && Z.ltb z (Z.of_nat Nz))%bool with true.
    - rewrite Z.eqb_refl. reflexivity.
    - symmetry. apply andb_true_intro. split; [ apply Z.leb_le | apply Z.ltb_lt ]; lia. }
  split; [ | split; [ | split ] ].
  - intros z Hz. split.
    + rewrite G by assumption. unfold f', neumann_average_z.
      replace (Z.eqb i (i + s) || Z.eqb i (i + 2 * s))%bool with false by (symmetry; apply orb_false_intro; apply Z.eqb_neq; lia).
      destruct (Z.leb 0 z && Z.ltb z (Z.of_nat Nz))%bool; lra.
    + rewrite G by assumption. unfold f', neumann_average_z. replace (Z.leb 0 z && Z.ltb z (Z.of_nat Nz))%bool with true.
      * rewrite Z.eqb_refl, orb_true_r. reflexivity.
      * symmetry. apply andb_true_intro. split; [ apply Z.leb_le | apply Z.ltb_lt ]; lia.
  - intros x z H1 H2. unfold f', neumann_average_z. apply Z.eqb_neq in H1. apply Z.eqb_neq in H2. rewrite H1, H2. cbn [orb].
    destruct (Z.leb 0 z && Z.ltb z (Z.of_nat Nz))%bool; reflexivity.
  - rewrite (z_sum_ext Nz _ (fun z => 2 * (fun _ => avg) z + - (1) * f i z)) by (intros z Hz; rewrite G by assumption; ring).
    rewrite z_sum_linear, z_sum_const. unfold avg. field. assumption.
  - intros a Ha z Hz. rewrite G by assumption. unfold avg.
    rewrite (z_sum_ext Nz _ (fun _ => a)) by assumption. rewrite z_sum_const, Ha by assumption. field. assumption.
Qed.

(** Concrete ones. *)
Definition tokamak_point : equilibrium := mkEquilibrium 2 (- (3)) 4 (1 / 2) 7 (- (1)) 1 1 5.
Lemma tokamak_ok : equilibrium_ok tokamak_point.
Proof. unfold equilibrium_ok, tokamak_point. mcbn. repeat split; lra. Qed.
