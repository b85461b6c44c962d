(** Lemmas for RatesProps.v: the fits of the code. *)

From Coq Require Import List Bool String ZArith Reals Lra Lia Arith.
From Verif Require Import OptionsModel StateMonad StateSpec StateMonadProofs ReactionsModel ReactionsSpec ReactionsTableProofs ReactionsLaws AmjuelTables
  NumericProofs PolyCheck RatesTables RatesProofs.
Import ListNotations.
Open Scope R_scope.

Ltac link z t := unfold same_table, z, t;
  repeat (apply Forall2_cons; [unfold same_row; repeat (apply Forall2_cons; [unfold big; lra|]); apply Forall2_nil|]); apply Forall2_nil.
Lemma zion_link : same_table zion hyd_ionisation_rate_coefs. Proof. link zion hyd_ionisation_rate_coefs. Qed.
Lemma zion_rad_link : same_table zion_rad hyd_ionisation_radiation_coefs. Proof. link zion_rad hyd_ionisation_radiation_coefs. Qed.
Lemma zrec_link : same_table zrec hyd_recombination_rate_coefs. Proof. link zrec hyd_recombination_rate_coefs. Qed.
Lemma zhe_link : same_table zhe he01_rate_coefs. Proof. link zhe he01_rate_coefs. Qed.
Lemma zhe_rad_link : same_table zhe_rad he01_radiation_coefs. Proof. link zhe_rad he01_radiation_coefs. Qed.
Lemma zherec_link : same_table zherec he10_rate_coefs. Proof. link zherec he10_rate_coefs. Qed.
Lemma zherec_rad_link : same_table zherec_rad he10_radiation_coefs. Proof. link zherec_rad he10_radiation_coefs. Qed.

(** ** Ranges *)
Ltac check := vm_compute; reflexivity || (intros HH; discriminate HH).
Ltac logle p q n d := apply ln_le; [lra|]; match goal with |- ?y <= exp ?x => replace x with (IZR p / IZR q) by lra; replace y with (IZR n / IZR d) by lra end; apply (exp_ge_check 40 (10 ^ 40)); check.
Lemma ln10_le : ln 10 <= 2.303. Proof. logle 2303%Z 1000%Z 10%Z 1%Z. Qed.
Lemma ln10_ge : 2.302 <= ln 10.
Proof. apply ln_ge. replace 2.302 with (IZR 2302 / IZR 1000) by lra. replace 10 with (IZR 10 / IZR 1) by lra. apply (exp_le_check 40 (10 ^ 40)); check. Qed.
Lemma ln_tenth : ln 0.1 = - ln 10. Proof. replace 0.1 with (/ 10) by lra. apply ln_Rinv. lra. Qed.
Lemma ln_1e4 : ln 1e4 <= 9.211. Proof. logle 9211%Z 1000%Z 10000%Z 1%Z. Qed.
Lemma ln_1e8_le : ln 1e8 <= 18.421. Proof. logle 18421%Z 1000%Z 100000000%Z 1%Z. Qed.
Lemma ln_1e8_ge : 18.42 <= ln 1e8.
Proof. apply ln_ge. replace 18.42 with (IZR 1842 / IZR 100) by lra. replace 1e8 with (IZR 100000000 / IZR 1) by lra. apply (exp_le_check 40 (10 ^ 40)); check. Qed.
Lemma ln_mono x y : 0 < x -> x <= y -> ln x <= ln y.
Proof. intros Hx [H|H]; [left; now apply ln_increasing|subst; lra]. Qed.
Lemma lT_range T : IZR (-2303) / IZR 1000 <= lT T <= (IZR (-2303) + IZR 11514) / IZR 1000.
Proof.
  unfold lT. pose proof (clamp_range T 0.1 1e4 ltac:(lra)) as [C1 C2]. pose proof (ln_mono 0.1 _ ltac:(lra) C1) as L1. pose proof (ln_mono (clamp 0.1 1e4 T) _ ltac:(lra) C2) as L2.
  rewrite ln_tenth in L1. pose proof ln10_le. pose proof ln_1e4. lra.
Qed.
Lemma lN_range n : IZR 0 / IZR 1000 <= lN n <= (IZR 0 + IZR 18421) / IZR 1000.
Proof.
  unfold lN. pose proof (clamp_range n 1e14 1e22 ltac:(lra)) as [C1 C2]. set (m := clamp 1e14 1e22 n) in *.
  pose proof (ln_mono 1 (m / 1e14) ltac:(lra) ltac:(lra)) as L1. pose proof (ln_mono (m / 1e14) 1e8 ltac:(lra) ltac:(lra)) as L2. rewrite ln_1 in L1. pose proof ln_1e8_le. lra.
Qed.
Lemma lT_inside T : 0.1 <= T <= 1e4 -> lT T = ln T.
Proof. intros H. unfold lT. f_equal. unfold clamp. rewrite Rmin_right, Rmax_right by lra. reflexivity. Qed.
Lemma lN_inside n : 1e14 <= n <= 1e22 -> lN n = ln (n / 1e14).
Proof. intros H. unfold lN. f_equal. f_equal. unfold clamp. rewrite Rmin_right, Rmax_right by lra. reflexivity. Qed.
Lemma lT_lt T1 T2 : 0.1 <= T1 -> T1 < T2 -> T2 <= 1e4 -> lT T1 < lT T2.
Proof. intros. rewrite !lT_inside by lra. apply ln_increasing; lra. Qed.
Lemma lN_lt n1 n2 : 1e14 <= n1 -> n1 < n2 -> n2 <= 1e22 -> lN n1 < lN n2.
Proof. intros. rewrite !lN_inside by lra. apply ln_increasing; lra. Qed.

(** ** Comparing two values of a fit *)
Lemma value_lt a b : a < b -> exp (a / big) * 1e-6 < exp (b / big) * 1e-6.
Proof.
  intros H. apply Rmult_lt_compat_r; [lra|]. apply exp_increasing. unfold Rdiv. apply Rmult_lt_compat_r; [|exact H]. apply Rinv_0_lt_compat. unfold big. lra.
Qed.
Lemma rises_T z t tr a b T1 T2 n : same_table z t -> square 9 t -> positive2 9 tr a b 1000 0 18421 1000 (d_x z) = true ->
  IZR a / IZR 1000 <= lT T1 -> lT T1 < lT T2 -> lT T2 <= (IZR a + IZR b) / IZR 1000 ->
  exists r1 r2, evaluate 9 9 t T1 n = Some r1 /\ evaluate 9 9 t T2 n = Some r2 /\ r1 < r2.
Proof.
  intros L Q P H1 H2 H3. do 2 eexists. rewrite !(fit_value z t) by assumption. split; [reflexivity|]. split; [reflexivity|].
  apply value_lt. apply rises_x; [exact H2|]. intros c Hc. apply (positive2_sound _ _ _ _ _ _ _ _ _ c (lN n) P); [lra|apply lN_range].
Qed.
Lemma falls_T z t tr a b T1 T2 n : same_table z t -> square 9 t -> positive2 9 tr a b 1000 0 18421 1000 (neg2 (d_x z)) = true ->
  IZR a / IZR 1000 <= lT T1 -> lT T1 < lT T2 -> lT T2 <= (IZR a + IZR b) / IZR 1000 ->
  exists r1 r2, evaluate 9 9 t T1 n = Some r1 /\ evaluate 9 9 t T2 n = Some r2 /\ r2 < r1.
Proof.
  intros L Q P H1 H2 H3. do 2 eexists. rewrite !(fit_value z t) by assumption. split; [reflexivity|]. split; [reflexivity|].
  apply value_lt. apply falls_x; [exact H2|]. intros c Hc. apply (positive2_sound _ _ _ _ _ _ _ _ _ c (lN n) P); [lra|apply lN_range].
Qed.
Lemma rises_N z t tr a b n1 n2 T : same_table z t -> square 9 t -> positive2 8 tr a b 1000 0 18421 1000 (d_y z) = true ->
  IZR a / IZR 1000 <= lT T <= (IZR a + IZR b) / IZR 1000 -> lN n1 < lN n2 ->
  exists r1 r2, evaluate 9 9 t T n1 = Some r1 /\ evaluate 9 9 t T n2 = Some r2 /\ r1 < r2.
Proof.
  intros L Q P H1 H2. do 2 eexists. rewrite !(fit_value z t) by assumption. split; [reflexivity|]. split; [reflexivity|].
  apply value_lt. apply rises_y; [exact H2|]. intros c Hc. pose proof (lN_range n1). pose proof (lN_range n2). apply (positive2_sound _ _ _ _ _ _ _ _ _ (lT T) c P); [exact H1|lra].
Qed.
(** rad - rate - k (k in units of 1e-30). *)
Definition ratio (rad rate : list (list Z)) (k : Z) : list (list Z) := padd radd (padd radd rad (neg2 rate)) [[(- k)%Z]].
Lemma ratio_val rad rate k x y : val2 (ratio rad rate k) x y = val2 rad x y - val2 rate x y - IZR k.
Proof.
  unfold ratio. rewrite !val2_padd, neg2_val. assert (E : val2 [[(- k)%Z]] x y = - IZR k).
  { unfold val2, rowval, zrow. cbn [map heval List.length pow]. rewrite opp_IZR. ring. }
  rewrite E. ring.
Qed.
Lemma ratio_above zr ze r e tr a b k E T n : same_table zr r -> same_table ze e -> square 9 r -> square 9 e ->
  positive2 9 tr a b 1000 0 18421 1000 (ratio ze zr k) = true -> E <= exp (IZR k / big) ->
  IZR a / IZR 1000 <= lT T <= (IZR a + IZR b) / IZR 1000 ->
  exists vr ve, evaluate 9 9 r T n = Some vr /\ evaluate 9 9 e T n = Some ve /\ E * vr < ve.
Proof.
  intros L1 L2 Q1 Q2 P HE HT. do 2 eexists. rewrite (fit_value zr r T n L1 Q1), (fit_value ze e T n L2 Q2). split; [reflexivity|]. split; [reflexivity|].
  pose proof (positive2_sound _ _ _ _ _ _ _ _ _ (lT T) (lN n) P HT (lN_range n)) as V. rewrite ratio_val in V.
  set (p := val2 zr _ _) in *. set (q := val2 ze _ _) in *.
  apply Rle_lt_trans with (exp (IZR k / big) * (exp (p / big) * 1e-6)).
  - apply Rmult_le_compat_r; [|exact HE]. pose proof (exp_pos (p / big)). lra.
  - rewrite <- Rmult_assoc, <- exp_plus. replace (IZR k / big + p / big) with ((IZR k + p) / big) by (unfold Rdiv; ring). apply value_lt. lra.
Qed.
