(** Lemmas for RatesProps.v: charge exchange, the legacy ionisation rate, and whole reactions. *)

From Coq Require Import List Bool String ZArith Reals Lra Lia Arith.
From Verif Require Import OptionsModel StateMonad StateSpec StateMonadProofs LimitersModel LimitersProofs ReactionsModel ReactionsSpec ReactionsTableProofs ReactionsProofs ReactionsLaws AmjuelTables
  NumericProofs PolyCheck RatesTables RatesProofs RatesLaws RatesFits RatesSpec.
From Verif Require RadiationModel.
Import ListNotations.
Open Scope R_scope.

Definition zcx : list Z := [-18502800000000000000000000000000; 370840900000000000000000000000; 7949876000000000000000000000; -614376900000000000000000000; -469896900000000000000000000; -409680700000000000000000000; 144038200000000000000000000; -15142430000000000000000000; 512243500000000000000000]%Z.
Definition zup : list Z := [-32713970000000000000000000000000; 13536560000000000000000000000000; -5739329000000000000000000000000; 1563155000000000000000000000000; -287705600000000000000000000000; 34825600000000000000000000000; -2631976000000000000000000000; 111954400000000000000000000; -2039150000000000000000000]%Z.

Lemma cx_poly_value bs l : forall p acc, cx_poly bs l p acc = acc + p * heval bs l 1.
Proof. induction bs as [|b bs IH]; intros p acc; cbn [cx_poly]; [cbn [heval]; ring|]. rewrite IH, heval_1. ring. Qed.
Lemma zcx_value x : rowval x zcx = big * cx_poly cx_coefs x x (-18.5028).
Proof.
  rewrite cx_poly_value, <- heval_1. apply same_row_val. unfold same_row, zcx, cx_coefs. repeat (apply Forall2_cons; [unfold big; lra|]). apply Forall2_nil.
Qed.
Lemma poly_from_value cs x : forall i acc, RadiationModel.poly_from i cs x acc = acc + x ^ i * heval cs x 1.
Proof. induction cs as [|c cs IH]; intros i acc; cbn [RadiationModel.poly_from]; [cbn [heval]; ring|]. rewrite IH, heval_1. cbn [pow]. ring. Qed.
Lemma zup_value T : RadiationModel.updated_ionisation T = exp (rowval (ln T) zup / big) * 1e-6.
Proof.
  unfold RadiationModel.updated_ionisation, RadiationModel.poly. rewrite poly_from_value. f_equal. f_equal.
  rewrite (same_row_val zup [- (3.271397e1); 1.353656e1; - (5.739329); 1.563155; - (2.877056e-1); 3.482560e-2; - (2.631976e-3); 1.119544e-4; - (2.039150e-6)] (ln T)).
  - rewrite pow_O, Rplus_0_l, Rmult_1_l. unfold big. field.
  - unfold same_row, zup. repeat (apply Forall2_cons; [unfold big; lra|]). apply Forall2_nil.
Qed.
Lemma rises_1 p fuel a b x1 x2 : positive1 fuel a b 1000 (deriv Z.add 0%Z p) = true -> IZR a / IZR 1000 <= x1 -> x1 < x2 -> x2 <= (IZR a + IZR b) / IZR 1000 -> rowval x1 p < rowval x2 p.
Proof.
  intros P H1 H2 H3. unfold rowval. apply rises_by_derivative; [exact H2|]. intros c Hc.
  pose proof (positive1_sound fuel a b 1000 _ c P ltac:(lra)) as V. unfold rowval, zrow in V.
  now rewrite (deriv_map IZR Z.add Rplus 0%Z 0 zrow_add eq_refl) in V.
Qed.

(** ** Charge exchange *)
Lemma ln_007 : -2.66 <= ln 0.07.
Proof. replace 0.07 with (/ (100 / 7)) by lra. rewrite ln_Rinv by lra. assert (ln (100 / 7) <= 2.66) by logle 2660%Z 1000%Z 100%Z 7%Z. lra. Qed.
Lemma ln_5000 : ln 5000 <= 8.518. Proof. logle 8518%Z 1000%Z 5000%Z 1%Z. Qed.
Lemma sigmav_lt nm m x y : 0 < Nnorm nm -> 0 < FreqNorm nm -> 0 < m -> cx_poly cx_coefs (ln x) (ln x) (-18.5028) < cx_poly cx_coefs (ln y) (ln y) (-18.5028) -> cx_sigmav nm x m < cx_sigmav nm y m.
Proof.
  intros HN HF Hm H. unfold cx_sigmav. rewrite !Rmult_assoc. apply Rmult_lt_compat_r.
  - apply Rmult_lt_0_compat; [|exact Hm]. apply Rmult_lt_0_compat; [apply Rmult_lt_0_compat; lra|now apply Rinv_0_lt_compat].
  - now apply exp_increasing.
Qed.
Lemma cx_rises nm m T1 T2 : 0 < Nnorm nm -> 0 < FreqNorm nm -> 0 < m -> 0.07 <= T1 -> T1 < T2 -> T2 <= 5000 -> cx_sigmav nm T1 m < cx_sigmav nm T2 m.
Proof.
  intros HN HF Hm H1 H2 H3. apply sigmav_lt; try assumption.
  assert (P : positive1 8 (-2660) 11178 1000 (deriv Z.add 0%Z zcx) = true) by (vm_compute; reflexivity).
  pose proof (ln_mono 0.07 T1 ltac:(lra) H1). pose proof ln_007. pose proof (ln_mono T2 5000 ltac:(lra) H3). pose proof ln_5000.
  pose proof (rises_1 zcx 8 (-2660) 11178 (ln T1) (ln T2) P ltac:(lra) (ln_increasing T1 T2 ltac:(lra) H2) ltac:(lra)) as V.
  rewrite !zcx_value in V. apply Rmult_lt_reg_l with big; [unfold big; lra|exact V].
Qed.
Lemma cx_cold nm m : 0 < Nnorm nm -> 0 < FreqNorm nm -> 0 < m -> 3 * cx_sigmav nm 1 m < cx_sigmav nm 0.01 m.
Proof.
  intros HN HF Hm. pose proof (cx_poly_value cx_coefs) as CV.
  assert (L : IZR (-4606) / IZR 1000 <= ln 0.01 <= (IZR (-4606) + IZR 2) / IZR 1000).
  { replace 0.01 with (/ (10 * 10)) by lra. rewrite ln_Rinv, ln_mult by lra. pose proof ln10_le. pose proof ln10_ge. lra. }
  assert (P : positive1 4 (-4606) 2 1000 (padd Z.add zcx [17300000000000000000000000000000]%Z) = true) by (vm_compute; reflexivity).
  pose proof (positive1_sound _ _ _ _ _ (ln 0.01) P L) as V. unfold rowval, zrow in V. rewrite (padd_map IZR Z.add Rplus zrow_add), heval_padd in V. fold (zrow zcx) in V.
  change (heval (zrow zcx) (ln 0.01) 1) with (rowval (ln 0.01) zcx) in V. rewrite zcx_value in V. cbn [map heval List.length] in V. rewrite pow_O in V.
  unfold cx_sigmav. rewrite ln_1. assert (Z0 : cx_poly cx_coefs 0 0 (-18.5028) = -18.5028) by (rewrite cx_poly_value; ring). rewrite Z0.
  set (p := cx_poly cx_coefs (ln 0.01) (ln 0.01) (-18.5028)) in *. assert (H : -17.3 < p) by (unfold big in V; lra).
  assert (E : 3 <= exp 1.2). { replace 1.2 with (IZR 12 / IZR 10) by lra. replace 3 with (IZR 3 / IZR 1) by lra. apply (exp_ge_check 40 (10 ^ 40)); check. }
  assert (E2 : 3 * exp (-18.5028) < exp p).
  { apply Rle_lt_trans with (exp 1.2 * exp (-18.5028)); [apply Rmult_le_compat_r; [left; apply exp_pos|exact E]|]. rewrite <- exp_plus. apply exp_increasing. lra. }
  rewrite !Rmult_assoc, <- (Rmult_assoc 3). apply Rmult_lt_compat_r; [|exact E2].
  apply Rmult_lt_0_compat; [|exact Hm]. apply Rmult_lt_0_compat; [apply Rmult_lt_0_compat; lra|now apply Rinv_0_lt_compat].
Qed.

(** ** The legacy ionisation rate *)
Lemma ln_13 : ln 130 <= 4.87. Proof. logle 4870%Z 1000%Z 130%Z 1%Z. Qed.
Lemma up_rises T1 T2 : 0.1 <= T1 -> T1 < T2 -> T2 <= 130 -> RadiationModel.updated_ionisation T1 < RadiationModel.updated_ionisation T2.
Proof.
  intros H1 H2 H3. rewrite !zup_value. apply value_lt.
  assert (P : positive1 8 (-2303) 7173 1000 (deriv Z.add 0%Z zup) = true) by (vm_compute; reflexivity).
  pose proof (ln_mono 0.1 T1 ltac:(lra) H1). rewrite ln_tenth in *. pose proof ln10_le. pose proof (ln_mono T2 130 ltac:(lra) H3). pose proof ln_13.
  apply (rises_1 zup 8 (-2303) 7173 _ _ P); [lra|apply ln_increasing; lra|lra].
Qed.
(** Against the fit of AMJUEL at low density. *)
Lemma val2_0 z x : val2 z x 0 = rowval x (map (hd 0%Z) z).
Proof.
  unfold val2, rowval, zrow. rewrite map_map. f_equal. apply map_ext. intros r. destruct r as [|a r]; cbn [map hd heval]; [reflexivity|]. rewrite pow1. ring.
Qed.
Lemma low_density n : n <= 1e14 -> lN n = 0.
Proof. intros H. unfold lN, clamp. rewrite Rmin_right, Rmax_left by lra. replace (1e14 / 1e14) with 1 by lra. apply ln_1. Qed.
Definition zoff (k : Z) : list Z := [k].
Lemma rowval_padd x p q : rowval x (padd Z.add p q) = rowval x p + rowval x q.
Proof. unfold rowval, zrow. rewrite (padd_map IZR Z.add Rplus zrow_add). apply heval_padd. Qed.
Lemma rowval_one x k : rowval x [k] = IZR k. Proof. unfold rowval, zrow. cbn [map heval List.length]. rewrite pow_O. ring. Qed.
Lemma up_agrees T n : 1 <= T <= 1e4 -> n <= 1e14 ->
  exists r, evaluate 9 9 hyd_ionisation_rate_coefs T n = Some r /\ 0.6 * r < RadiationModel.updated_ionisation T < r.
Proof.
  intros HT Hn. eexists. rewrite (fit_value zion _ _ _ zion_link sq_ion). split; [reflexivity|]. rewrite (low_density n Hn), lT_inside by lra.
  rewrite zup_value, val2_0. set (x := ln T). set (zi := map (hd 0%Z) zion).
  assert (L : IZR 0 / IZR 1000 <= x <= (IZR 0 + IZR 9211) / IZR 1000).
  { pose proof (ln_mono 1 T ltac:(lra) ltac:(lra)) as A1. pose proof (ln_mono T 1e4 ltac:(lra) ltac:(lra)) as A2. rewrite ln_1 in A1. pose proof ln_1e4. unfold x. lra. }
  assert (P1 : positive1 12 0 9211 1000 (padd Z.add zi (rowscale (-1) zup)) = true) by (vm_compute; reflexivity).
  assert (P2 : positive1 12 0 9211 1000 (padd Z.add (padd Z.add zup (rowscale (-1) zi)) [510000000000000000000000000000]%Z) = true) by (vm_compute; reflexivity).
  pose proof (positive1_sound _ _ _ _ _ x P1 L) as V1. pose proof (positive1_sound _ _ _ _ _ x P2 L) as V2.
  rewrite rowval_padd, rowval_scale in V1. rewrite !rowval_padd, rowval_scale, rowval_one in V2. unfold rscale in V1, V2. change (IZR (-1)) with (-1) in V1, V2.
  split.
  - assert (E : 0.6 <= exp (- 0.51)).
    { apply Rmult_le_reg_r with (exp 0.51); [apply exp_pos|]. rewrite <- exp_plus. replace (- 0.51 + 0.51) with 0 by lra. rewrite exp_0.
      assert (exp 0.51 <= 5 / 3). { replace 0.51 with (IZR 51 / IZR 100) by lra. apply (exp_le_check 40 (10 ^ 40)); check. } lra. }
    apply Rle_lt_trans with (exp (- 0.51) * (exp (rowval x zi / big) * 1e-6)).
    + apply Rmult_le_compat_r; [|exact E]. pose proof (exp_pos (rowval x zi / big)). lra.
    + rewrite <- Rmult_assoc, <- exp_plus. replace (- 0.51 + rowval x zi / big) with ((rowval x zi - 510000000000000000000000000000) / big) by (unfold big; lra). apply value_lt. lra.
  - apply value_lt. lra.
Qed.
Lemma up_cold : exists T n r, 0 < T /\ n <= 1e14 /\ evaluate 9 9 hyd_ionisation_rate_coefs T n = Some r /\ 1e8 * r < RadiationModel.updated_ionisation T.
Proof.
  exists 0.1, 1e14. eexists. split; [lra|]. split; [lra|]. rewrite (fit_value zion _ _ _ zion_link sq_ion). split; [reflexivity|].
  rewrite (low_density 1e14) by lra. pose proof lT_cold as L. rewrite lT_inside in * by lra. rewrite zup_value, val2_0. set (x := ln 0.1) in *. set (zi := map (hd 0%Z) zion).
  assert (P : positive1 12 (-2303) 1 1000 (padd Z.add (padd Z.add zup (rowscale (-1) zi)) [-18450000000000000000000000000000]%Z) = true) by (vm_compute; reflexivity).
  pose proof (positive1_sound _ _ _ _ _ x P L) as V. rewrite !rowval_padd, rowval_scale, rowval_one in V. unfold rscale in V. change (IZR (-1)) with (-1) in V.
  assert (E : 1e8 <= exp 18.45). { replace 18.45 with (IZR 1845 / IZR 100) by lra. replace 1e8 with (IZR 100000000 / IZR 1) by lra. apply (exp_ge_check 40 (10 ^ 40)); check. }
  apply Rle_lt_trans with (exp 18.45 * (exp (rowval x zi / big) * 1e-6)).
  - apply Rmult_le_compat_r; [|exact E]. pose proof (exp_pos (rowval x zi / big)). lra.
  - rewrite <- Rmult_assoc, <- exp_plus. replace (18.45 + rowval x zi / big) with ((rowval x zi + 18450000000000000000000000000000) / big) by (unfold big; lra). apply value_lt. lra.
Qed.

(** ** Whole reactions *)
Open Scope string_scope.
Lemma average_le c f g l : 0 < c_Jm c -> 0 < c_J c -> 0 < c_Jp c ->
  let at_ (h : triple -> R) := map (fun kv => h (mkTriple (c_nm c (fst kv)) (snd kv) (c_np c (fst kv)))) l in
  let ed := fun a => c_edges c (t_m a) (t_c a) (t_p a) in
  f (at_ t_c) <= g (at_ t_c) -> f (at_ (fun a => fst (ed a))) <= g (at_ (fun a => fst (ed a))) -> f (at_ (fun a => snd (ed a))) <= g (at_ (fun a => snd (ed a))) ->
  average c f l <= average c g l.
Proof.
  intros A B C at_ ed H1 H2 H3. unfold average, cellAverage. rewrite !map_map. fold (at_ t_c). fold (at_ (fun a => fst (ed a))). fold (at_ (fun a => snd (ed a))).
  assert (P1 : 0 <= (c_J c + c_Jm c) / (12 * c_J c)) by (apply Rlt_le, Rdiv_lt_0_compat; lra).
  assert (P2 : 0 <= (c_J c + c_Jp c) / (12 * c_J c)) by (apply Rlt_le, Rdiv_lt_0_compat; lra).
  apply Rplus_le_compat; [apply Rplus_le_compat|]; apply Rmult_le_compat_l; try assumption; lra.
Qed.
Lemma average_scale c k f l : average c (fun a => k * f a) l = k * average c f l.
Proof. unfold average, cellAverage. ring. Qed.
(** Fits at the same point. *)
Lemma ion_energy_fit T n : 13.6 * amjuel_fit 9 (entry hyd_ionisation_rate_coefs) (clamp 0.1 1e4 T) (clamp 1e14 1e22 n)
  < amjuel_fit 9 (entry hyd_ionisation_radiation_coefs) (clamp 0.1 1e4 T) (clamp 1e14 1e22 n).
Proof.
  destruct (ion_energy T n) as (r & e & H1 & H2 & H3).
  rewrite (evaluate_fit 9 _ (entry hyd_ionisation_rate_coefs)) in H1 by (intros i j; apply coef_square; apply sq_ion).
  rewrite (evaluate_fit 9 _ (entry hyd_ionisation_radiation_coefs)) in H2 by (intros i j; apply coef_square; apply sq_ion_rad).
  injection H1 as <-. injection H2 as <-. exact H3.
Qed.
Lemma source_energy nm c el fr m s : 0 < c_Jm c -> 0 < c_J c -> 0 < c_Jp c -> 0 < Tnorm nm -> 0 < Nnorm nm -> 0 < FreqNorm nm -> 0 <= m -> densities_not_negative c el fr s ->
  13.6 / Tnorm nm * amjuel_source nm c el fr 9 hyd_ionisation_rate_coefs (FreqNorm nm) m s
  <= amjuel_source nm c el fr 9 hyd_ionisation_radiation_coefs (Tnorm nm * FreqNorm nm) m s.
Proof.
  intros J1 J2 J3 HT HN HF Hm D. unfold amjuel_source. rewrite <- average_scale.
  destruct (D el (or_introl eq_refl)) as (E1 & E2 & E3). destruct (D fr (or_intror eq_refl)) as (F1 & F2 & F3).
  assert (Q : forall ne n1 te, 0 <= ne -> 0 <= n1 ->
    13.6 / Tnorm nm * (ne * n1 * amjuel_fit 9 (entry hyd_ionisation_rate_coefs) (clamp 0.1 1e4 (te * Tnorm nm)) (clamp 1e14 1e22 (ne * Nnorm nm)) * Nnorm nm / FreqNorm nm * m)
    <= ne * n1 * amjuel_fit 9 (entry hyd_ionisation_radiation_coefs) (clamp 0.1 1e4 (te * Tnorm nm)) (clamp 1e14 1e22 (ne * Nnorm nm)) * Nnorm nm / (Tnorm nm * FreqNorm nm) * m).
  { intros ne n1 te Hne Hn1. pose proof (ion_energy_fit (te * Tnorm nm) (ne * Nnorm nm)) as K.
    set (a := amjuel_fit 9 (entry hyd_ionisation_rate_coefs) _ _) in *. set (b := amjuel_fit 9 (entry hyd_ionisation_radiation_coefs) _ _) in *.
    set (w := ne * n1 * Nnorm nm / (Tnorm nm * FreqNorm nm) * m).
    assert (W : 0 <= w). { unfold w, Rdiv. repeat apply Rmult_le_pos; try lra. left. apply Rinv_0_lt_compat. now apply Rmult_lt_0_compat. }
    replace (13.6 / Tnorm nm * (ne * n1 * a * Nnorm nm / FreqNorm nm * m)) with (w * (13.6 * a)) by (unfold w; set (k := 13.6); field; lra).
    replace (ne * n1 * b * Nnorm nm / (Tnorm nm * FreqNorm nm) * m) with (w * b) by (unfold w; field; lra).
    apply Rmult_le_compat_l; lra. }
  apply average_le; try assumption; cbn [map fst snd t_m t_c t_p]; apply Q; assumption.
Qed.
Lemma ionisation_cools nm c iso m (s s' : State * Datatypes.unit) out : 0 < c_Jm c -> 0 < c_J c -> 0 < c_Jp c -> 0 < Tnorm nm -> 0 < Nnorm nm -> 0 < FreqNorm nm -> 0 <= m ->
  densities_not_negative c "e" iso s -> NoDup ["e"; iso; iso ++ "+"] ->
  finishes (hyd_ionisation nm c iso hyd_ionisation_rate_coefs hyd_ionisation_radiation_coefs m m) s s' out ->
  energy_gain s s' "e" <= - (13.6 / Tnorm nm * change s s' (iso ++ "+") "density_source").
Proof.
  intros J1 J2 J3 HT HN HF Hm D ND F. unfold hyd_ionisation in F.
  pose proof (amjuel_energy _ _ _ _ _ _ _ _ _ _ _ _ _ _ ND sq_ion_rad F) as (_ & _ & _ & _ & G).
  pose proof (amjuel_rate_is_fit _ _ _ _ _ _ _ _ _ _ _ _ _ _ ND sq_ion F) as E.
  rewrite G, E. pose proof (source_energy nm c "e" iso m s J1 J2 J3 HT HN HF Hm D). set (A := amjuel_source nm c "e" iso 9 hyd_ionisation_rate_coefs (FreqNorm nm) m s) in *.
  replace (0 / Tnorm nm * A * m) with 0 by (unfold Rdiv; ring). lra.
Qed.
