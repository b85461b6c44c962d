(** Boundaries without flow, neutral boundaries and recycling. *)

From Coq Require Import List Bool ZArith Reals String Lra Lia.
From Verif Require Import StateMonad StateMonadProofs ParallelModel ParallelSpec ParallelProofs ParallelLaws ParallelHeating LimitersModel LimitersProofs WallsModel WallsSpec.
Import ListNotations.
Open Scope R_scope.

Lemma upd_same a j x : upd a j x j = x. Proof. unfold upd. now rewrite Z.eqb_refl. Qed.
Lemma upd_other a j x i : i <> j -> upd a j x i = a i. Proof. intros H. unfold upd. now rewrite (proj2 (Z.eqb_neq i j) H). Qed.

(** ** No flow *)

Section NoFlow.
  Variables (m : mesh) (n : nat).
  Hypothesis M : mesh_ok m n.
  Let span : (ystart m <= yend m)%Z /\ yend m = (ystart m + Z.of_nat n - 1)%Z.
  Proof using M. destruct M as (H1 & H2 & _). lia. Qed.

  Lemma noflow_inside lower upper f j : (ystart m <= j <= yend m)%Z -> noflow_scalar m lower upper f j = f j /\ noflow_flow m lower upper f j = f j.
  Proof using M.
    intros Hj. unfold noflow_scalar, noflow_flow.
    destruct (lower && at_lower m)%bool, (upper && at_upper m)%bool; rewrite ?upd_other by lia; auto.
  Qed.
  Lemma noflow_low upper f : at_lower m = true ->
    noflow_scalar m true upper f (ystart m - 1) = f (ystart m) /\ noflow_flow m true upper f (ystart m - 1) = - f (ystart m).
  Proof using M.
    intros H. unfold noflow_scalar, noflow_flow. rewrite H. cbn [andb]. destruct (upper && at_upper m)%bool; rewrite ?(upd_other _ (yend m + 1)) by (destruct span; lia); rewrite !upd_same; auto.
  Qed.
  Lemma noflow_high lower f : at_upper m = true ->
    noflow_scalar m lower true f (yend m + 1) = f (yend m) /\ noflow_flow m lower true f (yend m + 1) = - f (yend m).
  Proof using M.
    intros H. unfold noflow_scalar, noflow_flow. rewrite H. cbn [andb]. rewrite !upd_same.
    destruct (lower && at_lower m)%bool; rewrite ?(upd_other _ (ystart m - 1)) by (destruct span; lia); auto.
  Qed.
  Lemma noflow_face_low upper v : at_lower m = true -> face_value (noflow_flow m true upper v) (ystart m) = 0.
  Proof using M.
    intros H. unfold face_value. destruct (noflow_low upper v H) as [_ ->]. destruct (noflow_inside true upper v (ystart m)) as [_ ->]; [destruct span; lia|]. lra.
  Qed.
  Lemma noflow_face_high lower v : at_upper m = true -> face_value (noflow_flow m lower true v) (yend m + 1) = 0.
  Proof using M.
    intros H. unfold face_value. replace (yend m + 1 - 1)%Z with (yend m) by lia. destruct (noflow_high lower v H) as [_ ->].
    destruct (noflow_inside lower true v (yend m)) as [_ ->]; [destruct span; lia|]. lra.
  Qed.
End NoFlow.

Lemma noflow_conserves edges m c n f v ws : mesh_ok m n -> positive_metric c -> closed_low m = true -> closed_high m = true ->
  (exists r w, Div_par_mod edges m c (noflow_scalar m true true f) (noflow_flow m true true v) ws true = Some (r, w) /\ integral c (ystart m) n r = 0) /\
  (exists r, Div_par_fvv edges m c (noflow_scalar m true true f) (noflow_flow m true true v) ws true = Some r /\ integral c (ystart m) n r = 0).
Proof.
  intros M P CL CH.
  pose proof (noflow_face_low m n M true v CL) as FL. pose proof (noflow_face_high m n M true v CH) as FH.
  assert (E : (yend m + 1 = ystart m + Z.of_nat n)%Z) by (destruct M as (_ & H & _); lia). rewrite E in FH.
  split.
  - destruct (mod_closed edges m c n (noflow_scalar m true true f) (noflow_flow m true true v) ws M P CL CH) as (r & w & E1 & E2).
    exists r, w. split; [exact E1|]. rewrite E2. unfold end_particle_flux. rewrite FL, FH. ring.
  - destruct (fvv_closed edges m c n (noflow_scalar m true true f) (noflow_flow m true true v) ws M P CL CH) as (r & E1 & E2).
    exists r. split; [exact E1|]. rewrite E2. unfold end_momentum_flux. rewrite FL, FH. ring.
Qed.

(** One end only. *)
Lemma noflow_one_end edges m n f v ws lower upper : mesh_ok m n ->
  (lower = true -> closed_low m = true ->
     mod_line edges m true (noflow_scalar m lower upper f) (noflow_flow m lower upper v) ws n (ystart m) = 0 /\
     fvv_line edges m true (noflow_scalar m lower upper f) (noflow_flow m lower upper v) ws n (ystart m) = 0) /\
  (upper = true -> closed_high m = true ->
     mod_line edges m true (noflow_scalar m lower upper f) (noflow_flow m lower upper v) ws n (yend m + 1) = 0 /\
     fvv_line edges m true (noflow_scalar m lower upper f) (noflow_flow m lower upper v) ws n (yend m + 1) = 0).
Proof.
  intros M. assert (E : (yend m + 1 = ystart m + Z.of_nat n)%Z) by (destruct M as (_ & H & _); lia). split; intros -> C.
  - unfold mod_line, fvv_line, line_flux. rewrite C, Z.eqb_refl. cbn [andb orb]. unfold mod_end, fvv_end, end_particle_flux, end_momentum_flux.
    rewrite (noflow_face_low m n M upper v C). split; ring.
  - unfold mod_line, fvv_line, line_flux. rewrite C, <- E, Z.eqb_refl, andb_true_r, orb_true_r. unfold mod_end, fvv_end, end_particle_flux, end_momentum_flux.
    rewrite (noflow_face_high m n M lower v C). split; ring.
Qed.

(** Momentum with the default fix_momentum_boundary_flux = false. *)
Lemma noflow_momentum_leaks : exists r,
  Div_par_fvv upwind_edges mesh1 unit_coords (noflow_scalar mesh1 true true (fun _ => 1)) (noflow_flow mesh1 true true (fun _ => 1)) (fun _ => 0) false = Some r /\
  integral unit_coords (ystart mesh1) 1 r = 2.
Proof.
  destruct (fvv_integral upwind_edges mesh1 unit_coords 1 (noflow_scalar mesh1 true true (fun _ => 1)) (noflow_flow mesh1 true true (fun _ => 1)) (fun _ => 0) false mesh1_ok unit_positive) as (r & E & H).
  exists r. split; [exact E|]. rewrite H, !unit_area. unfold fvv_line, line_flux, fvv_end. cbn [closed_low closed_high mesh1 firstY lastY periodicY ystart negb andb Z.of_nat]. zify_idx.
  cbn [Z.eqb Pos.eqb orb]. unfold fvv_free_high, fvv_free_low, below, above, face_value, upwind_edges, noflow_scalar, noflow_flow, upd, at_lower, at_upper. cbn [fst snd mesh1 firstY lastY periodicY ystart yend negb andb]. zify_idx.
  cbn [Z.eqb Pos.eqb]. unfold Rmax, Rabs. cases_R; lra.
Qed.

(** ** Neutral boundaries *)

Lemma v_th_flux T A : 0 <= T -> 0 < A -> v_th T A = sqrt (T / (2 * PI * A)).
Proof.
  intros HT HA. unfold v_th. pose proof PI_RGT_0. replace 0.25 with (sqrt (/ 16)).
  - rewrite <- sqrt_mult_alt by lra. f_equal. field. lra.
  - replace (/ 16) with (0.25 * 0.25) by lra. apply sqrt_square. lra.
Qed.
Lemma v_th_nonneg T A : 0 <= v_th T A. Proof. unfold v_th. pose proof (sqrt_pos (8 * T / (PI * A))). lra. Qed.

Lemma wall_q_heat w Tnorm A n T : 0 <= T -> 0 < A ->
  wall_q w Tnorm A n T = heat_to_wall A (energy_refl_factor w) (fast_refl_fraction w) (3 / Tnorm) n T.
Proof. intros HT HA. unfold wall_q, heat_to_wall, one_way_heat, one_way_flux. rewrite v_th_flux by assumption. ring. Qed.

Lemma heat_sign A kept fast cold n T : 0 < T -> 0 < A -> 0 < n ->
  (0 <= heat_to_wall A kept fast cold n T <-> (1 - fast) * cold <= 2 * T * (1 - fast * kept)).
Proof.
  intros HT HA Hn. unfold heat_to_wall, one_way_heat, one_way_flux. set (v := sqrt _).
  assert (Hv : 0 < n * v). { apply Rmult_lt_0_compat; [exact Hn|]. apply sqrt_lt_R0. apply Rdiv_lt_0_compat; [exact HT|]. pose proof PI_RGT_0. apply Rmult_lt_0_compat; lra. }
  set (x := n * v) in *.
  replace (2 * T * x - (fast * kept * (2 * T * x) + (1 - fast) * cold * x)) with (x * (2 * T * (1 - fast * kept) - (1 - fast) * cold)) by ring.
  split; intros H.
  - assert (0 <= 2 * T * (1 - fast * kept) - (1 - fast) * cold); [|lra]. apply (Rmult_le_reg_l x); [exact Hv|]. lra.
  - apply Rmult_le_pos; lra.
Qed.
Lemma heat_nonneg A kept fast cold n T : 0 <= T -> 0 < A -> 0 <= n -> 0 <= kept <= 1 -> 0 <= fast <= 1 -> cold <= 2 * T ->
  0 <= heat_to_wall A kept fast cold n T.
Proof.
  intros HT HA Hn Hk Hf Hc. unfold heat_to_wall, one_way_heat, one_way_flux. set (v := sqrt _). assert (Hv : 0 <= n * v) by (apply Rmult_le_pos; [exact Hn|apply sqrt_pos]).
  set (x := n * v) in *.
  replace (2 * T * x - (fast * kept * (2 * T * x) + (1 - fast) * cold * x)) with (x * ((1 - fast) * (2 * T - cold) + fast * (1 - kept) * (2 * T))) by ring.
  apply Rmult_le_pos; [exact Hv|]. apply Rplus_le_le_0_compat; repeat apply Rmult_le_pos; lra.
Qed.

Lemma full_area_pos c i g : positive_cells c -> 0 < full_area c i g.
Proof.
  intros [P Q]. destruct (P i) as (P1 & P2 & P3), (P g) as (P4 & P5 & P6), (Q i) as (Q1 & Q2), (Q g) as (Q3 & Q4). unfold full_area.
  pose proof (sqrt_lt_R0 _ P2). pose proof (sqrt_lt_R0 _ P5). repeat apply Rmult_lt_0_compat; try lra. apply Rinv_0_lt_compat; lra.
Qed.
Lemma full_volume_pos c i : positive_cells c -> 0 < full_volume c i.
Proof. intros [P Q]. destruct (P i) as (P1 & P2 & P3), (Q i) as (Q1 & Q2). unfold full_volume. repeat apply Rmult_lt_0_compat; assumption. Qed.

(** One end: all of it. *)
Lemma neutral_target_effect w Tnorm A c i g s : positive_cells c -> i <> g -> 0 <= Tn s i -> 0 < A ->
  let s' := neutral_target w Tnorm A c i g s in
  Nn s' g = Nn s i /\ Pn s' g = Pn s i /\ Tn s' g = Tn s i /\ Vn s' g = - Vn s i /\ NVn s' g = - NVn s i /\
  (forall j, j <> g -> Nn s' j = Nn s j /\ Pn s' j = Pn s j /\ Tn s' j = Tn s j /\ Vn s' j = Vn s j /\ NVn s' j = NVn s j) /\
  (forall j, j <> i -> nE s' j = nE s j /\ target_E s' j = target_E s j) /\
  full_volume c i * (nE s' i - nE s i) = - (full_area c i g * heat_to_wall A (energy_refl_factor w) (fast_refl_fraction w) (3 / Tnorm) (Nn s i) (Tn s i)) /\
  target_E s' i - target_E s i = nE s' i - nE s i.
Proof.
  intros P Hig HT HA s'. unfold s', neutral_target. cbn [Nn Pn Tn Vn NVn nE target_E]. rewrite !upd_same.
  repeat split; try (intros; rewrite ?upd_other by (assumption || congruence); try reflexivity); try (rewrite upd_other by assumption; reflexivity).
  - replace (0.5 * (Nn s i + Nn s i)) with (Nn s i) by lra. replace (0.5 * (Tn s i + Tn s i)) with (Tn s i) by lra.
    rewrite wall_q_heat by assumption. set (q := heat_to_wall _ _ _ _ _ _). unfold full_area, full_volume.
    destruct P as [P Q]. destruct (P i) as (P1 & P2 & P3), (P g) as (P4 & P5 & P6), (Q i) as (Q1 & Q2). pose proof (sqrt_lt_R0 _ P2). pose proof (sqrt_lt_R0 _ P5).
    replace 0.5 with (/ 2) by lra. field. repeat split; lra.
  - ring.
Qed.

(** Radial walls. *)
Lemma neutral_wall_effect w Tnorm A c N T i g E : 0 < x_J c i -> 0 < x_dx c i -> 0 < x_dy c i -> 0 < x_dz c i -> 0 <= (T g + T i) / 2 -> 0 < A ->
  let E' := neutral_wall w Tnorm A c N T i g E in
  (forall j, j <> i -> E' j = E j) /\
  x_volume c i * (E' i - E i) = - (radial_area c i g * heat_to_wall A (energy_refl_factor w) (fast_refl_fraction w) (3 / Tnorm) ((N g + N i) / 2) ((T g + T i) / 2)).
Proof.
  intros H1 H2 H3 H4 HT HA E'. unfold E', neutral_wall. split; [intros j Hj; now rewrite upd_other|]. rewrite upd_same.
  replace (0.5 * (N g + N i)) with ((N g + N i) / 2) by lra. replace (0.5 * (T g + T i)) with ((T g + T i) / 2) by lra. rewrite wall_q_heat by assumption.
  set (q := heat_to_wall _ _ _ _ _ _). unfold x_volume. field. repeat split; lra.
Qed.

(** The radial area in field-aligned coordinates with poloidal field Bp, major radius R and poloidal arc length h: it is
    J sqrt(g11) dy dz. *)
Lemma radial_area_is_face c i g Bp Rm h : 0 < Bp -> 0 < Rm -> 0 < h ->
  x_dy c g = x_dy c i -> x_dz c g = x_dz c i ->
  (forall j, j = i \/ j = g -> x_g22up c j = 1 / (h * h) /\ x_g33 c j = Rm * Rm) -> x_J c i = h / Bp ->
  radial_area c i g = x_J c i * sqrt ((Rm * Bp) * (Rm * Bp)) * x_dy c i * x_dz c i.
Proof.
  intros HB HR Hh Hy Hz Hm HJ. unfold radial_area. destruct (Hm i) as [-> ->]; [now left|]. destruct (Hm g) as [-> ->]; [now right|].
  rewrite HJ, Hy, Hz. rewrite !sqrt_square by (apply Rmult_le_pos || idtac; lra || nra).
  replace (1 / (h * h)) with ((1 / h) * (1 / h)) by (field; lra). rewrite sqrt_square by (left; apply Rdiv_lt_0_compat; lra).
  replace 0.5 with (/ 2) by lra. field. repeat split; lra.
Qed.

(** ** Recycling *)

Lemma clamp_max x : (if Rltb x 0 then 0 else x) = Rmax 0 x.
Proof. pose proof (Rltb_spec x 0) as S. destruct (Rltb x 0); unfold Rmax; destruct (Rle_dec 0 x); lra. Qed.
Lemma Rmax_scale a x : 0 <= a -> a * Rmax 0 x = Rmax 0 (a * x).
Proof. intros H. rewrite <- RmaxRmult by exact H. rewrite Rmult_0_r. reflexivity. Qed.

Lemma target_flow_area c mult flux i g : target_flow c mult flux i g = mult * (full_area c i g * flux).
Proof. unfold target_flow, full_area. unfold Rdiv. replace 0.5 with (/ 2) by lra. ring. Qed.

Lemma target_lower_gain c m ch N V e : positive_cells c -> closed_low m = true ->
  full_volume c (ystart m) * fst (target_lower c m ch N V e) = target_multiplier ch * lower_outflow c m N V.
Proof.
  intros P C. unfold target_lower, lower_outflow. cbn [fst]. rewrite C, target_flow_area, clamp_max.
  pose proof (full_volume_pos c (ystart m) P) as HV. pose proof (full_area_pos c (ystart m) (ystart m - 1) P) as HA.
  rewrite (Rmax_scale (full_area c (ystart m) (ystart m - 1))) by lra.
  replace (full_area c (ystart m) (ystart m - 1) * - (0.5 * (N (ystart m) + N (ystart m - 1)%Z) * 0.5 * (V (ystart m) + V (ystart m - 1)%Z)))
    with (- (full_area c (ystart m) (ystart m - 1) * end_particle_flux N V (ystart m))) by (unfold end_particle_flux, face_value; replace 0.5 with (/ 2) by lra; field).
  unfold y_volume. fold (full_volume c (ystart m)). field. lra.
Qed.
Lemma target_upper_gain c m ch N V e : positive_cells c -> closed_high m = true ->
  full_volume c (yend m) * fst (target_upper c m ch N V e) = target_multiplier ch * upper_outflow c m N V.
Proof.
  intros P C. unfold target_upper, upper_outflow. cbn [fst]. rewrite C, target_flow_area, clamp_max.
  pose proof (full_volume_pos c (yend m) P) as HV. pose proof (full_area_pos c (yend m) (yend m + 1) P) as HA.
  rewrite (Rmax_scale (full_area c (yend m) (yend m + 1))) by lra.
  replace (full_area c (yend m) (yend m + 1) * (0.5 * (N (yend m) + N (yend m + 1)%Z) * 0.5 * (V (yend m) + V (yend m + 1)%Z)))
    with (full_area c (yend m) (yend m + 1) * end_particle_flux N V (yend m + 1))
    by (unfold end_particle_flux, face_value; replace (yend m + 1 - 1)%Z with (yend m) by lia; replace 0.5 with (/ 2) by lra; field).
  unfold y_volume. fold (full_volume c (yend m)). field. lra.
Qed.

Lemma total_upd c lo n r j x : (lo <= j < lo + Z.of_nat n)%Z -> total c lo n (upd r j (r j + x)) = total c lo n r + full_volume c j * x.
Proof.
  intros Hj. unfold total. induction n as [|n IH]; [lia|]. cbn [zsum].
  destruct (Z.eq_dec j (lo + Z.of_nat n)) as [->|Hne].
  - rewrite upd_same. rewrite (zsum_ext lo n _ (fun i => full_volume c i * r i)); [ring|]. intros i Hi. rewrite upd_other by lia. reflexivity.
  - rewrite IH by lia. rewrite upd_other by lia. ring.
Qed.

(** One channel at the targets. *)
Lemma recycle_targets1_effect fl c m n w ch w' : positive_cells c -> mesh_ok m n -> target_recycle fl = true ->
  recycle_targets1 fl c m w ch = Some w' ->
  forall k, yN (w' k) = yN (w k) /\ yV (w' k) = yV (w k) /\ y_energy_flow (w' k) = y_energy_flow (w k) /\
    total c (ystart m) n (y_density_source (w' k)) = total c (ystart m) n (y_density_source (w k))
      + if String.eqb k (to ch) then target_multiplier ch * (lower_outflow c m (yN (w (from ch))) (yV (w (from ch))) + upper_outflow c m (yN (w (from ch))) (yV (w (from ch)))) else 0.
Proof.
  intros P M F H k. unfold recycle_targets1 in H. rewrite F in H.
  set (N := yN (w (from ch))) in *. set (V := yV (w (from ch))) in *.
  destruct (match y_energy_flow (w (from ch)) with Some e => Some e | None => _ end) as [e|]; [|discriminate].
  assert (Hs : (ystart m <= ystart m < ystart m + Z.of_nat n)%Z /\ (ystart m <= yend m < ystart m + Z.of_nat n)%Z) by (destruct M as (H1 & H2 & _); lia).
  destruct (target_lower c m ch N V e) as [a b] eqn:EL. destruct (target_upper c m ch N V e) as [a' b'] eqn:EU.
  pose proof (target_lower_gain c m ch N V e P) as GL. pose proof (target_upper_gain c m ch N V e P) as GU. rewrite EL in GL. rewrite EU in GU. cbn [fst] in GL, GU.
  unfold lower_outflow, upper_outflow in *. unfold closed_low, closed_high in *. fold (at_lower m) in GL. fold (at_upper m) in GU. change (firstY m && negb (periodicY m))%bool with (at_lower m). change (lastY m && negb (periodicY m))%bool with (at_upper m).
  destruct (at_lower m) eqn:CL, (at_upper m) eqn:CH; injection H as <-; unfold yset; destruct (String.eqb k (to ch)) eqn:Ek;
    try (repeat split; ring); apply String.eqb_eq in Ek; subst k; cbn [yN yV y_energy_flow y_density_source];
    split; try reflexivity; split; try reflexivity; split; try reflexivity.
  - rewrite total_upd by tauto. rewrite total_upd by tauto. specialize (GL eq_refl). specialize (GU eq_refl). lra.
  - rewrite total_upd by tauto. specialize (GL eq_refl). lra.
  - rewrite total_upd by tauto. specialize (GU eq_refl). lra.
  - ring.
Qed.

Fixpoint gains (c : coords) (m : mesh) (w : yworld) (chs : list channel) (k : string) : R :=
  match chs with
  | [] => 0
  | ch :: chs => (if String.eqb k (to ch) then target_multiplier ch * (lower_outflow c m (yN (w (from ch))) (yV (w (from ch))) + upper_outflow c m (yN (w (from ch))) (yV (w (from ch)))) else 0)
                 + gains c m w chs k
  end.
Lemma gains_ext c m w w' chs k : (forall k, yN (w' k) = yN (w k) /\ yV (w' k) = yV (w k)) -> gains c m w' chs k = gains c m w chs k.
Proof. intros H. induction chs as [|ch chs IH]; [reflexivity|]. cbn [gains]. rewrite IH. destruct (H (from ch)) as [-> ->]. reflexivity. Qed.

Lemma fold_targets_none fl c m chs : fold_left (fun w ch => match w with Some w => recycle_targets1 fl c m w ch | None => None end) chs None = None.
Proof. induction chs; [reflexivity|assumption]. Qed.

Lemma recycle_targets_total fl c m n chs : positive_cells c -> mesh_ok m n -> target_recycle fl = true -> forall w w',
  recycle_targets fl c m chs w = Some w' -> forall k,
  total c (ystart m) n (y_density_source (w' k)) = total c (ystart m) n (y_density_source (w k)) + gains c m w chs k.
Proof.
  intros P M F. induction chs as [|ch chs IH]; intros w w' H k.
  - cbn [recycle_targets fold_left] in H. injection H as <-. cbn [gains]. ring.
  - unfold recycle_targets in H. cbn [fold_left] in H. destruct (recycle_targets1 fl c m w ch) as [w1|] eqn:E1; [|rewrite fold_targets_none in H; discriminate].
    pose proof (recycle_targets1_effect fl c m n w ch w1 P M F E1) as EF. rewrite (IH w1 w' H k).
    destruct (EF k) as (_ & _ & _ & ->). cbn [gains]. rewrite (gains_ext c m w w1 chs k); [ring|]. intros k'. destruct (EF k') as (-> & -> & _). split; reflexivity.
Qed.

Lemma outflow_nonneg c m N V : 0 <= lower_outflow c m N V /\ 0 <= upper_outflow c m N V.
Proof. unfold lower_outflow, upper_outflow. split; [destruct (closed_low m)|destruct (closed_high m)]; try lra; apply Rmax_l. Qed.

(** With uniform dx and dz and multiplier 1, the neutrals gain what the ions lose. *)
Lemma recycling_balance edges c m n N V ws dx0 dz0 : positive_cells c -> mesh_ok m n -> closed_low m = true -> closed_high m = true ->
  (forall j, c_dx c j = dx0) -> (forall j, c_dz c j = dz0) ->
  0 <= - end_particle_flux N V (ystart m) -> 0 <= end_particle_flux N V (yend m + 1) ->
  exists r w, Div_par_mod edges m c N V ws true = Some (r, w) /\
    total c (ystart m) n r = lower_outflow c m N V + upper_outflow c m N V.
Proof.
  intros P M CL CH Hdx Hdz H1 H2. destruct P as [P Q].
  destruct (mod_closed edges m c n N V ws M P CL CH) as (r & w & E & H). exists r, w. split; [exact E|].
  assert (Ee : (yend m + 1 = ystart m + Z.of_nat n)%Z) by (destruct M as (_ & HH & _); lia).
  assert (T : total c (ystart m) n r = dx0 * dz0 * integral c (ystart m) n r).
  { unfold total, integral. rewrite <- zsum_scal. apply zsum_ext. intros j _. unfold full_volume, cell_volume. rewrite Hdx, Hdz. ring. }
  rewrite T, H. unfold lower_outflow, upper_outflow. rewrite CL, CH.
  assert (A1 : full_area c (ystart m) (ystart m - 1) = dx0 * dz0 * face_area (c_J c) (c_g22 c) (ystart m)).
  { unfold full_area, face_area. rewrite !Hdx, !Hdz. rewrite (Rplus_comm (c_J c (ystart m - 1)%Z)), (Rplus_comm (sqrt (c_g22 c (ystart m - 1)%Z))). field.
    destruct (P (ystart m)) as (_ & G1 & _), (P (ystart m - 1)%Z) as (_ & G2 & _). pose proof (sqrt_lt_R0 _ G1). pose proof (sqrt_lt_R0 _ G2). lra. }
  assert (A2 : full_area c (yend m) (yend m + 1) = dx0 * dz0 * face_area (c_J c) (c_g22 c) (yend m + 1)).
  { unfold full_area, face_area. rewrite !Hdx, !Hdz. replace (yend m + 1 - 1)%Z with (yend m) by lia. field.
    destruct (P (yend m)) as (_ & G1 & _), (P (yend m + 1)%Z) as (_ & G2 & _). pose proof (sqrt_lt_R0 _ G1). pose proof (sqrt_lt_R0 _ G2). lra. }
  rewrite A1, A2, Ee. rewrite Ee in H2. 
  assert (B : forall x y, 0 <= x -> 0 <= y -> Rmax 0 (x * y) = x * y) by (intros x y Hx Hy; apply Rmax_right; apply Rmult_le_pos; assumption).
  assert (D : 0 < dx0 * dz0) by (destruct (Q 0%Z) as [Q1 Q2]; rewrite Hdx in Q1; rewrite Hdz in Q2; apply Rmult_lt_0_compat; assumption).
  assert (FA : forall j, 0 < face_area (c_J c) (c_g22 c) j).
  { intros j. unfold face_area. destruct (P j) as (J1 & G1 & _), (P (j - 1)%Z) as (J2 & G2 & _). pose proof (sqrt_lt_R0 _ G1). pose proof (sqrt_lt_R0 _ G2). apply Rdiv_lt_0_compat; lra. }
  pose proof (FA (ystart m)). pose proof (FA (ystart m + Z.of_nat n)%Z).
  rewrite Ropp_mult_distr_r, !B; try lra; try (apply Rmult_le_pos; lra).
Qed.

(** ** Radial walls *)

Lemma recycle_wall_particles c pm mult energy fraction factor t i s g o eo : x_volume c i <> 0 ->
  x_volume c i * fst (recycle_wall c false pm mult energy fraction factor t i s g o eo) = mult * Rmax 0 o /\
  x_volume c i * snd (recycle_wall c false pm mult energy fraction factor t i s g o eo) = mult * (factor * fraction * eo + (1 - fraction) * energy * Rmax 0 o).
Proof.
  intros H. unfold recycle_wall. cbn [fst snd]. pose proof (Rltb_spec 0 o) as S. unfold Rmax. destruct (Rltb 0 o), (Rle_dec 0 o); try (exfalso; lra); split; field_simplify_eq; try assumption; try ring.
  all: try (replace o with 0 by lra; ring).
Qed.
Lemma recycle_wall_pump c pm mult energy fraction factor t i s g o eo : x_volume c i <> 0 ->
  0 <= (xT t i + SQ (xT t i) / xT t s) / 2 -> 0 < xAA t ->
  x_volume c i * fst (recycle_wall c true pm mult energy fraction factor t i s g o eo)
  = pm * Rmax 0 o - (1 - pm) * (radial_area c i g * one_way_flux (xAA t) ((xN t i + SQ (xN t i) / xN t s) / 2) ((xT t i + SQ (xT t i) / xT t s) / 2)).
Proof.
  intros H HT HA. unfold recycle_wall. cbn [fst snd].
  replace (0.5 * (xT t i + SQ (xT t i) / xT t s)) with ((xT t i + SQ (xT t i) / xT t s) / 2) by lra.
  replace (0.5 * (xN t i + SQ (xN t i) / xN t s)) with ((xN t i + SQ (xN t i) / xN t s) / 2) by lra.
  rewrite v_th_flux by assumption. unfold one_way_flux.
  set (v := sqrt _). set (nn := (xN t i + SQ (xN t i) / xN t s) / 2). set (ra := radial_area c i g).
  assert (E : (if Rltb 0 o then pm * o else 0) = pm * Rmax 0 o).
  { pose proof (Rltb_spec 0 o) as S. unfold Rmax. destruct (Rltb 0 o), (Rle_dec 0 o); try (exfalso; lra); try ring. replace o with 0 by lra. ring. }
  rewrite E. field. exact H.
Qed.
