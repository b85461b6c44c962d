(** Lemmas for FullVelProps.v. *)

From Coq Require Import List Bool ZArith Reals Lra Lia.
From Verif Require Import StateMonad StateMonadProofs ParallelModel ParallelProofs WallsModel FullVelModel FullVelSpec.
Open Scope R_scope.

Lemma pow2_gt_0 x : x <> 0 -> 0 < x ^ 2.
Proof. intros H. rewrite <- Rsqr_pow2. now apply Rlt_0_sqr. Qed.
Section Geometry.
  Variables (ys ye nx : Z) (g : geometry) (i j : Z).
  Let t := transformation_at ys ye nx g i j.
  Let a := tangent_x nx g i j.
  Let b := tangent_y ys ye g i j.
  Lemma tangents_nonzero : cross a b <> 0 -> 0 < fst a ^ 2 + snd a ^ 2 /\ 0 < fst b ^ 2 + snd b ^ 2.
  Proof.
    unfold cross. intros H. split.
    - destruct (Req_dec (fst a) 0) as [E|E]; [destruct (Req_dec (snd a) 0) as [E2|E2]|].
      + exfalso. apply H. rewrite E, E2. ring.
      + pose proof (pow2_gt_0 _ E2). pose proof (pow2_ge_0 (fst a)). lra.
      + pose proof (pow2_gt_0 _ E). pose proof (pow2_ge_0 (snd a)). lra.
    - destruct (Req_dec (fst b) 0) as [E|E]; [destruct (Req_dec (snd b) 0) as [E2|E2]|].
      + exfalso. apply H. rewrite E, E2. ring.
      + pose proof (pow2_gt_0 _ E2). pose proof (pow2_ge_0 (fst b)). lra.
      + pose proof (pow2_gt_0 _ E). pose proof (pow2_ge_0 (snd b)). lra.
  Qed.
  Hypothesis Reg : regular ys ye nx g i j.
  Let la := sqrt (fst a ^ 2 + snd a ^ 2).
  Let lb := sqrt (fst b ^ 2 + snd b ^ 2).
  Let k := / (la * cosbeta g i j * Bpxy g i j * Rxy g i j).
  Let l := hthe g i j / lb.
  Lemma la_pos : 0 < la. Proof. apply sqrt_lt_R0. apply tangents_nonzero. apply Reg. Qed.
  Lemma lb_pos : 0 < lb. Proof. apply sqrt_lt_R0. apply tangents_nonzero. apply Reg. Qed.
  Lemma cos_pos : 0 < cosbeta g i j. Proof. apply sqrt_lt_R0. destruct Reg as (_ & _ & _ & _ & H). lra. Qed.
  Lemma k_pos : 0 < k.
  Proof. unfold k. apply Rinv_0_lt_compat. destruct Reg as (_ & _ & R2 & R3 & _). pose proof la_pos. pose proof cos_pos. repeat apply Rmult_lt_0_compat; assumption. Qed.
  Lemma l_pos : 0 < l. Proof. unfold l. destruct Reg as (_ & H & _). apply Rdiv_lt_0_compat; [exact H|apply lb_pos]. Qed.
  Lemma U_values : Urx t = k * fst a /\ Uzx t = k * snd a /\ Ury t = l * fst b /\ Uzy t = l * snd b.
  Proof.
    pose proof la_pos. pose proof lb_pos. pose proof cos_pos. destruct Reg as (_ & R1 & R2 & R3 & _).
    unfold t, transformation_at. cbv zeta. cbn [Urx Uzx Ury Uzy].
    change (x_difference nx (Rxy g) (dx g) i j) with (fst a). change (x_difference nx (Zxy g) (dx g) i j) with (snd a).
    change (y_difference ys ye (Rxy g) (dy g) i j) with (fst b). change (y_difference ys ye (Zxy g) (dy g) i j) with (snd b).
    fold la. fold lb. unfold k, l. repeat split; field; repeat split; lra.
  Qed.
  Let D := Urx t * Uzy t - Uzx t * Ury t.
  Lemma D_value : D = k * l * cross a b.
  Proof. unfold D, cross. destruct U_values as (-> & -> & -> & ->). ring. Qed.
  Lemma D_nonzero : D <> 0.
  Proof.
    rewrite D_value. pose proof k_pos. pose proof l_pos. destruct Reg as (RX & _). fold a in RX. fold b in RX.
    apply Rmult_integral_contrapositive_currified; [|exact RX]. apply Rmult_integral_contrapositive_currified; lra.
  Qed.
  Lemma T_values : Txr t = Uzy t / D /\ Txz t = - Ury t / D /\ Tyr t = - Uzx t / D /\ Tyz t = Urx t / D.
  Proof. repeat split; reflexivity. Qed.
  Lemma there_and_back vx vy : Urx t * v_r t vx vy + Uzx t * v_z t vx vy = vx /\ Ury t * v_r t vx vy + Uzy t * v_z t vx vy = vy.
  Proof.
    unfold v_r, v_z. destruct T_values as (-> & -> & -> & ->). pose proof D_nonzero as N. unfold D in N |- *. split; field; exact N.
  Qed.
  Lemma back_and_there r z : v_r t (Urx t * r + Uzx t * z) (Ury t * r + Uzy t * z) = r /\ v_z t (Urx t * r + Uzx t * z) (Ury t * r + Uzy t * z) = z.
  Proof.
    unfold v_r, v_z. destruct T_values as (-> & -> & -> & ->). pose proof D_nonzero as N. unfold D in N |- *. split; field; exact N.
  Qed.
  Lemma lengths : Ury t ^ 2 + Uzy t ^ 2 = hthe g i j ^ 2 /\ Urx t ^ 2 + Uzx t ^ 2 = (/ (Rxy g i j * Bpxy g i j * cosbeta g i j)) ^ 2.
  Proof.
    destruct U_values as (-> & -> & -> & ->). pose proof la_pos. pose proof lb_pos. pose proof cos_pos. destruct (tangents_nonzero (proj1 Reg)) as [A B].
    assert (Ea : fst a ^ 2 + snd a ^ 2 = la ^ 2) by (unfold la; rewrite pow2_sqrt; [reflexivity|lra]).
    assert (Eb : fst b ^ 2 + snd b ^ 2 = lb ^ 2) by (unfold lb; rewrite pow2_sqrt; [reflexivity|lra]).
    destruct Reg as (_ & R1 & R2 & R3 & _). split.
    - replace ((l * fst b) ^ 2 + (l * snd b) ^ 2) with (l ^ 2 * (fst b ^ 2 + snd b ^ 2)) by ring. rewrite Eb. unfold l. field. lra.
    - replace ((k * fst a) ^ 2 + (k * snd a) ^ 2) with (k ^ 2 * (fst a ^ 2 + snd a ^ 2)) by ring. rewrite Ea. unfold k. field. repeat split; lra.
  Qed.
  (** Orthogonal grids. *)
  Lemma gradients : dot a b = 0 -> etaxy g i j = 0 ->
    Txr t ^ 2 + Txz t ^ 2 = (Rxy g i j * Bpxy g i j) ^ 2 /\ Tyr t ^ 2 + Tyz t ^ 2 = (/ hthe g i j) ^ 2 /\ Txr t * Tyr t + Txz t * Tyz t = 0.
  Proof.
    intros O E. pose proof D_nonzero as N. destruct T_values as (-> & -> & -> & ->). destruct lengths as [L1 L2].
    assert (C : cosbeta g i j = 1). { unfold cosbeta. rewrite E. replace (1 - 0 ^ 2) with 1 by ring. apply sqrt_1. }
    rewrite C, Rmult_1_r in L2.
    assert (O2 : Urx t * Ury t + Uzx t * Uzy t = 0).
    { destruct U_values as (-> & -> & -> & ->). unfold dot in O. replace (k * fst a * (l * fst b) + k * snd a * (l * snd b)) with (k * l * (fst a * fst b + snd a * snd b)) by ring. rewrite O. ring. }
    assert (D2 : D ^ 2 = (Urx t ^ 2 + Uzx t ^ 2) * (Ury t ^ 2 + Uzy t ^ 2)).
    { replace ((Urx t ^ 2 + Uzx t ^ 2) * (Ury t ^ 2 + Uzy t ^ 2)) with ((Urx t * Ury t + Uzx t * Uzy t) ^ 2 + (Urx t * Uzy t - Uzx t * Ury t) ^ 2) by ring.
      rewrite O2. unfold D. ring. }
    destruct Reg as (_ & R1 & R2 & R3 & _).
    assert (RB : Rxy g i j * Bpxy g i j <> 0) by (apply Rmult_integral_contrapositive_currified; lra).
    split; [|split].
    - replace ((Uzy t / D) ^ 2 + (- Ury t / D) ^ 2) with ((Ury t ^ 2 + Uzy t ^ 2) / D ^ 2) by (field; exact N). rewrite D2, L1, L2. field. repeat split; lra.
    - replace ((- Uzx t / D) ^ 2 + (Urx t / D) ^ 2) with ((Urx t ^ 2 + Uzx t ^ 2) / D ^ 2) by (field; exact N). rewrite D2, L1, L2. field. repeat split; lra.
    - replace (Uzy t / D * (- Uzx t / D) + - Ury t / D * (Urx t / D)) with (- (Urx t * Ury t + Uzx t * Uzy t) / D ^ 2) by (field; exact N). rewrite O2. field. exact N.
  Qed.
End Geometry.

(** ** Splitting the grid *)
Definition bent : geometry :=
  mkGeometry (fun i j => if Z.leb j 0 then 1 + IZR i else 2 + IZR i) (fun i j => if Z.leb j 1 then 0 else 1) (fun _ _ => 1) (fun _ _ => 1) (fun _ _ => 0) (fun _ _ => 1) (fun _ _ => 1).
Lemma split_differs : Ury (transformation_at 0 3 3 bent 1 1) <> Ury (transformation_at 1 3 3 bent 1 1).
Proof.
  unfold transformation_at. cbv zeta. cbn [Ury]. unfold y_difference, bent. cbn [Rxy Zxy dy hthe Z.eqb Z.leb Z.compare Z.add Z.sub Z.pos_sub Pos.add Pos.compare Pos.compare_cont Pos.succ Pos.pred_double Z.opp Z.pred_double Pos.eqb]. cbv iota.
  replace ((2 + 1 - (1 + 1)) / (2 * 1)) with (1 / 2) by lra. replace ((1 - 0) / (2 * 1)) with (1 / 2) by lra. replace ((2 + 1 - (2 + 1)) / 1) with 0 by lra.
  assert (P : 0 < sqrt ((1 / 2) ^ 2 + (1 / 2) ^ 2)) by (apply sqrt_lt_R0; lra). intros E.
  assert (0 < 1 / 2 / (1 / 1) / sqrt ((1 / 2) ^ 2 + (1 / 2) ^ 2)) by (apply Rdiv_lt_0_compat; lra).
  rewrite E in H. unfold Rdiv in H. rewrite !Rmult_0_l in H. lra.
Qed.
Lemma guard_unset m nx g i : at_lower m = false -> (ystart m <= yend m)%Z -> stored m nx g i (ystart m - 1) = None.
Proof.
  intros L H. unfold stored. rewrite L, andb_false_r.
  replace (ystart m <=? ystart m - 1)%Z with false by (symmetry; apply Z.leb_gt; lia). cbn [andb].
  replace (Z.eqb (ystart m - 1) (yend m + 1)) with false by (symmetry; apply Z.eqb_neq; lia). reflexivity.
Qed.
Lemma inside_set m nx g i j : (ystart m <= j <= yend m)%Z -> stored m nx g i j = Some (transformation_at (ystart m) (yend m) nx g i j).
Proof.
  intros H. unfold stored. replace (ystart m <=? j)%Z with true by (symmetry; apply Z.leb_le; lia). replace (j <=? yend m)%Z with true by (symmetry; apply Z.leb_le; lia). reflexivity.
Qed.

(** ** transform *)
Lemma upd_at f j x : upd f j x j = x. Proof. unfold upd. now rewrite Z.eqb_refl. Qed.
Lemma upd_off f j x i : i <> j -> upd f j x i = f i. Proof. intros H. unfold upd. apply Z.eqb_neq in H. now rewrite H. Qed.
Lemma outflow_law m c : at_lower m = true ->
  let c' := outflow m true c in let s := ystart m in
  (Vy c' (s - 1)%Z + Vy c' s) / 2 = Rmin 0 (Vy c s) /\ Nn2D c' (s - 1)%Z = Nn2D c' s /\ Pn2D c' (s - 1)%Z = Pn2D c' s /\ Vx c' (s - 1)%Z = Vx c' s /\ Vz c' (s - 1)%Z = Vz c' s /\
  (forall j, j <> (s - 1)%Z -> Vy c' j = Vy c j /\ Nn2D c' j = Nn2D c j /\ Pn2D c' j = Pn2D c j /\ Vx c' j = Vx c j /\ Vz c' j = Vz c j).
Proof.
  intros L. cbv zeta. unfold outflow. rewrite L. cbn [andb]. cbv iota zeta. cbn [Vy Nn2D Pn2D Vx Vz].
  assert (N : ystart m <> (ystart m - 1)%Z) by lia. rewrite !upd_at, !(upd_off _ _ _ _ N).
  split; [|repeat split; try reflexivity; now apply upd_off].
  pose proof (Rltb_spec (Vy c (ystart m)) 0) as RS; destruct (Rltb (Vy c (ystart m)) 0).
  - rewrite Rmin_right by lra. lra.
  - rewrite Rmin_left by lra. lra.
Qed.
Lemma outflow_other m c b : (b && at_lower m)%bool = false -> outflow m b c = c. Proof. intros H. unfold outflow. now rewrite H. Qed.

Lemma published_law m b AA Tn J B c : let '(T, c', p) := transform m b AA Tn J B c in
  forall j, 1e-8 <= p_density p j /\ 0.01 / Tn <= p_temperature p j /\ p_momentum p j = AA * p_density p j * p_velocity p j /\ p_velocity p j * (J j * B j) = Vy c' j * (J j * B j / (J j * B j)) /\
    p_pressure p j = Pn2D c' j /\ T j = Pn2D c j / Nn2D c j.
Proof.
  unfold transform. cbv zeta. intros j. cbn [p_density p_temperature p_momentum p_velocity p_pressure]. repeat split.
  - unfold rfloor. pose proof (Rltb_spec (Nn2D c j) 1e-8) as RS; destruct (Rltb (Nn2D c j) 1e-8); lra.
  - unfold rfloor. pose proof (Rltb_spec (Pn2D c j / Nn2D c j) (0.01 / Tn)) as RS; destruct (Rltb (Pn2D c j / Nn2D c j) (0.01 / Tn)); lra.
  - ring.
  - unfold Rdiv. ring.
Qed.
Lemma pressure_consistent m AA Tn J B c : let '(T, c', p) := transform m false AA Tn J B c in
  forall j, 1e-8 <= Nn2D c j -> 0.01 / Tn <= Pn2D c j / Nn2D c j -> p_pressure p j = p_density p j * p_temperature p j.
Proof.
  unfold transform. cbv zeta. intros j H1 H2. rewrite outflow_other by reflexivity. cbn [p_density p_temperature p_pressure]. unfold rfloor. rewrite !Rltb_false by lra. field. lra.
Qed.

(** ** finally *)
Lemma cylindrical_law ys ye nx g i j AA gamma op N P : regular ys ye nx g i j ->
  let t := transformation_at ys ye nx g i j in let d := fluid AA gamma t op N P in let f := - / (AA * rfloor N 1e-2) in
  v_r t (d_Vx d) (d_Vy d) = f * v_r t (gradP_x op) (gradP_y op) - adv_vr op + lap_vr op /\
  v_z t (d_Vx d) (d_Vy d) = f * v_z t (gradP_x op) (gradP_y op) - adv_vz op + lap_vz op.
Proof.
  intros R. cbv zeta. set (t := transformation_at ys ye nx g i j). unfold fluid. cbv zeta. cbn [d_Vx d_Vy].
  set (f := AA * rfloor N 1e-2). set (r := - adv_vr op + lap_vr op). set (z := - adv_vz op + lap_vz op).
  destruct (back_and_there ys ye nx g i j R r z) as [E1 E2]. fold t in E1, E2.
  replace (- gradP_x op / f + (Urx t * - adv_vr op + Uzx t * - adv_vz op) + (Urx t * lap_vr op + Uzx t * lap_vz op)) with (- / f * gradP_x op + (Urx t * r + Uzx t * z)) by (unfold r, z, Rdiv; ring).
  replace (- gradP_y op / f + (Ury t * - adv_vr op + Uzy t * - adv_vz op) + (Ury t * lap_vr op + Uzy t * lap_vz op)) with (- / f * gradP_y op + (Ury t * r + Uzy t * z)) by (unfold r, z, Rdiv; ring).
  set (X := Urx t * r + Uzx t * z) in *. set (Y := Ury t * r + Uzy t * z) in *. unfold v_r, v_z in *. split.
  - replace (Txr t * (- / f * gradP_x op + X) + Tyr t * (- / f * gradP_y op + Y)) with (- / f * (Txr t * gradP_x op + Tyr t * gradP_y op) + (Txr t * X + Tyr t * Y)) by ring. rewrite E1. unfold r. ring.
  - replace (Txz t * (- / f * gradP_x op + X) + Tyz t * (- / f * gradP_y op + Y)) with (- / f * (Txz t * gradP_x op + Tyz t * gradP_y op) + (Txz t * X + Tyz t * Y)) by ring. rewrite E2. unfold z. ring.
Qed.
Lemma energy_law AA gamma t gx gy gz ux uy uz DV DVN N P : 0 < AA -> gamma <> 1 -> 1e-2 <= N ->
  let DVP := ux * gx + uy * gy + uz * gz + P * DV in
  let d := fluid AA gamma t (mkOperators DVN gx gy gz 0 0 0 0 DV DVP 0) N P in
  d_P d / (gamma - 1) + AA * N * (ux * d_Vx d + uy * d_Vy d + uz * d_Vz d) = - (gamma / (gamma - 1)) * DVP.
Proof.
  intros HA Hg HN. cbv zeta. unfold fluid. cbv zeta. cbn [d_P d_Vx d_Vy d_Vz DivVN gradP_x gradP_y gradP_z adv_vr adv_vz lap_vr lap_vz DivV DivVP lapT].
  unfold rfloor. rewrite !Rltb_false by lra. field. repeat split; lra.
Qed.
Lemma target_law gamma Ng Nc Tg Tc Jg Jc g2g g2c dy : 0 <= gamma -> 0 < Jg -> 0 < Jc -> 0 < g2g -> 0 < g2c -> 0 < dy ->
  let P := target_power gamma Ng Nc Tg Tc Jg Jc g2g g2c in
  0 <= P /\ 3 / 2 * target_loss P dy Jc * (dy * Jc) = P /\
  (let n := (Nc + Ng) / 2 in let T := (Tc + Tg) / 2 in 0 <= n -> 0 <= T -> P = gamma * n * T * sqrt T * ((Jc + Jg) / (sqrt g2c + sqrt g2g))).
Proof.
  intros Hg HJ1 HJ2 H1 H2 Hd. cbv zeta. pose proof (sqrt_lt_R0 _ H1). pose proof (sqrt_lt_R0 _ H2). split; [|split].
  - unfold target_power. cbv zeta. set (n := if Rltb (0.5 * (Nc + Ng)) 0 then 0 else 0.5 * (Nc + Ng)). set (T := if Rltb (0.5 * (Tc + Tg)) 0 then 0 else 0.5 * (Tc + Tg)).
    assert (Hn : 0 <= n) by (unfold n; pose proof (Rltb_spec (0.5 * (Nc + Ng)) 0) as RS; destruct (Rltb (0.5 * (Nc + Ng)) 0); lra). assert (HT : 0 <= T) by (unfold T; pose proof (Rltb_spec (0.5 * (Tc + Tg)) 0) as RS; destruct (Rltb (0.5 * (Tc + Tg)) 0); lra).
    pose proof (sqrt_pos T). unfold Rdiv. apply Rmult_le_pos; [|left; apply Rinv_0_lt_compat; lra]. apply Rmult_le_pos; [|lra].
    apply Rmult_le_pos; [|assumption]. apply Rmult_le_pos; [|assumption]. now apply Rmult_le_pos.
  - unfold target_loss. field. split; lra.
  - intros Hn HT. unfold target_power. cbv zeta. replace (0.5 * (Nc + Ng)) with ((Nc + Ng) / 2) by lra. replace (0.5 * (Tc + Tg)) with ((Tc + Tg) / 2) by lra.
    rewrite !Rltb_false by lra. unfold Rdiv. ring.
Qed.
Lemma targets_elsewhere m gamma N T J g22 dy dP j : (at_lower m = true -> j <> ystart m) -> (at_upper m = true -> j <> yend m) -> with_targets m gamma N T J g22 dy dP j = dP j.
Proof.
  intros H1 H2. unfold with_targets. cbv zeta. destruct (at_upper m); [rewrite upd_off by auto|]; (destruct (at_lower m); [now rewrite upd_off by auto|reflexivity]).
Qed.
Lemma targets_mirror m gamma N T J g22 dy dP j : open_ended m ->
  with_targets m gamma (mirror m N) (mirror m T) (mirror m J) (mirror m g22) (mirror m dy) (mirror m dP) j = mirror m (with_targets m gamma N T J g22 dy dP) j.
Proof.
  intros (L & U & O). unfold with_targets, mirror. cbv zeta. rewrite L, U.
  set (s := ystart m) in *. set (e := yend m) in *. assert (Nse : s <> e) by lia. assert (Nes : e <> s) by lia.
  destruct (Z.eq_dec j e) as [->|Hj].
  - replace (s + e - e)%Z with s by lia. rewrite upd_at, (upd_off _ e _ s Nse), upd_at, (upd_off _ s _ e Nes). cbv beta.
    replace (s + e - e)%Z with s by lia. replace (s + e - (e + 1))%Z with (s - 1)%Z by lia. reflexivity.
  - rewrite (upd_off _ e _ j Hj). destruct (Z.eq_dec j s) as [->|Hj2].
    + replace (s + e - s)%Z with e by lia. rewrite !upd_at, (upd_off _ s _ e Nes). cbv beta.
      replace (s + e - s)%Z with e by lia. replace (s + e - (s - 1))%Z with (e + 1)%Z by lia. reflexivity.
    + rewrite (upd_off _ s _ j Hj2). rewrite (upd_off _ e _ (s + e - j)%Z) by lia. rewrite (upd_off _ s _ (s + e - j)%Z) by lia. reflexivity.
Qed.
Lemma sources_law AA J B N sn sm se d : 0 < AA -> J * B <> 0 -> 1e-2 <= N ->
  let d' := with_sources AA J B N (Some sn) (Some sm) (Some se) d in
  d_N d' = d_N d + sn /\ AA * N * ((d_Vy d' - d_Vy d) / (J * B)) = sm /\ 3 / 2 * (d_P d' - d_P d) = se /\ d_Vx d' = d_Vx d /\ d_Vz d' = d_Vz d.
Proof.
  intros HA HJ HN. cbv zeta. unfold with_sources. cbv zeta iota. cbn [d_N d_Vy d_P d_Vx d_Vz]. unfold rfloor. rewrite (Rltb_false N 1e-8), (Rltb_false N 1e-2) by lra. cbn [andb]. cbv iota.
  assert (J <> 0 /\ B <> 0) as [HJ1 HB1] by (split; intros E; apply HJ; rewrite E; ring).
  rewrite ?(Rltb_false N 1e-2) by lra. repeat split; try reflexivity; field; repeat split; lra.
Qed.
Lemma no_sources AA J B N d : 1e-8 <= N -> with_sources AA J B N None None None d = d.
Proof. intros H. unfold with_sources. cbv zeta iota. rewrite Rltb_false by lra. cbn [andb]. cbv iota. destruct d. reflexivity. Qed.
Lemma density_stops AA J B N sn sm se d : N < 1e-8 -> 0 <= d_N (with_sources AA J B N sn sm se d).
Proof.
  intros H. unfold with_sources. cbv zeta. cbn [d_N]. rewrite (Rltb_true N) by lra. cbn [andb]. set (x := match sn with Some s => _ | None => _ end).
  pose proof (Rltb_spec x 0) as RS; destruct (Rltb x 0); lra.
Qed.
(** Momentum when particles are lost: twice what they carry. *)
Lemma momentum_twice AA J B N V r : 0 < AA -> J * B <> 0 -> 1e-2 <= N ->
  let d := with_sources AA J B N (Some (- r)) (Some (- (r * AA * V))) None (mkDerivatives 0 0 0 0 0) in
  momentum_rate AA J B N V (d_N d) (d_Vy d) = 2 * - (r * AA * V).
Proof.
  intros HA HJ HN. cbv zeta. unfold with_sources, momentum_rate. cbv zeta iota. cbn [d_N d_Vy d_P]. unfold rfloor. rewrite (Rltb_false N 1e-8), (Rltb_false N 1e-2) by lra. cbn [andb]. cbv iota.
  assert (J <> 0 /\ B <> 0) as [HJ1 HB1] by (split; intros E; apply HJ; rewrite E; ring). field. repeat split; lra.
Qed.

(** ** SNB *)
Lemma snb_law rho Tn Nn sec heat src Te Ne dy snb sh qe : 0 < Tn -> 0 < Nn -> 0 < sec -> heat (dy * rho) (Te * Tn) (Ne * Nn) = Some (snb, sh) ->
  exists r, snb_transform rho Tn Nn sec heat src Te Ne dy = (dy, Some r) /\
    snb_conversion qe Tn Nn (1 / sec) * Div_Q_SNB r = qe * snb /\ snb_conversion qe Tn Nn (1 / sec) * Div_Q_SH r = qe * sh /\
    energy_source r = (match src with Some s => s | None => 0 end) - Div_Q_SNB r.
Proof.
  intros H1 H2 H3 E. unfold snb_transform. cbv zeta. rewrite E. eexists. split; [reflexivity|]. cbn [Div_Q_SNB Div_Q_SH energy_source]. unfold snb_conversion.
  repeat split; try (field; repeat split; lra). destruct src; lra.
Qed.
