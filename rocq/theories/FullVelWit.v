(** Cases and witnesses for FullVelProps.v. *)

From Coq Require Import List Bool ZArith Reals Lra Lia.
From Verif Require Import StateMonad StateMonadProofs ParallelModel ParallelProofs WallsModel FullVelModel FullVelSpec FullVelProofs.
Open Scope R_scope.

Definition square_grid : geometry :=
  mkGeometry (fun i j => 1 + IZR i) (fun i j => IZR j) (fun _ _ => 1) (fun _ _ => 1) (fun _ _ => 0) (fun _ _ => 1) (fun _ _ => 1).
Lemma grid_case : regular 0 3 3 square_grid 1 1 /\ dot (tangent_x 3 square_grid 1 1) (tangent_y 0 3 square_grid 1 1) = 0 /\ etaxy square_grid 1%Z 1%Z = 0.
Proof.
  unfold regular, cross, dot, tangent_x, tangent_y, x_difference, y_difference, square_grid.
  cbn [fst snd Rxy Zxy dx dy hthe Bpxy etaxy Z.eqb Z.add Z.sub Z.pos_sub Pos.add Pos.succ Pos.pred_double Z.opp Z.pred_double Pos.eqb]. cbv iota.
  repeat split; try lra. 
Qed.
Lemma split_witness : exists g nx ys ys' ye i j, (ys <= j <= ye)%Z /\ (ys' <= j <= ye)%Z /\ Ury (transformation_at ys ye nx g i j) <> Ury (transformation_at ys' ye nx g i j).
Proof. exists bent, 3%Z, 0%Z, 1%Z, 3%Z, 1%Z, 1%Z. split; [lia|]. split; [lia|]. exact split_differs. Qed.
Definition inner : mesh := mkMesh 2 5 8 false false false.
Definition whole : mesh := mkMesh 2 5 8 true true false.
Lemma guard_witness : exists m nx g i j, (ystart m <= j <= yend m)%Z /\ stored m nx g i (j - 1) = None.
Proof.
  exists inner, 3%Z, square_grid, 1%Z, 2%Z. split; [cbn; lia|]. apply (guard_unset inner); [reflexivity|cbn; lia].
Qed.
Lemma pressure_witness : exists m AA Tn J B c j, 0 < Tn /\ (let '(_, _, p) := transform m false AA Tn J B c in p_pressure p j <> p_density p j * p_temperature p j).
Proof.
  exists whole, 2, 1, (fun _ => 1), (fun _ => 1), (mkColumn (fun _ => 1) (fun _ => 0) (fun _ => 0) (fun _ => 0) (fun _ => 0)), 3%Z. split; [lra|].
  unfold transform. cbv zeta. rewrite outflow_other by reflexivity. cbn [p_pressure p_density p_temperature Nn2D Pn2D]. unfold rfloor.
  rewrite (Rltb_false 1 1e-8), (Rltb_true (0 / 1) (0.01 / 1)) by lra. lra.
Qed.
Lemma temperature_witness : exists m AA Tn J B c, at_lower m = true /\ (forall j, 0 < Nn2D c j) /\
  (let '(T, c', _) := transform m true AA Tn J B c in T (ystart m - 1)%Z <> Pn2D c' (ystart m - 1)%Z / Nn2D c' (ystart m - 1)%Z).
Proof.
  exists whole, 2, 1, (fun _ => 1), (fun _ => 1), (mkColumn (fun _ => 1) (fun j => if Z.eqb j 1 then 3 else 1) (fun _ => 0) (fun _ => 0) (fun _ => 0)).
  split; [reflexivity|]. split; [intros; cbn [Nn2D]; lra|].
  unfold transform. cbv zeta. unfold outflow. replace (true && at_lower whole)%bool with true by reflexivity. cbv iota zeta. cbn [Nn2D Pn2D ystart whole Z.sub Z.add Z.opp Z.pos_sub Pos.pred_double Z.eqb Pos.eqb].
  unfold upd. cbn [Z.eqb Pos.eqb]. cbv iota. lra.
Qed.
Lemma momentum_witness : exists AA J B N V r, 0 < AA /\ 0 < J /\ 0 < B /\ 1e-2 <= N /\
  (let d := with_sources AA J B N (Some (- r)) (Some (- (r * AA * V))) None (mkDerivatives 0 0 0 0 0) in
   momentum_rate AA J B N V (d_N d) (d_Vy d) <> - (r * AA * V)).
Proof.
  exists 2, 1, 1, 1, 1, 1. repeat (split; [lra|]). cbv zeta. pose proof (momentum_twice 2 1 1 1 1 1 ltac:(lra) ltac:(lra) ltac:(lra)) as E. cbv zeta in E. rewrite E. lra.
Qed.
Lemma speed_witness : exists gamma AA N T J g, 0 < AA /\ target_power gamma N N T T J J g g <> gamma * N * T * sqrt (T / AA) * (J / sqrt g).
Proof.
  exists 1, 4, 1, 1, 1, 1. split; [lra|]. unfold target_power. cbv zeta. replace (0.5 * (1 + 1)) with 1 by lra. rewrite Rltb_false by lra.
  rewrite sqrt_1. replace (1 / 4) with ((1 / 2) ^ 2) by lra. rewrite sqrt_pow2 by lra. lra.
Qed.
Lemma ends_case : open_ended whole. Proof. repeat split; reflexivity. Qed.
Lemma snb_case : exists heat : R -> R -> R -> option (R * R), heat (2 * 3) (1 * 10) (1 * 5) = Some (7, 8). Proof. exists (fun _ _ _ => Some (7, 8)). reflexivity. Qed.
Lemma snb_throw : exists rho Tn Nn sec heat src Te Ne dy, 0 < rho /\ 0 < dy /\ fst (snb_transform rho Tn Nn sec heat src Te Ne dy) <> dy.
Proof. exists 2, 1, 1, 1, (fun _ _ _ => None), None, 1, 1, 1. split; [lra|]. split; [lra|]. unfold snb_transform. cbv zeta. cbn [fst]. lra. Qed.
Definition warm : column := mkColumn (fun _ => 1) (fun _ => 1) (fun _ => 0) (fun _ => 1) (fun _ => 0).
Lemma warm_case : 1e-8 <= Nn2D warm 3%Z /\ 0.01 / 10 <= Pn2D warm 3%Z / Nn2D warm 3%Z. Proof. cbn [Nn2D Pn2D warm]. lra. Qed.
Lemma source_case : 0 < 2 /\ 1.5 * 2 <> 0 /\ 1e-2 <= 1 /\ d_N (with_sources 2 1.5 2 1 (Some 3) (Some 1) (Some 1) (mkDerivatives 1 0 0 0 0)) = 4.
Proof. repeat (split; [lra|]). unfold with_sources. rewrite (Rltb_false 1 1e-8) by lra. cbv iota zeta. cbn [andb d_N]. cbv iota. cbn [d_N]. lra. Qed.
Lemma target_case : 0 <= 7 /\ 0 < 1 /\ 0 < 2 /\ 0 < 0.1 /\ 0 <= (1 + 3) / 2 /\ target_power 1 1 1 1 1 1 1 1 1 = 1.
Proof.
  repeat (split; [lra|]). unfold target_power. cbv zeta. replace (0.5 * (1 + 1)) with 1 by lra. rewrite Rltb_false by lra. rewrite sqrt_1. lra.
Qed.
