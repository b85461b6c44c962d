From Coq Require Import List Bool ZArith Reals Lra Lia.
From Verif Require Import StateMonad StateMonadProofs LimitersModel ParallelModel ParallelSpec ParallelProofs ParallelLaws ParallelHeating
  DiffusionModel DiffusionSpec DiffusionProofs PerpSpec PerpProofs WallsModel WallsProofs PerpModel NeutralModel NeutralSpec.
Import ListNotations.
Open Scope R_scope.

(** * The diffusion coefficient *)

Lemma floor_pos T : 0 < rfloor T 1e-5 /\ T <= rfloor T 1e-5.
Proof. unfold rfloor. assert (H := Rltb_spec T 1e-5). destruct (Rltb T 1e-5); lra. Qed.
Lemma Rnn_pos s T : 0 < AA s -> 0 < neutral_lmax s -> 0 < Rnn s T.
Proof.
  intros HA Hl. unfold Rnn. destruct (floor_pos T) as [ H _ ]. apply Rdiv_lt_0_compat; [ | exact Hl ].
  apply sqrt_lt_R0. apply Rdiv_lt_0_compat; assumption.
Qed.
Lemma BOUTMIN_le a b : BOUTMIN a b <= a /\ BOUTMIN a b <= b /\ (BOUTMIN a b = a \/ BOUTMIN a b = b).
Proof. unfold BOUTMIN. assert (H := Rltb_spec a b). destruct (Rltb a b); repeat split; auto; lra. Qed.

Definition D_free (s : nset) (T nu : R) : R := (T / AA s) / (nu + Rnn s T).
Definition D_flux (s : nset) (T g : R) : R := flux_limit s * sqrt (T / AA s) / (Rabs g + 1 / neutral_lmax s).

Lemma D_free_range s T nu : 0 < AA s -> 0 < neutral_lmax s -> 0 <= T -> 0 <= nu ->
  0 <= D_free s T nu <= neutral_lmax s * sqrt (T / AA s).
Proof.
  intros HA Hl HT Hnu. assert (HR := Rnn_pos s T HA Hl). unfold D_free.
  assert (HTA : 0 <= T / AA s) by (apply Rle_mult_inv_pos; assumption). split.
  - apply Rle_mult_inv_pos; lra.
  - apply Rle_trans with (T / AA s / Rnn s T).
    + apply Rmult_le_compat_l; [ exact HTA | ]. apply Rinv_le_contravar; lra.
    + assert (HS : sqrt (T / AA s) <= neutral_lmax s * Rnn s T).
      { unfold Rnn. replace (neutral_lmax s * (sqrt (rfloor T 1e-5 / AA s) / neutral_lmax s)) with (sqrt (rfloor T 1e-5 / AA s)) by (field; lra).
        apply sqrt_le_1_alt. apply Rmult_le_compat_r; [ apply Rlt_le, Rinv_0_lt_compat; exact HA | apply floor_pos ]. }
      apply (Rmult_le_reg_r (Rnn s T)); [ exact HR | ]. unfold Rdiv at 1. rewrite Rmult_assoc, Rinv_l by lra. rewrite Rmult_1_r.
      rewrite <- (sqrt_sqrt (T / AA s)) at 1 by exact HTA.
      assert (H0 := sqrt_pos (T / AA s)). set (q := sqrt (T / AA s)) in *. nra.
Qed.
Lemma D_flux_range s T g : 0 < neutral_lmax s -> 0 < flux_limit s ->
  0 <= D_flux s T g /\ D_flux s T g * Rabs g <= flux_limit s * sqrt (T / AA s) /\ D_flux s T g <= flux_limit s * neutral_lmax s * sqrt (T / AA s).
Proof.
  intros Hl Hf. unfold D_flux. assert (H0 := sqrt_pos (T / AA s)). set (q := sqrt (T / AA s)) in *. assert (Hg := Rabs_pos g).
  assert (Hi : 0 < 1 / neutral_lmax s) by (apply Rdiv_lt_0_compat; lra). set (L := 1 / neutral_lmax s) in *.
  assert (Hq : 0 <= flux_limit s * q) by nra.
  assert (Hd : 0 < / (Rabs g + L)) by (apply Rinv_0_lt_compat; lra).
  split; [ apply Rle_mult_inv_pos; [ exact Hq | lra ] | ]. split.
  - replace (flux_limit s * q / (Rabs g + L) * Rabs g) with (flux_limit s * q * (Rabs g / (Rabs g + L))) by (field; lra).
    assert (Rabs g / (Rabs g + L) <= 1).
    { apply (Rmult_le_reg_r (Rabs g + L)); [ lra | ]. unfold Rdiv. rewrite Rmult_assoc, Rinv_l by lra. lra. }
    nra.
  - replace (flux_limit s * neutral_lmax s * q) with (flux_limit s * q * neutral_lmax s) by ring. unfold Rdiv.
    apply Rmult_le_compat_l; [ exact Hq | ]. replace (neutral_lmax s) with (/ L) by (unfold L; field; lra). apply Rinv_le_contravar; lra.
Qed.

Lemma Dnn_bounds s T nu g : 0 < AA s -> 0 < neutral_lmax s -> 0 <= T -> 0 <= nu ->
  let D := Dnn_at s T nu g in
  0 <= D /\ D <= neutral_lmax s * thermal T (AA s)
  /\ (0 < flux_limit s -> D * Rabs g <= flux_limit s * thermal T (AA s))
  /\ (0 < diffusion_limit s -> D <= diffusion_limit s)
  /\ D * nu <= T / AA s.
Proof.
  intros HA Hl HT Hnu D. unfold thermal.
  destruct (D_free_range s T nu HA Hl HT Hnu) as [ F1 F2 ]. assert (HR := Rnn_pos s T HA Hl).
  assert (F3 : D_free s T nu * nu <= T / AA s).
  { unfold D_free. assert (0 <= T / AA s) by (apply Rle_mult_inv_pos; assumption).
    replace (T / AA s / (nu + Rnn s T) * nu) with (T / AA s * (nu / (nu + Rnn s T))) by (field; lra).
    assert (nu / (nu + Rnn s T) <= 1).
    { apply (Rmult_le_reg_r (nu + Rnn s T)); [ lra | ]. unfold Rdiv. rewrite Rmult_assoc, Rinv_l by lra. lra. }
    nra. }
  assert (E : D = (if Rltb 0 (diffusion_limit s) then BOUTMIN (if Rltb 0 (flux_limit s) then BOUTMIN (D_free s T nu) (D_flux s T g) else D_free s T nu) (diffusion_limit s)
                   else (if Rltb 0 (flux_limit s) then BOUTMIN (D_free s T nu) (D_flux s T g) else D_free s T nu))) by reflexivity.
  clearbody D. set (D1 := if Rltb 0 (flux_limit s) then BOUTMIN (D_free s T nu) (D_flux s T g) else D_free s T nu) in *.
  assert (H1 : 0 <= D1 /\ D1 <= D_free s T nu /\ (0 < flux_limit s -> D1 <= D_flux s T g)).
  { unfold D1. assert (Hs := Rltb_spec 0 (flux_limit s)). destruct (Rltb 0 (flux_limit s)).
    - destruct (BOUTMIN_le (D_free s T nu) (D_flux s T g)) as (B1 & B2 & B3). destruct (D_flux_range s T g Hl Hs) as (G1 & _).
      split; [ destruct B3; lra | ]. auto.
    - split; [ lra | ]. split; [ lra | ]. intros; lra. }
  assert (H2 : 0 <= D /\ D <= D1 /\ (0 < diffusion_limit s -> D <= diffusion_limit s)).
  { rewrite E. assert (Hs := Rltb_spec 0 (diffusion_limit s)). destruct (Rltb 0 (diffusion_limit s)).
    - destruct (BOUTMIN_le D1 (diffusion_limit s)) as (B1 & B2 & B3). split; [ destruct B3; lra | ]. auto.
    - split; [ lra | ]. split; [ lra | ]. intros; lra. }
  destruct H1 as (H1 & H1' & H1''). destruct H2 as (H2 & H2' & H2'').
  assert (Hg := Rabs_pos g).
  split; [ exact H2 | ]. split; [ lra | ]. split; [ | split; [ exact H2'' | ] ].
  - intros Hf. destruct (D_flux_range s T g Hl Hf) as (_ & G2 & _). specialize (H1'' Hf).
    apply Rle_trans with (2 := G2). apply Rmult_le_compat_r; lra.
  - apply Rle_trans with (2 := F3). apply Rmult_le_compat_r; lra.
Qed.

(** * Values at the walls *)

Lemma nnwall_nonneg a b : 0 <= nnwall a b.
Proof. unfold nnwall. assert (H := Rltb_spec (0.5 * (3 * a - b)) 0). destruct (Rltb (0.5 * (3 * a - b)) 0); lra. Qed.
Lemma nnwall_value a b : nnwall a b = Rmax 0 (a + (a - b) / 2).
Proof.
  unfold nnwall. assert (H := Rltb_spec (0.5 * (3 * a - b)) 0). destruct (Rltb (0.5 * (3 * a - b)) 0).
  - rewrite Rmax_left by lra. reflexivity.
  - rewrite Rmax_right by lra. lra.
Qed.

Lemma walls_closed m : at_lower m = closed_low m /\ at_upper m = closed_high m.
Proof. split; reflexivity. Qed.

Section Line.
  Variables (s : nset) (m : mesh) (n : nat) (M : mesh_ok m n).

  Let span : (ystart m <= yend m)%Z /\ (yend m = ystart m + Z.of_nat n - 1)%Z.
  Proof using M. destruct M as (N & E & _). lia. Qed.

  Lemma wall_low N up : closed_low m = true ->
    (wall_density m true up N (ystart m - 1) + wall_density m true up N (ystart m)) / 2 = Rmax 0 (N (ystart m) + (N (ystart m) - N (ystart m + 1)%Z) / 2).
  Proof using M.
    intros C. destruct span as [ S1 S2 ]. unfold wall_density. rewrite (proj1 (walls_closed m)), C. cbn [andb].
    destruct (up && at_upper m)%bool; rewrite ?(upd_other _ (yend m + 1)) by lia; rewrite upd_same, upd_other by lia; rewrite nnwall_value; field.
  Qed.
  Lemma wall_high N down : closed_high m = true -> (down && closed_low m = true -> ystart m < yend m)%Z ->
    (wall_density m down true N (yend m + 1) + wall_density m down true N (yend m)) / 2 = Rmax 0 (N (yend m) + (N (yend m) - N (yend m - 1)%Z) / 2).
  Proof using M.
    intros C H. destruct span as [ S1 S2 ]. unfold wall_density. rewrite (proj2 (walls_closed m)), (proj1 (walls_closed m)), C. cbn [andb].
    rewrite upd_same, (upd_other _ (yend m + 1)) by lia. destruct (down && closed_low m)%bool.
    - rewrite !upd_other by lia. rewrite nnwall_value. field.
    - rewrite nnwall_value. field.
  Qed.

  Lemma wall_inside down up N j : (ystart m <= j <= yend m)%Z -> wall_density m down up N j = N j.
  Proof using M.
    intros Hj. unfold wall_density. destruct (down && at_lower m)%bool, (up && at_upper m)%bool; rewrite ?upd_other by lia; reflexivity.
  Qed.

  (** Coefficients on the walls. *)
  Lemma with_D_low D f : closed_low m = true -> with_D s m D f (ystart m - 1) + with_D s m D f (ystart m) = 0.
  Proof using M.
    intros C. destruct span as [ S1 S2 ]. unfold with_D.
    assert (I := noflow_inside m n M true true (fun j => D j * f j) (ystart m) ltac:(lia)). destruct I as [ _ I ].
    assert (L := proj2 (noflow_low m n M true (fun j => D j * f j) C)).
    set (g := noflow_flow m true true (fun j => D j * f j)) in *.
    assert (I2 := proj2 (noflow_inside m n M (sheath_ydown s) (sheath_yup s) g (ystart m) ltac:(lia))). rewrite I2.
    destruct (sheath_ydown s).
    - rewrite (proj2 (noflow_low m n M (sheath_yup s) g C)). ring.
    - unfold noflow_flow. cbn [andb]. destruct (sheath_yup s && at_upper m)%bool; rewrite ?upd_other by lia; rewrite L, I; ring.
  Qed.
  Lemma with_D_high D f : closed_high m = true -> with_D s m D f (yend m + 1) + with_D s m D f (yend m) = 0.
  Proof using M.
    intros C. destruct span as [ S1 S2 ]. unfold with_D.
    assert (I := noflow_inside m n M true true (fun j => D j * f j) (yend m) ltac:(lia)). destruct I as [ _ I ].
    assert (L := proj2 (noflow_high m n M true (fun j => D j * f j) C)).
    set (g := noflow_flow m true true (fun j => D j * f j)) in *.
    assert (I2 := proj2 (noflow_inside m n M (sheath_ydown s) (sheath_yup s) g (yend m) ltac:(lia))). rewrite I2.
    destruct (sheath_yup s).
    - rewrite (proj2 (noflow_high m n M (sheath_ydown s) g C)). ring.
    - unfold noflow_flow. cbn [andb]. destruct (sheath_ydown s && at_lower m)%bool; rewrite ?upd_other by lia; rewrite L, I; ring.
  Qed.
  Lemma with_D_inside D f j : (ystart m <= j <= yend m)%Z -> with_D s m D f j = D j * f j.
  Proof using M.
    intros Hj. unfold with_D.
    rewrite (proj2 (noflow_inside m n M (sheath_ydown s) (sheath_yup s) _ j Hj)).
    rewrite (proj2 (noflow_inside m n M true true _ j Hj)). reflexivity.
  Qed.
End Line.

(** Coefficients that cancel on a face let nothing through, across the field as well. *)
Lemma y_up_zero c nz a f i j k : a i j k + a i (j + 1)%Z k = 0 -> y_flows_up c nz a f i j k = 0.
Proof. intros H. unfold y_flows_up. rewrite H. ring. Qed.
Lemma y_down_zero c nz a f i j k : a i j k + a i (j - 1)%Z k = 0 -> y_flows_down c nz a f i j k = 0.
Proof. intros H. unfold y_flows_down. rewrite H. ring. Qed.
Lemma x_zero c a f i j k : a i j k + a (i + 1)%Z j k = 0 -> x_flows c a f i j k = 0.
Proof. intros H. unfold x_flows. rewrite H. unfold Rdiv. ring. Qed.

(** * Conservation along a line *)

Lemma integral_scal c lo n a r : integral c lo n (fun j => a * r j) = a * integral c lo n r.
Proof. unfold integral. induction n as [ | n IH ]; cbn [zsum]; [ ring | ]. rewrite IH. ring. Qed.
Lemma integral_plus c lo n r r' : integral c lo n (fun j => r j + r' j) = integral c lo n r + integral c lo n r'.
Proof. unfold integral. induction n as [ | n IH ]; cbn [zsum]; [ ring | ]. rewrite IH. ring. Qed.
Lemma integral_ext c lo n r r' : (forall j, (lo <= j < lo + Z.of_nat n)%Z -> r j = r' j) -> integral c lo n r = integral c lo n r'.
Proof.
  unfold integral. induction n as [ | n IH ]; intros H; cbn [zsum]; [ reflexivity | ]. rewrite IH.
  - rewrite (H (lo + Z.of_nat n)%Z) by lia. reflexivity.
  - intros j Hj. apply H. lia.
Qed.

Lemma K_total_closed m n c K f : mesh_ok m n -> positive_metric c -> closed_low m = true -> closed_high m = true ->
  integral c (ystart m) n (fun j => fst (Div_par_K_Grad_par_mod m c K f false j)) = 0.
Proof.
  intros M P CL CH. assert (H := K_total m n c K f false M P). destruct (K_face_closed m n c K f M CL CH) as [ E1 E2 ].
  unfold total in H. unfold integral. rewrite H, E1, E2. ring.
Qed.

Section Conservation.
  Variables (s : nset) (m : mesh) (n : nat) (c : coords).
  Hypothesis (M : mesh_ok m n) (P : positive_metric c) (CL : closed_low m = true) (CH : closed_high m = true).
  Hypothesis (Hd : sheath_ydown s = true) (Hu : sheath_yup s = true).

  Lemma velocity_faces e : face_value (Vn (transform s m e)) (ystart m) = 0 /\ face_value (Vn (transform s m e)) (ystart m + Z.of_nat n) = 0.
  Proof using M CL CH Hd Hu.
    assert (E : (yend m + 1 = ystart m + Z.of_nat n)%Z) by (destruct M as (_ & H & _); lia).
    cbn [transform Vn]. rewrite Hd, Hu. split.
    - apply (noflow_face_low m n M). exact CL.
    - rewrite <- E. apply (noflow_face_high m n M). exact CH.
  Qed.
  Lemma advection_conserves e f ws : exists r w, Div_par_mod upwind_edges m c f (Vn (transform s m e)) ws true = Some (r, w) /\ integral c (ystart m) n r = 0.
  Proof using M P CL CH Hd Hu.
    destruct (mod_closed upwind_edges m c n f (Vn (transform s m e)) ws M P CL CH) as (r & w & E & H). exists r, w. split; [ exact E | ].
    destruct (velocity_faces e) as [ F1 F2 ]. rewrite H. unfold end_particle_flux. rewrite F1, F2. ring.
  Qed.
  Lemma momentum_conserves e f ws : exists r, Div_par_fvv upwind_edges m c f (Vn (transform s m e)) ws true = Some r /\ integral c (ystart m) n r = 0.
  Proof using M P CL CH Hd Hu.
    destruct (fvv_closed upwind_edges m c n f (Vn (transform s m e)) ws M P CL CH) as (r & E & H). exists r. split; [ exact E | ].
    destruct (velocity_faces e) as [ F1 F2 ]. rewrite H. unfold end_momentum_flux. rewrite F1, F2. ring.
  Qed.

  Lemma particles_balance o D e src : exists r, ddt_N s o m c D (transform s m e) src = Some r
    /\ integral c (ystart m) n r = integral c (ystart m) n (Perp o (with_D s m D (Nnlim (transform s m e))) (fun j => logarithm o (Pnlim (transform s m e) j)))
                                  + integral c (ystart m) n (S_n src).
  Proof using M P CL CH Hd Hu.
    unfold ddt_N. set (l := transform s m e). destruct (advection_conserves e (Nn l) (fun j => sound_speed s (Tn l j))) as (r & w & E & H).
    fold l in E. rewrite E. eexists. split; [ reflexivity | ].
    rewrite integral_plus. f_equal.
    rewrite integral_plus. rewrite (integral_ext _ _ _ (fun j => - r j) (fun j => -1 * r j)) by (intros; ring). rewrite integral_scal, H. ring.
  Qed.

  (** Momentum: only the pressure gradient, the flux across the field and the sources change the total. *)
  Lemma momentum_balance o D e src : let l := transform s m e in (forall a f, integral c (ystart m) n (Perp o a f) = 0) ->
    exists r, ddt_NV s o m c D l src = Some r
    /\ integral c (ystart m) n r = - integral c (ystart m) n (Grad_par o (Pn l)) + integral c (ystart m) n (S_nv src).
  Proof using M P CL CH Hd Hu.
    intros l HP. unfold ddt_NV. destruct (momentum_conserves e (Nnlim l) (fun j => sound_speed s (Tn l j))) as (r & E & H).
    fold l in E. rewrite E. eexists. split; [ reflexivity | ].
    rewrite integral_plus. f_equal.
    assert (V0 : integral c (ystart m) n (fun j => if neutral_viscosity s then viscosity_source s o m c D l j else 0) = 0).
    { destruct (neutral_viscosity s).
      - unfold viscosity_source. rewrite integral_plus, !integral_scal, HP, (K_total_closed m n c) by assumption. ring.
      - rewrite (integral_ext _ _ _ (fun _ => 0) (fun j => 0 * r j)) by (intros; ring). rewrite integral_scal. ring. }
    rewrite integral_plus, V0.
    rewrite (integral_ext _ _ _ (fun j => - AA s * r j - Grad_par o (Pn l) j + Perp o (with_D s m D (NVn l)) (fun j0 => logarithm o (Pnlim l j0)) j)
               (fun j => - AA s * r j + -1 * Grad_par o (Pn l) j + Perp o (with_D s m D (NVn l)) (fun j0 => logarithm o (Pnlim l j0)) j)) by (intros; ring).
    rewrite !integral_plus, !integral_scal, H, HP. ring.
  Qed.

  (** Thermal energy 3/2 P: the total changes by compression, by viscous heating and by the sources. *)
  Lemma heat_balance o D e src : let l := transform s m e in (forall a f, integral c (ystart m) n (Perp o a f) = 0) ->
    exists r, ddt_P s o m c D l src = Some r
    /\ 3 / 2 * integral c (ystart m) n r
       = - integral c (ystart m) n (fun j => Pn l j * Div_par o (Vn l) j) + 3 / 2 * integral c (ystart m) n (S_p src)
         - (if neutral_viscosity s then integral c (ystart m) n (fun j => Vn l j * viscosity_source s o m c D l j) else 0).
  Proof using M P CL CH Hd Hu.
    intros l HP. unfold ddt_P. destruct (advection_conserves e (Pn l) (fun j => sound_speed s (Tn l j))) as (r & w & E & H).
    fold l in E. rewrite E. eexists. split; [ reflexivity | ].
    assert (V0 : integral c (ystart m) n (fun j => if neutral_viscosity s then - (2 / 3) * Vn l j * viscosity_source s o m c D l j else 0)
                 = - (2 / 3) * (if neutral_viscosity s then integral c (ystart m) n (fun j => Vn l j * viscosity_source s o m c D l j) else 0)).
    { destruct (neutral_viscosity s).
      - rewrite <- integral_scal. apply integral_ext. intros; ring.
      - rewrite (integral_ext _ _ _ (fun _ => 0) (fun j => 0 * r j)) by (intros; ring). rewrite integral_scal. ring. }
    assert (C0 : integral c (ystart m) n (fun j => if neutral_conduction s then (2 / 3) * Perp o (kappa_n s m D (Nnlim l)) (Tn l) j
            + (2 / 3) * fst (Div_par_K_Grad_par_mod m c (kappa_n s m D (Nnlim l)) (Tn l) false j) else 0) = 0).
    { destruct (neutral_conduction s).
      - rewrite integral_plus, !integral_scal, HP, (K_total_closed m n c) by assumption. ring.
      - rewrite (integral_ext _ _ _ (fun _ => 0) (fun j => 0 * r j)) by (intros; ring). rewrite integral_scal. ring. }
    rewrite (integral_plus _ _ _ _ (fun j => if neutral_viscosity s then _ else 0)), V0.
    rewrite (integral_plus _ _ _ _ (S_p src)).
    rewrite (integral_plus _ _ _ _ (fun j => if neutral_conduction s then _ else 0)), C0.
    rewrite (integral_ext _ _ _ (fun j => - r j - 2 / 3 * Pn l j * Div_par o (Vn l) j + 5 / 3 * Perp o (with_D s m D (Pnlim l)) (fun j0 => logarithm o (Pnlim l j0)) j)
               (fun j => -1 * r j + - (2 / 3) * (Pn l j * Div_par o (Vn l) j) + 5 / 3 * Perp o (with_D s m D (Pnlim l)) (fun j0 => logarithm o (Pnlim l j0)) j)) by (intros; ring).
    rewrite !integral_plus, !integral_scal, H, HP. destruct (neutral_viscosity s); field.
  Qed.

  Lemma K_reads_cells K K' f j : (forall i, (ystart m <= i <= yend m)%Z -> K i = K' i) -> (ystart m <= j <= yend m)%Z ->
    fst (Div_par_K_Grad_par_mod m c K f false j) = fst (Div_par_K_Grad_par_mod m c K' f false j).
  Proof using CL CH.
    intros H Hj. unfold Div_par_K_Grad_par_mod, K_upper_on, K_lower_on. cbn [orb].
    unfold closed_low, closed_high in CL, CH. apply andb_prop in CL. apply andb_prop in CH. destruct CL as [ C1 C2 ]. destruct CH as [ C3 C4 ].
    apply negb_true_iff in C2. rewrite C1, C3, C2. cbn [orb negb].
    destruct (Z.eqb_spec j (yend m)) as [ E1 | E1 ], (Z.eqb_spec j (ystart m)) as [ E2 | E2 ]; cbn [negb fst]; unfold K_upper, K_lower;
      rewrite ?(H j) by lia; rewrite ?(H (j + 1)%Z) by lia; rewrite ?(H (j - 1)%Z) by lia; reflexivity.
  Qed.
  (** Parallel viscosity heats in total. *)
  Lemma viscous_heating_nonneg D e : let l := transform s m e in 0 <= AA s -> 0 <= density_floor s -> (forall j, 0 <= D j) ->
    integral c (ystart m) n (fun j => Vn l j * (AA s * fst (Div_par_K_Grad_par_mod m c (eta_n s m D (Nnlim l)) (Vn l) false j))) <= 0.
  Proof using M P CL CH.
    intros l HA Hf HD. assert (E : (yend m = ystart m + Z.of_nat n - 1)%Z) by (destruct M as (_ & H & _); lia).
    set (K' := fun j => if (Z.leb (ystart m) j && Z.leb j (yend m))%bool then eta_n s m D (Nnlim l) j else 0).
    assert (HN : forall j, 0 <= Nnlim l j).
    { intros j. cbn [l transform Nnlim]. generalize (rfloor (e_N e j) 0). intros x. unfold rfloor. assert (H := Rltb_spec x (density_floor s)).
      destruct (Rltb x (density_floor s)); lra. }
    assert (HK : forall j, 0 <= K' j).
    { intros j. unfold K'. destruct (Z.leb_spec (ystart m) j), (Z.leb_spec j (yend m)); cbn [andb]; try lra.
      unfold eta_n, kappa_n. rewrite (with_D_inside s m n M) by lia. specialize (HN j). specialize (HD j).
      assert (0 <= D j * Nnlim l j) by (apply Rmult_le_pos; assumption).
      replace (AA s * (2 / 5) * (5 / 2 * (D j * Nnlim l j))) with (AA s * (D j * Nnlim l j)) by field. apply Rmult_le_pos; assumption. }
    assert (H := K_dissipates_closed m n c K' (Vn l) M P HK CL CH). unfold total in H. fold (integral c (ystart m) n (fun j => Vn l j * fst (Div_par_K_Grad_par_mod m c K' (Vn l) false j))) in H.
    rewrite (integral_ext _ _ _ _ (fun j => AA s * (Vn l j * fst (Div_par_K_Grad_par_mod m c K' (Vn l) false j)))).
    - rewrite integral_scal. nra.
    - intros j Hj. rewrite (K_reads_cells (eta_n s m D (Nnlim l)) K').
      + ring.
      + intros i Hi. unfold K'. replace (ystart m <=? i)%Z with true by (symmetry; apply Z.leb_le; lia).
        replace (i <=? yend m)%Z with true by (symmetry; apply Z.leb_le; lia). reflexivity.
      + lia.
  Qed.
End Conservation.

(** Pointwise: what viscosity takes from the flow goes to heat. *)
Lemma viscous_energy s o m c D l j : energy_change (Vn l j) (- (2 / 3) * Vn l j * viscosity_source s o m c D l j) (viscosity_source s o m c D l j) = 0.
Proof. unfold energy_change. field. Qed.

(** * Holding back below the floor *)

Lemma hold_range floor f ddt : ddt <= hold floor f ddt /\ (f < floor * 1e-2 -> 0 <= hold floor f ddt) /\ (floor * 1e-2 <= f -> hold floor f ddt = ddt)
  /\ (0 <= ddt -> hold floor f ddt = ddt).
Proof.
  unfold hold. assert (H1 := Rltb_spec f (floor * 1e-2)). assert (H2 := Rltb_spec ddt 0).
  destruct (Rltb f (floor * 1e-2)), (Rltb ddt 0); cbn [andb]; repeat split; intros; lra.
Qed.

(** * What was in the guard cells does not matter *)

Lemma upwind_fluxes f v ws j :
  particle_flux upwind_edges f v ws j
  = lax_friedrichs (face_speed v ws j) (f (j - 1)%Z) (f (j - 1)%Z * v (j - 1)%Z) (f j) (f j * v j)
  /\ momentum_flux upwind_edges f v ws j
  = lax_friedrichs (face_speed v ws j) (f (j - 1)%Z * v (j - 1)%Z) (f (j - 1)%Z * v (j - 1)%Z * v (j - 1)%Z) (f j * v j) (f j * v j * v j).
Proof. split; reflexivity. Qed.

Definition inside (m : mesh) (j : Z) : Prop := (closed_low m = true -> (ystart m <= j)%Z) /\ (closed_high m = true -> (j <= yend m)%Z).
(** Faces between cells that are not beyond a closed end. *)
Lemma line_same m n (i1 i2 b1 b2 : Z -> R) : mesh_ok m n ->
  (forall j, (ystart m <= j <= ystart m + Z.of_nat n)%Z -> inside m (j - 1) -> inside m j -> i1 j = i2 j) ->
  (closed_low m = true -> b1 (ystart m) = b2 (ystart m)) -> (closed_high m = true -> b1 (ystart m + Z.of_nat n)%Z = b2 (ystart m + Z.of_nat n)%Z) ->
  forall j, (ystart m <= j <= ystart m + Z.of_nat n)%Z ->
  line_flux i1 b1 (closed_low m) (closed_high m) (ystart m) n j = line_flux i2 b2 (closed_low m) (closed_high m) (ystart m) n j.
Proof.
  intros M Hi HL HH j Hj. assert (E : (yend m = ystart m + Z.of_nat n - 1)%Z) by (destruct M as (_ & H & _); lia). unfold line_flux.
  unfold inside in Hi.
  destruct (Z.eqb_spec j (ystart m)) as [ E1 | E1 ], (Z.eqb_spec j (ystart m + Z.of_nat n)) as [ E2 | E2 ].
  - exfalso. destruct M as (N & _). lia.
  - rewrite andb_false_r, orb_false_r, andb_true_r. destruct (closed_low m) eqn:CL.
    + subst j. apply HL. reflexivity.
    + apply Hi; [ lia | | ]; split; intros; try congruence; lia.
  - rewrite andb_false_r, orb_false_l, andb_true_r. destruct (closed_high m) eqn:CH.
    + subst j. apply HH. reflexivity.
    + apply Hi; [ lia | | ]; split; intros; try congruence; lia.
  - rewrite !andb_false_r. cbn [orb]. apply Hi; [ lia | | ]; split; intros; lia.
Qed.
Lemma divergence_unique c (G1 G2 r1 r2 : Z -> R) j : positive_metric c -> G1 j = G2 j -> G1 (j + 1)%Z = G2 (j + 1)%Z ->
  divergence_of (c_J c) (c_g22 c) (c_dy c) G1 r1 j -> divergence_of (c_J c) (c_g22 c) (c_dy c) G2 r2 j -> r1 j = r2 j.
Proof.
  intros P E1 E2 D1 D2. unfold divergence_of in D1, D2. rewrite E1, E2 in D1. rewrite <- D2 in D1.
  apply Rmult_eq_reg_l in D1; [ exact D1 | ]. destruct (P j) as (P1 & P2 & P3). unfold cell_volume. apply Rgt_not_eq, Rmult_lt_0_compat; assumption.
Qed.

Lemma noflow_scalar_same m n f g : mesh_ok m n -> same_inside m f g -> forall j, (ystart m - 1 <= j <= yend m + 1)%Z -> noflow_scalar m true true f j = noflow_scalar m true true g j.
Proof.
  intros M H j Hj. assert (S : (ystart m <= yend m)%Z) by (destruct M as (N & E & _); lia). unfold noflow_scalar. cbn [andb].
  rewrite (proj1 (walls_closed m)), (proj2 (walls_closed m)). unfold upd.
  destruct (closed_low m) eqn:CL, (closed_high m) eqn:CH;
    repeat match goal with |- context [Z.eqb ?a ?b] => destruct (Z.eqb_spec a b) end; try lia; apply H; intros; try congruence; lia.
Qed.
Lemma noflow_flow_same m n f g : mesh_ok m n -> same_inside m f g -> forall j, (ystart m - 1 <= j <= yend m + 1)%Z -> noflow_flow m true true f j = noflow_flow m true true g j.
Proof.
  intros M H j Hj. assert (S : (ystart m <= yend m)%Z) by (destruct M as (N & E & _); lia). unfold noflow_flow. cbn [andb].
  rewrite (proj1 (walls_closed m)), (proj2 (walls_closed m)). unfold upd.
  destruct (closed_low m) eqn:CL, (closed_high m) eqn:CH;
    repeat match goal with |- context [Z.eqb ?a ?b] => destruct (Z.eqb_spec a b) end; try lia; try apply Ropp_eq_compat; apply H; intros; try congruence; lia.
Qed.
Lemma noflow_scalar_twice m f j : (ystart m <= yend m)%Z -> noflow_scalar m true true (noflow_scalar m true true f) j = noflow_scalar m true true f j.
Proof.
  intros S. unfold noflow_scalar. cbn [andb]. unfold upd. destruct (at_lower m), (at_upper m);
    repeat match goal with |- context [Z.eqb ?a ?b] => destruct (Z.eqb_spec a b) end; try lia; try congruence; f_equal; lia.
Qed.

Definition near (m : mesh) (f g : Z -> R) : Prop := forall j, (ystart m - 1 <= j <= yend m + 1)%Z -> f j = g j.

Section History.
  Variables (s : nset) (m : mesh) (n : nat) (c : coords) (o : operators) (D : Z -> R) (src : nsources) (e e' : evolving).
  Hypothesis (M : mesh_ok m n) (P : positive_metric c).
  Hypothesis (Hd : sheath_ydown s = true) (Hu : sheath_yup s = true).
  Hypothesis (O1 : reads_neighbours (Div_par o)) (O2 : reads_neighbours (Grad_par o)) (O3 : reads_neighbours2 (Perp o)).
  Hypothesis (SN : same_inside m (e_N e) (e_N e')) (SP : same_inside m (e_P e) (e_P e')) (SV : same_inside m (e_NV e) (e_NV e')).

  Let S0 : (ystart m <= yend m)%Z.
  Proof using M. destruct M as (N & E & _). lia. Qed.
  Let E0 : (yend m = ystart m + Z.of_nat n - 1)%Z.
  Proof using M. destruct M as (N & E & _). lia. Qed.

  Lemma noflow_at_inside f j : inside m j -> noflow_scalar m true true f j = f j /\ noflow_flow m true true f j = f j.
  Proof using M.
    intros [ H1 H2 ]. unfold noflow_scalar, noflow_flow. cbn [andb]. rewrite (proj1 (walls_closed m)), (proj2 (walls_closed m)).
    destruct (closed_low m) eqn:CL, (closed_high m) eqn:CH; rewrite ?upd_other by (try specialize (H1 eq_refl); try specialize (H2 eq_refl); lia); auto.
  Qed.
  Lemma scalar_inside f g : same_inside m f g -> same_inside m (noflow_scalar m true true f) (noflow_scalar m true true g).
  Proof using M. intros H j H1 H2. rewrite !(proj1 (noflow_at_inside _ j (conj H1 H2))). apply H; assumption. Qed.
  Lemma flow_inside f g : same_inside m f g -> same_inside m (noflow_flow m true true f) (noflow_flow m true true g).
  Proof using M. intros H j H1 H2. rewrite !(proj2 (noflow_at_inside _ j (conj H1 H2))). apply H; assumption. Qed.
  Lemma wall_same_inside f g : same_inside m f g -> same_inside m (wall_density m true true f) (wall_density m true true g).
  Proof using M.
    intros H j H1 H2. unfold wall_density. cbn [andb]. rewrite (proj1 (walls_closed m)), (proj2 (walls_closed m)).
    destruct (closed_low m) eqn:CL, (closed_high m) eqn:CH; rewrite ?upd_other by (try specialize (H1 eq_refl); try specialize (H2 eq_refl); lia); apply H; intros; try congruence; auto.
  Qed.

  Let l := transform s m e.
  Let l' := transform s m e'.

  Lemma lim_same : same_inside m (Nnlim l) (Nnlim l').
  Proof using SN. intros j H1 H2. unfold l, l'. cbn [transform Nnlim]. rewrite (SN j H1 H2). reflexivity. Qed.
  Lemma N_same : same_inside m (Nn l) (Nn l').
  Proof using M SN Hd Hu. unfold l, l'. cbn [transform Nn]. rewrite Hd, Hu. apply wall_same_inside. intros j H1 H2. rewrite (SN j H1 H2). reflexivity. Qed.
  Let pre_T : same_inside m (fun j => rfloor (e_P e j) 0 / rfloor (rfloor (e_N e j) 0) (density_floor s)) (fun j => rfloor (e_P e' j) 0 / rfloor (rfloor (e_N e' j) 0) (density_floor s)).
  Proof using SN SP. intros j H1 H2. rewrite (SN j H1 H2), (SP j H1 H2). reflexivity. Qed.
  Lemma T_same : same_inside m (Tn l) (Tn l') /\ near m (Tn l) (Tn l').
  Proof using M SN SP Hd Hu.
    unfold l, l'. cbn [transform Tn]. rewrite Hd, Hu. split; [ apply scalar_inside, scalar_inside, pre_T | ].
    intros j Hj. apply (noflow_scalar_same m n _ _ M); [ apply scalar_inside, pre_T | exact Hj ].
  Qed.
  Lemma V_same : same_inside m (Vn l) (Vn l') /\ near m (Vn l) (Vn l').
  Proof using M SN SV Hd Hu.
    unfold l, l'. cbn [transform Vn]. rewrite Hd, Hu.
    assert (H : same_inside m (fun j => e_NV e j / (AA s * rfloor (rfloor (e_N e j) 0) (density_floor s))) (fun j => e_NV e' j / (AA s * rfloor (rfloor (e_N e' j) 0) (density_floor s)))).
    { intros j H1 H2. rewrite (SN j H1 H2), (SV j H1 H2). reflexivity. }
    split; [ apply flow_inside, scalar_inside, H | ].
    intros j Hj. apply (noflow_flow_same m n _ _ M); [ apply scalar_inside, H | exact Hj ].
  Qed.
  Lemma P_same : same_inside m (Pn l) (Pn l') /\ near m (Pn l) (Pn l').
  Proof using M SP Hd Hu.
    unfold l, l'. cbn [transform Pn]. rewrite Hd, Hu.
    assert (H : same_inside m (fun j => rfloor (e_P e j) 0) (fun j => rfloor (e_P e' j) 0)) by (intros j H1 H2; rewrite (SP j H1 H2); reflexivity).
    split; [ apply scalar_inside, H | ]. intros j Hj. apply (noflow_scalar_same m n _ _ M); [ exact H | exact Hj ].
  Qed.
  Lemma Plim_same : same_inside m (Pnlim l) (Pnlim l') /\ near m (Pnlim l) (Pnlim l').
  Proof using M SP Hd Hu.
    unfold l, l'. cbn [transform Pnlim]. rewrite Hd, Hu.
    assert (H : same_inside m (fun j => rfloor (rfloor (e_P e j) 0) (pressure_floor s)) (fun j => rfloor (rfloor (e_P e' j) 0) (pressure_floor s))) by (intros j H1 H2; rewrite (SP j H1 H2); reflexivity).
    split; [ apply scalar_inside, scalar_inside, H | ]. intros j Hj. apply (noflow_scalar_same m n _ _ M); [ apply scalar_inside, H | exact Hj ].
  Qed.
  Lemma NV_same : same_inside m (NVn l) (NVn l').
  Proof using M SV Hd Hu. unfold l, l'. cbn [transform NVn]. rewrite Hd, Hu. apply flow_inside, SV. Qed.
  Lemma with_D_same f g : same_inside m f g -> near m (with_D s m D f) (with_D s m D g).
  Proof using M Hd Hu.
    intros H j Hj. unfold with_D. rewrite Hd, Hu. apply (noflow_flow_same m n _ _ M); [ | exact Hj ]. apply flow_inside.
    intros i H1 H2. rewrite (H i H1 H2). reflexivity.
  Qed.

  Lemma faces_zero (x : evolving) : (closed_low m = true -> face_value (Vn (transform s m x)) (ystart m) = 0)
    /\ (closed_high m = true -> face_value (Vn (transform s m x)) (ystart m + Z.of_nat n) = 0).
  Proof using M Hd Hu.
    cbn [transform Vn]. rewrite Hd, Hu. split; intros C.
    - apply (noflow_face_low m n M). exact C.
    - replace (ystart m + Z.of_nat n)%Z with (yend m + 1)%Z by lia. apply (noflow_face_high m n M). exact C.
  Qed.

  Lemma mod_same f g ws ws' : same_inside m f g -> same_inside m ws ws' -> exists r w r' w',
    Div_par_mod upwind_edges m c f (Vn l) ws true = Some (r, w) /\ Div_par_mod upwind_edges m c g (Vn l') ws' true = Some (r', w') /\ same_cells m r r'.
  Proof using M P SN SV Hd Hu.
    intros Hf Hw. destruct (mod_divergence upwind_edges m c n f (Vn l) ws true M P) as (r & w & E & H & _).
    destruct (mod_divergence upwind_edges m c n g (Vn l') ws' true M P) as (r' & w' & E' & H' & _).
    exists r, w, r', w'. split; [ exact E | ]. split; [ exact E' | ]. intros j Hj.
    destruct V_same as [ HV _ ].
    assert (G : forall j, (ystart m <= j <= ystart m + Z.of_nat n)%Z -> mod_line upwind_edges m true f (Vn l) ws n j = mod_line upwind_edges m true g (Vn l') ws' n j).
    { unfold mod_line. apply line_same; [ exact M | | | ].
      - intros k Hk [ I1 I2 ] [ I3 I4 ]. rewrite !(proj1 (upwind_fluxes _ _ _ _)). unfold face_speed.
        rewrite (Hf _ I1 I2), (Hf _ I3 I4), (Hw _ I1 I2), (Hw _ I3 I4), (HV _ I1 I2), (HV _ I3 I4). reflexivity.
      - intros C. unfold mod_end, end_particle_flux. destruct (faces_zero e) as [ F _ ]. destruct (faces_zero e') as [ F' _ ].
        fold l in F. fold l' in F'. rewrite (F C), (F' C). ring.
      - intros C. unfold mod_end, end_particle_flux. destruct (faces_zero e) as [ _ F ]. destruct (faces_zero e') as [ _ F' ].
        fold l in F. fold l' in F'. rewrite (F C), (F' C). ring. }
    apply (divergence_unique c _ _ r r' j P) with (3 := H j ltac:(lia)) (4 := H' j ltac:(lia)); apply G; lia.
  Qed.
  Lemma fvv_same f g ws ws' : same_inside m f g -> same_inside m ws ws' -> exists r r',
    Div_par_fvv upwind_edges m c f (Vn l) ws true = Some r /\ Div_par_fvv upwind_edges m c g (Vn l') ws' true = Some r' /\ same_cells m r r'.
  Proof using M P SN SV Hd Hu.
    intros Hf Hw. destruct (fvv_divergence upwind_edges m c n f (Vn l) ws true M P) as (r & E & H).
    destruct (fvv_divergence upwind_edges m c n g (Vn l') ws' true M P) as (r' & E' & H').
    exists r, r'. split; [ exact E | ]. split; [ exact E' | ]. intros j Hj.
    destruct V_same as [ HV _ ].
    assert (G : forall j, (ystart m <= j <= ystart m + Z.of_nat n)%Z -> fvv_line upwind_edges m true f (Vn l) ws n j = fvv_line upwind_edges m true g (Vn l') ws' n j).
    { unfold fvv_line. apply line_same; [ exact M | | | ].
      - intros k Hk [ I1 I2 ] [ I3 I4 ]. rewrite !(proj2 (upwind_fluxes _ _ _ _)). unfold face_speed.
        rewrite (Hf _ I1 I2), (Hf _ I3 I4), (Hw _ I1 I2), (Hw _ I3 I4), (HV _ I1 I2), (HV _ I3 I4). reflexivity.
      - intros C. unfold fvv_end, end_momentum_flux. destruct (faces_zero e) as [ F _ ]. destruct (faces_zero e') as [ F' _ ].
        fold l in F. fold l' in F'. rewrite (F C), (F' C). ring.
      - intros C. unfold fvv_end, end_momentum_flux. destruct (faces_zero e) as [ _ F ]. destruct (faces_zero e') as [ _ F' ].
        fold l in F. fold l' in F'. rewrite (F C), (F' C). ring. }
    apply (divergence_unique c _ _ r r' j P) with (3 := H j ltac:(lia)) (4 := H' j ltac:(lia)); apply G; lia.
  Qed.
  Lemma K_same K K' f g j : near m K K' -> near m f g -> (ystart m <= j <= yend m)%Z ->
    fst (Div_par_K_Grad_par_mod m c K f false j) = fst (Div_par_K_Grad_par_mod m c K' g false j).
  Proof using M.
    intros HK Hf Hj. unfold Div_par_K_Grad_par_mod, K_upper, K_lower.
    rewrite (HK j), (HK (j + 1)%Z), (HK (j - 1)%Z), (Hf j), (Hf (j + 1)%Z), (Hf (j - 1)%Z) by lia. reflexivity.
  Qed.
  Lemma perp_same a b f g j : near m a b -> near m f g -> (ystart m <= j <= yend m)%Z -> Perp o a f j = Perp o b g j.
  Proof using M O3. intros Ha Hf Hj. apply O3. intros i Hi. split; [ apply Ha | apply Hf ]; lia. Qed.
  Lemma sound_same : same_inside m (fun j => sound_speed s (Tn l j)) (fun j => sound_speed s (Tn l' j)).
  Proof using M SN SP Hd Hu. intros j H1 H2. rewrite (proj1 T_same j H1 H2). reflexivity. Qed.
  Lemma log_near : near m (fun j => logarithm o (Pnlim l j)) (fun j => logarithm o (Pnlim l' j)).
  Proof using M SP Hd Hu. intros j Hj. rewrite (proj2 Plim_same j Hj). reflexivity. Qed.
  Lemma inside_cells f g j : same_inside m f g -> (ystart m <= j <= yend m)%Z -> f j = g j.
  Proof using M. intros H Hj. apply H; intros; lia. Qed.
  Lemma viscosity_same j : (ystart m <= j <= yend m)%Z -> viscosity_source s o m c D l j = viscosity_source s o m c D l' j.
  Proof using M SN SV Hd Hu O3.
    intros Hj. assert (HE : near m (eta_n s m D (Nnlim l)) (eta_n s m D (Nnlim l'))).
    { intros i Hi. unfold eta_n, kappa_n. rewrite (with_D_same _ _ lim_same i Hi). reflexivity. }
    unfold viscosity_source. rewrite (perp_same _ _ _ _ j HE (proj2 V_same) Hj), (K_same _ _ _ _ j HE (proj2 V_same) Hj). reflexivity.
  Qed.

  Lemma history_N : exists r r', ddt_N s o m c D l src = Some r /\ ddt_N s o m c D l' src = Some r' /\ same_cells m r r'.
  Proof using M P SN SP SV Hd Hu O3.
    destruct (mod_same _ _ _ _ N_same sound_same) as (r & w & r' & w' & E & E' & H). unfold ddt_N. rewrite E, E'.
    eexists. eexists. split; [ reflexivity | ]. split; [ reflexivity | ]. intros j Hj. cbn beta.
    rewrite (H j Hj), (perp_same _ _ _ _ j (with_D_same _ _ lim_same) log_near Hj). reflexivity.
  Qed.
  Lemma history_P : exists r r', ddt_P s o m c D l src = Some r /\ ddt_P s o m c D l' src = Some r' /\ same_cells m r r'.
  Proof using M P SN SP SV Hd Hu O1 O3.
    destruct (mod_same _ _ _ _ (proj1 P_same) sound_same) as (r & w & r' & w' & E & E' & H). unfold ddt_P. rewrite E, E'.
    eexists. eexists. split; [ reflexivity | ]. split; [ reflexivity | ]. intros j Hj. cbn beta.
    assert (HK : near m (kappa_n s m D (Nnlim l)) (kappa_n s m D (Nnlim l'))).
    { intros i Hi. unfold kappa_n. rewrite (with_D_same _ _ lim_same i Hi). reflexivity. }
    rewrite (H j Hj), (inside_cells _ _ j (proj1 P_same) Hj), (inside_cells _ _ j (proj1 V_same) Hj).
    rewrite (O1 (Vn l) (Vn l') j) by (apply (proj2 V_same); lia).
    rewrite (perp_same _ _ _ _ j (with_D_same _ _ (proj1 Plim_same)) log_near Hj).
    rewrite (perp_same _ _ _ _ j HK (proj2 T_same) Hj), (K_same _ _ _ _ j HK (proj2 T_same) Hj), (viscosity_same j Hj). reflexivity.
  Qed.
  Lemma history_NV : exists r r', ddt_NV s o m c D l src = Some r /\ ddt_NV s o m c D l' src = Some r' /\ same_cells m r r'.
  Proof using M P SN SP SV Hd Hu O2 O3.
    destruct (fvv_same _ _ _ _ lim_same sound_same) as (r & r' & E & E' & H). unfold ddt_NV. rewrite E, E'.
    eexists. eexists. split; [ reflexivity | ]. split; [ reflexivity | ]. intros j Hj. cbn beta.
    rewrite (H j Hj), (O2 (Pn l) (Pn l') j) by (apply (proj2 P_same); lia).
    rewrite (perp_same _ _ _ _ j (with_D_same _ _ NV_same) log_near Hj), (viscosity_same j Hj). reflexivity.
  Qed.
End History.

(** * An empty cell does not lose particles by parallel flow *)

Lemma speed_above v ws j : Rabs (v (j - 1)%Z) <= face_speed v ws j /\ Rabs (v j) <= face_speed v ws j.
Proof.
  unfold face_speed. split.
  - apply Rle_trans with (2 := Rmax_r _ _). apply Rmax_l.
  - apply Rle_trans with (2 := Rmax_r _ _). apply Rmax_r.
Qed.
Lemma area_pos c j : positive_metric c -> 0 < face_area (c_J c) (c_g22 c) j.
Proof.
  intros P. unfold face_area. destruct (P (j - 1)%Z) as (A1 & A2 & A3), (P j) as (B1 & B2 & B3).
  apply Rdiv_lt_0_compat; [ lra | ]. assert (0 < sqrt (c_g22 c (j - 1)%Z)) by (apply sqrt_lt_R0; exact A2).
  assert (0 < sqrt (c_g22 c j)) by (apply sqrt_lt_R0; exact B2). lra.
Qed.
Lemma flux_into v ws f j : 0 <= f (j - 1)%Z -> f j = 0 -> 0 <= particle_flux upwind_edges f v ws j.
Proof.
  intros H1 H2. rewrite (proj1 (upwind_fluxes _ _ _ _)), H2. unfold lax_friedrichs. destruct (speed_above v ws j) as [ S1 S2 ].
  assert (0 <= v (j - 1)%Z + face_speed v ws j). { assert (H := Rle_abs (- v (j - 1)%Z)). rewrite Rabs_Ropp in H. lra. }
  set (a := face_speed v ws j) in *. nra.
Qed.
Lemma flux_out v ws f j : 0 <= f j -> f (j - 1)%Z = 0 -> particle_flux upwind_edges f v ws j <= 0.
Proof.
  intros H1 H2. rewrite (proj1 (upwind_fluxes _ _ _ _)), H2. unfold lax_friedrichs. destruct (speed_above v ws j) as [ S1 S2 ].
  assert (v j <= face_speed v ws j). { assert (H := Rle_abs (v j)). lra. }
  set (a := face_speed v ws j) in *. nra.
Qed.
Lemma floor0_nonneg x : 0 <= rfloor x 0.
Proof. unfold rfloor. assert (H := Rltb_spec x 0). destruct (Rltb x 0); lra. Qed.

Lemma empty_cell s m n c e ws : mesh_ok m n -> positive_metric c -> sheath_ydown s = true -> sheath_yup s = true ->
  let l := transform s m e in exists r w, Div_par_mod upwind_edges m c (Nn l) (Vn l) ws true = Some (r, w)
    /\ forall j, (ystart m <= j <= yend m)%Z -> e_N e j <= 0 -> 0 <= - r j.
Proof.
  intros M P Hd Hu l. destruct (mod_divergence upwind_edges m c n (Nn l) (Vn l) ws true M P) as (r & w & E & H & _).
  exists r, w. split; [ exact E | ]. intros j Hj H0. assert (Ey : (yend m = ystart m + Z.of_nat n - 1)%Z) by (destruct M as (_ & Q & _); lia).
  specialize (H j ltac:(lia)). unfold divergence_of in H.
  assert (Ej : Nn l j = 0).
  { unfold l. cbn [transform Nn]. rewrite (wall_inside m n M) by exact Hj. assert (F := floor0_nonneg (e_N e j)). unfold rfloor in *.
    assert (S := Rltb_spec (e_N e j) 0). destruct (Rltb (e_N e j) 0); lra. }
  assert (Nin : forall i, inside m i -> 0 <= Nn l i).
  { intros i [ I1 I2 ]. unfold l. cbn [transform Nn]. rewrite Hd, Hu. unfold wall_density. cbn [andb]. rewrite (proj1 (walls_closed m)), (proj2 (walls_closed m)).
    destruct (closed_low m) eqn:CL, (closed_high m) eqn:CH; rewrite ?upd_other by (try specialize (I1 eq_refl); try specialize (I2 eq_refl); lia); apply floor0_nonneg. }
  assert (GL : 0 <= mod_line upwind_edges m true (Nn l) (Vn l) ws n j).
  { unfold mod_line, line_flux. destruct (Z.eqb_spec j (ystart m)) as [ E1 | E1 ].
    - destruct (closed_low m) eqn:CL; cbn [andb orb].
      + unfold mod_end, end_particle_flux. rewrite E1. assert (Z0 := proj1 (faces_zero s m n M Hd Hu e) CL). fold l in Z0. rewrite Z0. lra.
      + replace (Z.eqb j (ystart m + Z.of_nat n)) with false by (symmetry; apply Z.eqb_neq; lia). rewrite andb_false_r.
        apply flux_into; [ apply Nin; split; intros; try congruence; lia | exact Ej ].
    - rewrite andb_false_r. replace (Z.eqb j (ystart m + Z.of_nat n)) with false by (symmetry; apply Z.eqb_neq; lia). rewrite andb_false_r. cbn [orb].
      apply flux_into; [ apply Nin; split; intros; lia | exact Ej ]. }
  assert (GH : mod_line upwind_edges m true (Nn l) (Vn l) ws n (j + 1) <= 0).
  { unfold mod_line, line_flux. replace (Z.eqb (j + 1) (ystart m)) with false by (symmetry; apply Z.eqb_neq; lia). rewrite andb_false_r. cbn [orb].
    destruct (Z.eqb_spec (j + 1) (ystart m + Z.of_nat n)) as [ E1 | E1 ].
    - destruct (closed_high m) eqn:CH; cbn [andb].
      + unfold mod_end, end_particle_flux. rewrite E1. assert (Z0 := proj2 (faces_zero s m n M Hd Hu e) CH). fold l in Z0. rewrite Z0. lra.
      + apply flux_out; [ apply Nin; split; intros; try congruence; lia | replace (j + 1 - 1)%Z with j by lia; exact Ej ].
    - rewrite andb_false_r. apply flux_out; [ apply Nin; split; intros; lia | replace (j + 1 - 1)%Z with j by lia; exact Ej ]. }
  destruct (P j) as (P1 & P2 & P3). assert (HV : 0 < cell_volume (c_J c) (c_dy c) j) by (unfold cell_volume; apply Rmult_lt_0_compat; assumption).
  assert (A1 := area_pos c j P). assert (A2 := area_pos c (j + 1) P).
  assert (cell_volume (c_J c) (c_dy c) j * r j <= 0) by (rewrite H; nra).
  assert (r j <= 0); [ | lra ]. apply (Rmult_le_reg_l (cell_volume (c_J c) (c_dy c) j)); [ exact HV | ]. rewrite Rmult_0_r. assumption.
Qed.

(** * Witnesses *)

Definition plain (A : R) (walls : bool) : nset := mkNset A (1 / 10) (1 / 10) walls walls false 1 1 1 true true.
Definition no_ops : operators := mkOps (fun _ _ => 0) (fun _ _ => 0) (fun _ _ _ => 0) ln.
Lemma no_ops_ok : reads_neighbours (Div_par no_ops) /\ reads_neighbours (Grad_par no_ops) /\ reads_neighbours2 (Perp no_ops)
  /\ forall c lo n a f, integral c lo n (Perp no_ops a f) = 0.
Proof.
  repeat split; try (intros; reflexivity). intros c lo n a f. unfold integral. induction n as [ | n IH ]; cbn [zsum]; [ reflexivity | ].
  rewrite IH. cbn [no_ops Perp]. ring.
Qed.
Lemma floor_same a b : b <= a -> rfloor a b = a.
Proof. intros H. unfold rfloor. rewrite (Rltb_false a b) by lra. reflexivity. Qed.

(** One cell between walls that are switched off; only the guard cell below differs. *)
Definition stale (guard : R) : evolving := mkEv (values [guard; 1; 1]) (fun _ => 1) (fun _ => 1).
Definition no_sources : nsources := mkNs (fun _ => 0) (fun _ => 0) (fun _ => 0).
Lemma stale_rate guard : 0 <= guard -> exists r, ddt_N (plain 1 false) no_ops mesh1 unit_coords (fun _ => 0) (transform (plain 1 false) mesh1 (stale guard)) no_sources = Some r
  /\ r 1%Z = (guard - 1) / 2.
Proof.
  intros Hg. unfold ddt_N. set (l := transform (plain 1 false) mesh1 (stale guard)).
  destruct (mod_divergence upwind_edges mesh1 unit_coords 1 (Nn l) (Vn l) (fun j => sound_speed (plain 1 false) (Tn l j)) true mesh1_ok unit_positive) as (r & w & E & H & _).
  rewrite E. eexists. split; [ reflexivity | ]. cbn [no_ops Perp no_sources S_n].
  specialize (H 1%Z ltac:(cbn [mesh1 ystart]; lia)). unfold divergence_of in H. rewrite !unit_area, unit_volume in H.
  unfold mod_line, line_flux, closed_low, closed_high in H. cbn [mesh1 firstY lastY periodicY negb andb ystart] in H.
  change (1 =? 1)%Z with true in H. change (1 + 1 =? 1)%Z with false in H. change (1 + 1 =? 1 + Z.of_nat 1)%Z with true in H. change (1 =? 1 + Z.of_nat 1)%Z with false in H.
  cbn [orb] in H. unfold mod_end, end_particle_flux, face_value in H. change (1 + 1 - 1)%Z with 1%Z in H. change (1 + 1)%Z with 2%Z in H. change (1 - 1)%Z with 0%Z in H.
  assert (N0 : Nn l 0%Z = guard) by (unfold l; cbn [transform Nn plain sheath_ydown sheath_yup wall_density andb stale e_N]; vals; apply floor_same; exact Hg).
  assert (N1 : Nn l 1%Z = 1) by (unfold l; cbn [transform Nn plain sheath_ydown sheath_yup wall_density andb stale e_N]; vals; apply floor_same; lra).
  assert (N2 : Nn l 2%Z = 1) by (unfold l; cbn [transform Nn plain sheath_ydown sheath_yup wall_density andb stale e_N]; vals; apply floor_same; lra).
  assert (V1 : forall j, Vn l j = noflow_scalar mesh1 true true (fun j => 1 / (1 * rfloor (rfloor (values [guard; 1; 1] j) 0) (1 / 10))) j) by (intros j; reflexivity).
  assert (VC : 1 / (1 * rfloor (rfloor (values [guard; 1; 1] 1) 0) (1 / 10)) = 1).
  { vals. rewrite (floor_same 1 0) by lra. rewrite floor_same by lra. field. }
  assert (VV : Vn l 0%Z = 1 /\ Vn l 1%Z = 1 /\ Vn l 2%Z = 1).
  { rewrite !V1. unfold noflow_scalar, at_lower, at_upper. cbn [mesh1 firstY lastY periodicY negb andb ystart yend]. unfold upd. zify_idx.
    cbn [Z.eqb Pos.eqb]. rewrite VC. auto. }
  destruct VV as (V0 & V1' & V2). rewrite N0, N1, N2, V0, V1', V2 in H. lra.
Qed.

(** Viscosity in deuterium. *)
Definition shear : evolving := mkEv (fun _ => 1) (fun _ => 1) (values [0; 2; 0; 0]).
Lemma shear_force : let l := transform (plain 2 true) mesh2 shear in
  fst (Div_par_K_Grad_par_mod mesh2 unit_coords (eta_n (plain 2 true) mesh2 (fun _ => 1) (Nnlim l)) (Vn l) false 1) = -2.
Proof.
  intros l. assert (L : forall j, Nnlim l j = 1).
  { intros j. unfold l. cbn [transform Nnlim shear e_N plain density_floor]. rewrite (floor_same 1 0) by lra. apply floor_same. lra. }
  assert (EK : forall j, (1 <= j <= 2)%Z -> eta_n (plain 2 true) mesh2 (fun _ => 1) (Nnlim l) j = 2).
  { intros j Hj. unfold eta_n, kappa_n. rewrite (with_D_inside (plain 2 true) mesh2 2 mesh2_ok) by (cbn [mesh2 ystart yend]; lia). rewrite L. cbn [plain AA]. field. }
  assert (VV : Vn l 1%Z = 1 /\ Vn l 2%Z = 0).
  { unfold l. cbn [transform Vn plain sheath_ydown sheath_yup].
    rewrite (proj2 (noflow_inside mesh2 2 mesh2_ok true true _ 1%Z ltac:(cbn [mesh2 ystart yend]; lia))).
    rewrite (proj2 (noflow_inside mesh2 2 mesh2_ok true true _ 2%Z ltac:(cbn [mesh2 ystart yend]; lia))).
    rewrite (proj1 (noflow_inside mesh2 2 mesh2_ok true true _ 1%Z ltac:(cbn [mesh2 ystart yend]; lia))).
    rewrite (proj1 (noflow_inside mesh2 2 mesh2_ok true true _ 2%Z ltac:(cbn [mesh2 ystart yend]; lia))).
    cbn [shear e_NV e_N AA density_floor plain]. vals. rewrite (floor_same 1 0) by lra. rewrite floor_same by lra. split; field. }
  destruct VV as [ V1 V2 ].
  unfold Div_par_K_Grad_par_mod, K_upper_on, K_lower_on. cbn [mesh2 firstY lastY periodicY ystart yend negb orb].
  change (1 =? 2)%Z with false. change (1 =? 1)%Z with true. cbn [negb orb fst]. unfold K_upper. change (1 + 1)%Z with 2%Z.
  rewrite !EK by lia. rewrite V1, V2. cbn [unit_coords c_J c_g22 c_dy]. replace 0.5 with (/ 2) by lra. field.
Qed.

(** Across the field: an empty hot cell next to a dense cold one.  Coefficients D * Nnlim with D = 1 and a floor of 1/10, negated in the guard cells. *)
Definition hot_N : Z -> R := values [0; 0; 1; 0].
Definition hot_P : Z -> R := values [exp 1; exp 1; 1; 1].
Definition hot_a : Z -> R := values [- (1 / 10); 1 / 10; 1; -1].
Definition flat_p : pcoords := mkPcoords (fun _ _ => 1) (fun _ _ => 1) (fun _ _ => 0) (fun _ _ => 0) (fun _ _ => 1) (fun _ _ => 1) (fun _ _ => 1) (fun _ _ => 1) (fun _ _ => 1).
Lemma flat_p_ok : PerpSpec.pcoords_ok flat_p.
Proof. intros i j. cbn [flat_p p_J p_dx p_dy p_dz]. lra. Qed.
Definition pair_x : DiffusionModel.xmesh := DiffusionModel.mkXmesh 1 2 4 true true.
Lemma pair_x_ok : xmesh_ok pair_x 2.
Proof. split; [ lia | reflexivity ]. Qed.
Definition hot_rate (i : Z) : R := fst (x_loop pair_x flat_p (x_flows flat_p (fun i _ _ => hot_a i) (fun i _ _ => ln (hot_P i))) 0 0) i.
Lemma hot_rates : hot_rate 1 = - (11 / 20) /\ hot_rate 2 = 11 / 20.
Proof.
  assert (L1 : ln (exp 1) = 1) by apply ln_exp. assert (L2 : ln 1 = 0) by apply ln_1.
  unfold hot_rate. rewrite !(PerpProofs.x_cell pair_x 2 flat_p) by (try exact pair_x_ok; try exact flat_p_ok; cbn [pair_x DiffusionModel.xstart]; lia).
  unfold x_flows, hot_a, hot_P. zify_idx. vals. rewrite L1, L2. cbn [flat_p p_J p_dx p_g11]. split; lra.
Qed.
