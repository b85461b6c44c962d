(** Concrete cases for VortProps.v: a ring of four cells. *)

From Coq Require Import List Bool ZArith Reals Lra Lia.
From Verif Require Import StateMonad StateMonadProofs LimitersModel ParallelModel ParallelSpec ParallelProofs DiffusionModel DriftModel DriftSpec DriftProofs VortModel VortSpec VortProofs VortLaws.
Import ListNotations.
Open Scope R_scope.

Definition nx (i : Z) : Z := ring_next 4 i.
Definition pv (i : Z) : Z := ring_prev 4 i.
(** Differences of fluxes through the faces between a cell and its successor. *)
Definition ring_div (F : Z -> R) (i : Z) : R := F (i mod 4)%Z - F (pv i).
Definition ring_op : operators :=
  mkOperators (fun n f => ring_div (fun i => n i * (f (nx i) - f i))) (fun f g i => f i * (g (nx i) - g (pv i))) (fun a f => ring_div (fun i => a i * (f (nx i) - f i)))
    (fun f => ring_div (fun i => f (nx i) - f i)) (fun f => f) (fun f => ring_div (fun i => (f i + f (nx i)) / 2)) (fun f w => ring_div (fun i => w i * (f i - f (nx i))))
    (fun f k => D4DZ4_Index (Z.of_nat 4) f k / 2 ^ 4).
Definition ring_sum (f : field) : R := zsum 0 4 f.
Lemma ring_sum4 f : ring_sum f = f 0%Z + f 1%Z + f 2%Z + f 3%Z.
Proof. unfold ring_sum. cbn [zsum]. cbn. ring. Qed.
Lemma ring_integral : integral ring_sum.
Proof.
  split; [|split].
  - intros f g. rewrite !ring_sum4. ring.
  - intros c f. rewrite !ring_sum4. ring.
  - intros f g H. rewrite !ring_sum4, !H. reflexivity.
Qed.
Lemma ring_div_0 F : ring_sum (ring_div F) = 0.
Proof. rewrite ring_sum4. unfold ring_div. change (0 mod 4)%Z with 0%Z. change (1 mod 4)%Z with 1%Z. change (2 mod 4)%Z with 2%Z. change (3 mod 4)%Z with 3%Z.
  change (pv 0) with 3%Z. change (pv 1) with 0%Z. change (pv 2) with 1%Z. change (pv 3) with 2%Z. ring. Qed.
Lemma ring_sealed : sealed ring_sum ring_op.
Proof. split; [|split; [|split]]; intros; apply ring_div_0. Qed.
Lemma ring_dissipates f : 0 <= ring_sum (fun i => f i * fv_div_par ring_op f (fun _ => 3) i).
Proof.
  rewrite ring_sum4. cbn [ring_op fv_div_par]. unfold ring_div. change (0 mod 4)%Z with 0%Z. change (1 mod 4)%Z with 1%Z. change (2 mod 4)%Z with 2%Z. change (3 mod 4)%Z with 3%Z.
  change (pv 0) with 3%Z. change (pv 1) with 0%Z. change (pv 2) with 1%Z. change (pv 3) with 2%Z. change (nx 0) with 1%Z. change (nx 1) with 2%Z. change (nx 2) with 3%Z. change (nx 3) with 0%Z.
  set (a := f 0%Z). set (b := f 1%Z). set (c := f 2%Z). set (d := f 3%Z).
  pose proof (Rle_0_sqr (a - b)) as H1. pose proof (Rle_0_sqr (b - c)) as H2. pose proof (Rle_0_sqr (c - d)) as H3. pose proof (Rle_0_sqr (d - a)) as H4. unfold Rsqr in *. lra.
Qed.
Lemma ring_lin (F : (Z -> R) -> Z -> R) : (forall f g i, F (fun k => f k + g k) i = F f i + F g i) -> (forall c f i, F (fun k => c * f k) i = c * F f i) ->
  (forall f g, same f g -> same (F f) (F g)) -> linear (fun f => ring_div (F f)).
Proof.
  intros A B C. split; [|split].
  - intros f g i. unfold ring_div. rewrite !A. ring.
  - intros c f i. unfold ring_div. rewrite !B. ring.
  - intros f g H i. unfold ring_div. now rewrite !(C f g H).
Qed.
Lemma ring_par : linear (div_par ring_op).
Proof. apply (ring_lin (fun f i => (f i + f (nx i)) / 2)); intros; try field. intros i. now rewrite !H. Qed.
Lemma ring_dag a : linear (div_a_grad ring_op a).
Proof. apply (ring_lin (fun f i => a i * (f (nx i) - f i))); intros; try ring. intros i. now rewrite !H. Qed.
Lemma ring_dag1 f : linear (fun a => div_a_grad ring_op a f).
Proof. apply (ring_lin (fun a i => a i * (f (nx i) - f i))); intros; try ring. intros i. now rewrite !H. Qed.
Lemma ring_d4 : forall f, same (d4dz4 ring_op f) (fun k => D4DZ4_Index (Z.of_nat 4) f k / 2 ^ 4).
Proof. intros f i. reflexivity. Qed.
Lemma ring_adv n m f g : same n m -> same f g -> same (adv ring_op n f) (adv ring_op m g).
Proof. intros H K i. cbn [ring_op adv]. unfold ring_div. now rewrite !H, !K. Qed.
Lemma ring_adv_half n f : same (adv ring_op (fun k => 0.5 * n k) f) (fun i => 0.5 * adv ring_op n f i).
Proof. intros i. cbn [ring_op adv]. unfold ring_div. ring. Qed.
Lemma id_linear : linear (fun f : Z -> R => f).
Proof. split; [|split]; intros; intros i; try reflexivity. apply H. Qed.

(** Species: an ion and electrons with opposite charge which move at different speeds. *)
Definition ion : species := mkSpecies (Some 1) (Some 2) None (Some (fun i => 1 + IZR i)) None (Some (fun i => 2 * IZR i)) None.
Definition electrons : species := mkSpecies (Some (-1)) (Some 1) None (Some (fun i => 1 + IZR i)) None (Some (fun i => 5 * IZR i)) None.
Definition alpha : species := mkSpecies (Some 2) (Some 4) None (Some (fun _ => 1)) (Some (fun i => IZR i * IZR i)) None None.
Lemma ion_number : charge_number ion = 1.
Proof. unfold charge_number, ion. cbn [charge]. rewrite Rabs_R1. destruct (Rlt_dec 1 1e-5); lra. Qed.
Lemma electrons_number : charge_number electrons = -1.
Proof. unfold charge_number, electrons. cbn [charge]. rewrite Rabs_left by lra. destruct (Rlt_dec (- -1) 1e-5); lra. Qed.
Lemma pair_complete : List.Forall mobile_complete [ion; electrons].
Proof. apply List.Forall_cons; [|apply List.Forall_cons; [|apply List.Forall_nil]]; intros _ _; split; intros N; discriminate N. Qed.
Definition all_on : vort_options := mkVortOptions true false true true 0.5 2 (fun _ => 1).

(** The full form differs by more than nothing from the simple one if ions are warm. *)
Lemma warm_differs : exb_full ring_op 2 (fun _ => 1) (fun _ => 0) (fun i => IZR i) (fun i => IZR i) 0%Z <> exb_simplified ring_op (fun _ => 0) (fun i => IZR i) 0%Z.
Proof.
  unfold exb_full, exb_simplified, plus, times. cbn [ring_op adv free_o2 bracket div_a_grad delp2]. unfold ring_div.
  change (0 mod 4)%Z with 0%Z. change (pv 0) with 3%Z. change (nx 0) with 1%Z. change (nx 3) with 0%Z. change (nx 1) with 2%Z. change (pv 1) with 0%Z. change (pv 3) with 2%Z. change (0 mod 4)%Z with 0%Z. change (3 mod 4)%Z with 3%Z. change (nx 0) with 1%Z. change (nx 3) with 0%Z. change (nx 2) with 3%Z. change (pv 0) with 3%Z. lra.
Qed.

(** Sheaths: one cell between two targets. *)
Lemma single_cell : exists m phi, (ystart m = yend m)%Z /\ Rmin (mean (phi (ystart m)) (phi (ystart m - 1)%Z)) 0 < 0
  /\ Rmin (mean (phi (yend m)) (phi (yend m + 1)%Z)) 0 = 0 /\ sheath_line m true true phi (ystart m) = 0.
Proof.
  exists (mkMesh 0 0 4 true true false), (fun i => if Z.ltb i 0 then -3 else 1). cbn [ystart yend]. split; [reflexivity|].
  change (0 - 1)%Z with (-1)%Z. change (0 + 1)%Z with 1%Z. change (Z.ltb 0 0) with false. change (Z.ltb (-1) 0) with true. change (Z.ltb 1 0) with false. cbv iota.
  unfold mean. split; [unfold Rmin; destruct (Rle_dec _ 0); lra|]. split; [unfold Rmin; destruct (Rle_dec _ 0); lra|].
  unfold sheath_line. cbn [ystart yend]. cbv zeta. unfold upd. change (Z.eqb 0 0) with true. cbv iota. rewrite sheath_min. unfold mean.
  change (0 + 1)%Z with 1%Z. change (Z.ltb 0 0) with false. change (Z.ltb 1 0) with false. cbv iota. unfold Rmin. destruct (Rle_dec _ 0); lra.
Qed.
Lemma sheath_heats : exists a b, mean a b < 0 /\ - (a * sheath_dissipation a b) > 0.
Proof. exists 1, (-3). rewrite sheath_min. unfold mean, Rmin. split; [lra|]. destruct (Rle_dec _ 0); lra. Qed.

(** Relaxing potential: a doubly charged ion.  The vorticity of a species with density N and pressure P is div(A / B^2 (N grad phi + grad P / Z)). *)
Lemma relax_full_refuted : exists l phi Vort r, relax_full (mkOperators (fun _ _ => zero) (fun _ _ => zero) line_div (fun _ => zero) (fun f => f) (fun f => f) (fun f _ => f) (fun f => f)) true 1 (fun _ => 1) phi Vort l = Some r
  /\ same r (fun _ => 0) /\ (forall i, sum_over l (fun s => line_div (charged_mass s) phi i + line_div (fun _ => value (AA s) / charge_number s) (fvalue (pressure s)) i) = Vort i / 2 /\ Vort i <> 0).
Proof.
  exists [alpha], (fun _ => 0), (fun _ => 8).
  assert (C : charged alpha = Some 2). { apply charged_set; [reflexivity|]. rewrite Rabs_right; lra. }
  assert (N : charge_number alpha = 2). { unfold charge_number, alpha. cbn [charge]. rewrite Rabs_right by lra. destruct (Rlt_dec 2 1e-5); lra. }
  unfold relax_full. cbn [fold_left]. unfold add_phi_vort. rewrite C. cbn [alpha AA density pressure div_a_grad]. eexists. split; [reflexivity|]. split.
  - intros i. unfold plus, zero, line_div, line_face. rewrite plus_IZR, minus_IZR. field.
  - intros i. split; [|lra]. unfold sum_over. cbn [map fold_right]. rewrite N. cbn [alpha AA density pressure value fvalue]. unfold line_div, line_face. rewrite plus_IZR, minus_IZR. field.
Qed.
Lemma relax_full_case : exists r, relax_full ring_op false 1 (fun _ => 1) (fun i => IZR i) (fun _ => 0) [ion; electrons] = Some r /\ r 0%Z = (2 + 1) - (2 + 1) * (1 + 3) * -3.
Proof.
  assert (C : charged ion = Some 1). { apply charged_set; [reflexivity|]. rewrite Rabs_R1. lra. }
  assert (C2 : charged electrons = Some (-1)). { apply charged_set; [reflexivity|]. rewrite Rabs_left by lra. lra. }
  unfold relax_full. cbn [fold_left]. unfold add_phi_vort. rewrite C, C2. cbn [ion electrons AA density pressure]. eexists. split; [reflexivity|].
  unfold plus, zero. cbn [ring_op div_a_grad]. unfold ring_div. change (0 mod 4)%Z with 0%Z. change (pv 0) with 3%Z. change (nx 0) with 1%Z. change (nx 3) with 0%Z. lra.
Qed.
(** Everything switched on. *)
Lemma all_on_defined : exists r, vort_finally all_on ring_op (fun _ => 1) (fun _ => 2) (fun i => IZR i) (fun i => - IZR i) (fun _ => 1) (fun _ => 0) (Some (fun _ => 1)) None (Some (fun _ => 3)) [ion; electrons] = Some r.
Proof. apply finally_defined. split; [exact pair_complete|]. intros _ N. discriminate N. Qed.
Lemma all_on_hyper : ring_sum (fun i => (2 : R) ^ 4 * d4dz4 ring_op (fun i => IZR i) i) = 0.
Proof.
  rewrite ring_sum4. cbn [ring_op d4dz4]. pose proof (DiffusionProofs2.D4DZ4_conserves 4 (fun i => IZR i) (Nat.lt_0_succ 3)) as H.
  change (zsum 0 4 ?f) with (ring_sum f) in H. rewrite ring_sum4 in H. lra.
Qed.
Lemma all_on_integral r : vort_finally all_on ring_op (fun _ => 1) (fun _ => 2) (fun i => IZR i) (fun i => - IZR i) (fun _ => 1) (fun _ => 0) (Some (fun _ => 1)) None (Some (fun _ => 3)) [ion; electrons] = Some r ->
  ring_sum r = 4.
Proof.
  intros E. rewrite (finally_integral ring_sum ring_integral _ _ _ _ _ _ _ _ _ _ _ _ r ring_sealed) with (3 := E).
  - rewrite !ring_sum4. cbn [fvalue]. lra.
  - intros f g N. contradiction.
  - intros _. exact all_on_hyper.
Qed.
Lemma all_on_throws : vort_finally all_on ring_op (fun _ => 1) (fun _ => 2) (fun i => IZR i) (fun i => - IZR i) (fun _ => 1) (fun _ => 0) (Some (fun _ => 1)) None None [ion; electrons] = None.
Proof. unfold vort_finally. cbv zeta. cbn [all_on vort_dissipation]. match goal with |- match ?c with _ => _ end = _ => destruct c end; reflexivity. Qed.
Lemma pair_currents : exists r, currents ring_op (fun _ => 1) None [ion; electrons] (Some (fun _ => 0)) = Some r.
Proof. apply currents_defined. exact pair_complete. Qed.
Lemma pair_total : total_current [ion; electrons] 3%Z = 3 - 15.
Proof. unfold total_current, sum_over. cbn [map fold_right]. unfold parallel_current. rewrite ion_number, electrons_number. cbn [ion electrons AA momentum value fvalue]. lra. Qed.
Lemma hyper_pair : exists r r', vort_finally (with_hyper 1 all_on) ring_op (fun _ => 1) (fun _ => 2) (fun i => IZR i) (fun i => - IZR i) (fun _ => 1) (fun _ => 0) (Some (fun _ => 1)) None (Some (fun _ => 3)) [ion; electrons] = Some r
  /\ vort_finally (with_hyper 0 all_on) ring_op (fun _ => 1) (fun _ => 2) (fun i => IZR i) (fun i => - IZR i) (fun _ => 1) (fun _ => 0) (Some (fun _ => 1)) None (Some (fun _ => 3)) [ion; electrons] = Some r'
  /\ r 0%Z - r' 0%Z = 12.
Proof.
  destruct (proj2 (finally_defined (with_hyper 1 all_on) ring_op (fun _ => 1) (fun _ => 2) (fun i => IZR i) (fun i => - IZR i) (fun _ => 1) (fun _ => 0) (Some (fun _ => 1)) None (Some (fun _ => 3)) [ion; electrons])) as (r & E);
    [split; [exact pair_complete|intros _ N; discriminate N]|].
  destruct (proj2 (finally_defined (with_hyper 0 all_on) ring_op (fun _ => 1) (fun _ => 2) (fun i => IZR i) (fun i => - IZR i) (fun _ => 1) (fun _ => 0) (Some (fun _ => 1)) None (Some (fun _ => 3)) [ion; electrons])) as (r' & E');
    [split; [exact pair_complete|intros _ N; discriminate N]|].
  exists r, r'. split; [exact E|]. split; [exact E'|]. rewrite (switch_hyper _ _ _ _ _ _ _ _ _ _ _ _ 1 r r' Rlt_0_1 E E' 0%Z). cbn [ring_op d4dz4]. unfold D4DZ4_Index.
  repeat match goal with |- context [zplus ?a ?b] => let v := eval vm_compute in (zplus a b) in change (zplus a b) with v | |- context [zminus ?a ?b] => let v := eval vm_compute in (zminus a b) in change (zminus a b) with v end.
  cbn. lra.
Qed.
Lemma phi_pair : exists r r', vort_finally (with_phi true all_on) ring_op (fun _ => 1) (fun _ => 2) (fun i => IZR i) (fun i => - IZR i) (fun _ => 1) (fun _ => 0) (Some (fun _ => 1)) None (Some (fun _ => 3)) [ion; electrons] = Some r
  /\ vort_finally (with_phi false all_on) ring_op (fun _ => 1) (fun _ => 2) (fun i => IZR i) (fun i => - IZR i) (fun _ => 1) (fun _ => 0) (Some (fun _ => 1)) None (Some (fun _ => 3)) [ion; electrons] = Some r'
  /\ r 0%Z - r' 0%Z = 12.
Proof.
  destruct (proj2 (finally_defined (with_phi true all_on) ring_op (fun _ => 1) (fun _ => 2) (fun i => IZR i) (fun i => - IZR i) (fun _ => 1) (fun _ => 0) (Some (fun _ => 1)) None (Some (fun _ => 3)) [ion; electrons])) as (r & E);
    [split; [exact pair_complete|intros _ N; discriminate N]|].
  destruct (proj2 (finally_defined (with_phi false all_on) ring_op (fun _ => 1) (fun _ => 2) (fun i => IZR i) (fun i => - IZR i) (fun _ => 1) (fun _ => 0) (Some (fun _ => 1)) None (Some (fun _ => 3)) [ion; electrons])) as (r' & E');
    [split; [exact pair_complete|intros _ N; discriminate N]|].
  exists r, r'. split; [exact E|]. split; [exact E'|]. rewrite (switch_phi _ _ _ _ _ _ _ _ _ _ _ _ r r' E E' 0%Z). cbn [ring_op fv_div_par fvalue]. unfold ring_div.
  change (0 mod 4)%Z with 0%Z. change (pv 0) with 3%Z. change (nx 0) with 1%Z. change (nx 3) with 0%Z. lra.
Qed.
Lemma sheath_example : (ystart (mkMesh 2 5 8 true true false) < yend (mkMesh 2 5 8 true true false))%Z
  /\ sheath_line (mkMesh 2 5 8 true true false) true true (fun i => 1 - IZR i) 2%Z = -0.5.
Proof.
  split; [reflexivity|]. rewrite sheath_law by reflexivity. cbn [ystart yend]. destruct (Z.eq_dec 2 2); [|contradiction]. destruct (Z.eq_dec 2 5) as [N|]; [discriminate N|].
  change (2 - 1)%Z with 1%Z. unfold mean, Rmin. destruct (Rle_dec _ 0); lra.
Qed.
Lemma sheath_energy_example : 0 <= -1 * mean (-1) (-3) /\ - (-1 * sheath_dissipation (-1) (-3)) = -2.
Proof. rewrite sheath_min. unfold mean, Rmin. split; [lra|]. destruct (Rle_dec _ 0); lra. Qed.
Lemma limiters_homogeneous edges : List.In edges [upwind_edges; fromm_edges; minmod_edges; mc_edges] -> homogeneous edges.
Proof. cbn [List.In]. intros [<-|[<-|[<-|[<-|[]]]]]; [exact upwind_homogeneous|exact fromm_homogeneous|exact minmod_homogeneous|exact mc_homogeneous]. Qed.
Lemma mc_value : mc_edges 1 2 4 = (1.25, 2.75).
Proof.
  unfold mc_edges, minmod3. rewrite !Rleb_false by lra. cbn [orb]. unfold BOUTMIN3, BOUTMIN, SIGN. rewrite !Rabs_right by lra.
  rewrite (Rltb_false (2 * (4 - 2)) 0) by lra. repeat (match goal with |- context [Rltb ?a ?b] => first [rewrite (Rltb_true a b) by lra | rewrite (Rltb_false a b) by lra] end; cbv iota). f_equal; lra.
Qed.
