(** Proofs for PreconProps.v. *)

From Coq Require Import List Bool ZArith Reals Lra Lia.
From Verif Require Import StateMonad StateMonadProofs ParallelModel DiffusionModel ParallelSpec DiffusionSpec ParallelProofs DiffusionProofs PreconModel PreconSpec.
Import ListNotations.
Open Scope R_scope.

Lemma half : 0.5 = / 2. Proof. lra. Qed.
Lemma K_lin m c K x y a b j : fst (Div_par_K_Grad_par_mod m c K (fun k => a * x k + b * y k) false j)
  = a * fst (Div_par_K_Grad_par_mod m c K x false j) + b * fst (Div_par_K_Grad_par_mod m c K y false j).
Proof.
  unfold Div_par_K_Grad_par_mod, K_upper, K_lower. rewrite half. cbv zeta.
  destruct (K_upper_on m false j), (K_lower_on m false j); cbn [fst]; unfold Rdiv; ring.
Qed.
Lemma K_coef m c K x a j : fst (Div_par_K_Grad_par_mod m c (fun k => a * K k) x false j) = a * fst (Div_par_K_Grad_par_mod m c K x false j).
Proof.
  unfold Div_par_K_Grad_par_mod, K_upper, K_lower. rewrite half. cbv zeta.
  destruct (K_upper_on m false j), (K_lower_on m false j); cbn [fst]; unfold Rdiv; ring.
Qed.
Lemma K_ext m c K K' x x' j : (forall k, K k = K' k) -> (forall k, x k = x' k) -> 
  fst (Div_par_K_Grad_par_mod m c K x false j) = fst (Div_par_K_Grad_par_mod m c K' x' false j).
Proof. intros A B. unfold Div_par_K_Grad_par_mod, K_upper, K_lower. cbv zeta. now rewrite !A, !B. Qed.

Lemma pressure_uniform m c gamma floor N kappa scale n s rhs x : (forall j, N j = n) -> (forall j, scale_of scale j = s) ->
  solves m c (pressure_coef gamma floor N kappa scale) rhs x -> implicit_step m gamma (conduction_P m c kappa N floor (scale_of scale)) rhs x.
Proof.
  intros HN Hs S j Hj. rewrite <- (S j Hj). unfold conduction_P. rewrite Hs.
  rewrite (K_ext m c (pressure_coef gamma floor N kappa scale) (fun k => (- (2 / 3) * gamma / rfloor n floor * s) * kappa k) x x).
  2:{ intros k. unfold pressure_coef, scaled. rewrite <- (Hs k). destruct scale as [l|]; cbn [scale_of]; rewrite HN; unfold ones, Rdiv; ring. }
  2:{ reflexivity. }
  rewrite K_coef. rewrite (K_ext m c kappa kappa (fun k => x k / rfloor (N k) floor) (fun k => / rfloor n floor * x k + 0 * x k)).
  2:{ reflexivity. } 2:{ intros k. rewrite HN. unfold Rdiv. ring. }
  rewrite K_lin. unfold Rdiv. ring.
Qed.

Lemma coef_sign gamma floor N kappa scale k : 0 <= gamma -> 0 < floor -> (forall j, 0 <= kappa j) -> (forall j, 0 <= scale_of scale j) ->
  0 <= (fun k => -1 * pressure_coef gamma floor N kappa scale k) k.
Proof.
  intros G F K S. cbv beta. assert (H : 0 <= gamma * kappa k / rfloor (N k) floor * scale_of scale k).
  { assert (0 < rfloor (N k) floor). { unfold rfloor. pose proof (Rltb_spec (N k) floor) as RS. destruct (Rltb (N k) floor); lra. }
    apply Rmult_le_pos; [|apply S]. apply Rmult_le_pos; [apply Rmult_le_pos; [lra|apply K]|left; now apply Rinv_0_lt_compat]. }
  replace (-1 * pressure_coef gamma floor N kappa scale k) with (2 / 3 * (gamma * kappa k / rfloor (N k) floor * scale_of scale k)); [lra|].
  unfold pressure_coef, scaled, scale_of, ones. destruct scale; unfold Rdiv; ring.
Qed.

Lemma total_ext W lo n f g : (forall j, (lo <= j < lo + Z.of_nat n)%Z -> f j = g j) -> DiffusionSpec.total W lo n f = DiffusionSpec.total W lo n g.
Proof.
  unfold DiffusionSpec.total. induction n as [|n IH]; intros H; [reflexivity|]. cbn [zsum]. rewrite IH by (intros; apply H; lia).
  rewrite H by lia. reflexivity.
Qed.
Lemma total_lin W lo n a b f g : DiffusionSpec.total W lo n (fun j => a * f j + b * g j) = a * DiffusionSpec.total W lo n f + b * DiffusionSpec.total W lo n g.
Proof. unfold DiffusionSpec.total. induction n as [|n IH]; cbn [zsum]; [ring|]. rewrite IH. ring. Qed.
Lemma total_nonneg W lo n f : (forall j, 0 < W j) -> (forall j, 0 <= f j) -> 0 <= DiffusionSpec.total W lo n f.
Proof.
  intros HW Hf. unfold DiffusionSpec.total. induction n as [|n IH]; cbn [zsum]; [lra|].
  pose proof (Rmult_le_pos _ _ (Rlt_le _ _ (HW (lo + Z.of_nat n)%Z)) (Hf (lo + Z.of_nat n)%Z)). lra.
Qed.
Lemma total_zero W lo n f : (forall j, 0 < W j) -> DiffusionSpec.total W lo n (fun j => f j * f j) <= 0 -> forall j, (lo <= j < lo + Z.of_nat n)%Z -> f j = 0.
Proof.
  intros HW. induction n as [|n IH]; intros T j Hj; [lia|].
  pose proof (total_nonneg W lo n (fun j => f j * f j) HW (fun k => Rle_0_sqr (f k))) as P.
  unfold DiffusionSpec.total in *. cbn [zsum] in T.
  pose proof (Rmult_le_pos _ _ (Rlt_le _ _ (HW (lo + Z.of_nat n)%Z)) (Rle_0_sqr (f (lo + Z.of_nat n)%Z))) as Q. unfold Rsqr in Q.
  destruct (Z.eq_dec j (lo + Z.of_nat n)) as [->|E].
  - assert (Z : W (lo + Z.of_nat n)%Z * (f (lo + Z.of_nat n)%Z * f (lo + Z.of_nat n)%Z) = 0) by lra.
    apply Rmult_integral in Z. destruct Z as [Z|Z]; [specialize (HW (lo + Z.of_nat n)%Z); lra|]. apply Rmult_integral in Z. tauto.
  - apply IH; [lra|lia].
Qed.

Section Step.
  Context (m : mesh) (n : nat) (c : coords) (B : Z -> R).
  Hypothesis (M : mesh_ok m n) (P : positive_metric c) (HB : forall j, 0 <= (fun k => -1 * B k) j) (CL : closed_low m = true) (CH : closed_high m = true).
  Let W := cell_volume (c_J c) (c_dy c).
  Lemma W_pos j : 0 < W j. Proof. unfold W, cell_volume. destruct (P j) as (A & _ & C). apply Rmult_lt_0_compat; assumption. Qed.
  Lemma in_range j : (ystart m <= j < ystart m + Z.of_nat n)%Z -> inside m j. Proof. destruct M as (_ & E & _). unfold inside. lia. Qed.
  Lemma work x rhs : solves m c B rhs x -> DiffusionSpec.total W (ystart m) n (fun j => x j * x j) <= DiffusionSpec.total W (ystart m) n (fun j => x j * rhs j).
  Proof.
    intros S. pose proof (K_dissipates_closed m n c (fun k => -1 * B k) x M P HB CL CH) as D. fold W in D.
    rewrite (total_ext W _ n (fun j => x j * rhs j) (fun j => 1 * (x j * x j) + (-1) * (x j * fst (Div_par_K_Grad_par_mod m c (fun k => -1 * B k) x false j)))).
    2:{ intros j Hj. rewrite <- (S j (in_range j Hj)), K_coef. ring. }
    rewrite (total_lin W _ n 1 (-1)). lra.
  Qed.
  Lemma bounded x rhs : solves m c B rhs x -> DiffusionSpec.total W (ystart m) n (fun j => x j * x j) <= DiffusionSpec.total W (ystart m) n (fun j => rhs j * rhs j).
  Proof.
    intros S. pose proof (work x rhs S) as H.
    pose proof (total_nonneg W (ystart m) n (fun j => (x j - rhs j) * (x j - rhs j)) W_pos (fun k => Rle_0_sqr (x k - rhs k))) as Q.
    rewrite (total_ext W _ n _ (fun j => 1 * (1 * (x j * x j) + (-2) * (x j * rhs j)) + 1 * (rhs j * rhs j))) in Q by (intros; ring).
    rewrite (total_lin W _ n 1 1), (total_lin W _ n 1 (-2)) in Q. lra.
  Qed.
  Lemma unique x y rhs : solves m c B rhs x -> solves m c B rhs y -> forall j, inside m j -> x j = y j.
  Proof.
    intros SX SY j Hj. assert (Z0 : solves m c B (fun _ => 0) (fun k => 1 * x k + (-1) * y k)).
    { intros k Hk. rewrite K_lin. pose proof (SX k Hk). pose proof (SY k Hk). lra. }
    pose proof (work _ _ Z0) as H. rewrite (total_ext W _ n (fun j => (1 * x j + (-1) * y j) * 0) (fun _ => 0 * 0 + 0 * 0)) in H by (intros; ring).
    rewrite (total_lin W (ystart m) n 0 0 (fun _ => 0) (fun _ => 0)) in H.
    pose proof (total_zero W (ystart m) n (fun k => 1 * x k + (-1) * y k) W_pos ltac:(lra) j) as Q.
    destruct M as (_ & E & _). unfold inside in Hj. assert (Q' := Q ltac:(lia)). cbv beta in Q'. lra.
  Qed.
  Lemma keeps x rhs : solves m c B rhs x -> DiffusionSpec.total W (ystart m) n x = DiffusionSpec.total W (ystart m) n rhs.
  Proof.
    intros S. rewrite (total_ext W _ n rhs (fun j => 1 * x j + 1 * fst (Div_par_K_Grad_par_mod m c B x false j))).
    2:{ intros j Hj. rewrite <- (S j (in_range j Hj)). ring. }
    rewrite (total_lin W _ n 1 1). unfold W. rewrite (K_total m n) by assumption.
    destruct (K_face_closed m n c B x M CL CH) as [-> ->]. ring.
  Qed.
  Lemma keeps_constants a x : solves m c B (fun _ => a) x -> forall j, inside m j -> x j = a.
  Proof.
    intros S j Hj. apply (unique x (fun _ => a) (fun _ => a) S); [|exact Hj]. intros k Hk.
    rewrite (K_const m n) by (try assumption; destruct M as (_ & E & _); unfold inside in Hk; lia). cbn [fst]. ring.
  Qed.
End Step.

Lemma well_posed m n c gamma floor N kappa scale : mesh_ok m n -> positive_metric c -> closed_low m = true -> closed_high m = true ->
  0 <= gamma -> 0 < floor -> (forall j, 0 <= kappa j) -> (forall j, 0 <= scale_of scale j) ->
  let B := pressure_coef gamma floor N kappa scale in let W := cell_volume (c_J c) (c_dy c) in
  (forall rhs x y, solves m c B rhs x -> solves m c B rhs y -> forall j, inside m j -> x j = y j) /\
  (forall rhs x, solves m c B rhs x -> DiffusionSpec.total W (ystart m) n (fun j => x j * x j) <= DiffusionSpec.total W (ystart m) n (fun j => rhs j * rhs j)) /\
  (forall rhs x, solves m c B rhs x -> DiffusionSpec.total W (ystart m) n x = DiffusionSpec.total W (ystart m) n rhs) /\
  (forall a x, solves m c B (fun _ => a) x -> forall j, inside m j -> x j = a).
Proof.
  intros M P CL CH G F K S B W.
  assert (HB : forall j, 0 <= (fun k => -1 * B k) j) by (intros j; apply coef_sign; assumption).
  split; [|split; [|split]].
  - intros rhs x y. apply (unique m n c B M P HB CL CH).
  - intros rhs x. apply (bounded m n c B M P HB CL CH).
  - intros rhs x. apply (keeps m n c B M P CL CH).
  - intros a x. apply (keeps_constants m n c B M P HB CL CH).
Qed.


Lemma disabled enable conduction solve bc gamma floor N kappa scale d : (enable && conduction)%bool = false ->
  pressure_precon enable conduction solve bc gamma floor N kappa scale d = d.
Proof. intros H. unfold pressure_precon. now rewrite H. Qed.
Lemma solves_rhs m c B r r' x : (forall j, inside m j -> r j = r' j) -> solves m c B r x -> solves m c B r' x.
Proof. intros E S j Hj. rewrite <- E by assumption. now apply S. Qed.
Lemma pressure_law m c solve bc gamma floor N kappa scale n s d : guards_only m bc -> (forall j, N j = n) -> (forall j, scale_of scale j = s) ->
  (let B := pressure_coef gamma floor N kappa scale in solves m c B (bc (ddt_P d)) (solve B (bc (ddt_P d)))) ->
  implicit_step m gamma (conduction_P m c kappa N floor (scale_of scale)) (seen_P false d)
    (seen_P false (pressure_precon true true solve bc gamma floor N kappa scale d)).
Proof.
  intros G HN Hs S. cbn [seen_P pressure_precon negb andb ddt_P]. unfold pressure_precon. cbn [negb andb]. cbv iota. cbn [ddt_P].
  apply (pressure_uniform m c gamma floor N kappa scale n s); [assumption..|].
  apply (solves_rhs m c _ (bc (ddt_P d))); [intros j Hj; now apply G|exact S].
Qed.
Lemma log_untouched enable conduction solve bc gamma floor N kappa scale d :
  seen_P true (pressure_precon enable conduction solve bc gamma floor N kappa scale d) = seen_P true d.
Proof. unfold pressure_precon. now destruct (negb (enable && conduction)). Qed.
Lemma energy_untouched enable conduction solve bc gamma floor N kappa scale l d :
  seen_E l (energy_precon enable conduction solve bc gamma floor N kappa scale d) = seen_E l d.
Proof. unfold energy_precon. now destruct (negb (enable && conduction)). Qed.
Lemma neutral_law m (L : line -> line) solve gamma Dnn scale mom d :
  (forall rhs, List.In rhs [ddt_Nn d; ddt_NVn d; ddt_Pn d] ->
     forall j, inside m j -> solve (neutral_coef gamma Dnn scale) rhs j + neutral_coef gamma Dnn scale j * L (solve (neutral_coef gamma Dnn scale) rhs) j = rhs j) ->
  let F x j := scale_of scale j * (Dnn j * L x j) in let d' := neutral_precon true mom solve gamma Dnn scale d in
  implicit_step m gamma F (ddt_Nn d) (ddt_Nn d') /\ implicit_step m gamma F (ddt_Pn d) (ddt_Pn d') /\
  (mom = true -> implicit_step m gamma F (ddt_NVn d) (ddt_NVn d')) /\ (mom = false -> ddt_NVn d' = ddt_NVn d).
Proof.
  intros S F d'. assert (E : forall rhs, List.In rhs [ddt_Nn d; ddt_NVn d; ddt_Pn d] -> implicit_step m gamma F rhs (solve (neutral_coef gamma Dnn scale) rhs)).
  { intros rhs I j Hj. pose proof (S rhs I j Hj) as Q. unfold F.
    replace (neutral_coef gamma Dnn scale j) with (- gamma * Dnn j * scale_of scale j) in Q by (unfold neutral_coef, scaled, scale_of, ones; destruct scale; ring). rewrite <- Q. ring. }
  unfold d', neutral_precon. cbn [negb]. cbv iota zeta. cbn [ddt_Nn ddt_Pn ddt_NVn].
  split; [apply E; cbn; auto|]. split; [apply E; cbn; auto|]. split; intros ->; [apply E; cbn; auto|reflexivity].
Qed.
Lemma hermes_linear (State D : Type) (plus : D -> D -> D) (times : R -> D -> D) set_time (components : list (State -> R -> D -> D)) t gamma state :
  (forall f s, List.In f components -> linear plus times (f s gamma)) -> linear plus times (fun d => snd (hermes_precon set_time components t gamma state d)).
Proof.
  intros H. unfold hermes_precon. cbn [snd]. generalize (set_time t state). clear state. intros s.
  assert (E : linear plus times (fold_left (fun d component => component s gamma d) components)); [|exact E].
  induction components as [|f l IH]; [split; reflexivity|].
  assert (Hf := H f s (or_introl eq_refl)). assert (IH' := IH (fun g s0 I => H g s0 (or_intror I))).
  destruct Hf as [A B], IH' as [A' B']. split; intros; cbn [fold_left]; [rewrite A; apply A'|rewrite B; apply B'].
Qed.

(** ** Witnesses *)
Definition two : mesh := mkMesh 1 2 4 true true false.
Definition unit_coords : coords := mkCoords ones ones ones ones ones.
Lemma two_ok : mesh_ok two 2 /\ positive_metric unit_coords /\ closed_low two = true /\ closed_high two = true.
Proof. repeat split; try reflexivity; cbn; try lia; unfold ones; lra. Qed.
Definition step_up (j : Z) : R := if Z.leb j 1 then 1 else 2.
Lemma at_one K f : fst (Div_par_K_Grad_par_mod two unit_coords K f false 1) = (K 1%Z + K 2%Z) / 2 * (f 2%Z - f 1%Z).
Proof.
  unfold Div_par_K_Grad_par_mod. replace (K_upper_on two false 1) with true by reflexivity. replace (K_lower_on two false 1) with false by reflexivity.
  cbv iota zeta. cbn [fst]. unfold K_upper. cbv zeta. replace (1 + 1)%Z with 2%Z by reflexivity. unfold unit_coords, ones. cbn [c_J c_g22 c_dy]. field_simplify. all: lra.
Qed.
Lemma density_witness : exists m n c gamma floor N kappa rhs x, mesh_ok m n /\ positive_metric c /\ 0 < gamma /\ 0 < floor /\ (forall j, floor <= N j /\ 0 < kappa j) /\
  solves m c (pressure_coef gamma floor N kappa None) rhs x /\ ~ implicit_step m gamma (conduction_P m c kappa N floor ones) rhs x.
Proof.
  exists two, 2%nat, unit_coords, 1, 0.01, step_up, ones, (fun j => step_up j + fst (Div_par_K_Grad_par_mod two unit_coords (pressure_coef 1 0.01 step_up ones None) step_up false j)), step_up.
  destruct two_ok as (A & B & _). split; [exact A|]. split; [exact B|]. split; [lra|]. split; [lra|].
  split. { intros j. unfold step_up, ones. destruct (Z.leb j 1); lra. }
  split. { intros j Hj. reflexivity. }
  intros I. specialize (I 1%Z ltac:(unfold inside; cbn; lia)). unfold conduction_P in I. rewrite !at_one in I.
  unfold pressure_coef, scaled, step_up, ones in I. cbn [Z.leb Z.compare Pos.compare Pos.compare_cont] in I. unfold rfloor in I.
  rewrite (Rltb_false 1 0.01), (Rltb_false 2 0.01) in I by lra. lra.
Qed.
Lemma scale_witness : exists m n c gamma floor N kappa s rhs x, mesh_ok m n /\ positive_metric c /\ 0 < gamma /\ 0 < floor /\ (forall j, N j = 1 /\ 0 < kappa j /\ 0 < s j) /\
  solves m c (pressure_coef gamma floor N kappa (Some s)) rhs x /\ ~ implicit_step m gamma (conduction_P m c kappa N floor s) rhs x.
Proof.
  exists two, 2%nat, unit_coords, 1, 0.01, ones, ones, step_up, (fun j => step_up j + fst (Div_par_K_Grad_par_mod two unit_coords (pressure_coef 1 0.01 ones ones (Some step_up)) step_up false j)), step_up.
  destruct two_ok as (A & B & _). split; [exact A|]. split; [exact B|]. split; [lra|]. split; [lra|].
  split. { intros j. unfold step_up, ones. destruct (Z.leb j 1); lra. }
  split. { intros j Hj. reflexivity. }
  intros I. specialize (I 1%Z ltac:(unfold inside; cbn; lia)). unfold conduction_P in I. rewrite !at_one in I.
  unfold pressure_coef, scaled, step_up, ones in I. cbn [Z.leb Z.compare Pos.compare Pos.compare_cont] in I. unfold rfloor in I.
  rewrite (Rltb_false 1 0.01) in I by lra. lra.
Qed.
Lemma log_witness : exists m c gamma floor N kappa d, 0 < gamma /\ (forall j, N j = 1) /\ (forall j, kappa j = 1) /\
  forall solve bc, ~ implicit_step m gamma (conduction_P m c kappa N floor ones) (seen_P true d) (seen_P true (pressure_precon true true solve bc gamma floor N kappa None d)).
Proof.
  exists two, unit_coords, 1, 0.01, ones, ones, (mkPD step_up step_up). split; [lra|]. split; [reflexivity|]. split; [reflexivity|].
  intros solve bc I. rewrite log_untouched in I. specialize (I 1%Z ltac:(unfold inside; cbn; lia)). unfold conduction_P in I. rewrite at_one in I.
  cbn [seen_P ddt_logP] in I. unfold step_up, ones in I. cbn [Z.leb Z.compare Pos.compare Pos.compare_cont] in I. unfold rfloor in I. rewrite (Rltb_false 1 0.01) in I by lra. lra.
Qed.
Lemma energy_witness : exists m c gamma floor N kappa d, 0 < gamma /\ (forall j, N j = 1) /\ (forall j, kappa j = 1) /\
  forall solve bc, ~ implicit_step m gamma (conduction_E m c kappa N floor ones) (seen_E false d) (seen_E false (energy_precon true true solve bc gamma floor N kappa None d)).
Proof.
  exists two, unit_coords, 1, 0.01, ones, ones, (mkED step_up step_up step_up). split; [lra|]. split; [reflexivity|]. split; [reflexivity|].
  intros solve bc I. rewrite energy_untouched in I. specialize (I 1%Z ltac:(unfold inside; cbn; lia)). unfold conduction_E in I. rewrite at_one in I.
  cbn [seen_E ddt_E] in I. unfold step_up, ones in I. cbn [Z.leb Z.compare Pos.compare Pos.compare_cont] in I. unfold rfloor in I. rewrite (Rltb_false 1 0.01) in I by lra. lra.
Qed.
Lemma energy_coef_witness : exists m n c gamma floor N kappa rhs x, mesh_ok m n /\ positive_metric c /\ 0 < gamma /\ 0 < floor /\ (forall j, N j = 1 /\ kappa j = 1) /\
  solves m c (energy_coef gamma floor N kappa None) rhs x /\ ~ implicit_step m gamma (conduction_E m c kappa N floor ones) rhs x.
Proof.
  exists two, 2%nat, unit_coords, 1, 0.01, ones, ones, (fun j => step_up j + fst (Div_par_K_Grad_par_mod two unit_coords (energy_coef 1 0.01 ones ones None) step_up false j)), step_up.
  destruct two_ok as (A & B & _). split; [exact A|]. split; [exact B|]. split; [lra|]. split; [lra|].
  split. { intros j. unfold ones. lra. }
  split. { intros j Hj. reflexivity. }
  intros I. specialize (I 1%Z ltac:(unfold inside; cbn; lia)). unfold conduction_E in I. rewrite !at_one in I.
  unfold energy_coef, scaled, step_up, ones in I. cbn [Z.leb Z.compare Pos.compare Pos.compare_cont] in I. unfold rfloor in I.
  rewrite (Rltb_false 1 0.01) in I by lra. lra.
Qed.
Lemma neutral_witness : exists m (L : line -> line) solve gamma Dnn d, 0 < gamma /\ (forall j, 0 < Dnn j) /\
  (forall rhs j, solve (neutral_coef gamma Dnn None) rhs j + neutral_coef gamma Dnn None j * L (solve (neutral_coef gamma Dnn None) rhs) j = rhs j) /\
  ~ implicit_step m gamma (fun x j => 5 / 3 * (Dnn j * L x j)) (ddt_Pn d) (ddt_Pn (neutral_precon true true solve gamma Dnn None d)).
Proof.
  exists two, (fun x j => - x j), (fun coef rhs j => rhs j / (1 - coef j)), 1, ones, (mkND ones ones ones). unfold neutral_coef, scaled, ones.
  split; [lra|]. split; [intros; lra|]. split; [intros; field; lra|].
  intros I. specialize (I 1%Z ltac:(unfold inside; cbn; lia)). unfold neutral_precon, neutral_coef, scaled in I. cbn [negb] in I. cbv iota zeta in I. cbn [ddt_Pn] in I. replace (1 - - (1) * 1) with 2 in I by ring. lra.
Qed.
(** A solver which meets the contract, and a case of a solution. *)
Lemma solution_case : exists rhs, solves two unit_coords (pressure_coef 1 0.01 ones ones None) rhs step_up /\ rhs 1%Z = 1 / 3.
Proof.
  exists (fun j => step_up j + fst (Div_par_K_Grad_par_mod two unit_coords (pressure_coef 1 0.01 ones ones None) step_up false j)).
  split; [intros j Hj; reflexivity|]. rewrite at_one. unfold pressure_coef, scaled, step_up, ones. cbn [Z.leb Z.compare Pos.compare Pos.compare_cont]. unfold rfloor.
  rewrite (Rltb_false 1 0.01) by lra. lra.
Qed.
