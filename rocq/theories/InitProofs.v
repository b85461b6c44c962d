(** Proofs about initialisation. *)

From Coq Require Import List Bool ZArith Reals String Lra Lia.
From Verif Require Import ParallelModel UnitsModel InitModel InitSpec.
Import ListNotations.
Open Scope R_scope.

Lemma in_irange lo hi a : List.In a (irange lo hi) <-> (lo <= a <= hi)%Z.
Proof.
  unfold irange. rewrite in_map_iff. split.
  - intros (k & <- & H). apply in_seq in H. lia.
  - intros H. exists (Z.to_nat (a - lo)). split; [lia|]. apply in_seq. lia.
Qed.
Lemma inr_spec lo hi a : inr_ lo hi a = true <-> List.In a (irange lo hi).
Proof. rewrite in_irange. unfold inr_. rewrite andb_true_iff, !Z.leb_le. tauto. Qed.
Lemma exb_range lo hi a : existsb (Z.eqb a) (irange lo hi) = inr_ lo hi a.
Proof.
  apply eq_true_iff_eq. rewrite inr_spec, existsb_exists. split.
  - intros (k & H & E). apply Z.eqb_eq in E. subst. exact H.
  - intros H. exists a. split; [exact H | apply Z.eqb_refl].
Qed.
Lemma zloop l f x y a c d : fold_left (fun f z => set3 f x y z 0) l f a c d = if (Z.eqb a x && Z.eqb c y && existsb (Z.eqb d) l)%bool then 0 else f a c d.
Proof.
  revert f. induction l as [|z l IH]; intros f; cbn [fold_left existsb].
  - rewrite andb_false_r. reflexivity.
  - rewrite IH. unfold set3. destruct (Z.eqb a x), (Z.eqb c y), (Z.eqb d z), (existsb (Z.eqb d) l); reflexivity.
Qed.
Lemma yloop l lz f x a c d : fold_left (fun f y => fold_left (fun f z => set3 f x y z 0) lz f) l f a c d
  = if (Z.eqb a x && existsb (Z.eqb c) l && existsb (Z.eqb d) lz)%bool then 0 else f a c d.
Proof.
  revert f. induction l as [|y l IH]; intros f; cbn [fold_left existsb].
  - rewrite andb_false_r. reflexivity.
  - rewrite IH, zloop. destruct (Z.eqb a x), (Z.eqb c y), (existsb (Z.eqb c) l), (existsb (Z.eqb d) lz); reflexivity.
Qed.
Lemma xloop p l ly lz f a c d : fold_left (fun f x => if negb (p x) then fold_left (fun f y => fold_left (fun f z => set3 f x y z 0) lz f) ly f else f) l f a c d
  = if (existsb (Z.eqb a) l && negb (p a) && existsb (Z.eqb c) ly && existsb (Z.eqb d) lz)%bool then 0 else f a c d.
Proof.
  revert f. induction l as [|x l IH]; intros f; cbn [fold_left existsb]; [reflexivity|].
  rewrite IH. destruct (Z.eqb_spec a x) as [->|N].
  - destruct (p x) eqn:P; cbn [negb]; rewrite ?yloop, ?Z.eqb_refl; destruct (existsb (Z.eqb x) l), (existsb (Z.eqb c) ly), (existsb (Z.eqb d) lz); reflexivity.
  - destruct (p x); cbn [negb]; rewrite ?yloop; replace (Z.eqb a x) with false by (symmetry; apply Z.eqb_neq; exact N); reflexivity.
Qed.
Lemma core_exact b f x y z : core_only b f x y z = if (in_box b x y z && negb (periodic b x))%bool then 0 else f x y z.
Proof.
  unfold core_only. rewrite xloop, !exb_range. unfold in_box.
  destruct (inr_ (xs b) (xe b) x), (inr_ (ys b) (ye b) y), (inr_ (zs b) (ze b) z), (periodic b x); reflexivity.
Qed.
Lemma core_inside b f x y z : (xs b <= x <= xe b)%Z -> (ys b <= y <= ye b)%Z -> (zs b <= z <= ze b)%Z -> core_only b f x y z = masked true (periodic b x) (f x y z).
Proof.
  intros A B C. rewrite core_exact. unfold in_box. apply in_irange, inr_spec in A. apply in_irange, inr_spec in B. apply in_irange, inr_spec in C.
  rewrite A, B, C. reflexivity.
Qed.

Lemma om_pos n : pos n -> 0 < Omega_ci n.
Proof. intros (a & b & c & d & e). unfold Omega_ci. apply Rdiv_lt_0_compat; [apply Rmult_lt_0_compat; assumption | assumption]. Qed.
Lemma Om_eq n : pos n -> Om n = Omega_ci n.
Proof. intros H. pose proof (om_pos n H). unfold Om, seconds. field. lra. Qed.
Lemma nd_pos n : pos n -> 0 < Nnorm n * Omega_ci n.
Proof. intros H. pose proof (om_pos n H). destruct H as (a & b & c & d & e). apply Rmult_lt_0_compat; assumption. Qed.
Lemma np_pos n : pos n -> 0 < qe n * Nnorm n * Tnorm n * Omega_ci n.
Proof. intros H. pose proof (om_pos n H). destruct H as (a & b & c & d & e). apply Rmult_lt_0_compat; [apply Rmult_lt_0_compat; [apply Rmult_lt_0_compat|]|]; assumption. Qed.
Lemma get_chosen g v (o : option fld) : withDefault o (mesh_get g v zero_fld) = chosen o (g v) (fun _ _ _ => 0).
Proof. unfold withDefault, mesh_get, chosen. destruct o; [reflexivity|]. destruct (g v); reflexivity. Qed.
Lemma masked_core b (oc : option bool) f x y z : inside b x y z ->
  (if withDefault oc false then core_only b f else f) x y z = masked (withDefault oc false) (periodic b x) (f x y z).
Proof. intros (A & B & C). destruct (withDefault oc false); [apply core_inside; assumption | reflexivity]. Qed.
Lemma masked_mul m c v k : masked m c v * k = masked m c (v * k).
Proof. unfold masked. destruct (m && negb c)%bool; [apply Rmult_0_l | reflexivity]. Qed.
Lemma time_eq n t : pos n -> t / Omega_ci n = t * (1 / Om n).
Proof. intros H. rewrite (Om_eq n H). pose proof (om_pos n H). field. lra. Qed.

Section Two.
  Variable n : norms. Hypothesis P : pos n.
  (* The common shape of the two constructors with a dependence on time. *)
  Definition mk_src (norm : R) (b : box) (g : grid) (o : src_opts) (v : string) : option src :=
    let s0 := mesh_get g v zero_fld in
    let s1 := fun x y z => withDefault (o_source o) s0 x y z / norm in
    let s2 := if withDefault (o_core o) false then core_only b s1 else s1 in
    if withDefault (o_time o) false then match o_prefactor o with Some f => Some (mkS s2 (Some f)) | None => None end
    else Some (mkS s2 None).
  Lemma mk_value norm b g o v s x y z t : norm <> 0 -> mk_src norm b g o v = Some s -> inside b x y z ->
    final_src n s t x y z * norm = masked (withDefault (o_core o) false) (periodic b x) (chosen (o_source o) (g v) (fun _ _ _ => 0) x y z)
      * (if withDefault (o_time o) false then match o_prefactor o with Some f => f (t / Omega_ci n) | None => 1 end else 1).
  Proof.
    intros N E I. unfold mk_src in E. cbv zeta in E. rewrite get_chosen in E. set (c := chosen _ _ _) in *.
    assert (D : masked (withDefault (o_core o) false) (periodic b x) (c x y z / norm) * norm
      = masked (withDefault (o_core o) false) (periodic b x) (c x y z)).
    { rewrite masked_mul. f_equal. field. exact N. }
    destruct (withDefault (o_time o) false) eqn:T.
    - destruct (o_prefactor o) as [f|]; [|inversion E].
      assert (S2 : s = mkS (if withDefault (o_core o) false then core_only b (fun x y z => c x y z / norm) else fun x y z => c x y z / norm) (Some f)) by congruence.
      subst s. unfold final_src. cbn [s_time s_field]. rewrite (masked_core b (o_core o) _ x y z I), (time_eq n t P), <- D. ring.
    - assert (S2 : s = mkS (if withDefault (o_core o) false then core_only b (fun x y z => c x y z / norm) else fun x y z => c x y z / norm) None) by congruence.
      subst s. unfold final_src. cbn [s_time s_field]. rewrite (masked_core b (o_core o) _ x y z I), <- D. ring.
  Qed.
  Lemma mk_throws norm b g o v : mk_src norm b g o v = None <-> o_time o = Some true /\ o_prefactor o = None.
  Proof.
    unfold mk_src. cbv zeta. destruct (o_time o) as [[|]|]; cbn [withDefault]; destruct (o_prefactor o); split; intros H; try discriminate H; try (split; reflexivity); destruct H as (A & B); discriminate.
  Qed.
End Two.

Lemma density_value n b g o name s x y z t : pos n -> density_src n b g o name = Some s -> inside b x y z ->
  normalised (Nnorm n * Omega_ci n)
    (masked (withDefault (o_core o) false) (periodic b x) (chosen (o_source o) (g ("N" ++ name ++ "_src")%string) (fun _ _ _ => 0) x y z)
      * (if withDefault (o_time o) false then match o_prefactor o with Some f => f (t / Omega_ci n) | None => 1 end else 1))
    (final_src n s t x y z).
Proof.
  intros P E I. unfold normalised. change (density_src n b g o name) with (mk_src (Nnorm n * Om n) b g o ("N" ++ name ++ "_src")%string) in E.
  rewrite (Om_eq n P) in E. apply (mk_value n P _ b g o _ s x y z t) in E; [exact E | apply Rgt_not_eq, nd_pos, P | exact I].
Qed.
Lemma pressure_value n b g o name s x y z t : pos n -> pressure_src n b g o name = Some s -> inside b x y z ->
  normalised (qe n * Nnorm n * Tnorm n * Omega_ci n)
    (masked (withDefault (o_core o) false) (periodic b x) (chosen (o_source o) (g ("P" ++ name ++ "_src")%string) (fun _ _ _ => 0) x y z)
      * (if withDefault (o_time o) false then match o_prefactor o with Some f => f (t / Omega_ci n) | None => 1 end else 1))
    (final_src n s t x y z).
Proof.
  intros P E I. unfold normalised. change (pressure_src n b g o name) with (mk_src (qe n * Nnorm n * Tnorm n * Om n) b g o ("P" ++ name ++ "_src")%string) in E.
  rewrite (Om_eq n P) in E. apply (mk_value n P _ b g o _ s x y z t) in E; [exact E | apply Rgt_not_eq, np_pos, P | exact I].
Qed.
Lemma energy_value n b g o gamma name s x y z t : pos n -> gamma <> 1 -> energy_src n b g o gamma name = Some s -> inside b x y z ->
  normalised (qe n * Nnorm n * Tnorm n * Omega_ci n)
    (masked (withDefault (o_core o) false) (periodic b x) (match o_source o with Some f => f x y z
      | None => chosen None (g ("P" ++ name ++ "_src")%string) (fun _ _ _ => 0) x y z / (gamma - 1) end))
    (final_src n s t x y z).
Proof.
  intros P G E I. unfold normalised. unfold energy_src in E. cbv zeta in E. apply (f_equal (fun o => match o with Some v => v | None => s end)) in E. subst s.
  unfold final_src. cbn [s_time s_field]. rewrite (masked_core b (o_core o) _ x y z I), (Om_eq n P), masked_mul. f_equal.
  pose proof (Rgt_not_eq _ _ (np_pos n P)) as N. set (k := qe n * Nnorm n * Tnorm n * Omega_ci n) in *.
  destruct (o_source o) as [f|]; cbn [withDefault]; [field; exact N|].
  rewrite <- (get_chosen g _ None). cbn [withDefault]. unfold Cv_of. field. split; [lra | exact N].
Qed.
Lemma throws_iff n b g o gamma name :
  (density_src n b g o name = None <-> o_time o = Some true /\ o_prefactor o = None)
  /\ (pressure_src n b g o name = None <-> o_time o = Some true /\ o_prefactor o = None)
  /\ energy_src n b g o gamma name <> None /\ neutral_density_src n g o name <> None /\ neutral_pressure_src n g o name <> None.
Proof.
  split; [|split; [|repeat split; discriminate]].
  - change (density_src n b g o name) with (mk_src (Nnorm n * Om n) b g o ("N" ++ name ++ "_src")%string). apply mk_throws.
  - change (pressure_src n b g o name) with (mk_src (qe n * Nnorm n * Tnorm n * Om n) b g o ("P" ++ name ++ "_src")%string). apply mk_throws.
Qed.
Lemma same_heating n b g c gamma name x y z t sp se : pos n -> gamma <> 1 -> inside b x y z ->
  pressure_src n b g (mkSrc None None None c) name = Some sp -> energy_src n b g (mkSrc None None None c) gamma name = Some se ->
  final_src n sp t x y z = (gamma - 1) * final_src n se t x y z.
Proof.
  intros P G I A B. apply (pressure_value n b g _ name sp x y z t P) in A; [|exact I]. apply (energy_value n b g _ gamma name se x y z t P G) in B; [|exact I].
  unfold normalised in A, B. cbn [o_source o_core o_time o_prefactor withDefault] in A, B. rewrite Rmult_1_r in A.
  pose proof (Rgt_not_eq _ _ (np_pos n P)) as N. set (k := qe n * Nnorm n * Tnorm n * Omega_ci n) in *.
  apply (Rmult_eq_reg_r k); [|exact N]. rewrite A, Rmult_assoc, B. unfold masked. destruct (_ && _)%bool; [ring|]. field. lra.
Qed.
Lemma neutral_value n g o name s x y z t : pos n ->
  (neutral_density_src n g o name = Some s ->
    normalised (Nnorm n * Omega_ci n) (chosen (o_source o) (g ("N" ++ name ++ "_src")%string) (fun _ _ _ => 0) x y z) (final_src n s t x y z))
  /\ (neutral_pressure_src n g o name = Some s ->
    normalised (qe n * Nnorm n * Tnorm n * Omega_ci n) (chosen (o_source o) (g ("P" ++ name ++ "_src")%string) (fun _ _ _ => 0) x y z) (final_src n s t x y z)).
Proof.
  intros P. pose proof (Rgt_not_eq _ _ (np_pos n P)) as N. pose proof (Rgt_not_eq _ _ (nd_pos n P)) as M.
  split; intros E; unfold neutral_density_src, neutral_pressure_src in E; cbv zeta in E; apply (f_equal (fun o => match o with Some v => v | None => mkS zero_fld None end)) in E; cbv beta iota in E; subst s; unfold normalised, final_src; cbn [s_time s_field];
    cbv beta; rewrite get_chosen, (Om_eq n P).
  - set (k := Nnorm n * Omega_ci n) in *. field. exact M.
  - set (k := qe n * Nnorm n * Tnorm n * Omega_ci n) in *. field. exact N.
Qed.

Definition n1 : norms := mkNorms 1 1 1 1 1.
Lemma n1_pos : pos n1. Proof. unfold pos, n1. cbn [qe Mp Nnorm Tnorm Bnorm]. lra. Qed.
Definition b1 : box := mkBox 2 3 0 1 0 0 (fun x => Z.eqb x 2).
Definition g1 : grid := fun v => if String.eqb v "Sd_src" then Some (fun _ _ _ => 1) else None.
Definition g0 : grid := fun _ => None.
Definition o1 : src_opts := mkSrc (Some (fun _ _ _ => 1)) (Some true) (Some (fun t => t)) (Some true).
Lemma energy_time : exists n b g o gamma name s f x y z t1 t2, pos n /\ gamma <> 1 /\ inside b x y z /\ o_time o = Some true /\ o_prefactor o = Some f
  /\ energy_src n b g o gamma name = Some s /\ final_src n s t1 x y z * f t2 <> final_src n s t2 x y z * f t1.
Proof.
  exists n1, b1, g0, o1, (5 / 3), "d"%string. eexists. exists (fun t => t), 2%Z, 0%Z, 0%Z, 1, 2.
  split; [exact n1_pos|]. split; [lra|]. split; [unfold inside, b1; cbn [xs xe ys ye zs ze]; lia|]. split; [reflexivity|]. split; [reflexivity|]. split; [reflexivity|].
  unfold final_src. cbn [s_time s_field o1 o_core withDefault o_source]. rewrite !core_exact. cbn. unfold Om, seconds, Omega_ci, n1. cbn [qe Mp Nnorm Tnorm Bnorm]. lra.
Qed.
Lemma neutral_ignores : exists n b g o name s f x y z t1 t2, pos n /\ inside b x y z /\ o_time o = Some true /\ o_prefactor o = Some f /\ o_core o = Some true
  /\ periodic b x = false /\ neutral_density_src n g o name = Some s /\ final_src n s t1 x y z <> 0 /\ final_src n s t1 x y z * f t2 <> final_src n s t2 x y z * f t1.
Proof.
  exists n1, b1, g0, o1, "d"%string. eexists. exists (fun t => t), 3%Z, 0%Z, 0%Z, 1, 2.
  split; [exact n1_pos|]. split; [unfold inside, b1; cbn [xs xe ys ye zs ze]; lia|]. do 5 (split; [reflexivity|]).
  unfold final_src. cbn [s_time s_field o1 withDefault o_source]. unfold Om, seconds, Omega_ci, n1. cbn [qe Mp Nnorm Tnorm Bnorm]. split; lra.
Qed.
Lemma mesh_name : exists n b g o name s f x y z, pos n /\ inside b x y z /\ o_source o = None /\ g ("S" ++ name ++ "_src")%string = Some f /\ f x y z <> 0
  /\ density_src n b g o name = Some s /\ forall t, final_src n s t x y z = 0.
Proof.
  exists n1, b1, g1, (mkSrc None None None None), "d"%string. eexists. exists (fun _ _ _ => 1), 2%Z, 0%Z, 0%Z.
  split; [exact n1_pos|]. split; [unfold inside, b1; cbn [xs xe ys ye zs ze]; lia|]. split; [reflexivity|]. split; [reflexivity|]. split; [lra|]. split; [reflexivity|].
  intros t. unfold final_src. cbn [s_time s_field o_core withDefault o_source]. unfold mesh_get, g1, zero_fld. cbn [String.append String.eqb Ascii.eqb Bool.eqb]. unfold Rdiv. apply Rmult_0_l.
Qed.

Lemma metric_throws l r nm g : choose_metric l r nm g = MThrow <-> l = true \/ (r <> Some true /\ forall v, metric_name v -> g v = None).
Proof.
  unfold choose_metric. destruct l; [tauto|].
  assert (K : (has g "J" || has g "g11" || has g "g22" || has g "g33" || has g "g12" || has g "g23" || has g "g13"
                || has g "g_11" || has g "g_22" || has g "g_33" || has g "g_12" || has g "g_23" || has g "g_13")%bool = false <-> forall v, metric_name v -> g v = None).
  { rewrite !orb_false_iff. split.
    - intros H v. assert (Q : forall w, has g w = false -> g w = None) by (intros w; unfold has; destruct (g w); [discriminate | reflexivity]).
      assert (L : forall i, nth_error digits i <> None -> (i = 0 \/ i = 1 \/ i = 2)%nat).
      { intros i Hi. apply nth_error_Some in Hi. cbn in Hi. lia. }
      intros [->|(i & j & Hi & Hj & Le & Hv)]; [apply Q; tauto|].
      apply L in Hi, Hj. destruct Hi as [->|[->| ->]], Hj as [->|[->| ->]]; try lia; cbn in Hv; destruct Hv as [->| ->]; apply Q; tauto.
    - intros H. assert (Q : forall w, metric_name w -> has g w = false) by (intros w W; unfold has; rewrite (H w W); reflexivity).
      assert (N : forall i j, nth_error digits i <> None -> nth_error digits j <> None -> (i <= j)%nat ->
        has g ("g" ++ nth i digits "" ++ nth j digits "")%string = false /\ has g ("g_" ++ nth i digits "" ++ nth j digits "")%string = false).
      { intros i j A B C. split; apply Q; right; exists i, j; repeat split; try assumption; [left | right]; reflexivity. }
      assert (D0 : nth_error digits 0 <> None) by (cbn; discriminate). assert (D1 : nth_error digits 1 <> None) by (cbn; discriminate). assert (D2 : nth_error digits 2 <> None) by (cbn; discriminate).
      pose proof (N 0 0 D0 D0 (le_n 0))%nat as A1. pose proof (N 1 1 D1 D1 (le_n 1))%nat as A2. pose proof (N 2 2 D2 D2 (le_n 2))%nat as A3.
      pose proof (N 0 1 D0 D1 (le_S _ _ (le_n 0)))%nat as A4. pose proof (N 1 2 D1 D2 (le_S _ _ (le_n 1)))%nat as A5. pose proof (N 0 2 D0 D2 (le_S _ _ (le_S _ _ (le_n 0))))%nat as A6.
      cbn [nth digits String.append] in A1, A2, A3, A4, A5, A6. pose proof (Q "J"%string (or_introl eq_refl)). tauto. }
  split.
  - intros H. right. destruct r as [[|]|]; cbn [withDefault] in H; [discriminate H | |]; (split; [discriminate|]); apply K; destruct (_ || _)%bool; [discriminate H | reflexivity | discriminate H | reflexivity].
  - intros [H|(A & B)]; [discriminate H|]. apply K in B. rewrite B. destruct r as [[|]|]; [contradiction | reflexivity | reflexivity].
Qed.
Lemma metric_chosen l r nm g : choose_metric l r nm g <> MThrow ->
  (choose_metric l r nm g = MRecalculate <-> r = Some true) /\ (choose_metric l r nm g = MGrid false <-> r <> Some true /\ nm = Some false).
Proof.
  unfold choose_metric. destruct l; [intros H; contradiction|]. destruct r as [[|]|]; cbn [withDefault].
  - intros _. split; split; try reflexivity; try discriminate. intros (A & _). contradiction.
  - destruct (negb _); [intros H; contradiction|]. intros _. split; (split; [try discriminate|]).
    + discriminate.
    + destruct nm as [[|]|]; cbn [withDefault]; intros E; try discriminate E. split; [discriminate | reflexivity].
    + intros (_ & ->). reflexivity.
  - destruct (negb _); [intros H; contradiction|]. intros _. split; (split; [try discriminate|]).
    + discriminate.
    + destruct nm as [[|]|]; cbn [withDefault]; intros E; try discriminate E. split; [discriminate | reflexivity].
    + intros (_ & ->). reflexivity.
Qed.

Lemma log_round p r x y z : 0 < p x y z ->
  first_value true (initial true false (Some p) r x y z) = Some (p x y z) /\ first_value false (initial false false (Some p) r x y z) = Some (p x y z).
Proof.
  intros H. split; [|reflexivity]. unfold initial, first_value, log_c. cbn [withDefault]. destruct (Rlt_dec 0 (p x y z)) as [L|L]; [|contradiction].
  rewrite exp_ln by exact H. reflexivity.
Qed.
Lemma log_defined p r x y z : initial true false (Some p) r x y z = None <-> p x y z <= 0.
Proof. unfold initial, log_c. cbn [withDefault]. destruct (Rlt_dec 0 (p x y z)); split; intros H; try lra; try discriminate; reflexivity. Qed.
Lemma restart_same r x y z p p' : 0 < r x y z -> first_value true (initial true true p (fun a b c => ln (r a b c)) x y z) = first_value false (initial false true p' r x y z).
Proof. intros H. unfold initial, first_value. rewrite exp_ln by exact H. reflexivity. Qed.
Lemma log_default : forall r x y z, initial true false None r x y z = None /\ initial false false None r x y z = Some 0.
Proof. intros. split; [|reflexivity]. unfold initial, log_c, withDefault, zero_fld. destruct (Rlt_dec 0 0); [lra | reflexivity]. Qed.
Lemma floors n df o : pos n -> normalised (qe n * Nnorm n * Tnorm n) (qe n * 1 * (df * Nnorm n)) (pressure_floor n df)
  /\ normalised (Tnorm n) (match o with Some t => t | None => 1 / 10 end) (temperature_floor n o).
Proof.
  intros (a & b & c & d & e). unfold normalised, pressure_floor, temperature_floor, withDefault. split; [field; lra|].
  destruct o; [field; lra|]. replace 0.1 with (1 / 10) by lra. field. lra.
Qed.
