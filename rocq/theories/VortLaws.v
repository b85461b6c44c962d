(** Proofs for VortProps.v. *)

From Coq Require Import List Bool ZArith Reals Lra Lia Permutation.
From Verif Require Import StateMonad StateMonadProofs ParallelModel ParallelSpec ParallelProofs DiffusionModel DiffusionProofs2 DriftModel DriftSpec DriftProofs VortModel VortSpec VortProofs.
Import ListNotations.
Open Scope R_scope.

(** * The potential *)
Section Potential.
  Context (lap lap2 dc : field -> field) (solve solve2 : field -> field -> field) (L : linear lap) (S1 : inverts solve lap) (S2 : inverts solve2 lap2).
  Context (average : R) (Bsq : field) (A0 : average <> 0) (B0 : forall i, Bsq i <> 0).
  Lemma potential_unsplit Vort pp Pi i : average / Bsq i * lap (fun k => potential false solve solve2 dc average Bsq Vort pp Pi k + Pi k) i = Vort i.
  Proof.
    unfold potential, minus. set (r := fun i => Vort i * (Bsq i / average)).
    rewrite (proj2 (proj2 L) _ (solve r pp)) by (intros k; ring). rewrite (S1 r pp i). unfold r. field; repeat split; first [apply B0 | exact A0].
  Qed.
  Lemma potential_split Vort pp Pi i : (forall f, same (dc f) f -> same (lap2 f) (fun k => average / Bsq k * lap f k)) ->
    (forall rhs x0, same (dc (solve2 rhs x0)) (solve2 rhs x0)) ->
    average / Bsq i * lap (fun k => potential true solve solve2 dc average Bsq Vort pp Pi k + Pi k) i = Vort i.
  Proof.
    intros H H2. unfold potential, minus, plus. cbv zeta.
    set (r := fun i => (Vort i - dc Vort i) * (Bsq i / average)). set (x := fun i => pp i - dc pp i).
    rewrite (proj2 (proj2 L) _ (fun k => solve2 (dc Vort) (dc pp) k + solve r x k)) by (intros k; ring).
    rewrite (proj1 L (solve2 (dc Vort) (dc pp)) (solve r x) i), (S1 r x i), Rmult_plus_distr_l.
    rewrite <- (H (solve2 (dc Vort) (dc pp)) (H2 _ _) i), (S2 (dc Vort) (dc pp) i). unfold r. field; repeat split; first [apply B0 | exact A0].
  Qed.
End Potential.

(** * Outer cells *)
Lemma copy_down n : forall lo phi i, fold_left (fun phi i => upd phi i (phi (i + 1)%Z)) (rev (irange lo (lo + Z.of_nat n - 1))) phi i
  = if (Z.leb lo i && Z.ltb i (lo + Z.of_nat n))%bool then phi (lo + Z.of_nat n)%Z else phi i.
Proof.
  induction n as [|n IH]; intros lo phi i.
  - rewrite irange_nil. cbn [rev fold_left]. destruct (Z.leb_spec lo i), (Z.ltb_spec i (lo + Z.of_nat 0)); cbn [andb]; try reflexivity; lia.
  - rewrite irange_snoc, rev_app_distr. cbn [rev app fold_left]. rewrite IH. unfold upd.
    replace (lo + Z.of_nat (S n))%Z with (lo + Z.of_nat n + 1)%Z by lia.
    destruct (Z.leb_spec lo i), (Z.ltb_spec i (lo + Z.of_nat n)), (Z.ltb_spec i (lo + Z.of_nat n + 1)), (Z.eqb_spec i (lo + Z.of_nat n)); cbn [andb]; try lia; rewrite ?Z.eqb_refl; reflexivity.
Qed.
Lemma copy_up n : forall lo phi i, fold_left (fun phi i => upd phi i (phi (i - 1)%Z)) (irange lo (lo + Z.of_nat n - 1)) phi i
  = if (Z.leb lo i && Z.ltb i (lo + Z.of_nat n))%bool then phi (lo - 1)%Z else phi i.
Proof.
  induction n as [|n IH]; intros lo phi i.
  - rewrite irange_nil. cbn [fold_left]. destruct (Z.leb_spec lo i), (Z.ltb_spec i (lo + Z.of_nat 0)); cbn [andb]; try reflexivity; lia.
  - rewrite irange_snoc, fold_left_app. cbn [fold_left]. unfold upd at 1. rewrite !IH.
    replace (lo + Z.of_nat (S n))%Z with (lo + Z.of_nat n + 1)%Z by lia.
    destruct (Z.eqb_spec i (lo + Z.of_nat n)).
    + subst i. destruct (Z.leb_spec lo (lo + Z.of_nat n)), (Z.ltb_spec (lo + Z.of_nat n) (lo + Z.of_nat n + 1)); try lia. cbn [andb].
      destruct (Z.leb_spec lo (lo + Z.of_nat n - 1)), (Z.ltb_spec (lo + Z.of_nat n - 1) (lo + Z.of_nat n)); try lia; cbn [andb]; try reflexivity.
      f_equal. lia.
    + destruct (Z.leb_spec lo i), (Z.ltb_spec i (lo + Z.of_nat n)), (Z.ltb_spec i (lo + Z.of_nat n + 1)); cbn [andb]; try lia; reflexivity.
Qed.
Lemma outer_law x phi i : (1 <= xstart x)%Z -> (xstart x <= xend x)%Z -> (xend x + 2 <= LocalNx x)%Z ->
  outer_cells x phi i = if (firstX x && Z.leb 0 i && Z.ltb i (xstart x - 1))%bool then phi (xstart x - 1)%Z
    else if (lastX x && Z.leb (xend x + 2) i && Z.ltb i (LocalNx x))%bool then phi (xend x + 1)%Z else phi i.
Proof.
  intros H1 H2 H3. unfold outer_cells, copy_outer, copy_inner.
  replace (xstart x - 2)%Z with (0 + Z.of_nat (Z.to_nat (xstart x - 1)) - 1)%Z by lia.
  replace (LocalNx x - 1)%Z with (xend x + 2 + Z.of_nat (Z.to_nat (LocalNx x - xend x - 2)) - 1)%Z by lia.
  assert (E1 : (0 + Z.of_nat (Z.to_nat (xstart x - 1)))%Z = (xstart x - 1)%Z) by lia.
  assert (E2 : (xend x + 2 + Z.of_nat (Z.to_nat (LocalNx x - xend x - 2)))%Z = LocalNx x) by lia.
  assert (E3 : (xend x + 2 - 1)%Z = (xend x + 1)%Z) by lia.
  destruct (firstX x), (lastX x); cbn [andb]; rewrite ?copy_up, ?copy_down, ?E1, ?E2, ?E3; repeat match goal with |- context [Z.leb ?a ?b] => destruct (Z.leb_spec a b) | |- context [Z.ltb ?a ?b] => destruct (Z.ltb_spec a b) end; cbn [andb]; try lia; reflexivity.
Qed.

(** * Reduction of the full advection *)
Lemma reduction op average Bsq Vort phi Pi : (forall n m f g, same n m -> same f g -> same (adv op n f) (adv op m g)) ->
  (forall n f, same (adv op (fun k => 0.5 * n k) f) (fun i => 0.5 * adv op n f i)) ->
  (forall f g, same g (fun _ => 0) -> same (bracket op f g) (fun _ => 0)) -> linear (free_o2 op) -> (forall a, linear (div_a_grad op a)) ->
  same Pi (fun _ => 0) -> same (free_o2 op (fun i => average * delp2 op phi i / Bsq i)) Vort ->
  same (exb_full op average Bsq Vort phi Pi) (exb_simplified op Vort phi).
Proof.
  intros E H B F D P V i. unfold exb_full, exb_simplified, plus, times. cbv zeta.
  rewrite (H Vort phi i).
  assert (Z1 : same (free_o2 op (bracket op phi Pi)) (fun _ => 0)) by (intros k; apply (lin_0 _ F); exact (B _ _ P)).
  rewrite (lin_0 _ (D _) _ i Z1).
  assert (V2 : same (free_o2 op (fun i0 => 0.5 * average * delp2 op phi i0 / Bsq i0)) (fun k => 0.5 * Vort k)).
  { intros k. rewrite (proj2 (proj2 F) _ (fun i0 => 0.5 * (average * delp2 op phi i0 / Bsq i0))) by (intros j; unfold Rdiv; ring).
    rewrite (proj1 (proj2 F) 0.5 (fun i0 => average * delp2 op phi i0 / Bsq i0) k). f_equal. apply V. }
  rewrite (E _ (fun k => 0.5 * Vort k) _ phi V2) by (intros k; rewrite P; ring). rewrite (H Vort phi i). lra.
Qed.

(** * Parallel currents *)
Lemma currents_none op B fl l : currents op B fl l None = None.
Proof. unfold currents. induction l as [|s l IH]; cbn [fold_left]; [reflexivity|exact IH]. Qed.
Lemma charge_number_small s q : charge s = Some q -> Rltb (Rabs q) 1e-5 = true -> charge_number s = 0.
Proof. intros E H. unfold charge_number. rewrite E. pose proof (Rltb_spec (Rabs q) 1e-5) as RS. rewrite H in RS. destruct (Rlt_dec (Rabs q) 1e-5); [reflexivity|contradiction]. Qed.
Lemma charge_number_large s q : charge s = Some q -> Rltb (Rabs q) 1e-5 = false -> charge_number s = q /\ q <> 0.
Proof.
  intros E H. unfold charge_number. rewrite E. pose proof (Rltb_spec (Rabs q) 1e-5) as RS. rewrite H in RS. destruct (Rlt_dec (Rabs q) 1e-5); [lra|]. split; [reflexivity|].
  intros ->. rewrite Rabs_R0 in RS. lra.
Qed.
Lemma charge_number_none s : charge s = None -> charge_number s = 0. Proof. intros E. unfold charge_number. now rewrite E. Qed.
Lemma currents_cons op B fl s l acc : currents op B fl (s :: l) acc = currents op B fl l (add_current op B fl acc s). Proof. reflexivity. Qed.
(** What one species adds. *)
Definition one_current (op : operators) (B : field) (fl : option field) (s : species) (i : Z) : R :=
  if Req_EM_T (charge_number s) 0 then 0 else
  match momentum s with
  | Some NV => let j := fun k => charge_number s / value (AA s) * NV k in
      div_par op j i + match fl with Some Ap => B i * bracket op (fun k => j k / B k) Ap i | None => 0 end
  | None => 0
  end.
Lemma add_current_value op B fl a s r : add_current op B fl (Some a) s = Some r -> forall i, r i = a i + one_current op B fl s i.
Proof.
  unfold add_current, one_current. intros E i. destruct (charge s) as [q|] eqn:EC.
  2:{ rewrite (charge_number_none s EC). injection E as <-. destruct (Req_EM_T 0 0); [ring|contradiction]. }
  destruct (momentum s) as [NV|] eqn:EM.
  2:{ injection E as <-. destruct (Req_EM_T (charge_number s) 0); ring. }
  destruct (Rltb (Rabs q) 1e-5) eqn:ER.
  - rewrite (charge_number_small s q EC ER). injection E as <-. destruct (Req_EM_T 0 0); [ring|contradiction].
  - destruct (charge_number_large s q EC ER) as (EQ & NZ). rewrite EQ. destruct (Req_EM_T q 0); [contradiction|].
    destruct (density s); [|discriminate E]. destruct (AA s) as [A|]; [|discriminate E]. injection E as <-. cbn [value].
    destruct fl; unfold plus; ring.
Qed.
Lemma add_current_defined op B fl a s : (exists r, add_current op B fl (Some a) s = Some r) <-> mobile_complete s.
Proof.
  unfold add_current, mobile_complete. destruct (charge s) as [q|] eqn:EC.
  2:{ rewrite (charge_number_none s EC). split; [intros _ H; lra|intros _; eexists; reflexivity]. }
  destruct (momentum s) as [NV|] eqn:EM.
  2:{ split; [intros _ _ H; contradiction|intros _; eexists; reflexivity]. }
  destruct (Rltb (Rabs q) 1e-5) eqn:ER.
  - rewrite (charge_number_small s q EC ER). split; [intros _ H; lra|intros _; eexists; reflexivity].
  - destruct (charge_number_large s q EC ER) as (EQ & NZ). rewrite EQ.
    destruct (density s), (AA s); (split; [intros (x & E); try discriminate E; intros _ _; split; intros N; discriminate N|intros H; try (eexists; reflexivity); exfalso; assert (X : Some NV <> None) by (intros N; discriminate N); destruct (H NZ X) as (H1 & H2); first [now apply H1|now apply H2]]).
Qed.
Lemma currents_defined op B fl l : forall a, (exists r, currents op B fl l (Some a) = Some r) <-> List.Forall mobile_complete l.
Proof.
  induction l as [|s l IH]; intros a.
  - split; [constructor|intros _; exists a; reflexivity].
  - rewrite currents_cons. split.
    + intros (r & E). destruct (add_current op B fl (Some a) s) as [b|] eqn:EA; [|rewrite currents_none in E; discriminate E].
      constructor; [apply (add_current_defined op B fl a s); now exists b|]. apply (IH b). now exists r.
    + intros HF. destruct (proj2 (add_current_defined op B fl a s) (List.Forall_inv HF)) as (b & EA). rewrite EA. apply IH. exact (List.Forall_inv_tail HF).
Qed.
Lemma currents_value op B fl l : forall a r, currents op B fl l (Some a) = Some r -> forall i, r i = a i + sum_over l (fun s => one_current op B fl s i).
Proof.
  induction l as [|s l IH]; intros a r E i.
  - injection E as <-. unfold sum_over. cbn [map fold_right]. ring.
  - rewrite currents_cons in E. destruct (add_current op B fl (Some a) s) as [b|] eqn:EA; [|rewrite currents_none in E; discriminate E].
    rewrite (IH b r E i), (add_current_value op B fl a s b EA i). unfold sum_over. cbn [map fold_right]. ring.
Qed.
Lemma one_current_par op B s i : linear (div_par op) -> one_current op B None s i = div_par op (parallel_current s) i.
Proof.
  intros L. unfold one_current, parallel_current. destruct (Req_EM_T (charge_number s) 0) as [E|NZ].
  - symmetry. apply (lin_0 _ L). intros k. rewrite E. unfold Rdiv. ring.
  - destruct (momentum s) as [NV|]; cbn [fvalue].
    + ring.
    + symmetry. apply (lin_0 _ L). intros k. ring.
Qed.
Lemma currents_total op B l a r : linear (div_par op) -> currents op B None l (Some a) = Some r -> same r (fun i => a i + div_par op (total_current l) i).
Proof.
  intros L E i. rewrite (currents_value _ _ _ _ _ _ E i). f_equal.
  rewrite (sum_ext l _ (fun s => div_par op (parallel_current s) i)) by (intros; now apply one_current_par).
  exact (lin_sum _ L _ l (fun s k => parallel_current s k) i).
Qed.
Lemma sum_perm {A} (l l' : list A) f : Permutation l l' -> sum_over l f = sum_over l' f.
Proof. unfold sum_over. induction 1; cbn [map fold_right]; lra. Qed.
Lemma currents_order op B fl l l' a r : Permutation l l' -> currents op B fl l (Some a) = Some r -> exists r', currents op B fl l' (Some a) = Some r' /\ same r r'.
Proof.
  intros P E. assert (HF : List.Forall mobile_complete l') by (apply (Permutation_Forall P); apply (currents_defined op B fl l a); now exists r).
  destruct (proj2 (currents_defined op B fl l' a) HF) as (r' & E'). exists r'. split; [exact E'|]. intros i.
  rewrite (currents_value _ _ _ _ _ _ E i), (currents_value _ _ _ _ _ _ E' i). f_equal. now apply sum_perm.
Qed.

(** * The right hand side *)
Section Whole.
  Context (o : vort_options) (op : operators) (Bxy dz Vort phi Pi start : field) (J fl w : option field) (l : list species).
  Lemma finally_defined : (exists r, vort_finally o op Bxy dz Vort phi Pi start J fl w l = Some r)
    <-> List.Forall mobile_complete l /\ ((vort_dissipation o = true \/ phi_dissipation o = true) -> w <> None).
  Proof.
    unfold vort_finally. cbv zeta. set (d := match J with Some _ => _ | None => _ end). rewrite <- (currents_defined op Bxy fl l d).
    destruct (currents op Bxy fl l (Some d)) as [c|].
    - destruct (vort_dissipation o), (phi_dissipation o), w; split; intros H; try (eexists; reflexivity); try (destruct H as (r & H); discriminate H);
        try (split; [eexists; reflexivity|]; try (intros _ N; discriminate N); intros [N|N]; discriminate N);
        exfalso; destruct H as (_ & H); apply H; auto.
    - split; [intros (r & H); discriminate H|intros ((r & H) & _); discriminate H].
  Qed.
  Lemma finally_value r : vort_finally o op Bxy dz Vort phi Pi start J fl w l = Some r -> forall i,
    r i = start i
      - (if exb_advection o then if exb_advection_simplified o then exb_simplified op Vort phi i
           else exb_full op (average_atomic_mass o) (fun i => Bxy i * Bxy i) Vort phi Pi i else 0)
      + fvalue J i + sum_over l (fun s => one_current op Bxy fl s i) + div_a_grad op (viscosity o) Vort i
      - (if vort_dissipation o then fv_div_par op Vort (fvalue w) i else 0)
      - (if phi_dissipation o then fv_div_par op (fun i => - phi i) (fvalue w) i else 0)
      - (if Rltb 0 (hyper_z o) then hyper_z o * (dz i ^ 4) * d4dz4 op Vort i else 0).
  Proof.
    unfold vort_finally. cbv zeta. set (d := match J with Some _ => _ | None => _ end). intros E i.
    destruct (currents op Bxy fl l (Some d)) as [c|] eqn:EC; [|discriminate E]. pose proof (currents_value _ _ _ _ _ _ EC i) as Ci.
    assert (Di : d i = start i - (if exb_advection o then if exb_advection_simplified o then exb_simplified op Vort phi i
           else exb_full op (average_atomic_mass o) (fun i => Bxy i * Bxy i) Vort phi Pi i else 0) + fvalue J i).
    { unfold d. destruct J; destruct (exb_advection o); try destruct (exb_advection_simplified o); unfold plus, minus; cbn [fvalue]; ring. }
    rewrite Di in Ci. clear Di. revert Ci. generalize (exb_simplified op Vort phi i). generalize (exb_full op (average_atomic_mass o) (fun i => Bxy i * Bxy i) Vort phi Pi i).
    intros x y Ci. clear d EC.
    destruct (vort_dissipation o), (phi_dissipation o), w as [w0|]; try discriminate E; cbn [fvalue]; destruct (Rltb 0 (hyper_z o)); injection E as <-; unfold plus, minus; rewrite Ci; ring.
  Qed.
End Whole.

(** Integral of the right hand side. *)
Section Integral.
  Context (I : field -> R) (HI : integral I).
  Lemma I_add f g : I (fun k => f k + g k) = I f + I g. Proof. apply HI. Qed.
  Lemma I_scal c f : I (fun k => c * f k) = c * I f. Proof. apply HI. Qed.
  Lemma I_ext f g : same f g -> I f = I g. Proof. apply HI. Qed.
  Lemma I_zero : I (fun _ => 0) = 0.
  Proof. rewrite (I_ext _ (fun k => 0 * (fun _ => 0) k)) by (intros k; ring). rewrite I_scal. ring. Qed.
  Lemma I_sub f g : I (fun k => f k - g k) = I f - I g.
  Proof. rewrite (I_ext _ (fun k => f k + -1 * g k)) by (intros k; ring). rewrite I_add, I_scal. ring. Qed.
  Lemma I_sum {A} (l : list A) f : I (fun k => sum_over l (fun s => f s k)) = sum_over l (fun s => I (f s)).
  Proof.
    unfold sum_over. induction l as [|s l IH]; cbn [map fold_right]; [apply I_zero|]. rewrite <- IH. apply (I_add (f s) (fun k => fold_right Rplus 0 (map (fun s0 => f s0 k) l))).
  Qed.
  Lemma sum_0 {A} (l : list A) f : (forall s, f s = 0) -> sum_over l f = 0.
  Proof. intros H. unfold sum_over. induction l as [|s l IH]; cbn [map fold_right]; [reflexivity|]. rewrite IH, H. ring. Qed.
  Lemma finally_integral o op Bxy dz Vort phi Pi start J fl w l r : sealed I op ->
    (forall f g, fl <> None -> I (fun i => Bxy i * bracket op (fun k => f k / Bxy k) g i) = 0) ->
    (0 < hyper_z o -> I (fun i => dz i ^ 4 * d4dz4 op Vort i) = 0) ->
    vort_finally o op Bxy dz Vort phi Pi start J fl w l = Some r -> I r = I start + I (fvalue J).
  Proof.
    intros (S1 & S2 & S3 & S4) SF SH E. pose proof (finally_value _ _ _ _ _ _ _ _ _ _ _ _ _ E) as V.
    assert (IC : I (fun i => sum_over l (fun s => one_current op Bxy fl s i)) = 0).
    { rewrite I_sum. apply sum_0. intros s. unfold one_current. destruct (Req_EM_T (charge_number s) 0); [apply I_zero|].
      destruct (momentum s) as [NV|]; [|apply I_zero]. cbv zeta. rewrite I_add, S3. destruct fl as [Ap|]; [|rewrite I_zero; ring].
      rewrite (SF (fun k => charge_number s / value (AA s) * NV k) Ap) by (intros N; discriminate N). ring. }
    assert (IA : I (fun i => if exb_advection o then if exb_advection_simplified o then exb_simplified op Vort phi i
           else exb_full op (average_atomic_mass o) (fun i => Bxy i * Bxy i) Vort phi Pi i else 0) = 0).
    { destruct (exb_advection o); [|apply I_zero]. destruct (exb_advection_simplified o); [apply S1|]. unfold exb_full, plus. cbv zeta. rewrite !I_add, !S1, S2. ring. }
    assert (IV : I (fun i => if vort_dissipation o then fv_div_par op Vort (fvalue w) i else 0) = 0) by (destruct (vort_dissipation o); [apply S4|apply I_zero]).
    assert (IP : I (fun i => if phi_dissipation o then fv_div_par op (fun i => - phi i) (fvalue w) i else 0) = 0) by (destruct (phi_dissipation o); [apply S4|apply I_zero]).
    assert (IH : I (fun i => if Rltb 0 (hyper_z o) then hyper_z o * (dz i ^ 4) * d4dz4 op Vort i else 0) = 0).
    { pose proof (Rltb_spec 0 (hyper_z o)) as RS. destruct (Rltb 0 (hyper_z o)); [|apply I_zero].
      rewrite (I_ext _ (fun i => hyper_z o * (dz i ^ 4 * d4dz4 op Vort i))) by (intros i; ring). rewrite I_scal, SH by exact RS. ring. }
    rewrite (I_ext _ _ V), !I_sub, !I_add, I_sub. rewrite IC, IA, IV, IP, IH, S2. ring.
  Qed.
End Integral.

(** Switching one term on. *)
Definition with_vort (b : bool) (o : vort_options) : vort_options :=
  mkVortOptions (exb_advection o) (exb_advection_simplified o) b (phi_dissipation o) (hyper_z o) (average_atomic_mass o) (viscosity o).
Definition with_phi (b : bool) (o : vort_options) : vort_options :=
  mkVortOptions (exb_advection o) (exb_advection_simplified o) (vort_dissipation o) b (hyper_z o) (average_atomic_mass o) (viscosity o).
Definition with_hyper (h : R) (o : vort_options) : vort_options :=
  mkVortOptions (exb_advection o) (exb_advection_simplified o) (vort_dissipation o) (phi_dissipation o) h (average_atomic_mass o) (viscosity o).
Section Switch.
  Context (o : vort_options) (op : operators) (Bxy dz Vort phi Pi start : field) (J fl w : option field) (l : list species).
  Lemma switch_vort r r' : vort_finally (with_vort true o) op Bxy dz Vort phi Pi start J fl w l = Some r ->
    vort_finally (with_vort false o) op Bxy dz Vort phi Pi start J fl w l = Some r' -> forall i, r i - r' i = - fv_div_par op Vort (fvalue w) i.
  Proof. intros E E' i. rewrite (finally_value _ _ _ _ _ _ _ _ _ _ _ _ _ E i), (finally_value _ _ _ _ _ _ _ _ _ _ _ _ _ E' i). cbn [with_vort exb_advection exb_advection_simplified vort_dissipation phi_dissipation hyper_z average_atomic_mass viscosity]. ring. Qed.
  Lemma switch_phi r r' : vort_finally (with_phi true o) op Bxy dz Vort phi Pi start J fl w l = Some r ->
    vort_finally (with_phi false o) op Bxy dz Vort phi Pi start J fl w l = Some r' -> forall i, r i - r' i = - fv_div_par op (fun i => - phi i) (fvalue w) i.
  Proof. intros E E' i. rewrite (finally_value _ _ _ _ _ _ _ _ _ _ _ _ _ E i), (finally_value _ _ _ _ _ _ _ _ _ _ _ _ _ E' i). cbn [with_phi exb_advection exb_advection_simplified vort_dissipation phi_dissipation hyper_z average_atomic_mass viscosity]. ring. Qed.
  Lemma switch_hyper h r r' : 0 < h -> vort_finally (with_hyper h o) op Bxy dz Vort phi Pi start J fl w l = Some r ->
    vort_finally (with_hyper 0 o) op Bxy dz Vort phi Pi start J fl w l = Some r' -> forall i, r i - r' i = - (h * dz i ^ 4 * d4dz4 op Vort i).
  Proof.
    intros H E E' i. rewrite (finally_value _ _ _ _ _ _ _ _ _ _ _ _ _ E i), (finally_value _ _ _ _ _ _ _ _ _ _ _ _ _ E' i). cbn [with_hyper exb_advection exb_advection_simplified vort_dissipation phi_dissipation hyper_z average_atomic_mass viscosity].
    rewrite (Rltb_true 0 h H), (Rltb_false 0 0) by lra. ring.
  Qed.
End Switch.
Lemma hyper_law n d o op Bxy dz Vort phi Pi start J fl w l h r r' : (0 < n)%nat -> d <> 0 -> (forall k, dz k = d) ->
  (forall f, same (d4dz4 op f) (fun k => D4DZ4_Index (Z.of_nat n) f k / d ^ 4)) -> 0 < h ->
  vort_finally (with_hyper h o) op Bxy dz Vort phi Pi start J fl w l = Some r ->
  vort_finally (with_hyper 0 o) op Bxy dz Vort phi Pi start J fl w l = Some r' ->
  zsum 0 n (fun k => r k - r' k) = 0 /\ zsum 0 n (fun k => Vort k * (r k - r' k)) <= 0.
Proof.
  intros N D HD H4 H E E'. pose proof (switch_hyper _ _ _ _ _ _ _ _ _ _ _ _ h r r' H E E') as V.
  assert (V' : forall k, r k - r' k = - h * D4DZ4_Index (Z.of_nat n) Vort k).
  { intros k. rewrite V, HD, (H4 Vort k). field. exact D. }
  split.
  - rewrite (zsum_ext _ _ _ _ (fun k _ => V' k)), zsum_scal, D4DZ4_conserves by exact N. ring.
  - rewrite (zsum_ext _ _ _ (fun k => - h * (Vort k * D4DZ4_Index (Z.of_nat n) Vort k))) by (intros k _; rewrite V'; ring).
    rewrite zsum_scal. pose proof (D4DZ4_dissipates n Vort N). nra.
Qed.
Lemma vort_dissipates I o op Bxy dz Vort phi Pi start J fl w l r r' : integral I -> (forall f, 0 <= I (fun i => f i * fv_div_par op f (fvalue w) i)) ->
  vort_finally (with_vort true o) op Bxy dz Vort phi Pi start J fl w l = Some r ->
  vort_finally (with_vort false o) op Bxy dz Vort phi Pi start J fl w l = Some r' -> I (fun i => Vort i * (r i - r' i)) <= 0.
Proof.
  intros HI P E E'. rewrite (I_ext I HI _ (fun i => -1 * (Vort i * fv_div_par op Vort (fvalue w) i))).
  - rewrite (I_scal I HI). specialize (P Vort). lra.
  - intros i. rewrite (switch_vort _ _ _ _ _ _ _ _ _ _ _ _ r r' E E' i). ring.
Qed.
Lemma phi_dissipates I o op Bxy dz Vort phi Pi start J fl w l r r' : integral I -> (forall f, 0 <= I (fun i => f i * fv_div_par op f (fvalue w) i)) ->
  vort_finally (with_phi true o) op Bxy dz Vort phi Pi start J fl w l = Some r ->
  vort_finally (with_phi false o) op Bxy dz Vort phi Pi start J fl w l = Some r' -> - I (fun i => phi i * (r i - r' i)) <= 0.
Proof.
  intros HI P E E'. rewrite (I_ext I HI _ (fun i => (- phi i) * fv_div_par op (fun i => - phi i) (fvalue w) i)).
  - specialize (P (fun i => - phi i)). cbv beta in P. lra.
  - intros i. rewrite (switch_phi _ _ _ _ _ _ _ _ _ _ _ _ r r' E E' i). ring.
Qed.

(** * Sheaths *)
Lemma sheath_min a b : sheath_dissipation a b = Rmin (mean a b) 0.
Proof. unfold sheath_dissipation, mean, rfloor. cbv zeta. pose proof (Rltb_spec (- (0.5 * (a + b))) 0) as RS. destruct (Rltb _ 0); unfold Rmin; destruct (Rle_dec ((a + b) / 2) 0); lra. Qed.
Lemma sheath_law m lo up phi j : (ystart m < yend m)%Z -> sheath_line m lo up phi j
  = (if Z.eq_dec j (ystart m) then if lo then Rmin (mean (phi (ystart m)) (phi (ystart m - 1)%Z)) 0 else 0 else 0)
    + (if Z.eq_dec j (yend m) then if up then Rmin (mean (phi (yend m)) (phi (yend m + 1)%Z)) 0 else 0 else 0).
Proof.
  intros H. unfold sheath_line. cbv zeta. rewrite <- !sheath_min. unfold upd.
  destruct lo, up; destruct (Z.eq_dec j (ystart m)), (Z.eq_dec j (yend m)), (Z.eqb_spec j (ystart m)), (Z.eqb_spec j (yend m)); try lia; ring.
Qed.
Lemma sheath_energy a b : 0 <= a * mean a b -> - (a * sheath_dissipation a b) <= 0.
Proof. rewrite sheath_min. unfold mean, Rmin. intros H. destruct (Rle_dec ((a + b) / 2) 0); nra. Qed.

(** * Relaxing potential *)
Lemma phi_vort_none op dia B phi l : fold_left (add_phi_vort op dia B phi) l None = None.
Proof. induction l as [|s l IH]; cbn [fold_left]; [reflexivity|exact IH]. Qed.
Lemma charged_mass_spec s i : charged_mass s i = match charged s with Some _ => value (AA s) * fvalue (density s) i | None => 0 end.
Proof.
  unfold charged_mass, charged. destruct (charge s) as [q|] eqn:EC.
  - destruct (Rltb (Rabs q) 1e-5) eqn:ER.
    + rewrite (charge_number_small s q EC ER). destruct (Req_EM_T 0 0); [reflexivity|contradiction].
    + destruct (charge_number_large s q EC ER) as (-> & NZ). destruct (Req_EM_T q 0); [contradiction|reflexivity].
  - rewrite (charge_number_none s EC). destruct (Req_EM_T 0 0); [reflexivity|contradiction].
Qed.
(** The pressures which enter. *)
Definition pressure_part (s : species) (k : Z) : R := match charged s, pressure s with Some _, Some P => P k | _, _ => 0 end.
Lemma phi_vort_sum op dia B phi l : (forall f, linear (fun a => div_a_grad op a f)) -> forall acc r, fold_left (add_phi_vort op dia B phi) l (Some acc) = Some r ->
  same r (fun i => acc i + div_a_grad op (fun k => total_mass l k / B k) phi i
    + (if dia then sum_over l (fun s => match charged s, pressure s with Some _, Some P => div_a_grad op (fun k => value (AA s) / B k) P i | _, _ => 0 end) else 0)).
Proof.
  intros L. induction l as [|s l IH]; intros acc r E i; cbn [fold_left] in E.
  - assert (r = acc) by congruence. subst r. unfold total_mass, sum_over. cbn [map fold_right].
    rewrite (lin_0 _ (L phi)) by (intros k; unfold Rdiv; ring). destruct dia; ring.
  - destruct (add_phi_vort op dia B phi (Some acc) s) as [b|] eqn:EA; [|rewrite phi_vort_none in E; discriminate E].
    rewrite (IH b r E i).
    assert (M : div_a_grad op (fun k => total_mass (s :: l) k / B k) phi i = div_a_grad op (fun k => charged_mass s k / B k) phi i + div_a_grad op (fun k => total_mass l k / B k) phi i).
    { rewrite <- (proj1 (L phi) (fun k => charged_mass s k / B k) (fun k => total_mass l k / B k) i). apply (lin_ext _ (L phi)). intros k. unfold total_mass, sum_over. cbn [map fold_right]. unfold Rdiv. ring. }
    rewrite M. clear M IH E. unfold sum_over at 2. cbn [map fold_right]. fold (sum_over l (fun s => match charged s, pressure s with Some _, Some P => div_a_grad op (fun k => value (AA s) / B k) P i | _, _ => 0 end)).
    assert (Q : div_a_grad op (fun k => charged_mass s k / B k) phi i = match charged s with Some _ => div_a_grad op (fun k => value (AA s) * fvalue (density s) k / B k) phi i | None => 0 end).
    { destruct (charged s) eqn:EC.
      - apply (lin_ext _ (L phi)). intros k. now rewrite charged_mass_spec, EC.
      - apply (lin_0 _ (L phi)). intros k. rewrite charged_mass_spec, EC. unfold Rdiv. ring. }
    rewrite Q. clear Q. unfold add_phi_vort in EA. destruct (charged s) as [q|]; [|injection EA as <-; destruct dia; ring].
    destruct (AA s) as [A|]; [|discriminate EA]. destruct (density s) as [N|]; [|discriminate EA]. cbn [value fvalue].
    rewrite (lin_ext _ (L phi) (fun k => A * N k / B k) (fun k => A / B k * N k)) by (intros k; unfold Rdiv; ring).
    injection EA as <-. destruct dia; [destruct (pressure s)|]; unfold plus; ring.
Qed.
Lemma relax_full_cold op l1 B phi Vort l r : (forall f, linear (fun a => div_a_grad op a f)) -> relax_full op false l1 B phi Vort l = Some r ->
  same r (fun i => l1 * (div_a_grad op (fun k => total_mass l k / B k) phi i - Vort i)).
Proof.
  intros L E i. unfold relax_full in E. destruct (fold_left _ l (Some zero)) as [p|] eqn:EF; [|discriminate E].
  injection E as <-. rewrite (phi_vort_sum op false B phi l L zero p EF i). unfold zero. f_equal. ring.
Qed.
