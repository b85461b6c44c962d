(** The boundary of the electric potential (C58, C73), the vector potential (C62) and its boundary (C74). *)

From Coq Require Import List Bool ZArith Reals Lra Lia.
From Verif Require Import StateMonad StateMonadProofs MetricModel MetricProofs FieldsModel FieldsSpec FieldsProofs.
Import ListNotations.
Open Scope R_scope.

(** One evaluation moves the value on the face as the exact solution of the relaxation equation does; the interior is not changed. *)
Theorem C58_one_step : forall Nz i s tau t last phi b m,
  s <> 0%Z -> (0 < Nz)%nat -> 0 <= last -> last < t -> face i s phi 0%Z = b -> mean_is Nz i phi m ->
  face_is Nz i s (snd (phi_boundary Nz i s tau t (last, phi))) (decayed tau (t - last) m b)
  /\ forall x z, x <> (i + s)%Z -> x <> (i + 2 * s)%Z -> snd (phi_boundary Nz i s tau t (last, phi)) x z = phi x z.
Proof.
  exact (fun Nz i s tau t last phi b m Hs HN H0 H1 Hb Hm =>
    conj (proj2 (phi_boundary_face Nz i s tau t last phi b m Hs HN H0 H1 Hb Hm)) (fun x z => phi_boundary_inside Nz i s tau t last phi x z)).
Qed.
Print Assumptions C58_one_step.

(** The relaxed value lies between the old one and the mean next to the boundary, and equals it only if they agreed. *)
Theorem C58_between : forall tau t m b lo hi, 0 < t -> 0 < tau -> lo <= m <= hi -> lo <= b <= hi -> lo <= decayed tau t m b <= hi.
Proof. exact decayed_range. Qed.
Print Assumptions C58_between.

(** Any sequence of evaluations, with any split of the time into steps: only the elapsed time counts as long as the mean stays. *)
Theorem C58_any_steps : forall Nz i s tau m, s <> 0%Z -> (0 < Nz)%nat -> forall evals last phi b,
  0 <= last -> increasing last evals -> face_is Nz i s phi b -> mean_is Nz i phi m -> List.Forall (fun e => mean_is Nz i (snd e) m) evals ->
  keeps_faces Nz i s tau (last, phi) evals ->
  face_is Nz i s (snd (run Nz i s tau (last, phi) evals)) (decayed tau (last_time_of last evals - last) m b).
Proof. exact run_exact. Qed.
Print Assumptions C58_any_steps.

(** Whatever the times (also going back) and the solutions, the boundary stays within the bounds of its start and of the means. *)
Theorem C58_bounded : forall Nz i s tau lo hi, s <> 0%Z -> (0 < Nz)%nat -> 0 < tau -> forall evals last phi,
  (exists b, face_is Nz i s phi b /\ lo <= b <= hi) -> (exists m, mean_is Nz i phi m /\ lo <= m <= hi) ->
  List.Forall (fun e => exists m, mean_is Nz i (snd e) m /\ lo <= m <= hi) evals -> keeps_faces Nz i s tau (last, phi) evals ->
  exists b, face_is Nz i s (snd (run Nz i s tau (last, phi) evals)) b /\ lo <= b <= hi.
Proof. exact run_bounded. Qed.
Print Assumptions C58_bounded.

(** What the solver is given keeps the face: if it puts that value on the face, phi = result - Pi_hat has the face value it had before. *)
Theorem C58_solver_value : forall i s phi Pi u z,
  (u i + u (i + s)%Z) / 2 = phi_plus_pi_guard i s phi Pi z -> face i s (fun x z' => u x - Pi x z') z = face i s phi z.
Proof. exact solve_keeps_face. Qed.
Print Assumptions C58_solver_value.

(** A run of two steps with different solutions of the same mean: x = 1 is the last cell, the boundary is at x = 2, four points in z. *)
Definition sol (w f : R) : Z -> Z -> R :=
  fun x z => let c := 3 + (if Z.even z then w else - w) in if Z.eqb x 1 then c else if Z.ltb 1 x then 2 * f - c else 0.
Lemma sol_face w f b : f = b -> face_is 4 1 1 (sol w f) b.
Proof. intros <- z Hz. unfold face, sol. change (1 + 1)%Z with 2%Z. cbn [Z.eqb Pos.eqb Z.ltb Z.compare Pos.compare Pos.compare_cont]. lra. Qed.
Lemma sol_mean w f : mean_is 4 1 (sol w f) 3.
Proof. unfold mean_is, sol. cbn [seq map fold_right Z.of_nat Z.eqb Pos.eqb Z.even Pos.of_succ_nat Pos.succ INR]. lra. Qed.
Example C58_case : let evals := [(2, sol 1 (decayed 5 2 3 0)); (3, sol (-1) (decayed 5 3 3 0))] in
  keeps_faces 4 1 1 5 (0, sol 2 0) evals /\ increasing 0 evals
  /\ face_is 4 1 1 (snd (run 4 1 1 5 (0, sol 2 0) evals)) (decayed 5 3 3 0) /\ 0 < decayed 5 3 3 0 < 3.
Proof.
  intros evals.
  assert (F1 : forall z, (0 <= z < 4)%Z -> face 1 1 (sol 1 (decayed 5 2 3 0)) z = face 1 1 (snd (phi_boundary 4 1 1 5 2 (0, sol 2 0))) z).
  { intros z Hz. rewrite (sol_face 1 _ _ eq_refl z Hz).
    destruct (phi_boundary_face 4 1 1 5 2 0 (sol 2 0) 0 3) as [ _ H ]; try lia; try lra.
    - apply sol_face; [ reflexivity | lia ].
    - apply sol_mean.
    - rewrite (H z Hz). f_equal. lra. }
  assert (T1 : fst (phi_boundary 4 1 1 5 2 (0, sol 2 0)) = 2).
  { destruct (phi_boundary_face 4 1 1 5 2 0 (sol 2 0) 0 3) as [ H _ ]; try lia; try lra; [ apply sol_face; [ reflexivity | lia ] | apply sol_mean ]. }
  assert (K : keeps_faces 4 1 1 5 (0, sol 2 0) evals).
  { unfold evals. cbn [keeps_faces]. rewrite T1. split; [ exact F1 | ]. split; [ | exact I ].
    intros z Hz. rewrite (sol_face (-1) _ _ eq_refl z Hz).
    destruct (phi_boundary_face 4 1 1 5 3 2 (sol 1 (decayed 5 2 3 0)) (decayed 5 2 3 0) 3) as [ _ H ]; try lia; try lra.
    - apply sol_face; [ reflexivity | lia ].
    - apply sol_mean.
    - rewrite (H z Hz), decayed_add. f_equal. lra. }
  split; [ exact K | ].
  assert (M : increasing 0 evals) by (unfold evals; cbn [increasing]; lra). split; [ exact M | ]. split.
  - assert (H := C58_any_steps 4 1 1 5 3 ltac:(lia) ltac:(lia) evals 0 (sol 2 0) 0 ltac:(lra) M (sol_face 2 0 0 eq_refl) (sol_mean 2 0)).
    replace (last_time_of 0 evals - 0) with 3 in H by (unfold last_time_of, evals; cbn [fold_left fst]; ring).
    apply H; [ | exact K ]. unfold evals. apply Forall_cons; [ apply sol_mean | ]. apply Forall_cons; [ apply sol_mean | ]. apply Forall_nil.
  - unfold decayed. assert (W := weight_range 3 5 ltac:(lra) ltac:(lra)).
    replace (- (3 / 5)) with (- (3) / 5) by field. lra.
Qed.

(** phi_core_averagey: the value is that average times the share of domain cells among the local cells, guard cells included. *)
Theorem C58_core_average : forall Nz rows guards procs, (0 < Nz)%nat -> (0 < rows)%nat -> procs <> [] ->
  core_average Nz rows guards procs = INR rows / (INR rows + 2 * INR guards) * true_mean Nz rows procs.
Proof. exact core_average_scaled. Qed.
Print Assumptions C58_core_average.
(** So it is not the average: a constant potential 1 on one processor with 4 cells and 2 guard cells at each end relaxes towards 1/2. *)
Theorem C58_core_average_refuted : exists Nz rows guards procs, true_mean Nz rows procs = 1 /\ core_average Nz rows guards procs = 1 / 2.
Proof.
  exists 1%nat, 4%nat, 2%nat, [[[1]; [1]; [1]; [1]]]. assert (T : true_mean 1 4 [[[1]; [1]; [1]; [1]]] = 1).
  { unfold true_mean, rows_total. cbn [map fold_right List.length INR]. field. }
  split; [ exact T | ]. rewrite core_average_scaled; [ | lia | lia | congruence ]. rewrite T. cbn [INR]. field.
Qed.
Print Assumptions C58_core_average_refuted.

(** The old value is read at z = 0 only: if the boundary varies in z (a restart with another boundary condition), the new value at another z need
    not lie between the old value there and the mean. *)
Theorem C58_between_refuted : exists Nz i s tau t last phi z m, 0 < tau /\ 0 <= last < t /\ (0 <= z < Z.of_nat Nz)%Z /\ mean_is Nz i phi m
  /\ ~ between (face i s phi z) m (face i s (snd (phi_boundary Nz i s tau t (last, phi))) z).
Proof.
  set (phi := fun x z : Z => if (Z.eqb x 2 && Z.eqb z 0)%bool then 2 else 0).
  exists 2%nat, 1%Z, 1%Z, 1, 1, 0, phi, 1%Z, 0.
  assert (M : mean_is 2 1 phi 0). { unfold mean_is, phi. cbn [seq map fold_right Z.of_nat Z.eqb Pos.eqb andb]. lra. }
  repeat split; try lra; try lia; [ exact M | ]. intros H.
  destruct (phi_boundary_face 2 1 1 1 1 0 phi 1 0) as [ _ F ]; try lia; try lra.
  - unfold face, phi. change (1 + 1)%Z with 2%Z. cbn [Z.eqb Pos.eqb andb]. lra.
  - exact M.
  - rewrite (F 1%Z ltac:(lia)) in H. unfold face, phi in H. change (1 + 1)%Z with 2%Z in H. cbn [Z.eqb Pos.eqb andb] in H.
    unfold between in H. replace ((0 + 0) / 2) with 0 in H by field. rewrite Rmax_left in H by lra.
    unfold decayed in H. assert (W := exp_pos (- ((1 - 0) / 1))). lra.
Qed.
Print Assumptions C58_between_refuted.

(** The potential on the radial boundary balances ion and electron currents for hydrogen with equal temperatures. *)
Theorem C73_zero_current : forall n Te Me, 0 < Te -> 0 < Me -> 0 < n -> electron_flux n Te Me (sheathmult true Me * Te) = ion_flux n Te Te 1.
Proof. exact sheath_zero_current. Qed.
Print Assumptions C73_zero_current.
Example C73_case : electron_flux 1 2 (1 / 1836) (sheathmult true (1 / 1836) * 2) = ion_flux 1 2 2 1.
Proof. apply C73_zero_current; lra. Qed.
(** And only if T_e + T_i = 2 A T_e: in deuterium (the comment says "2.84522 for Deuterium if Ti = 0") the current does not vanish. *)
Theorem C73_only_then : forall n Te Ti Me mi, 0 < Te -> 0 < Me -> 0 < n -> 0 < mi -> 0 <= Ti ->
  electron_flux n Te Me (sheathmult true Me * Te) = ion_flux n Te Ti mi -> Te + Ti = 2 * mi * Te.
Proof. exact sheath_other_mass. Qed.
Print Assumptions C73_only_then.
Theorem C73_deuterium_refuted : exists n Te Ti Me, 0 < n /\ 0 < Te /\ 0 <= Ti /\ 0 < Me
  /\ electron_flux n Te Me (sheathmult true Me * Te) <> ion_flux n Te Ti 2.
Proof.
  exists 1, 1, 0, (1 / 1836). repeat split; try lra. intros H. apply sheath_other_mass in H; lra.
Qed.
Print Assumptions C73_deuterium_refuted.
(** The value is put on the face at every z. *)
Theorem C73_face_value : forall Nz i s mult Te phi m, s <> 0%Z -> (0 < Nz)%nat -> mean_is Nz i Te m ->
  face_is Nz i s (sheath_face Nz i s mult Te phi) (mult * m).
Proof.
  exact (fun Nz i s mult Te phi m Hs HN Hm => eq_ind _ (fun v => face_is Nz i s (sheath_face Nz i s mult Te phi) (mult * v))
           (set_face_face Nz i s _ phi Hs) m (next_to_boundary_mean Nz i Te m HN Hm)).
Qed.
Print Assumptions C73_face_value.
Example C73_face_case : face_is 4 1 1 (sheath_face 4 1 1 2 (sol 1 0) (sol 5 7)) 6.
Proof. replace 6 with (2 * 3) by ring. apply C73_face_value; [ lia | lia | apply sol_mean ]. Qed.

(** Momentum stays mass times (floored) density times velocity for every species. *)
Theorem C62_consistent : forall Apar l l', List.Forall (fun s => AA s <> 0 /\ consistent s) l -> correct_all Apar l = Some l' -> List.Forall consistent l'.
Proof. exact correct_all_consistent. Qed.
Print Assumptions C62_consistent.
(** With all densities above the floor Ampere's law holds with the current of the corrected momenta. *)
Theorem C62_ampere : forall beta lapA Apar l l', List.Forall (fun s => AA s <> 0 /\ 1e-5 <= density s) l ->
  apar_equation beta lapA Apar l -> correct_all Apar l = Some l' -> lapA = - (beta * fold_right Rplus 0 (map current_of l')).
Proof. exact ampere. Qed.
Print Assumptions C62_ampere.
(** Below the floor it does not. *)
Theorem C62_ampere_refuted : exists beta lapA Apar l l', apar_equation beta lapA Apar l /\ correct_all Apar l = Some l'
  /\ lapA <> - (beta * fold_right Rplus 0 (map current_of l')).
Proof. exact (ex_intro _ 1 (ex_intro _ 1e-5 (ex_intro _ 1 (ex_intro _ [thin] thin_ampere)))). Qed.
Print Assumptions C62_ampere_refuted.
(** Neutral species and species without parallel flow are unchanged, and the others keep charge, density and mass. *)
Theorem C62_neutral : forall Apar s, charge s = None \/ momentum s = None \/ (exists Z, charge s = Some Z /\ Rabs Z < 1e-5) -> correct Apar s = Some s.
Proof.
  intros Apar s H. apply correct_neutral. unfold takes_part. destruct H as [ -> | [ -> | (Z & -> & HZ) ] ].
  - reflexivity.
  - destruct (charge s); reflexivity.
  - rewrite (Rltb_true _ _ HZ). destruct (momentum s); reflexivity.
Qed.
Print Assumptions C62_neutral.
Theorem C62_keeps : forall Apar s s', correct Apar s = Some s' -> charge s' = charge s /\ density s' = density s /\ AA s' = AA s.
Proof. exact correct_keeps. Qed.
Print Assumptions C62_keeps.
(** The operator inverted is definite: the coefficient alpha is never negative, so Laplace - beta alpha has the sign of the Laplacian. *)
Theorem C62_definite : forall l, List.Forall (fun s => 0 < AA s) l -> 0 <= alpha_em l.
Proof. exact inertia_nonneg. Qed.
Print Assumptions C62_definite.
(** The component throws exactly if a species with charge and momentum has no velocity. *)
Theorem C62_defined : forall Apar l, List.Forall (fun s => takes_part s <> None -> velocity s <> None) l <-> correct_all Apar l <> None.
Proof. exact correct_all_defined. Qed.
Print Assumptions C62_defined.
(** Ions of charge 1 and mass 2, electrons, and a neutral. *)
Definition em_ion := mkEm (Some 1) 1 2 (Some 6) (Some 3).
Definition em_electron := mkEm (Some (-1)) 1 (1 / 1000) (Some (1 / 1000)) (Some 1).
Definition em_neutral := mkEm None 4 2 (Some 8) (Some 1).
Lemma em_takes : takes_part em_ion = Some (1, 6) /\ takes_part em_electron = Some (-1, 1 / 1000) /\ takes_part em_neutral = None.
Proof.
  unfold takes_part, em_ion, em_electron, em_neutral. cbn [charge momentum].
  rewrite (Rltb_false (Rabs 1)) by (rewrite Rabs_R1; lra). rewrite (Rltb_false (Rabs (-1))) by (rewrite Rabs_left; lra). auto.
Qed.
Lemma em_case_correct Apar : exists i e, correct_all Apar [em_ion; em_electron; em_neutral] = Some [i; e; em_neutral]
  /\ momentum i = Some (6 - 1 * 1 * Apar) /\ momentum e = Some (1 / 1000 - -1 * 1 * Apar).
Proof.
  destruct em_takes as (E1 & E2 & E3). cbn [correct_all]. unfold correct. rewrite E1, E2, E3. cbn [velocity em_ion em_electron].
  eexists. eexists. split; [ reflexivity | ]. cbn [momentum density em_ion em_electron]. auto.
Qed.
Example C62_case : exists l', correct_all (1 / 2) [em_ion; em_electron; em_neutral] = Some l' /\ List.Forall consistent l'
  /\ apar_equation 1 (1001 / 2 * (1 / 1) - 2 - 1 / 4) (1 / 2) [em_ion; em_electron; em_neutral]
  /\ fold_right Rplus 0 (map current_of l') = - (1001 / 2 - 2 - 1 / 4).
Proof.
  destruct (em_case_correct (1 / 2)) as (i & e & E & _). exists [i; e; em_neutral]. split; [ exact E | ].
  assert (F : forall N, 1e-5 <= N -> rfloor N 1e-5 = N) by apply em_floor_above.
  split; [ | ].
  - apply (C62_consistent _ _ _) with (2 := E). repeat (apply Forall_cons; [ split; [ cbn [AA em_ion em_electron em_neutral]; lra | ] | ]); [ | | | apply Forall_nil ];
      intros nv v E1 E2; cbn [momentum velocity em_ion em_electron em_neutral AA density] in *; rewrite F by lra;
      injection E1 as <-; injection E2 as <-; lra.
  - assert (A : apar_equation 1 (1001 / 2 * (1 / 1) - 2 - 1 / 4) (1 / 2) [em_ion; em_electron; em_neutral]).
    { unfold apar_equation. rewrite alpha_sum, Ajpar_sum. cbn [map fold_right]. unfold inertia_of, current_of.
      destruct em_takes as (E1 & E2 & E3). rewrite E1, E2, E3. cbn [density AA em_ion em_electron]. rewrite F by lra. unfold SQ. field_simplify. lra. }
    split; [ exact A | ].
    assert (P : List.Forall (fun s => AA s <> 0 /\ 1e-5 <= density s) [em_ion; em_electron; em_neutral]).
    { repeat (apply Forall_cons; [ cbn [AA density em_ion em_electron em_neutral]; lra | ]). apply Forall_nil. }
    assert (H := C62_ampere _ _ _ _ _ P A E). lra.
Qed.

(** The gradient of Apar on the boundary stays between its last value and that in the domain. *)
Theorem C74_between : forall tau t inner last outer, 0 < tau -> between outer inner (snd (apar_gradient tau t inner (last, outer))).
Proof. exact apar_between. Qed.
Print Assumptions C74_between.
(** For times that never go back, only the elapsed time counts. *)
Theorem C74_forward : forall tau inner times last outer, ascending last times ->
  apar_run tau inner (last, outer) times = (List.last times last, decayed tau (List.last times last - last) inner outer).
Proof. exact apar_run_exact. Qed.
Print Assumptions C74_forward.
Example C74_case : ascending 0 [1; 1; 3] /\ snd (apar_run 2 5 (0, 1) [1; 1; 3]) = decayed 2 3 5 1 /\ 1 < decayed 2 3 5 1 < 5.
Proof.
  assert (H : ascending 0 [1; 1; 3]) by (cbn [ascending]; lra). split; [ exact H | ]. rewrite (C74_forward _ _ _ _ _ H). cbn [snd List.last].
  replace (3 - 0) with 3 by ring. split; [ reflexivity | ]. unfold decayed. assert (W := weight_range 3 2 ltac:(lra) ltac:(lra)).
  replace (- (3 / 2)) with (- (3) / 2) by field. lra.
Qed.
(** An implicit integrator also evaluates at earlier times (rejected steps, internal stages); the boundary then relaxes further than the elapsed
    time allows: it depends on the evaluations, not on the state and the time. *)
Theorem C74_history_refuted : exists tau inner outer times times', List.last times 0 = List.last times' 0 /\ 0 < tau
  /\ snd (apar_run tau inner (0, outer) times) <> snd (apar_run tau inner (0, outer) times').
Proof. exists 1, 0, 1, [2; 1; 2], [2]. split; [ reflexivity | ]. split; [ lra | ]. apply Rlt_not_eq. exact apar_rejected. Qed.
Print Assumptions C74_history_refuted.
