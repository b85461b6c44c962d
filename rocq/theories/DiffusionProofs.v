(** Lemmas about the diffusion operators. *)

From Coq Require Import List Bool ZArith Reals Lra Lia.
From Verif Require Import ParallelModel ParallelSpec ParallelProofs ParallelLaws ParallelHeating DiffusionModel DiffusionSpec.
Import ListNotations.
Open Scope R_scope.

(** ** Generic flux form *)

Lemma total_flux_form W lo n r G :
  (forall j, (lo <= j < lo + Z.of_nat n)%Z -> W j * r j = G (j + 1)%Z - G j) ->
  total W lo n r = G (lo + Z.of_nat n)%Z - G lo.
Proof.
  intros H. unfold total. rewrite (zsum_ext _ _ _ (fun j => G (j + 1)%Z - G j)) by exact H. apply zsum_telescope.
Qed.

Lemma by_parts W lo n r G f :
  (0 < n)%nat ->
  (forall j, (lo <= j < lo + Z.of_nat n)%Z -> W j * r j = G (j + 1)%Z - G j) ->
  total W lo n (fun j => f j * r j)
  = f (lo + Z.of_nat n - 1)%Z * G (lo + Z.of_nat n)%Z - f lo * G lo - zsum (lo + 1) (n - 1) (fun j => G j * jump f j).
Proof.
  intros Hn H. unfold total.
  rewrite (zsum_ext _ _ _ (fun j => (fun i => - (f i * G i)) j - (fun i => - (f i * G (i + 1)%Z)) j)).
  - rewrite zsum_cells by exact Hn.
    rewrite (zsum_ext (lo + 1) (n - 1) _ (fun j => -1 * (G j * jump f j))).
    + rewrite zsum_scal. replace (lo + Z.of_nat n - 1 + 1)%Z with (lo + Z.of_nat n)%Z by lia. ring.
    + intros j _. replace (j - 1 + 1)%Z with j by lia. unfold jump. ring.
  - intros j Hj. cbv beta. replace (W j * (f j * r j)) with (f j * (W j * r j)) by ring. rewrite H by exact Hj. ring.
Qed.

(** A flux proportional to the difference never increases the mean square. *)
Lemma dissipates W lo n r G f (k : Z -> R) :
  (0 < n)%nat ->
  (forall j, (lo <= j < lo + Z.of_nat n)%Z -> W j * r j = G (j + 1)%Z - G j) ->
  (forall j, (lo < j < lo + Z.of_nat n)%Z -> G j = k j * jump f j /\ 0 <= k j) ->
  f (lo + Z.of_nat n - 1)%Z * G (lo + Z.of_nat n)%Z - f lo * G lo <= 0 ->
  total W lo n (fun j => f j * r j) <= 0.
Proof.
  intros Hn H HG HE. rewrite (by_parts W lo n r G f Hn H).
  assert (0 <= zsum (lo + 1) (n - 1) (fun j => G j * jump f j)).
  { apply zsum_nonneg. intros j Hj. destruct (HG j) as [-> K]; [lia|].
    rewrite Rmult_assoc. apply Rmult_le_pos; [exact K|]. apply Rle_0_sqr. }
  lra.
Qed.

(** ** Div_par_K_Grad_par_mod *)


Lemma mean_pos g j : (forall i, 0 < g i) -> 0 < mean g j.
Proof. intros H. unfold mean. pose proof (H j). pose proof (H (j - 1)%Z). lra. Qed.

Lemma K_upper_flux c K f j : positive_metric c ->
  K_upper c K f j = conductive_flux K (c_J c) (c_g22 c) (c_dy c) f (j + 1).
Proof.
  intros P. unfold K_upper, conductive_flux, jump.
  pose proof (mean_pos (c_g22 c) (j + 1) (fun i => proj1 (proj2 (P i)))) as A.
  pose proof (mean_pos (c_dy c) (j + 1) (fun i => proj2 (proj2 (P i)))) as B.
  unfold mean in *. replace (j + 1 - 1)%Z with j in * by lia.
  replace (0.5 * (c_g22 c j + c_g22 c (j + 1)%Z)) with ((c_g22 c j + c_g22 c (j + 1)%Z) / 2) by lra.
  replace (0.5 * (c_J c j + c_J c (j + 1)%Z)) with ((c_J c j + c_J c (j + 1)%Z) / 2) by lra.
  replace (0.5 * (K j + K (j + 1)%Z)) with ((K j + K (j + 1)%Z) / 2) by lra.
  field. lra.
Qed.
Lemma K_lower_flux c K f j : positive_metric c ->
  K_lower c K f j = conductive_flux K (c_J c) (c_g22 c) (c_dy c) f j.
Proof.
  intros P. unfold K_lower, conductive_flux, jump.
  pose proof (mean_pos (c_g22 c) j (fun i => proj1 (proj2 (P i)))) as A.
  pose proof (mean_pos (c_dy c) j (fun i => proj2 (proj2 (P i)))) as B.
  unfold mean in *.
  replace (0.5 * (c_g22 c j + c_g22 c (j - 1)%Z)) with ((c_g22 c (j - 1)%Z + c_g22 c j) / 2) by lra.
  replace (0.5 * (c_J c j + c_J c (j - 1)%Z)) with ((c_J c (j - 1)%Z + c_J c j) / 2) by lra.
  replace (0.5 * (K j + K (j - 1)%Z)) with ((K (j - 1)%Z + K j) / 2) by lra.
  field. lra.
Qed.

Lemma K_on m n bndry_flux j : mesh_ok m n -> (ystart m <= j < ystart m + Z.of_nat n)%Z ->
  K_upper_on m bndry_flux j = negb (closed_face m bndry_flux (j + 1)) /\
  K_lower_on m bndry_flux j = negb (closed_face m bndry_flux j).
Proof.
  intros (N & Ey & _) Hj. unfold K_upper_on, K_lower_on, closed_face, closed_low, closed_high.
  destruct (Z.eqb_spec j (yend m)), (Z.eqb_spec j (ystart m)), (Z.eqb_spec (j + 1) (ystart m)), (Z.eqb_spec (j + 1) (yend m + 1)),
    (Z.eqb_spec j (yend m + 1)); try lia;
  destruct bndry_flux, (periodicY m), (firstY m), (lastY m); split; reflexivity.
Qed.

Lemma K_cell m n c K f bndry_flux j : mesh_ok m n -> positive_metric c -> (ystart m <= j < ystart m + Z.of_nat n)%Z ->
  cell_volume (c_J c) (c_dy c) j * fst (Div_par_K_Grad_par_mod m c K f bndry_flux j)
  = K_face m c K f bndry_flux (j + 1) - K_face m c K f bndry_flux j /\
  snd (Div_par_K_Grad_par_mod m c K f bndry_flux j) = - K_face m c K f bndry_flux j * c_dx c j * c_dz c j.
Proof.
  intros M P Hj. unfold Div_par_K_Grad_par_mod, K_face.
  destruct (K_on m n bndry_flux j M Hj) as [-> ->]. rewrite K_upper_flux, K_lower_flux by exact P.
  destruct (P j) as (PJ & _ & Pd). unfold cell_volume.
  destruct (closed_face m bndry_flux (j + 1)), (closed_face m bndry_flux j); cbn [negb fst snd]; split; try ring; field; lra.
Qed.

Lemma K_total m n c K f bndry_flux : mesh_ok m n -> positive_metric c ->
  total (cell_volume (c_J c) (c_dy c)) (ystart m) n (fun j => fst (Div_par_K_Grad_par_mod m c K f bndry_flux j))
  = K_face m c K f bndry_flux (ystart m + Z.of_nat n) - K_face m c K f bndry_flux (ystart m).
Proof. intros M P. apply total_flux_form. intros j Hj. now apply (K_cell m n). Qed.

Lemma K_face_closed m n c K f : mesh_ok m n -> closed_low m = true -> closed_high m = true ->
  K_face m c K f false (ystart m) = 0 /\ K_face m c K f false (ystart m + Z.of_nat n) = 0.
Proof.
  intros (N & Ey & _) CL CH. unfold K_face, closed_face. rewrite CL, CH, Z.eqb_refl.
  replace (ystart m + Z.of_nat n)%Z with (yend m + 1)%Z by lia. rewrite Z.eqb_refl.
  cbn [negb andb orb]. rewrite orb_true_r. auto.
Qed.

Lemma K_face_const m c K a bndry_flux j : K_face m c K (fun _ => a) bndry_flux j = 0.
Proof.
  unfold K_face. destruct (closed_face m bndry_flux j); [reflexivity|]. unfold conductive_flux, jump.
  replace (a - a) with 0 by ring. unfold Rdiv. ring.
Qed.

Lemma K_const m n c K a bndry_flux j : mesh_ok m n -> positive_metric c -> (ystart m <= j < ystart m + Z.of_nat n)%Z ->
  Div_par_K_Grad_par_mod m c K (fun _ => a) bndry_flux j = (0, 0).
Proof.
  intros M P Hj. destruct (K_cell m n c K (fun _ => a) bndry_flux j M P Hj) as [A B].
  rewrite !K_face_const in A. rewrite K_face_const in B.
  destruct (Div_par_K_Grad_par_mod m c K (fun _ => a) bndry_flux j) as [x y]. cbn [fst snd] in *.
  destruct (P j) as (PJ & _ & Pd). f_equal; [|lra].
  apply (Rmult_eq_reg_l (cell_volume (c_J c) (c_dy c) j)).
  - lra.
  - unfold cell_volume. apply Rmult_integral_contrapositive_currified; lra.
Qed.

Definition K_coefficient (c : coords) K (j : Z) : R := mean K j * mean (c_J c) j / mean (c_g22 c) j / mean (c_dy c) j.
Lemma K_coefficient_nonneg c K j : positive_metric c -> (forall i, 0 <= K i) -> 0 <= K_coefficient c K j.
Proof.
  intros P HK. unfold K_coefficient.
  pose proof (mean_pos (c_g22 c) j (fun i => proj1 (proj2 (P i)))) as A.
  pose proof (mean_pos (c_dy c) j (fun i => proj2 (proj2 (P i)))) as B.
  pose proof (mean_pos (c_J c) j (fun i => proj1 (P i))) as C.
  assert (0 <= mean K j) by (unfold mean; pose proof (HK j); pose proof (HK (j - 1)%Z); lra).
  apply Rinv_0_lt_compat in A. apply Rinv_0_lt_compat in B. unfold Rdiv.
  generalize dependent (mean K j). generalize dependent (mean (c_J c) j).
  generalize dependent (mean (c_g22 c) j). generalize dependent (mean (c_dy c) j). intros.
  repeat apply Rmult_le_pos; lra.
Qed.
Lemma conductive_coefficient c K f j : 
  conductive_flux K (c_J c) (c_g22 c) (c_dy c) f j = K_coefficient c K j * jump f j.
Proof. unfold conductive_flux, K_coefficient, Rdiv. ring. Qed.

Lemma K_dissipates_closed m n c K f : mesh_ok m n -> positive_metric c -> (forall j, 0 <= K j) ->
  closed_low m = true -> closed_high m = true ->
  total (cell_volume (c_J c) (c_dy c)) (ystart m) n (fun j => f j * fst (Div_par_K_Grad_par_mod m c K f false j)) <= 0.
Proof.
  intros M P HK CL CH. destruct (K_face_closed m n c K f M CL CH) as [E1 E2].
  apply (dissipates _ _ _ _ (K_face m c K f false) f (fun j => if closed_face m false j then 0 else K_coefficient c K j)).
  - destruct M; assumption.
  - intros j Hj. now apply (K_cell m n).
  - intros j Hj. unfold K_face. destruct (closed_face m false j).
    + split; [ring|lra].
    + split; [apply conductive_coefficient|now apply K_coefficient_nonneg].
  - rewrite E1, E2. lra.
Qed.

Lemma periodic_mean n f j : periodic n f -> mean f (j + Z.of_nat n) = mean f j /\ jump f (j + Z.of_nat n) = jump f j.
Proof.
  intros P. unfold mean, jump. replace (j + Z.of_nat n - 1)%Z with (j - 1 + Z.of_nat n)%Z by lia. rewrite !P. auto.
Qed.

Lemma K_periodic m n c K f bndry_flux : mesh_ok m n -> positive_metric c -> (forall j, 0 <= K j) -> periodicY m = true ->
  periodic n (c_J c) -> periodic n (c_g22 c) -> periodic n (c_dy c) -> periodic n K -> periodic n f ->
  total (cell_volume (c_J c) (c_dy c)) (ystart m) n (fun j => fst (Div_par_K_Grad_par_mod m c K f bndry_flux j)) = 0 /\
  total (cell_volume (c_J c) (c_dy c)) (ystart m) n (fun j => f j * fst (Div_par_K_Grad_par_mod m c K f bndry_flux j)) <= 0.
Proof.
  intros M P HK Per PJ Pg Pd PK Pf.
  assert (O : forall j, closed_face m bndry_flux j = false).
  { intros j. unfold closed_face. destruct (periodic_open m Per) as [-> ->]. cbn [andb orb]. apply andb_false_r. }
  assert (E : K_face m c K f bndry_flux (ystart m + Z.of_nat n) = K_face m c K f bndry_flux (ystart m)).
  { unfold K_face. rewrite !O. unfold conductive_flux.
    rewrite (proj1 (periodic_mean n K _ PK)), (proj1 (periodic_mean n _ (ystart m) PJ)), (proj1 (periodic_mean n _ (ystart m) Pg)),
      (proj1 (periodic_mean n _ (ystart m) Pd)), (proj2 (periodic_mean n f _ Pf)). reflexivity. }
  split.
  - rewrite (K_total m n) by assumption. rewrite E. ring.
  - apply (dissipates _ _ _ _ (K_face m c K f bndry_flux) f (K_coefficient c K)).
    + destruct M; assumption.
    + intros j Hj. now apply (K_cell m n).
    + intros j Hj. unfold K_face. rewrite O. split; [apply conductive_coefficient|now apply K_coefficient_nonneg].
    + rewrite E. replace (ystart m + Z.of_nat n - 1)%Z with (ystart m - 1 + Z.of_nat n)%Z by lia. rewrite Pf.
      unfold K_face. rewrite O, conductive_coefficient.
      pose proof (K_coefficient_nonneg c K (ystart m) P HK) as X.
      assert (0 <= K_coefficient c K (ystart m) * (jump f (ystart m) * jump f (ystart m))).
      { apply Rmult_le_pos; [exact X|apply Rle_0_sqr]. }
      unfold jump in *. lra.
Qed.

Lemma K_flow m n c K f bndry_flux j : mesh_ok m n -> positive_metric c ->
  (forall j, c_dx c (j + 1)%Z = c_dx c j) -> (forall j, c_dz c (j + 1)%Z = c_dz c j) ->
  (ystart m <= j < ystart m + Z.of_nat n - 1)%Z ->
  cell_volume (c_J c) (c_dy c) j * c_dx c j * c_dz c j * fst (Div_par_K_Grad_par_mod m c K f bndry_flux j)
  = snd (Div_par_K_Grad_par_mod m c K f bndry_flux j) - snd (Div_par_K_Grad_par_mod m c K f bndry_flux (j + 1)).
Proof.
  intros M P Hx Hz Hj. destruct (K_cell m n c K f bndry_flux j M P) as [A B]; [lia|].
  destruct (K_cell m n c K f bndry_flux (j + 1) M P) as [_ C]; [lia|].
  rewrite B, C, Hx, Hz.
  replace (cell_volume (c_J c) (c_dy c) j * c_dx c j * c_dz c j * fst (Div_par_K_Grad_par_mod m c K f bndry_flux j))
    with (cell_volume (c_J c) (c_dy c) j * fst (Div_par_K_Grad_par_mod m c K f bndry_flux j) * c_dx c j * c_dz c j) by ring.
  rewrite A. ring.
Qed.

(** ** Div_par_diffusion_index *)

Lemma fold_plain (step : (Z -> R) -> Z -> (Z -> R)) (a : Z -> Z -> R) lo n :
  (forall r j i, step r j i = r i + a j i) ->
  forall i, fold_left step (irange lo (lo + Z.of_nat n - 1)) (fun _ => 0) i = zsum lo n (fun j => a j i).
Proof.
  intros H. induction n as [|n IH]; intros i.
  - rewrite irange_nil. reflexivity.
  - rewrite irange_snoc, fold_left_app. cbn [fold_left zsum]. rewrite H, IH. reflexivity.
Qed.

Definition index_on (m : mesh) bndry_flux (j : Z) : bool :=
  negb (negb bndry_flux && negb (periodicY m)
      && ((Z.eqb j (yend m) && lastY m) || (Z.eqb j (ystart m - 1) && firstY m)))%bool.
Definition index_face (m : mesh) J f bndry_flux (j : Z) : R :=
  if index_on m bndry_flux (j - 1) then index_flux J f j else 0.

Lemma zsum_shift1 lo n i g :
  zsum lo n (fun j => if Z.eqb i (j + 1) then g j else 0) = if (Z.leb lo (i - 1) && Z.ltb (i - 1) (lo + Z.of_nat n))%bool then g (i - 1)%Z else 0.
Proof.
  rewrite <- zsum_indicator. apply zsum_ext. intros j _.
  destruct (Z.eqb_spec i (j + 1)), (Z.eqb_spec (i - 1) j); lia || reflexivity.
Qed.

Lemma index_cell m n J f bndry_flux j : mesh_ok m n -> (forall i, 0 < J i) -> (ystart m <= j < ystart m + Z.of_nat n)%Z ->
  J j * Div_par_diffusion_index m J f bndry_flux j = index_face m J f bndry_flux (j + 1) - index_face m J f bndry_flux j.
Proof.
  intros (N & Ey & _) P Hj. unfold Div_par_diffusion_index.
  replace (yend m) with (ystart m - 1 + Z.of_nat (S n) - 1)%Z by lia.
  rewrite (fold_plain _ (fun j i => if index_on m bndry_flux j then
       (if Z.eqb i j then index_flux J f (j + 1) / J j else 0)
       + (if Z.eqb i (j + 1) then - (index_flux J f (j + 1) / J (j + 1)%Z) else 0) else 0)).
  - rewrite (zsum_ext _ _ _ (fun i => (if Z.eqb j i then (if index_on m bndry_flux i then index_flux J f (i + 1) / J i else 0) else 0)
       + (if Z.eqb j (i + 1) then (if index_on m bndry_flux i then - (index_flux J f (i + 1) / J (i + 1)%Z) else 0) else 0))).
    2:{ intros i _. destruct (index_on m bndry_flux i), (Z.eqb j i), (Z.eqb j (i + 1)); ring. }
    rewrite zsum_plus, zsum_indicator, zsum_shift1.
    replace (Z.leb (ystart m - 1) j && Z.ltb j (ystart m - 1 + Z.of_nat (S n)))%bool with true
      by (symmetry; apply andb_true_intro; split; [apply Z.leb_le|apply Z.ltb_lt]; lia).
    replace (Z.leb (ystart m - 1) (j - 1) && Z.ltb (j - 1) (ystart m - 1 + Z.of_nat (S n)))%bool with true
      by (symmetry; apply andb_true_intro; split; [apply Z.leb_le|apply Z.ltb_lt]; lia).
    unfold index_face. replace (j + 1 - 1)%Z with j by lia. replace (j - 1 + 1)%Z with j by lia.
    pose proof (P j) as Pj.
    destruct (index_on m bndry_flux j), (index_on m bndry_flux (j - 1)); try ring; field; lra.
  - intros r i k. unfold diffusion_index_step, index_on.
    destruct (negb bndry_flux && _ && _)%bool; cbn [negb]; [ring|].
    assert (E : 0.5 * (J i + J (i + 1)%Z) * (f (i + 1)%Z - f i) = index_flux J f (i + 1)).
    { unfold index_flux, mean, jump. replace (i + 1 - 1)%Z with i by lia. lra. }
    rewrite E. rewrite !upd_eq. destruct (Z.eqb_spec k (i + 1)), (Z.eqb_spec k i); subst; try lia; rewrite ?Z.eqb_refl;
      try (destruct (Z.eqb_spec (i + 1) i); [lia|]); lra.
Qed.

Lemma index_total m n J f bndry_flux : mesh_ok m n -> (forall i, 0 < J i) ->
  total J (ystart m) n (Div_par_diffusion_index m J f bndry_flux)
  = index_face m J f bndry_flux (ystart m + Z.of_nat n) - index_face m J f bndry_flux (ystart m).
Proof. intros M P. apply total_flux_form. intros j Hj. now apply (index_cell m n). Qed.

Lemma index_face_closed m n J f : mesh_ok m n -> closed_low m = true -> closed_high m = true ->
  index_face m J f false (ystart m) = 0 /\ index_face m J f false (ystart m + Z.of_nat n) = 0.
Proof.
  intros (N & Ey & _) CL CH. unfold index_face, index_on.
  replace (ystart m + Z.of_nat n - 1)%Z with (yend m) by lia. rewrite !Z.eqb_refl.
  unfold closed_low in CL. unfold closed_high in CH. apply andb_prop in CL as [-> ->]. apply andb_prop in CH as [-> _].
  cbn [negb andb orb]. rewrite orb_true_r. auto.
Qed.

Lemma index_face_const m J a bndry_flux j : index_face m J (fun _ => a) bndry_flux j = 0.
Proof. unfold index_face, index_flux, jump. destruct (index_on m bndry_flux (j - 1)); ring. Qed.

Lemma index_const m n J a bndry_flux j : mesh_ok m n -> (forall i, 0 < J i) -> (ystart m <= j < ystart m + Z.of_nat n)%Z ->
  Div_par_diffusion_index m J (fun _ => a) bndry_flux j = 0.
Proof.
  intros M P Hj. pose proof (index_cell m n J (fun _ => a) bndry_flux j M P Hj) as E. rewrite !index_face_const in E.
  pose proof (P j). apply (Rmult_eq_reg_l (J j)); lra.
Qed.

Lemma index_dissipates m n J f : mesh_ok m n -> (forall i, 0 < J i) -> closed_low m = true -> closed_high m = true ->
  total J (ystart m) n (fun j => f j * Div_par_diffusion_index m J f false j) <= 0.
Proof.
  intros M P CL CH. destruct (index_face_closed m n J f M CL CH) as [E1 E2].
  apply (dissipates _ _ _ _ (index_face m J f false) f (fun j => if index_on m false (j - 1) then mean J j else 0)).
  - destruct M; assumption.
  - intros j Hj. now apply (index_cell m n).
  - intros j Hj. unfold index_face, index_flux. pose proof (mean_pos J j P). destruct (index_on m false (j - 1)); split; try ring; lra.
  - rewrite E1, E2. lra.
Qed.

Lemma index_face_line m n J f bndry_flux j : mesh_ok m n -> (ystart m <= j <= ystart m + Z.of_nat n)%Z ->
  index_face m J f bndry_flux j = index_line m J f bndry_flux j.
Proof.
  intros (N & Ey & _) Hj. unfold index_face, index_line, index_on, closed_face, closed_low, closed_high.
  destruct (Z.eqb_spec (j - 1) (yend m)), (Z.eqb_spec (j - 1) (ystart m - 1)), (Z.eqb_spec j (ystart m)), (Z.eqb_spec j (yend m + 1)); try lia;
  destruct bndry_flux, (periodicY m), (firstY m), (lastY m); reflexivity.
Qed.
