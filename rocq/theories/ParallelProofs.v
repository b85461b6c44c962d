(** Lemmas about the parallel operators. *)

From Coq Require Import List Bool ZArith Reals Lra Lia.
From Verif Require Import StateMonad LimitersModel LimitersSpec LimitersProofs ParallelModel ParallelSpec.
Import ListNotations.
Open Scope R_scope.

(** ** Sums *)

Lemma zsum_ext lo n g h :
  (forall j, (lo <= j < lo + Z.of_nat n)%Z -> g j = h j) -> zsum lo n g = zsum lo n h.
Proof.
  induction n as [|n IH]; intros E; [reflexivity|]. cbn [zsum]. rewrite IH.
  - f_equal. apply E. lia.
  - intros j Hj. apply E. lia.
Qed.

Lemma zsum_plus lo n g h : zsum lo n (fun j => g j + h j) = zsum lo n g + zsum lo n h.
Proof. induction n as [|n IH]; cbn [zsum]; [lra|]. rewrite IH. lra. Qed.

Lemma zsum_scal lo n a g : zsum lo n (fun j => a * g j) = a * zsum lo n g.
Proof. induction n as [|n IH]; cbn [zsum]; [lra|]. rewrite IH. lra. Qed.

Lemma zsum_telescope lo n g :
  zsum lo n (fun j => g (j + 1)%Z - g j) = g (lo + Z.of_nat n)%Z - g lo.
Proof.
  induction n as [|n IH]; cbn [zsum].
  - replace (lo + Z.of_nat 0)%Z with lo by lia. lra.
  - rewrite IH. replace (lo + Z.of_nat n + 1)%Z with (lo + Z.of_nat (S n))%Z by lia. lra.
Qed.

Lemma zsum_indicator lo n i g :
  zsum lo n (fun j => if Z.eqb i j then g j else 0)
  = if (Z.leb lo i && Z.ltb i (lo + Z.of_nat n))%bool then g i else 0.
Proof.
  induction n as [|n IH]; cbn [zsum].
  - destruct (Z.leb_spec lo i), (Z.ltb_spec i (lo + Z.of_nat 0)); cbn [andb]; try lia; reflexivity.
  - rewrite IH.
    destruct (Z.eqb_spec i (lo + Z.of_nat n)) as [->|N];
      destruct (Z.leb_spec lo i) || destruct (Z.leb_spec lo (lo + Z.of_nat n));
      repeat match goal with |- context [Z.ltb ?a ?b] => destruct (Z.ltb_spec a b) end;
      cbn [andb]; try lia; try lra.
Qed.

Lemma zsum_nonneg lo n g : (forall j, (lo <= j < lo + Z.of_nat n)%Z -> 0 <= g j) -> 0 <= zsum lo n g.
Proof.
  induction n as [|n IH]; intros H; cbn [zsum]; [lra|].
  assert (0 <= g (lo + Z.of_nat n)%Z) by (apply H; lia).
  assert (0 <= zsum lo n g) by (apply IH; intros; apply H; lia). lra.
Qed.

(** ** The loop *)

Lemma irange_snoc lo n :
  irange lo (lo + Z.of_nat (S n) - 1) = (irange lo (lo + Z.of_nat n - 1) ++ [(lo + Z.of_nat n)%Z])%list.
Proof.
  unfold irange.
  replace (Z.to_nat (lo + Z.of_nat (S n) - 1 - lo + 1)) with (S n) by lia.
  replace (Z.to_nat (lo + Z.of_nat n - 1 - lo + 1)) with n by lia.
  rewrite seq_S, map_app. reflexivity.
Qed.

Lemma irange_nil lo : irange lo (lo + Z.of_nat 0 - 1) = [].
Proof. unfold irange. replace (Z.to_nat _) with 0%nat by lia. reflexivity. Qed.

(** A fold whose step adds contributions. *)
Lemma fold_contributions (step : option ((Z -> R) * (Z -> R)) -> Z -> option ((Z -> R) * (Z -> R)))
    (ok : Z -> Prop) (a b : Z -> Z -> R) lo n :
  (forall r w j, ok j -> exists r' w', step (Some (r, w)) j = Some (r', w') /\
      (forall i, r' i = r i + a j i) /\ (forall i, w' i = w i + b j i)) ->
  (forall j, (lo <= j < lo + Z.of_nat n)%Z -> ok j) ->
  exists r w, fold_left step (irange lo (lo + Z.of_nat n - 1)) (Some (fun _ => 0, fun _ => 0)) = Some (r, w) /\
    (forall i, r i = zsum lo n (fun j => a j i)) /\ (forall i, w i = zsum lo n (fun j => b j i)).
Proof.
  intros Hstep. induction n as [|n IH]; intros Hok.
  - rewrite irange_nil. exists (fun _ => 0), (fun _ => 0). repeat split.
  - destruct IH as (r & w & E & Hr & Hw); [intros j Hj; apply Hok; lia|].
    rewrite irange_snoc, fold_left_app, E. cbn [fold_left].
    destruct (Hstep r w (lo + Z.of_nat n)%Z) as (r' & w' & E' & Hr' & Hw'); [apply Hok; lia|].
    exists r', w'. split; [exact E'|]. split; intros i; cbn [zsum]; [rewrite Hr', Hr|rewrite Hw', Hw]; reflexivity.
Qed.

(** In a fold that fails somewhere the outcome is None. *)
Lemma fold_none {A B} (step : option A -> B -> option A) l :
  (forall j, step None j = None) -> fold_left step l None = None.
Proof. intros H. induction l as [|x l IH]; [reflexivity|]. cbn [fold_left]. rewrite H. exact IH. Qed.

Lemma upd_eq a j x i : upd a j x i = if Z.eqb i j then x else a i. Proof. reflexivity. Qed.

Definition contribution (c : coords) (fr fl : Z -> R) (j i : Z) : R :=
  (if Z.eqb i j then fr j * (common_right c j / (c_dy c j * c_J c j)) - fl j * (common_left c j / (c_dy c j * c_J c j)) else 0)
  + (if Z.eqb i (j + 1) then - (fr j * (common_right c j / (c_dy c (j + 1)%Z * c_J c (j + 1)%Z))) else 0)
  + (if Z.eqb i (j - 1) then fl j * (common_left c j / (c_dy c (j - 1)%Z * c_J c (j - 1)%Z)) else 0).
Definition flow_contribution (c : coords) (fr fl : Z -> R) (j i : Z) : R :=
  (if Z.eqb i (j + 1) then fr j * (common_right c j * c_dx c (j + 1)%Z * c_dz c (j + 1)%Z) else 0)
  + (if Z.eqb i j then fl j * (common_left c j * c_dx c j * c_dz c j) else 0).

Ltac updates :=
  intros i; rewrite ?upd_eq;
  repeat match goal with
    | |- context [Z.eqb ?a ?b] => destruct (Z.eqb_spec a b); try (exfalso; lia); try subst; rewrite ?upd_eq
    end; try lra.

Lemma flux_step_adds m c fr fl r w j :
  in_bounds m j = true ->
  exists r' w', flux_step m c fr fl (Some (r, w)) j = Some (r', w') /\
    (forall i, r' i = r i + contribution c fr fl j i) /\ (forall i, w' i = w i + flow_contribution c fr fl j i).
Proof.
  intros B. unfold flux_step. rewrite B. cbn [negb].
  eexists. eexists. split; [reflexivity|]. split.
  - unfold contribution. updates.
  - unfold flow_contribution. updates.
Qed.

(** Flux through the face between j - 1 and j, as the loop adds it up. *)
Definition in_loop (m : mesh) (j : Z) : bool := (Z.leb (loop_ys m) j && Z.leb j (loop_ye m))%bool.
Definition total_flux (m : mesh) (fr fl : Z -> R) (j : Z) : R :=
  (if in_loop m (j - 1) then fr (j - 1)%Z else 0) + (if in_loop m j then fl j else 0).

Lemma common_right_area c j : common_right c j = face_area (c_J c) (c_g22 c) (j + 1).
Proof. unfold common_right, face_area. replace (j + 1 - 1)%Z with j by lia. reflexivity. Qed.
Lemma common_left_area c j : common_left c j = face_area (c_J c) (c_g22 c) j.
Proof. unfold common_left, face_area. rewrite (Rplus_comm (c_J c j)), (Rplus_comm (sqrt (c_g22 c j))). reflexivity. Qed.

Lemma loop_bounds m n : mesh_ok m n ->
  exists k, loop_ye m = (loop_ys m + Z.of_nat k - 1)%Z /\
    (forall j, (loop_ys m <= j < loop_ys m + Z.of_nat k)%Z -> in_bounds m j = true) /\
    loop_ys m = (ystart m - (if closed_low m then 0 else 1))%Z /\
    loop_ye m = (ystart m + Z.of_nat n - 1 + (if closed_high m then 0 else 1))%Z.
Proof.
  intros (N & Ey & G1 & G2). unfold closed_low, closed_high in *. unfold loop_ye, loop_ys, in_bounds.
  exists (Z.to_nat (loop_ye m - loop_ys m + 1)). unfold loop_ye, loop_ys.
  destruct (firstY m), (lastY m), (periodicY m); cbn [negb andb orb] in *;
    (split; [lia|split; [|split; lia]]); intros j Hj; apply andb_true_intro;
    (split; [apply Z.leb_le|apply Z.ltb_lt]; lia).
Qed.

Lemma flux_loop_closed m c fr fl n :
  mesh_ok m n ->
  exists r w, flux_loop m c fr fl = Some (r, w) /\
    (forall j, c_J c j <> 0 -> c_dy c j <> 0 -> in_loop m j = true ->
       divergence_of (c_J c) (c_g22 c) (c_dy c) (total_flux m fr fl) r j) /\
    (forall j, w j = flow_through (c_J c) (c_g22 c) (c_dx c) (c_dz c) (total_flux m fr fl) j).
Proof.
  intros M. destruct (loop_bounds m n M) as (k & Ek & B & _).
  destruct (fold_contributions (flux_step m c fr fl) (fun j => in_bounds m j = true)
              (contribution c fr fl) (flow_contribution c fr fl) (loop_ys m) k) as (r & w & E & Hr & Hw).
  - intros. now apply flux_step_adds.
  - exact B.
  - exists r, w. unfold flux_loop. rewrite Ek. split; [exact E|].
    assert (Ein : forall j, in_loop m j = (Z.leb (loop_ys m) j && Z.ltb j (loop_ys m + Z.of_nat k))%bool).
    { intros j. unfold in_loop. rewrite Ek. f_equal.
      destruct (Z.leb_spec j (loop_ys m + Z.of_nat k - 1)), (Z.ltb_spec j (loop_ys m + Z.of_nat k)); lia || reflexivity. }
    assert (Sh : forall i g, zsum (loop_ys m) k (fun j => if Z.eqb i (j + 1) then g j else 0)
                 = if in_loop m (i - 1) then g (i - 1)%Z else 0).
    { intros i g. rewrite Ein, <- zsum_indicator. apply zsum_ext. intros j _.
      destruct (Z.eqb_spec i (j + 1)), (Z.eqb_spec (i - 1) j); lia || reflexivity. }
    assert (Sl : forall i g, zsum (loop_ys m) k (fun j => if Z.eqb i (j - 1) then g j else 0)
                 = if in_loop m (i + 1) then g (i + 1)%Z else 0).
    { intros i g. rewrite Ein, <- zsum_indicator. apply zsum_ext. intros j _.
      destruct (Z.eqb_spec i (j - 1)), (Z.eqb_spec (i + 1) j); lia || reflexivity. }
    assert (Sc : forall i g, zsum (loop_ys m) k (fun j => if Z.eqb i j then g j else 0)
                 = if in_loop m i then g i else 0).
    { intros i g. rewrite Ein. apply zsum_indicator. }
    split.
    + intros j J0 D0 Hj. unfold divergence_of. rewrite Hr. unfold contribution.
      rewrite !zsum_plus, Sc, Sh, Sl, Hj. unfold total_flux.
      replace (j + 1 - 1)%Z with j by lia. rewrite Hj.
      rewrite !common_right_area, !common_left_area. unfold cell_volume.
      replace (j - 1 + 1)%Z with j by lia. replace (j + 1 - 1)%Z with j by lia.
      destruct (in_loop m (j - 1)), (in_loop m (j + 1)); field; auto.
    + intros j. rewrite Hw. unfold flow_contribution. rewrite zsum_plus, Sh, Sc.
      rewrite !common_right_area, !common_left_area.
      replace (j - 1 + 1)%Z with j by lia. unfold flow_through, total_flux.
      destruct (in_loop m (j - 1)), (in_loop m j); ring.
Qed.

(** ** Fluxes *)

Lemma BOUTMAX_Rmax a b : BOUTMAX a b = Rmax a b.
Proof. unfold BOUTMAX. cases_R; lra. Qed.

Lemma BOUTMAX4_right v ws j :
  BOUTMAX4 (ws (j - 1)%Z) (ws j) (Rabs (v (j - 1)%Z)) (Rabs (v j)) = face_speed v ws j.
Proof.
  unfold BOUTMAX4, face_speed. rewrite !BOUTMAX_Rmax, Rmax_assoc. reflexivity.
Qed.
Lemma BOUTMAX4_left v ws j :
  BOUTMAX4 (ws j) (ws (j - 1)%Z) (Rabs (v j)) (Rabs (v (j - 1)%Z)) = face_speed v ws j.
Proof.
  unfold BOUTMAX4, face_speed. rewrite !BOUTMAX_Rmax, Rmax_assoc.
  rewrite (Rmax_comm (ws j)), (Rmax_comm (Rabs (v j))). reflexivity.
Qed.

Lemma sR_below edges f j : sR edges f (j - 1) = below edges f j.
Proof. unfold sR, below. replace (j - 1 - 1)%Z with (j - 2)%Z by lia. replace (j - 1 + 1)%Z with j by lia. reflexivity. Qed.
Lemma sL_above edges f j : sL edges f j = above edges f j. Proof. reflexivity. Qed.

(** Generic: which faces are interior. *)
Lemma total_flux_line m n fr fl interior bndry :
  mesh_ok m n ->
  (forall j, last_point m (j - 1) = false -> first_point m j = false -> fr (j - 1)%Z + fl j = interior j) ->
  (closed_low m = true -> fl (ystart m) = bndry (ystart m)) ->
  (closed_high m = true -> fr (yend m) = bndry (yend m + 1)%Z) ->
  forall j, (ystart m <= j <= ystart m + Z.of_nat n)%Z ->
  total_flux m fr fl j = line_flux interior bndry (closed_low m) (closed_high m) (ystart m) n j.
Proof.
  intros M Hi Hl Hh j Hj. pose proof (loop_bounds m n M) as (k & _ & _ & Es & Ee).
  destruct M as (N & Ey & _). unfold total_flux, line_flux, in_loop. rewrite Es, Ee.
  unfold last_point, first_point in Hi. fold (closed_low m) in Hi.
  destruct (Z.eqb_spec j (ystart m)) as [Ej|Nj].
  - destruct (closed_low m) eqn:C.
    + cbn [andb orb]. rewrite Ej.
      replace (Z.leb (ystart m - 0) (ystart m - 1)) with false by (symmetry; apply Z.leb_gt; lia).
      replace (Z.leb (ystart m - 0) (ystart m)) with true by (symmetry; apply Z.leb_le; lia).
      replace (Z.leb (ystart m) (ystart m + Z.of_nat n - 1 + (if closed_high m then 0 else 1))) with true
        by (symmetry; apply Z.leb_le; destruct (closed_high m); lia).
      cbn [andb]. rewrite Hl by reflexivity. lra.
    + cbn [andb orb].
      replace (Z.eqb j (ystart m + Z.of_nat n)) with false by (symmetry; apply Z.eqb_neq; lia).
      rewrite andb_false_r.
      replace (Z.leb (ystart m - 1) (j - 1)) with true by (symmetry; apply Z.leb_le; lia).
      replace (Z.leb (ystart m - 1) j) with true by (symmetry; apply Z.leb_le; lia).
      replace (Z.leb (j - 1) (ystart m + Z.of_nat n - 1 + (if closed_high m then 0 else 1))) with true
        by (symmetry; apply Z.leb_le; destruct (closed_high m); lia).
      replace (Z.leb j (ystart m + Z.of_nat n - 1 + (if closed_high m then 0 else 1))) with true
        by (symmetry; apply Z.leb_le; destruct (closed_high m); lia).
      cbn [andb]. apply Hi.
      * replace (Z.eqb (j - 1) (yend m)) with false by (symmetry; apply Z.eqb_neq; lia).
        now rewrite andb_false_r.
      * unfold closed_low in C. destruct (firstY m); cbn [andb] in *; [rewrite C, andb_false_r|]; reflexivity.
  - rewrite andb_false_r. cbn [orb].
    replace (Z.leb (ystart m - (if closed_low m then 0 else 1)) (j - 1)) with true
      by (symmetry; apply Z.leb_le; destruct (closed_low m); lia).
    replace (Z.leb (ystart m - (if closed_low m then 0 else 1)) j) with true
      by (symmetry; apply Z.leb_le; destruct (closed_low m); lia).
    replace (Z.leb (j - 1) (ystart m + Z.of_nat n - 1 + (if closed_high m then 0 else 1))) with true
      by (symmetry; apply Z.leb_le; destruct (closed_high m); lia).
    destruct (closed_high m) eqn:C.
    + destruct (Z.eqb_spec j (ystart m + Z.of_nat n)) as [Ej|Nj'].
      * replace (Z.leb j (ystart m + Z.of_nat n - 1 + 0)) with false by (symmetry; apply Z.leb_gt; lia).
        cbn [andb]. replace (j - 1)%Z with (yend m) by lia. rewrite Hh by reflexivity.
        replace (yend m + 1)%Z with j by lia. lra.
      * replace (Z.leb j (ystart m + Z.of_nat n - 1 + 0)) with true by (symmetry; apply Z.leb_le; lia).
        cbn [andb]. apply Hi.
        -- replace (Z.eqb (j - 1) (yend m)) with false by (symmetry; apply Z.eqb_neq; lia).
           now rewrite andb_false_r.
        -- replace (Z.eqb j (ystart m)) with false by (symmetry; apply Z.eqb_neq; lia).
           now rewrite andb_false_r.
    + replace (Z.leb j (ystart m + Z.of_nat n - 1 + 1)) with true by (symmetry; apply Z.leb_le; lia).
      cbn [andb]. apply Hi.
      * unfold closed_high in C. destruct (lastY m); cbn [andb] in *; [rewrite C, andb_false_r|]; reflexivity.
      * replace (Z.eqb j (ystart m)) with false by (symmetry; apply Z.eqb_neq; lia).
        now rewrite andb_false_r.
Qed.

Lemma first_point_start m : closed_low m = true -> first_point m (ystart m) = true.
Proof. unfold closed_low, first_point. rewrite Z.eqb_refl. destruct (firstY m), (periodicY m); auto. Qed.
Lemma last_point_end m : closed_high m = true -> last_point m (yend m) = true.
Proof. unfold closed_high, last_point. rewrite Z.eqb_refl. destruct (lastY m), (periodicY m); auto. Qed.

Lemma mod_flux edges m fixflux f v ws n :
  mesh_ok m n ->
  forall j, (ystart m <= j <= ystart m + Z.of_nat n)%Z ->
  total_flux m (mod_right edges m fixflux f v ws) (mod_left edges m fixflux f v ws) j
  = line_flux (particle_flux edges f v ws) (mod_end edges m fixflux f v ws)
      (closed_low m) (closed_high m) (ystart m) n j.
Proof.
  intros M. apply total_flux_line; [exact M| | |].
  - intros j L F. unfold mod_right, mod_left. rewrite L, F. replace (j - 1 + 1)%Z with j by lia.
    rewrite BOUTMAX4_right, BOUTMAX4_left, !sR_below. change (sL edges) with (above edges).
    unfold particle_flux, lax_friedrichs. lra.
  - intros C. unfold mod_left. rewrite (first_point_start m C). unfold mod_end. rewrite Z.eqb_refl.
    unfold end_particle_flux, free_end_flux_low, face_value, above, sL. destruct fixflux; lra.
  - intros C. unfold mod_right. rewrite (last_point_end m C). unfold mod_end.
    destruct M as (N & Ey & _).
    replace (Z.eqb (yend m + 1) (ystart m)) with false by (symmetry; apply Z.eqb_neq; lia).
    unfold end_particle_flux, free_end_flux_high, face_value, below, sR.
    replace (yend m + 1 - 1)%Z with (yend m) by lia. replace (yend m + 1 - 2)%Z with (yend m - 1)%Z by lia.
    destruct fixflux; lra.
Qed.

Lemma fvv_flux edges m fixflux f v ws n :
  mesh_ok m n ->
  forall j, (ystart m <= j <= ystart m + Z.of_nat n)%Z ->
  total_flux m (fvv_right edges m fixflux f v ws) (fvv_left edges m fixflux f v ws) j
  = line_flux (momentum_flux edges f v ws) (fvv_end edges m fixflux f v ws)
      (closed_low m) (closed_high m) (ystart m) n j.
Proof.
  intros M. apply total_flux_line; [exact M| | |].
  - intros j L F. unfold fvv_right, fvv_left. rewrite L, F. replace (j - 1 + 1)%Z with j by lia.
    rewrite BOUTMAX4_right, BOUTMAX4_left, !sR_below. change (sL edges) with (above edges).
    unfold momentum_flux, lax_friedrichs. lra.
  - intros C. unfold fvv_left. rewrite (first_point_start m C). unfold fvv_end. rewrite Z.eqb_refl.
    unfold end_momentum_flux, fvv_free_low, face_value, above, sL, BOUTMAX3. rewrite !BOUTMAX_Rmax.
    replace (0.5 * (v (ystart m) + v (ystart m - 1)%Z)) with ((v (ystart m - 1)%Z + v (ystart m)) / 2) by lra.
    replace (0.5 * (f (ystart m) + f (ystart m - 1)%Z)) with ((f (ystart m - 1)%Z + f (ystart m)) / 2) by lra.
    destruct fixflux; reflexivity.
  - intros C. unfold fvv_right. rewrite (last_point_end m C). unfold fvv_end.
    destruct M as (N & Ey & _).
    replace (Z.eqb (yend m + 1) (ystart m)) with false by (symmetry; apply Z.eqb_neq; lia).
    unfold end_momentum_flux, fvv_free_high, face_value, below, sR, BOUTMAX3. rewrite !BOUTMAX_Rmax.
    replace (yend m + 1 - 1)%Z with (yend m) by lia. replace (yend m + 1 - 2)%Z with (yend m - 1)%Z by lia.
    replace (0.5 * (v (yend m) + v (yend m + 1)%Z)) with ((v (yend m) + v (yend m + 1)%Z) / 2) by lra.
    replace (0.5 * (f (yend m) + f (yend m + 1)%Z)) with ((f (yend m) + f (yend m + 1)%Z) / 2) by lra.
    destruct fixflux; reflexivity.
Qed.
