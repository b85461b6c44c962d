(** Conservation laws of the parallel operators. *)

From Coq Require Import List Bool ZArith Reals Lra Lia.
From Verif Require Import StateMonad LimitersModel LimitersSpec LimitersProofs ParallelModel ParallelSpec ParallelProofs.
Import ListNotations.
Open Scope R_scope.

Lemma divergence_ext J g22 dy G G' r j :
  G j = G' j -> G (j + 1)%Z = G' (j + 1)%Z -> divergence_of J g22 dy G r j -> divergence_of J g22 dy G' r j.
Proof. unfold divergence_of. intros -> ->. auto. Qed.

Lemma in_loop_cell m n j : mesh_ok m n -> (ystart m <= j < ystart m + Z.of_nat n)%Z -> in_loop m j = true.
Proof.
  intros M Hj. destruct (loop_bounds m n M) as (k & _ & _ & Es & Ee). unfold in_loop. rewrite Es, Ee.
  apply andb_true_intro; split; apply Z.leb_le; destruct (closed_low m), (closed_high m); lia.
Qed.


Lemma loop_divergence m c n fr fl G :
  mesh_ok m n -> positive_metric c ->
  (forall j, (ystart m <= j <= ystart m + Z.of_nat n)%Z -> total_flux m fr fl j = G j) ->
  exists r w, flux_loop m c fr fl = Some (r, w) /\
    (forall j, (ystart m <= j < ystart m + Z.of_nat n)%Z -> divergence_of (c_J c) (c_g22 c) (c_dy c) G r j) /\
    (forall j, (ystart m <= j <= ystart m + Z.of_nat n)%Z ->
       w j = flow_through (c_J c) (c_g22 c) (c_dx c) (c_dz c) G j).
Proof.
  intros M P HG. destruct (flux_loop_closed m c fr fl n M) as (r & w & E & Hr & Hw).
  exists r, w. split; [exact E|]. split.
  - intros j Hj. destruct (P j) as (PJ & _ & Pd).
    eapply divergence_ext; [apply HG; lia|apply HG; lia|]. apply Hr; [lra|lra|]. now apply (in_loop_cell m n).
  - intros j Hj. rewrite Hw. unfold flow_through. rewrite HG by lia. reflexivity.
Qed.

Lemma mod_divergence edges m c n f v ws fixflux :
  mesh_ok m n -> positive_metric c ->
  exists r w, Div_par_mod edges m c f v ws fixflux = Some (r, w) /\
    (forall j, (ystart m <= j < ystart m + Z.of_nat n)%Z ->
       divergence_of (c_J c) (c_g22 c) (c_dy c) (mod_line edges m fixflux f v ws n) r j) /\
    (forall j, (ystart m <= j <= ystart m + Z.of_nat n)%Z ->
       w j = flow_through (c_J c) (c_g22 c) (c_dx c) (c_dz c) (mod_line edges m fixflux f v ws n) j).
Proof. intros M P. apply loop_divergence; auto. intros j Hj. now apply mod_flux. Qed.

Lemma fvv_divergence edges m c n f v ws fixflux :
  mesh_ok m n -> positive_metric c ->
  exists r, Div_par_fvv edges m c f v ws fixflux = Some r /\
    (forall j, (ystart m <= j < ystart m + Z.of_nat n)%Z ->
       divergence_of (c_J c) (c_g22 c) (c_dy c) (fvv_line edges m fixflux f v ws n) r j).
Proof.
  intros M P.
  destruct (loop_divergence m c n (fvv_right edges m fixflux f v ws) (fvv_left edges m fixflux f v ws)
              (fvv_line edges m fixflux f v ws n) M P) as (r & w & E & Hr & _).
  - intros j Hj. now apply fvv_flux.
  - exists r. unfold Div_par_fvv. rewrite E. auto.
Qed.

(** ** Integrals *)

Lemma integral_divergence c lo n G r :
  (forall j, (lo <= j < lo + Z.of_nat n)%Z -> divergence_of (c_J c) (c_g22 c) (c_dy c) G r j) ->
  integral c lo n r = face_area (c_J c) (c_g22 c) (lo + Z.of_nat n) * G (lo + Z.of_nat n)%Z
                    - face_area (c_J c) (c_g22 c) lo * G lo.
Proof.
  intros H. unfold integral.
  rewrite (zsum_ext _ _ _ (fun j => (fun i => face_area (c_J c) (c_g22 c) i * G i) (j + 1)%Z
                                    - (fun i => face_area (c_J c) (c_g22 c) i * G i) j)).
  - rewrite (zsum_telescope lo n (fun i => face_area (c_J c) (c_g22 c) i * G i)). reflexivity.
  - intros j Hj. exact (H j Hj).
Qed.

Lemma periodic_face_area n J g22 j : periodic n J -> periodic n g22 ->
  face_area J g22 (j + Z.of_nat n) = face_area J g22 j.
Proof.
  intros PJ Pg. unfold face_area. rewrite PJ, Pg. replace (j + Z.of_nat n - 1)%Z with (j - 1 + Z.of_nat n)%Z by lia.
  rewrite PJ, Pg. reflexivity.
Qed.

Lemma periodic_below n edges f j : periodic n f -> below edges f (j + Z.of_nat n) = below edges f j.
Proof.
  intros P. unfold below. replace (j + Z.of_nat n - 2)%Z with (j - 2 + Z.of_nat n)%Z by lia.
  replace (j + Z.of_nat n - 1)%Z with (j - 1 + Z.of_nat n)%Z by lia. rewrite !P. reflexivity.
Qed.
Lemma periodic_above n edges f j : periodic n f -> above edges f (j + Z.of_nat n) = above edges f j.
Proof.
  intros P. unfold above. replace (j + Z.of_nat n + 1)%Z with (j + 1 + Z.of_nat n)%Z by lia.
  replace (j + Z.of_nat n - 1)%Z with (j - 1 + Z.of_nat n)%Z by lia. rewrite !P. reflexivity.
Qed.
Lemma periodic_speed n v ws j : periodic n v -> periodic n ws ->
  face_speed v ws (j + Z.of_nat n) = face_speed v ws j.
Proof.
  intros Pv Pw. unfold face_speed. replace (j + Z.of_nat n - 1)%Z with (j - 1 + Z.of_nat n)%Z by lia.
  rewrite !Pv, !Pw. reflexivity.
Qed.

Lemma open_line interior bndry lo n j : line_flux interior bndry false false lo n j = interior j.
Proof. reflexivity. Qed.

Lemma closed_ends_line interior bndry lo n :
  line_flux interior bndry true true lo n lo = bndry lo /\
  line_flux interior bndry true true lo n (lo + Z.of_nat n)%Z = bndry (lo + Z.of_nat n)%Z.
Proof. unfold line_flux. rewrite !Z.eqb_refl. cbn [andb]. rewrite orb_true_r. auto. Qed.

Lemma mod_integral edges m c n f v ws fixflux :
  mesh_ok m n -> positive_metric c ->
  exists r w, Div_par_mod edges m c f v ws fixflux = Some (r, w) /\
    integral c (ystart m) n r
    = face_area (c_J c) (c_g22 c) (ystart m + Z.of_nat n) * mod_line edges m fixflux f v ws n (ystart m + Z.of_nat n)
      - face_area (c_J c) (c_g22 c) (ystart m) * mod_line edges m fixflux f v ws n (ystart m).
Proof.
  intros M P. destruct (mod_divergence edges m c n f v ws fixflux M P) as (r & w & E & Hr & _).
  exists r, w. split; [exact E|]. apply integral_divergence. exact Hr.
Qed.

Lemma fvv_integral edges m c n f v ws fixflux :
  mesh_ok m n -> positive_metric c ->
  exists r, Div_par_fvv edges m c f v ws fixflux = Some r /\
    integral c (ystart m) n r
    = face_area (c_J c) (c_g22 c) (ystart m + Z.of_nat n) * fvv_line edges m fixflux f v ws n (ystart m + Z.of_nat n)
      - face_area (c_J c) (c_g22 c) (ystart m) * fvv_line edges m fixflux f v ws n (ystart m).
Proof.
  intros M P. destruct (fvv_divergence edges m c n f v ws fixflux M P) as (r & E & Hr).
  exists r. split; [exact E|]. apply integral_divergence. exact Hr.
Qed.

Lemma mod_closed edges m c n f v ws :
  mesh_ok m n -> positive_metric c -> closed_low m = true -> closed_high m = true ->
  exists r w, Div_par_mod edges m c f v ws true = Some (r, w) /\
    integral c (ystart m) n r
    = face_area (c_J c) (c_g22 c) (ystart m + Z.of_nat n) * end_particle_flux f v (ystart m + Z.of_nat n)
      - face_area (c_J c) (c_g22 c) (ystart m) * end_particle_flux f v (ystart m).
Proof.
  intros M P CL CH. destruct (mod_integral edges m c n f v ws true M P) as (r & w & E & H).
  exists r, w. split; [exact E|]. rewrite H. unfold mod_line. rewrite CL, CH.
  destruct (closed_ends_line (particle_flux edges f v ws) (mod_end edges m true f v ws) (ystart m) n) as [-> ->].
  reflexivity.
Qed.

Lemma fvv_closed edges m c n f v ws :
  mesh_ok m n -> positive_metric c -> closed_low m = true -> closed_high m = true ->
  exists r, Div_par_fvv edges m c f v ws true = Some r /\
    integral c (ystart m) n r
    = face_area (c_J c) (c_g22 c) (ystart m + Z.of_nat n) * end_momentum_flux f v (ystart m + Z.of_nat n)
      - face_area (c_J c) (c_g22 c) (ystart m) * end_momentum_flux f v (ystart m).
Proof.
  intros M P CL CH. destruct (fvv_integral edges m c n f v ws true M P) as (r & E & H).
  exists r. split; [exact E|]. rewrite H. unfold fvv_line. rewrite CL, CH.
  destruct (closed_ends_line (momentum_flux edges f v ws) (fvv_end edges m true f v ws) (ystart m) n) as [-> ->].
  reflexivity.
Qed.

Lemma periodic_open m : periodicY m = true -> closed_low m = false /\ closed_high m = false.
Proof. unfold closed_low, closed_high. intros ->. rewrite !andb_false_r. auto. Qed.

Lemma mod_periodic edges m c n f v ws fixflux :
  mesh_ok m n -> positive_metric c -> periodicY m = true ->
  periodic n (c_J c) -> periodic n (c_g22 c) -> periodic n f -> periodic n v -> periodic n ws ->
  exists r w, Div_par_mod edges m c f v ws fixflux = Some (r, w) /\ integral c (ystart m) n r = 0.
Proof.
  intros M P Per PJ Pg Pf Pv Pw. destruct (mod_integral edges m c n f v ws fixflux M P) as (r & w & E & H).
  exists r, w. split; [exact E|]. rewrite H. unfold mod_line.
  destruct (periodic_open m Per) as [-> ->]. rewrite !open_line.
  unfold particle_flux. rewrite !(periodic_below n), !(periodic_above n), (periodic_speed n), (periodic_face_area n) by assumption.
  lra.
Qed.

Lemma fvv_periodic edges m c n f v ws fixflux :
  mesh_ok m n -> positive_metric c -> periodicY m = true ->
  periodic n (c_J c) -> periodic n (c_g22 c) -> periodic n f -> periodic n v -> periodic n ws ->
  exists r, Div_par_fvv edges m c f v ws fixflux = Some r /\ integral c (ystart m) n r = 0.
Proof.
  intros M P Per PJ Pg Pf Pv Pw. destruct (fvv_integral edges m c n f v ws fixflux M P) as (r & E & H).
  exists r. split; [exact E|]. rewrite H. unfold fvv_line.
  destruct (periodic_open m Per) as [-> ->]. rewrite !open_line.
  unfold momentum_flux. rewrite !(periodic_below n), !(periodic_above n), (periodic_speed n), (periodic_face_area n) by assumption.
  lra.
Qed.

(** ** The flow diagnostic *)

Lemma mod_flow edges m c n f v ws fixflux :
  mesh_ok m n -> positive_metric c ->
  (forall j, c_dx c (j + 1)%Z = c_dx c j) -> (forall j, c_dz c (j + 1)%Z = c_dz c j) ->
  exists r w, Div_par_mod edges m c f v ws fixflux = Some (r, w) /\
    forall j, (ystart m <= j < ystart m + Z.of_nat n)%Z ->
      cell_volume (c_J c) (c_dy c) j * c_dx c j * c_dz c j * r j = w (j + 1)%Z - w j.
Proof.
  intros M P Hx Hz. destruct (mod_divergence edges m c n f v ws fixflux M P) as (r & w & E & Hr & Hw).
  exists r, w. split; [exact E|]. intros j Hj.
  rewrite (Hw (j + 1)%Z), (Hw j) by lia. pose proof (Hr j Hj) as D. unfold divergence_of in D.
  unfold flow_through. rewrite Hx, Hz.
  replace (cell_volume (c_J c) (c_dy c) j * c_dx c j * c_dz c j * r j)
    with (cell_volume (c_J c) (c_dy c) j * r j * c_dx c j * c_dz c j) by ring.
  rewrite D. ring.
Qed.

(** ** Uniform profiles *)

Lemma uniform_flux edges a b ws j :
  (forall x, edges x x x = (x, x)) ->
  particle_flux edges (fun _ => a) (fun _ => b) ws j = a * b /\
  momentum_flux edges (fun _ => a) (fun _ => b) ws j = a * b * b.
Proof.
  intros H. unfold particle_flux, momentum_flux, below, above. rewrite !H. cbn [fst snd].
  unfold lax_friedrichs. split; field.
Qed.

Lemma uniform_mod_line edges m a b ws n j :
  (forall x, edges x x x = (x, x)) ->
  mod_line edges m true (fun _ => a) (fun _ => b) ws n j = a * b /\
  fvv_line edges m true (fun _ => a) (fun _ => b) ws n j = a * b * b.
Proof.
  intros H. unfold mod_line, fvv_line, line_flux, mod_end, fvv_end, end_particle_flux, end_momentum_flux, face_value.
  destruct (uniform_flux edges a b ws j H) as [-> ->].
  destruct (_ || _)%bool; split; try reflexivity; field.
Qed.

(** In a flux tube of constant area a uniform flow has no divergence. *)
Lemma mod_uniform edges m c n a b ws :
  mesh_ok m n -> positive_metric c -> (forall x, edges x x x = (x, x)) ->
  (forall j, face_area (c_J c) (c_g22 c) (j + 1) = face_area (c_J c) (c_g22 c) j) ->
  exists r w q, Div_par_mod edges m c (fun _ => a) (fun _ => b) ws true = Some (r, w) /\
    Div_par_fvv edges m c (fun _ => a) (fun _ => b) ws true = Some q /\
    forall j, (ystart m <= j < ystart m + Z.of_nat n)%Z -> r j = 0 /\ q j = 0.
Proof.
  intros M P H A. destruct (mod_divergence edges m c n (fun _ => a) (fun _ => b) ws true M P) as (r & w & E & Hr & _).
  destruct (fvv_divergence edges m c n (fun _ => a) (fun _ => b) ws true M P) as (q & E' & Hq).
  exists r, w, q. split; [exact E|]. split; [exact E'|]. intros j Hj.
  pose proof (Hr j Hj) as D. pose proof (Hq j Hj) as D'. unfold divergence_of in D, D'.
  destruct (uniform_mod_line edges m a b ws n j H) as [X1 X2].
  destruct (uniform_mod_line edges m a b ws n (j + 1)%Z H) as [X3 X4].
  rewrite X1, X3, A in D. rewrite X2, X4, A in D'.
  destruct (P j) as (PJ & _ & Pd).
  assert (0 < cell_volume (c_J c) (c_dy c) j) by (unfold cell_volume; apply Rmult_lt_0_compat; lra).
  split; apply (Rmult_eq_reg_l (cell_volume (c_J c) (c_dy c) j)); lra.
Qed.

(** ** Empty cells *)

Lemma Rabs_le_inv x a : Rabs x <= a -> - a <= x <= a.
Proof. unfold Rabs. destruct (Rcase_abs x); lra. Qed.

Lemma face_speed_bounds edges v ws j : bounded_by_neighbours edges ->
  - face_speed v ws j <= below edges v j <= face_speed v ws j /\
  - face_speed v ws j <= above edges v j <= face_speed v ws j.
Proof.
  intros B.
  assert (V1 : Rabs (v (j - 1)%Z) <= face_speed v ws j)
    by (unfold face_speed; eapply Rle_trans; [apply Rmax_l|apply Rmax_r]).
  assert (V2 : Rabs (v j) <= face_speed v ws j)
    by (unfold face_speed; eapply Rle_trans; [apply Rmax_r|apply Rmax_r]).
  apply Rabs_le_inv in V1, V2.
  pose proof (proj2 (B (v (j - 2)%Z) (v (j - 1)%Z) (v j))) as B1.
  pose proof (proj1 (B (v (j - 1)%Z) (v j) (v (j + 1)%Z))) as B2.
  unfold between in B1, B2. unfold below, above.
  set (x := snd _) in *. set (y := fst _) in *. clearbody x y. set (s := face_speed v ws j) in *. clearbody s.
  split; revert B1 B2; cases_R; lra.
Qed.

Lemma face_area_pos c j : positive_metric c -> 0 < face_area (c_J c) (c_g22 c) j.
Proof.
  intros P. destruct (P j) as (J1 & G1 & _), (P (j - 1)%Z) as (J2 & G2 & _). unfold face_area.
  apply sqrt_lt_R0 in G1. apply sqrt_lt_R0 in G2. apply Rdiv_lt_0_compat; lra.
Qed.

Lemma mod_empty_cell edges m c n f v ws fixflux j :
  mesh_ok m n -> positive_metric c ->
  bounded_by_neighbours edges -> flat_at_extrema edges ->
  (forall i, 0 <= f i) -> f j = 0 ->
  (ystart m <= j < ystart m + Z.of_nat n)%Z ->
  (closed_low m = true -> j <> ystart m) -> (closed_high m = true -> j <> (ystart m + Z.of_nat n - 1)%Z) ->
  exists r w, Div_par_mod edges m c f v ws fixflux = Some (r, w) /\ r j <= 0.
Proof.
  intros M P B Fl F0 Fj Hj Hl Hh.
  destruct (mod_divergence edges m c n f v ws fixflux M P) as (r & w & E & Hr & _).
  exists r, w. split; [exact E|]. pose proof (Hr j Hj) as D. unfold divergence_of in D.
  assert (L1 : mod_line edges m fixflux f v ws n j = particle_flux edges f v ws j).
  { unfold mod_line, line_flux. destruct (closed_low m), (closed_high m); cbn [andb orb];
      repeat match goal with |- context [Z.eqb ?a ?b] => destruct (Z.eqb_spec a b) end; cbn [orb];
      try reflexivity; exfalso; try (apply Hl; auto); try (apply Hh; auto); lia. }
  assert (L2 : mod_line edges m fixflux f v ws n (j + 1)%Z = particle_flux edges f v ws (j + 1)).
  { unfold mod_line, line_flux. destruct (closed_low m), (closed_high m); cbn [andb orb];
      repeat match goal with |- context [Z.eqb ?a ?b] => destruct (Z.eqb_spec a b) end; cbn [orb];
      try reflexivity; exfalso; try lia; apply Hh; auto; lia. }
  rewrite L1, L2 in D.
  assert (Flat : edges (f (j - 1)%Z) (f j) (f (j + 1)%Z) = (f j, f j)).
  { apply Fl. right. rewrite Fj. auto. }
  assert (A0 : above edges f j = 0) by (unfold above; rewrite Flat; cbn [fst]; exact Fj).
  assert (B0 : below edges f (j + 1) = 0).
  { unfold below. replace (j + 1 - 2)%Z with (j - 1)%Z by lia. replace (j + 1 - 1)%Z with j by lia.
    rewrite Flat. cbn [snd]. exact Fj. }
  assert (Bp : 0 <= below edges f j).
  { pose proof (proj2 (B (f (j - 2)%Z) (f (j - 1)%Z) (f j))) as [X _]. unfold below.
    eapply Rle_trans; [|exact X]. apply Rmin_glb; apply F0. }
  assert (Ap : 0 <= above edges f (j + 1)).
  { pose proof (proj1 (B (f (j + 1 - 1)%Z) (f (j + 1)%Z) (f (j + 1 + 1)%Z))) as [X _]. unfold above.
    eapply Rle_trans; [|exact X]. apply Rmin_glb; apply F0. }
  destruct (face_speed_bounds edges v ws j B) as [[S1 _] _].
  destruct (face_speed_bounds edges v ws (j + 1) B) as [_ [_ S2]].
  assert (G1 : 0 <= particle_flux edges f v ws j).
  { unfold particle_flux, lax_friedrichs. rewrite A0.
    replace (_ + _) with (below edges f j * (below edges v j + face_speed v ws j) / 2) by field.
    assert (0 <= below edges f j * (below edges v j + face_speed v ws j)) by (apply Rmult_le_pos; lra). lra. }
  assert (G2 : particle_flux edges f v ws (j + 1) <= 0).
  { unfold particle_flux, lax_friedrichs. rewrite B0.
    replace (_ + _) with (- (above edges f (j + 1) * (face_speed v ws (j + 1) - above edges v (j + 1)) / 2)) by field.
    assert (0 <= above edges f (j + 1) * (face_speed v ws (j + 1) - above edges v (j + 1))) by (apply Rmult_le_pos; lra). lra. }
  pose proof (face_area_pos c j P) as A1. pose proof (face_area_pos c (j + 1) P) as A2.
  destruct (P j) as (PJ & _ & Pd).
  assert (V : 0 < cell_volume (c_J c) (c_dy c) j) by (unfold cell_volume; apply Rmult_lt_0_compat; lra).
  assert (N1 : 0 <= face_area (c_J c) (c_g22 c) j * particle_flux edges f v ws j) by (apply Rmult_le_pos; lra).
  assert (N2 : 0 <= face_area (c_J c) (c_g22 c) (j + 1) * - particle_flux edges f v ws (j + 1)) by (apply Rmult_le_pos; lra).
  destruct (Rle_dec (r j) 0) as [Y|Y]; [exact Y|]. exfalso.
  assert (0 < cell_volume (c_J c) (c_dy c) j * r j) by (apply Rmult_lt_0_compat; lra). lra.
Qed.

(** ** Guard cells *)

Lemma fold_fails {A} (step : option A -> Z -> option A) l j st :
  (forall i, step None i = None) -> In j l -> (forall s, step s j = None) -> fold_left step l st = None.
Proof.
  intros N. revert st. induction l as [|x l IH]; intros st Hin Hj; [destruct Hin|].
  cbn [fold_left]. destruct Hin as [->|Hin].
  - rewrite Hj. now apply fold_none.
  - now apply IH.
Qed.

Lemma in_irange lo hi j : (lo <= j <= hi)%Z -> In j (irange lo hi).
Proof.
  intros H. unfold irange. apply in_map_iff. exists (Z.to_nat (j - lo)). split; [lia|].
  apply in_seq. lia.
Qed.

Lemma loop_undefined m n c fr fl :
  (0 < n)%nat -> yend m = (ystart m + Z.of_nat n - 1)%Z -> ~ guards_ok m -> flux_loop m c fr fl = None.
Proof.
  intros N Ey G.
  assert (X : exists j, (loop_ys m <= j <= loop_ye m)%Z /\ in_bounds m j = false).
  { unfold guards_ok, closed_low, closed_high in G. unfold loop_ys, loop_ye, in_bounds.
    destruct (Z.leb_spec (if (firstY m && negb (periodicY m))%bool then 1 else 2) (ystart m)) as [L|L].
    - exists (if (negb (lastY m) || periodicY m)%bool then yend m + 1 else yend m)%Z. split.
      + destruct (firstY m), (lastY m), (periodicY m); cbn [negb andb orb]; lia.
      + apply andb_false_intro2. apply Z.ltb_ge.
        destruct (firstY m), (lastY m), (periodicY m); cbn [negb andb orb] in *; lia.
    - exists (if (negb (firstY m) || periodicY m)%bool then ystart m - 1 else ystart m)%Z. split.
      + destruct (firstY m), (lastY m), (periodicY m); cbn [negb andb orb]; lia.
      + apply andb_false_intro1. apply Z.leb_gt.
        destruct (firstY m), (lastY m), (periodicY m); cbn [negb andb orb] in *; lia. }
  destruct X as (j & Hj & B). unfold flux_loop. apply (fold_fails _ _ j).
  - reflexivity.
  - now apply in_irange.
  - intros [[r w]|]; [|reflexivity]. unfold flux_step. rewrite B. reflexivity.
Qed.

Lemma mod_defined edges m n c f v ws fixflux :
  (0 < n)%nat -> yend m = (ystart m + Z.of_nat n - 1)%Z -> positive_metric c ->
  ((Div_par_mod edges m c f v ws fixflux <> None <-> guards_ok m) /\
   (Div_par_fvv edges m c f v ws fixflux <> None <-> guards_ok m)).
Proof.
  intros N Ey P.
  assert (Dec : guards_ok m \/ ~ guards_ok m).
  { unfold guards_ok. destruct (Z.le_gt_cases (if closed_low m then 1 else 2) (ystart m)),
      (Z.lt_ge_cases (yend m + (if closed_high m then 1 else 2)) (LocalNy m)); lia. }
  split; (split; [intros H; destruct Dec as [D|D]; [exact D|exfalso; apply H]|intros D]).
  - unfold Div_par_mod. now apply (loop_undefined m n).
  - destruct (mod_divergence edges m c n f v ws fixflux) as (r & w & E & _); [exact (conj N (conj Ey D))|exact P|].
    rewrite E. discriminate.
  - unfold Div_par_fvv. rewrite (loop_undefined m n) by assumption. reflexivity.
  - destruct (fvv_divergence edges m c n f v ws fixflux) as (r & E & _); [exact (conj N (conj Ey D))|exact P|].
    rewrite E. discriminate.
Qed.
