(** The heating operator and the kinetic energy balance. *)

From Coq Require Import List Bool ZArith Reals Lra Lia.
From Verif Require Import StateMonad LimitersModel LimitersSpec LimitersProofs ParallelModel ParallelSpec ParallelProofs ParallelLaws.
Import ListNotations.
Open Scope R_scope.

Definition heat_contribution (c : coords) (hr hl : Z -> R) (j i : Z) : R :=
  if Z.eqb i j then hr j * (common_right c j / (c_dy c j * c_J c j)) + hl j * (common_left c j / (c_dy c j * c_J c j)) else 0.

Lemma heating_closed edges m c n f v ws fixflux :
  mesh_ok m n -> positive_metric c ->
  exists r w, Div_par_fvv_heating edges m c f v ws fixflux = Some (r, w) /\
    (forall j, (ystart m <= j < ystart m + Z.of_nat n)%Z ->
      cell_volume (c_J c) (c_dy c) j * r j
      = face_area (c_J c) (c_g22 c) (j + 1) * heat_right edges m fixflux f v ws j
        + face_area (c_J c) (c_g22 c) j * heat_left edges m fixflux f v ws j) /\
    (forall j, w j = flow_through (c_J c) (c_g22 c) (c_dx c) (c_dz c)
                       (total_flux m (ke_right edges m f v ws) (ke_left edges m f v ws)) j).
Proof.
  intros M P. destruct (loop_bounds m n M) as (k & Ek & B & _).
  destruct (fold_contributions (fun st j =>
    match st with
    | None => None
    | Some (result, flow_ylow) =>
        if negb (in_bounds m j) then None else
        let common_factor := common_right c j in
        let flux_factor_rc := common_factor / (c_dy c j * c_J c j) in
        let area_rp := common_factor * c_dx c (j + 1)%Z * c_dz c (j + 1)%Z in
        let common_factor := common_left c j in
        let flux_factor_lc := common_factor / (c_dy c j * c_J c j) in
        let area_lc := common_factor * c_dx c j * c_dz c j in
        let result := upd result j (result j + heat_right edges m fixflux f v ws j * flux_factor_rc) in
        let flow_ylow := upd flow_ylow (j + 1)%Z (flow_ylow (j + 1)%Z + ke_right edges m f v ws j * area_rp) in
        let result := upd result j (result j + heat_left edges m fixflux f v ws j * flux_factor_lc) in
        let flow_ylow := upd flow_ylow j (flow_ylow j + ke_left edges m f v ws j * area_lc) in
        Some (result, flow_ylow)
    end) (fun j => in_bounds m j = true)
              (heat_contribution c (heat_right edges m fixflux f v ws) (heat_left edges m fixflux f v ws))
              (flow_contribution c (ke_right edges m f v ws) (ke_left edges m f v ws)) (loop_ys m) k) as (r & w & E & Hr & Hw).
  - intros r w j Bj. rewrite Bj. cbn [negb]. eexists. eexists. split; [reflexivity|]. split.
    + unfold heat_contribution. updates.
    + unfold flow_contribution. updates.
  - exact B.
  - exists r, w. unfold Div_par_fvv_heating. rewrite Ek. split; [exact E|].
    assert (Ein : forall j, in_loop m j = (Z.leb (loop_ys m) j && Z.ltb j (loop_ys m + Z.of_nat k))%bool).
    { intros j. unfold in_loop. rewrite Ek. f_equal.
      destruct (Z.leb_spec j (loop_ys m + Z.of_nat k - 1)), (Z.ltb_spec j (loop_ys m + Z.of_nat k)); lia || reflexivity. }
    split.
    + intros j Hj. rewrite Hr. unfold heat_contribution. rewrite zsum_indicator.
      rewrite <- Ein, (in_loop_cell m n j M Hj). rewrite common_right_area, common_left_area. unfold cell_volume.
      destruct (P j) as (PJ & _ & Pd). field. lra.
    + intros j. rewrite Hw. unfold flow_contribution. rewrite zsum_plus, zsum_indicator, <- Ein.
      rewrite (zsum_ext _ _ _ (fun i => if Z.eqb (j - 1) i then ke_right edges m f v ws i * (common_right c i * c_dx c (i + 1)%Z * c_dz c (i + 1)%Z) else 0)).
      * rewrite zsum_indicator, <- Ein. rewrite !common_right_area, !common_left_area.
        replace (j - 1 + 1)%Z with j by lia. unfold flow_through, total_flux.
        destruct (in_loop m (j - 1)), (in_loop m j); ring.
      * intros i _. destruct (Z.eqb_spec j (i + 1)), (Z.eqb_spec (j - 1) i); lia || reflexivity.
Qed.


Lemma zsum_cells (P Q : Z -> R) lo n : (0 < n)%nat ->
  zsum lo n (fun j => P j - Q j)
  = P lo - Q (lo + Z.of_nat n - 1)%Z + zsum (lo + 1) (n - 1) (fun j => P j - Q (j - 1)%Z).
Proof.
  intros H. destruct n as [|n]; [lia|]. clear H. replace (S n - 1)%nat with n by lia.
  induction n as [|n IH].
  - cbn [zsum]. replace (lo + Z.of_nat 0)%Z with lo by lia. replace (lo + Z.of_nat 1 - 1)%Z with lo by lia. lra.
  - cbn [zsum] in *. rewrite IH.
    replace (lo + Z.of_nat (S n) - 1)%Z with (lo + Z.of_nat n)%Z by lia.
    replace (lo + Z.of_nat (S (S n)) - 1)%Z with (lo + Z.of_nat (S n))%Z by lia.
    replace (lo + 1 + Z.of_nat n)%Z with (lo + Z.of_nat (S n))%Z by lia.
    replace (lo + Z.of_nat (S n) - 1)%Z with (lo + Z.of_nat n)%Z by lia. lra.
Qed.

Lemma not_first m j : j <> ystart m -> first_point m j = false.
Proof. intros N. unfold first_point. destruct (Z.eqb_spec j (ystart m)); [lia|]. now rewrite andb_false_r. Qed.
Lemma not_last m j : j <> yend m -> last_point m j = false.
Proof. intros N. unfold last_point. destruct (Z.eqb_spec j (yend m)); [lia|]. now rewrite andb_false_r. Qed.

(** Heating contributions of an interior face. *)
Lemma heat_right_interior edges m fixflux f v ws j :
  last_point m (j - 1) = false ->
  heat_right edges m fixflux f v ws (j - 1)
  = (face_speed v ws j + below edges v j / 2) * below edges f j * (v (j - 1)%Z - v j) * (below edges v j - face_value v j).
Proof.
  intros L. unfold heat_right. rewrite L. replace (j - 1 + 1)%Z with j by lia.
  rewrite BOUTMAX4_right, !sR_below. unfold face_value.
  set (a := below edges v j). set (b := below edges f j). clearbody a b. lra.
Qed.
Lemma heat_left_interior edges m fixflux f v ws j :
  first_point m j = false ->
  heat_left edges m fixflux f v ws j
  = (face_speed v ws j - above edges v j / 2) * above edges f j * (v j - v (j - 1)%Z) * (above edges v j - face_value v j).
Proof.
  intros L. unfold heat_left. rewrite L. 
  rewrite BOUTMAX4_left. change (sL edges) with (above edges). unfold face_value.
  set (a := above edges v j). set (b := above edges f j). clearbody a b. lra.
Qed.

Lemma kinetic_balance edges m c n f v ws :
  mesh_ok m n -> positive_metric c -> closed_low m = true -> closed_high m = true ->
  exists rn wn rm h wh,
    Div_par_mod edges m c f v ws true = Some (rn, wn) /\
    Div_par_fvv edges m c f v ws true = Some rm /\
    Div_par_fvv_heating edges m c f v ws true = Some (h, wh) /\
    integral c (ystart m) n (fun j => kinetic_rate (v j) (- rn j) (- rm j) + h j)
    = face_area (c_J c) (c_g22 c) (ystart m) * end_kinetic_flux f v (ystart m)
      - face_area (c_J c) (c_g22 c) (ystart m + Z.of_nat n) * end_kinetic_flux f v (ystart m + Z.of_nat n)
      + zsum (ystart m + 1) (n - 1) (fun j => face_area (c_J c) (c_g22 c) j * heating_excess edges f v ws j).
Proof.
  intros M P CL CH.
  destruct (mod_divergence edges m c n f v ws true M P) as (rn & wn & En & Dn & _).
  destruct (fvv_divergence edges m c n f v ws true M P) as (rm & Em & Dm).
  destruct (heating_closed edges m c n f v ws true M P) as (h & wh & Eh & Dh & _).
  exists rn, wn, rm, h, wh. split; [exact En|]. split; [exact Em|]. split; [exact Eh|].
  set (A := face_area (c_J c) (c_g22 c)).
  set (Gn := mod_line edges m true f v ws n). set (Gm := fvv_line edges m true f v ws n).
  set (hr := heat_right edges m true f v ws). set (hl := heat_left edges m true f v ws).
  set (PP := fun j => A j * (v j * Gm j - v j * v j * Gn j / 2) + A j * hl j).
  set (QQ := fun j => A (j + 1)%Z * (v j * Gm (j + 1)%Z - v j * v j * Gn (j + 1)%Z / 2) - A (j + 1)%Z * hr j).
  assert (Hn : (0 < n)%nat) by (destruct M; assumption).
  assert (Ey : yend m = (ystart m + Z.of_nat n - 1)%Z) by (destruct M as (_ & ? & _); assumption).
  unfold integral. rewrite (zsum_ext _ _ _ (fun j => PP j - QQ j)).
  2:{ intros j Hj. pose proof (Dn j Hj) as X. pose proof (Dm j Hj) as Y. pose proof (Dh j Hj) as Z.
      unfold divergence_of in X, Y. fold A in X, Y, Z. fold Gn in X. fold Gm in Y. fold hr hl in Z.
      unfold kinetic_rate, PP, QQ.
      replace (cell_volume (c_J c) (c_dy c) j * (v j * - rm j - v j * v j * - rn j / 2 + h j))
        with (- v j * (cell_volume (c_J c) (c_dy c) j * rm j) + v j * v j / 2 * (cell_volume (c_J c) (c_dy c) j * rn j)
              + cell_volume (c_J c) (c_dy c) j * h j) by field.
      rewrite X, Y, Z. field. }
  rewrite (zsum_cells PP QQ (ystart m) n Hn).
  assert (E1 : PP (ystart m) = A (ystart m) * end_kinetic_flux f v (ystart m)).
  { unfold PP, Gm, Gn, fvv_line, mod_line, line_flux. rewrite CL, Z.eqb_refl. cbn [andb orb].
    unfold hl, heat_left. rewrite (first_point_start m CL).
    unfold mod_end, fvv_end, end_particle_flux, end_momentum_flux, end_kinetic_flux, face_value.
    lra. }
  assert (E2 : QQ (ystart m + Z.of_nat n - 1)%Z = A (ystart m + Z.of_nat n)%Z * end_kinetic_flux f v (ystart m + Z.of_nat n)).
  { unfold QQ. replace (ystart m + Z.of_nat n - 1 + 1)%Z with (ystart m + Z.of_nat n)%Z by lia.
    unfold Gm, Gn, fvv_line, mod_line, line_flux. rewrite CH, Z.eqb_refl. cbn [andb]. rewrite orb_true_r.
    rewrite <- Ey. unfold hr, heat_right. rewrite (last_point_end m CH).
    unfold mod_end, fvv_end, end_particle_flux, end_momentum_flux, end_kinetic_flux, face_value.
    replace (ystart m + Z.of_nat n)%Z with (yend m + 1)%Z by lia. replace (yend m + 1 - 1)%Z with (yend m) by lia.
    lra. }
  rewrite E1, E2. f_equal. apply zsum_ext. intros j Hj. unfold PP, QQ. replace (j - 1 + 1)%Z with j by lia.
  unfold Gm, Gn, fvv_line, mod_line, line_flux. rewrite CL, CH.
  replace (Z.eqb j (ystart m)) with false by (symmetry; apply Z.eqb_neq; lia).
  replace (Z.eqb j (ystart m + Z.of_nat n)) with false by (symmetry; apply Z.eqb_neq; lia). cbn [andb orb].
  unfold hr, hl. rewrite heat_right_interior, heat_left_interior.
  - unfold heating_excess, particle_flux, momentum_flux, lax_friedrichs, face_value. field.
  - apply not_first. lia.
  - apply not_last. lia.
Qed.

(** ** Sign *)

Lemma upwind_half : within_half upwind_edges.
Proof. intros m c p. cbn. unfold between. split; cases_R; lra. Qed.
Lemma minmod_half : within_half minmod_edges.
Proof.
  intros m c p. unfold minmod_edges. cbn [fst snd].
  destruct (minmod2_cases (p - c) (c - m)) as [H|H]; unfold between; split; revert H; cases_R; lra.
Qed.

Lemma same_sign_product x y z e :
  between x ((x + y) / 2) e -> z = (x + y) / 2 -> 0 <= (x - y) * (e - z).
Proof.
  unfold between. intros [L U] ->. destruct (Rle_dec x y) as [H|H].
  - rewrite Rmin_left in L by lra. rewrite Rmax_right in U by lra.
    replace ((x - y) * (e - (x + y) / 2)) with ((y - x) * ((x + y) / 2 - e)) by ring. apply Rmult_le_pos; lra.
  - rewrite Rmin_right in L by lra. rewrite Rmax_left in U by lra. apply Rmult_le_pos; lra.
Qed.

Lemma below_half edges v j : within_half edges -> 0 <= (v (j - 1)%Z - v j) * (below edges v j - face_value v j).
Proof.
  intros W. apply same_sign_product; [|reflexivity]. unfold below.
  exact (proj2 (W (v (j - 2)%Z) (v (j - 1)%Z) (v j))).
Qed.
Lemma above_half edges v j : within_half edges -> 0 <= (v j - v (j - 1)%Z) * (above edges v j - face_value v j).
Proof.
  intros W. apply same_sign_product; [|unfold face_value; field]. unfold above.
  replace ((v j + v (j - 1)%Z) / 2) with ((v (j - 1)%Z + v j) / 2) by field.
  exact (proj1 (W (v (j - 1)%Z) (v j) (v (j + 1)%Z))).
Qed.
Lemma below_nonneg edges f j : bounded_by_neighbours edges -> (forall i, 0 <= f i) -> 0 <= below edges f j.
Proof.
  intros B F. pose proof (proj2 (B (f (j - 2)%Z) (f (j - 1)%Z) (f j))) as [X _]. unfold below.
  eapply Rle_trans; [|exact X]. apply Rmin_glb; apply F.
Qed.
Lemma above_nonneg edges f j : bounded_by_neighbours edges -> (forall i, 0 <= f i) -> 0 <= above edges f j.
Proof.
  intros B F. pose proof (proj1 (B (f (j - 1)%Z) (f j) (f (j + 1)%Z))) as [X _]. unfold above.
  eapply Rle_trans; [|exact X]. apply Rmin_glb; apply F.
Qed.

Lemma excess_nonneg edges f v ws j :
  bounded_by_neighbours edges -> within_half edges -> (forall i, 0 <= f i) -> 0 <= heating_excess edges f v ws j.
Proof.
  intros B W F. unfold heating_excess.
  pose proof (below_half edges v j W) as X. pose proof (above_half edges v j W) as Y.
  pose proof (below_nonneg edges f j B F) as FB. pose proof (above_nonneg edges f j B F) as FA.
  destruct (face_speed_bounds edges v ws j B) as [[S1 S2] _].
  replace (_ * _) with (face_speed v ws j / 2 *
    (below edges f j * ((v (j - 1)%Z - v j) * (below edges v j - face_value v j))
     + above edges f j * ((v j - v (j - 1)%Z) * (above edges v j - face_value v j)))) by ring.
  apply Rmult_le_pos; [lra|]. apply Rplus_le_le_0_compat; apply Rmult_le_pos; assumption.
Qed.

Lemma heating_nonneg edges m c n f v ws fixflux j :
  mesh_ok m n -> positive_metric c -> bounded_by_neighbours edges -> within_half edges -> (forall i, 0 <= f i) ->
  (ystart m <= j < ystart m + Z.of_nat n)%Z ->
  (closed_low m = true -> j <> ystart m) -> (closed_high m = true -> j <> (ystart m + Z.of_nat n - 1)%Z) ->
  exists h w, Div_par_fvv_heating edges m c f v ws fixflux = Some (h, w) /\ 0 <= h j.
Proof.
  intros M P B W F Hj Hl Hh. destruct (heating_closed edges m c n f v ws fixflux M P) as (h & w & E & D & _).
  exists h, w. split; [exact E|]. pose proof (D j Hj) as X.
  assert (L : last_point m j = false).
  { destruct (Z.eq_dec j (yend m)) as [Ej|Ej]; [|now apply not_last].
    destruct M as (_ & Ey & _). unfold last_point. unfold closed_high in Hh.
    destruct (lastY m), (periodicY m); cbn [andb negb] in *; rewrite ?andb_false_r; try reflexivity.
    exfalso. apply Hh; [reflexivity|lia]. }
  assert (Fi : first_point m j = false).
  { destruct (Z.eq_dec j (ystart m)) as [Ej|Ej]; [|now apply not_first].
    unfold first_point. unfold closed_low in Hl.
    destruct (firstY m), (periodicY m); cbn [andb negb] in *; rewrite ?andb_false_r; try reflexivity.
    exfalso. now apply Hl. }
  replace j with (j + 1 - 1)%Z in L by lia.
  pose proof (heat_right_interior edges m fixflux f v ws (j + 1) L) as HR. replace (j + 1 - 1)%Z with j in HR by lia.
  rewrite HR, (heat_left_interior edges m fixflux f v ws j Fi) in X.
  pose proof (below_half edges v (j + 1) W) as X1. pose proof (above_half edges v j W) as X2.
  replace (j + 1 - 1)%Z with j in X1 by lia.
  pose proof (below_nonneg edges f (j + 1) B F) as FB. pose proof (above_nonneg edges f j B F) as FA.
  destruct (face_speed_bounds edges v ws (j + 1) B) as [[S1 S2] _].
  destruct (face_speed_bounds edges v ws j B) as [_ [S3 S4]].
  pose proof (face_area_pos c j P) as A1. pose proof (face_area_pos c (j + 1) P) as A2.
  destruct (P j) as (PJ & _ & Pd).
  assert (V : 0 < cell_volume (c_J c) (c_dy c) j) by (unfold cell_volume; apply Rmult_lt_0_compat; lra).
  assert (N1 : 0 <= (face_speed v ws (j + 1) + below edges v (j + 1) / 2) * below edges f (j + 1) * (v j - v (j + 1)%Z) * (below edges v (j + 1) - face_value v (j + 1))).
  { rewrite Rmult_assoc. apply Rmult_le_pos; [|exact X1]. apply Rmult_le_pos; lra. }
  assert (N2 : 0 <= (face_speed v ws j - above edges v j / 2) * above edges f j * (v j - v (j - 1)%Z) * (above edges v j - face_value v j)).
  { rewrite Rmult_assoc. apply Rmult_le_pos; [|exact X2]. apply Rmult_le_pos; lra. }
  set (p := _ * (below edges v (j + 1) - face_value v (j + 1))) in *.
  set (q := _ * (above edges v j - face_value v j)) in *.
  assert (0 <= face_area (c_J c) (c_g22 c) (j + 1) * p) by (apply Rmult_le_pos; lra).
  assert (0 <= face_area (c_J c) (c_g22 c) j * q) by (apply Rmult_le_pos; lra).
  destruct (Rle_dec 0 (h j)) as [Y|Y]; [exact Y|]. exfalso.
  assert (0 < cell_volume (c_J c) (c_dy c) j * (- h j)) by (apply Rmult_lt_0_compat; lra). lra.
Qed.

(** Heating of the cells at closed ends (fixed flux). *)
Lemma end_heating edges m f v ws :
  (closed_high m = true ->
   heat_right edges m true f v ws (yend m)
   = - (face_value f (yend m + 1) * face_value v (yend m + 1) / 2) * ((v (yend m) - face_value v (yend m + 1)) * (v (yend m) - face_value v (yend m + 1)))) /\
  (closed_low m = true ->
   heat_left edges m true f v ws (ystart m)
   = face_value f (ystart m) * face_value v (ystart m) / 2 * ((v (ystart m) - face_value v (ystart m)) * (v (ystart m) - face_value v (ystart m)))).
Proof.
  split; intros C.
  - unfold heat_right. rewrite (last_point_end m C). unfold face_value. replace (yend m + 1 - 1)%Z with (yend m) by lia. lra.
  - unfold heat_left. rewrite (first_point_start m C). unfold face_value. lra.
Qed.

(** ** Witnesses *)

Definition unit_coords : coords := mkCoords (fun _ => 1) (fun _ => 1) (fun _ => 1) (fun _ => 1) (fun _ => 1).
Lemma unit_positive : positive_metric unit_coords.
Proof. intros j. cbn. lra. Qed.
Lemma unit_area j : face_area (c_J unit_coords) (c_g22 unit_coords) j = 1.
Proof. unfold face_area. cbn [unit_coords c_J c_g22]. rewrite sqrt_1. field. Qed.
Lemma unit_volume j : cell_volume (c_J unit_coords) (c_dy unit_coords) j = 1.
Proof. unfold cell_volume. cbn [unit_coords c_J c_dy]. ring. Qed.

(** A field given by a list of values from index 0 on. *)
Definition values (l : list R) (j : Z) : R := nth (Z.to_nat j) l 0.

Definition mesh2 : mesh := mkMesh 1 2 4 true true false.
Lemma mesh2_ok : mesh_ok mesh2 2.
Proof. unfold mesh_ok, guards_ok. cbn. lia. Qed.
Definition mesh1 : mesh := mkMesh 1 1 3 true true false.
Lemma mesh1_ok : mesh_ok mesh1 1.
Proof. unfold mesh_ok, guards_ok. cbn. lia. Qed.
Definition mesh_open1 : mesh := mkMesh 2 2 5 false false false.
Lemma mesh_open1_ok : mesh_ok mesh_open1 1.
Proof. unfold mesh_ok, guards_ok. cbn. lia. Qed.

Ltac zify_idx := repeat match goal with
  | |- context [Z.add ?a ?b] => let r := eval compute in (Z.add a b) in change (Z.add a b) with r
  | |- context [Z.sub ?a ?b] => let r := eval compute in (Z.sub a b) in change (Z.sub a b) with r
  end.

Ltac vals := unfold values; repeat match goal with
  | |- context [Z.to_nat ?z] => let r := eval compute in (Z.to_nat z) in change (Z.to_nat z) with r
  end; cbn [nth].

Lemma excess_witness :
  zsum (ystart mesh2 + 1) (2 - 1) (fun j => face_area (c_J unit_coords) (c_g22 unit_coords) j
     * heating_excess upwind_edges (fun _ => 1) (values [0; 1; -1; 0]) (fun _ => 0) j) = 2.
Proof.
  cbn [zsum Nat.sub ystart mesh2]. rewrite unit_area.
  unfold heating_excess, face_speed, below, above, face_value, upwind_edges. cbn [fst snd].
  zify_idx. cbn [Z.of_nat]. zify_idx. vals.
  cases_R; lra.
Qed.

Lemma end_heating_negative :
  exists h w, Div_par_fvv_heating mc_edges mesh1 unit_coords (fun _ => 1) (values [0; 0; 2]) (fun _ => 0) true = Some (h, w) /\
    h 1%Z = - (1 / 2).
Proof.
  destruct (heating_closed mc_edges mesh1 unit_coords 1 (fun _ => 1) (values [0; 0; 2]) (fun _ => 0) true mesh1_ok unit_positive)
    as (h & w & E & D & _).
  exists h, w. split; [exact E|]. specialize (D 1%Z). cbn [ystart mesh1] in D. specialize (D ltac:(lia)).
  rewrite unit_volume, !unit_area in D.
  destruct (end_heating mc_edges mesh1 (fun _ => 1) (values [0; 0; 2]) (fun _ => 0)) as [HR HL].
  specialize (HR eq_refl). specialize (HL eq_refl). cbn [yend ystart mesh1] in HR, HL. fold mesh1 in HR, HL.
  rewrite HR, HL in D. revert D. unfold face_value. zify_idx. vals.
  intros D. lra.
Qed.

Lemma mc_heating_negative :
  exists h w, Div_par_fvv_heating mc_edges mesh_open1 unit_coords (fun _ => 1) (values [88; 88; 100; 110; 110]) (fun _ => 0) true = Some (h, w) /\
    h 2%Z < 0.
Proof.
  destruct (heating_closed mc_edges mesh_open1 unit_coords 1 (fun _ => 1) (values [88; 88; 100; 110; 110]) (fun _ => 0) true mesh_open1_ok unit_positive)
    as (h & w & E & D & _).
  exists h, w. split; [exact E|]. specialize (D 2%Z). cbn [ystart mesh_open1] in D. specialize (D ltac:(lia)).
  rewrite unit_volume, !unit_area in D.
  pose proof (heat_right_interior mc_edges mesh_open1 true (fun _ => 1) (values [88; 88; 100; 110; 110]) (fun _ => 0) 3 eq_refl) as HR.
  pose proof (heat_left_interior mc_edges mesh_open1 true (fun _ => 1) (values [88; 88; 100; 110; 110]) (fun _ => 0) 2 eq_refl) as HL.
  change (3 - 1)%Z with 2%Z in HR. rewrite HR, HL in D. revert D.
  unfold face_speed, below, above, face_value. zify_idx. vals.
  assert (M1 : mc_edges 88 100 110 = (94.5, 105.5)).
  { unfold mc_edges. destruct (minmod3_cases (2 * (110 - 100)) (0.5 * (110 - 88)) (2 * (100 - 88))) as [[H _]|[(A & B & C & ->)|H]]; try lra.
    f_equal; cases_R; lra. }
  assert (M2 : mc_edges 1 1 1 = (1, 1)).
  { apply mc_flat. lra. }
  rewrite M1, M2. cbn [fst snd]. intros D. rewrite Rmult_1_l in D. rewrite D. clear.
  cases_R; lra.
Qed.

(** With a free boundary flux the heating assumes another momentum flux than Div_par_fvv. *)
Lemma free_end_witness :
  exists rn wn rm h wh,
    Div_par_mod upwind_edges mesh1 unit_coords (values [1; 1; 3]) (fun _ => 1) (fun _ => 0) true = Some (rn, wn) /\
    Div_par_fvv upwind_edges mesh1 unit_coords (values [1; 1; 3]) (fun _ => 1) (fun _ => 0) false = Some rm /\
    Div_par_fvv_heating upwind_edges mesh1 unit_coords (values [1; 1; 3]) (fun _ => 1) (fun _ => 0) false = Some (h, wh) /\
    integral unit_coords 1 1 (fun j => kinetic_rate 1 (- rn j) (- rm j) + h j) = - (3 / 2).
Proof.
  set (f := values [1; 1; 3]).
  destruct (mod_divergence upwind_edges mesh1 unit_coords 1 f (fun _ => 1) (fun _ => 0) true mesh1_ok unit_positive) as (rn & wn & En & Dn & _).
  destruct (fvv_divergence upwind_edges mesh1 unit_coords 1 f (fun _ => 1) (fun _ => 0) false mesh1_ok unit_positive) as (rm & Em & Dm).
  destruct (heating_closed upwind_edges mesh1 unit_coords 1 f (fun _ => 1) (fun _ => 0) false mesh1_ok unit_positive) as (h & wh & Eh & Dh & _).
  exists rn, wn, rm, h, wh. do 3 (split; [assumption|]).
  cbn [ystart mesh1] in Dn, Dm, Dh. specialize (Dn 1%Z ltac:(lia)). specialize (Dm 1%Z ltac:(lia)). specialize (Dh 1%Z ltac:(lia)).
  unfold divergence_of in Dn, Dm. rewrite unit_volume, !unit_area in Dn, Dm, Dh.
  unfold integral. cbn [zsum]. change (1 + Z.of_nat 0)%Z with 1%Z. rewrite unit_volume. unfold kinetic_rate.
  fold mesh1 in Dn, Dm, Dh.
  assert (Xn : rn 1%Z = 1).
  { revert Dn. unfold mod_line, line_flux, closed_low, closed_high, mod_end, end_particle_flux, face_value.
    cbn [mesh1 firstY lastY periodicY andb negb ystart Z.eqb Z.add Z.of_nat Z.sub Pos.eqb orb Pos.add Pos.of_succ_nat Pos.succ].
    zify_idx. unfold f; vals. lra. }
  assert (Xm : rm 1%Z = 0).
  { revert Dm. unfold fvv_line, line_flux, closed_low, closed_high, fvv_end, fvv_free_low, fvv_free_high, face_value, below, above, upwind_edges.
    cbn [mesh1 firstY lastY periodicY andb negb ystart Z.eqb Z.add Z.of_nat Z.sub Pos.eqb orb Pos.add Pos.of_succ_nat Pos.succ fst snd].
    zify_idx. unfold f; vals. cases_R; lra. }
  assert (Xh : h 1%Z = -2).
  { revert Dh. unfold heat_right, heat_left, last_point, first_point, sL, sR, upwind_edges, BOUTMAX3, BOUTMAX.
    cbn [mesh1 firstY lastY periodicY andb negb ystart yend Z.eqb Z.add Z.of_nat Z.sub Pos.eqb orb Pos.add Pos.of_succ_nat Pos.succ fst snd].
    zify_idx. unfold f; vals. cases_R; lra. }
  rewrite Xn, Xm, Xh. lra.
Qed.
