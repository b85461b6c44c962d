(** Splitting a field line between processors; kinetic energy. *)

From Coq Require Import List Bool ZArith Reals Lra Lia.
From Verif Require Import StateMonad LimitersModel LimitersSpec LimitersProofs ParallelModel ParallelSpec ParallelProofs ParallelLaws.
Import ListNotations.
Open Scope R_scope.

Lemma piece_ok N per g a n :
  (2 <= g)%Z -> (0 < n)%nat -> mesh_ok (piece N per g a n) n.
Proof.
  intros G Hn. unfold piece, mesh_ok, guards_ok, closed_low, closed_high. cbn [ystart yend LocalNy firstY lastY periodicY].
  split; [exact Hn|]. split; [lia|]. destruct (_ && _)%bool, (_ && _)%bool; lia.
Qed.

Lemma local_positive g a c : positive_metric c -> positive_metric (local_coords g a c).
Proof. intros P j. exact (P (j + (a - g))%Z). Qed.

Lemma local_local g a F j : local g a F j = local g 0 F (j + a)%Z.
Proof. unfold local. f_equal. lia. Qed.

Section shifted.
Variables (edges : R -> R -> R -> R * R) (g a : Z).

Ltac shift :=
  repeat match goal with
  | |- context [(?x + a - 1)%Z] => replace (x + a - 1)%Z with (x - 1 + a)%Z by lia
  | |- context [(?x + a - 2)%Z] => replace (x + a - 2)%Z with (x - 2 + a)%Z by lia
  | |- context [(?x + a + 1)%Z] => replace (x + a + 1)%Z with (x + 1 + a)%Z by lia
  end.

Lemma shift_below f j : below edges (local g a f) j = below edges (local g 0 f) (j + a).
Proof. unfold below. shift. rewrite <- !local_local. reflexivity. Qed.
Lemma shift_above f j : above edges (local g a f) j = above edges (local g 0 f) (j + a).
Proof. unfold above. shift. rewrite <- !local_local. reflexivity. Qed.
Lemma shift_face_value f j : face_value (local g a f) j = face_value (local g 0 f) (j + a).
Proof. unfold face_value. shift. rewrite <- !local_local. reflexivity. Qed.
Lemma shift_speed v ws j : face_speed (local g a v) (local g a ws) j = face_speed (local g 0 v) (local g 0 ws) (j + a).
Proof. unfold face_speed. shift. rewrite <- !local_local. reflexivity. Qed.
Lemma shift_area J g22 j : face_area (local g a J) (local g a g22) j = face_area (local g 0 J) (local g 0 g22) (j + a).
Proof. unfold face_area. shift. rewrite <- !local_local. reflexivity. Qed.
Lemma shift_area1 J g22 j : face_area (local g a J) (local g a g22) (j + 1) = face_area (local g 0 J) (local g 0 g22) (j + a + 1).
Proof. rewrite shift_area. f_equal. lia. Qed.
Lemma shift_volume J dy j : cell_volume (local g a J) (local g a dy) j = cell_volume (local g 0 J) (local g 0 dy) (j + a).
Proof. unfold cell_volume. rewrite <- !local_local. reflexivity. Qed.

Variables (N : Z) (per : bool) (n : nat).
Hypotheses (Hn : (0 < n)%nat) (Ha : (0 <= a)%Z) (HN : (a + Z.of_nat n <= N)%Z).

Lemma closed_low_piece : closed_low (piece N per g a n) = (Z.eqb a 0 && negb per)%bool. Proof. reflexivity. Qed.
Lemma closed_high_piece : closed_high (piece N per g a n) = (Z.eqb (a + Z.of_nat n) N && negb per)%bool. Proof. reflexivity. Qed.

(** A face of the piece is closed exactly if it is a closed face of the whole line. *)
Lemma line_piece interior bndry interior' bndry' j :
  (g <= j <= g + Z.of_nat n)%Z ->
  interior j = interior' (j + a)%Z -> 
  ((j = g /\ a = 0 \/ j = g + Z.of_nat n /\ a + Z.of_nat n = N)%Z -> bndry j = bndry' (j + a)%Z) ->
  line_flux interior bndry (closed_low (piece N per g a n)) (closed_high (piece N per g a n)) g n j
  = line_flux interior' bndry' (closed_low (piece N per g 0 (Z.to_nat N))) (closed_high (piece N per g 0 (Z.to_nat N))) g (Z.to_nat N) (j + a)%Z.
Proof.
  intros Hj Hi Hb. unfold line_flux, closed_low, closed_high, piece. cbn [firstY lastY periodicY].
  rewrite Z.eqb_refl. replace (0 + Z.of_nat (Z.to_nat N))%Z with N by lia. rewrite Z.eqb_refl.
  rewrite Z2Nat.id by lia. destruct per; cbn [negb andb]; rewrite ?andb_false_r, ?andb_true_r; cbn [andb orb]; [exact Hi|].
  destruct (Z.eqb_spec a 0), (Z.eqb_spec (a + Z.of_nat n) N), (Z.eqb_spec j g), (Z.eqb_spec j (g + Z.of_nat n)),
    (Z.eqb_spec (j + a) g), (Z.eqb_spec (j + a) (g + N)); cbn [andb orb]; try lia; try exact Hi; apply Hb; lia.
Qed.

Lemma mod_line_piece fixflux f v ws j :
  (g <= j <= g + Z.of_nat n)%Z ->
  mod_line edges (piece N per g a n) fixflux (local g a f) (local g a v) (local g a ws) n j
  = mod_line edges (piece N per g 0 (Z.to_nat N)) fixflux (local g 0 f) (local g 0 v) (local g 0 ws) (Z.to_nat N) (j + a)%Z.
Proof.
  intros Hj. unfold mod_line. apply line_piece; [exact Hj| |].
  - unfold particle_flux. rewrite !shift_below, !shift_above, shift_speed. reflexivity.
  - intros B. unfold mod_end, end_particle_flux, free_end_flux_low, free_end_flux_high. cbn [piece ystart].
    rewrite !shift_below, !shift_above, !shift_face_value. rewrite (local_local g a ws j), (local_local g a ws (j - 1)).
    replace (j - 1 + a)%Z with (j + a - 1)%Z by lia.
    destruct (Z.eqb_spec j g), (Z.eqb_spec (j + a) g); try lia; reflexivity.
Qed.

Lemma fvv_line_piece fixflux f v ws j :
  (g <= j <= g + Z.of_nat n)%Z ->
  fvv_line edges (piece N per g a n) fixflux (local g a f) (local g a v) (local g a ws) n j
  = fvv_line edges (piece N per g 0 (Z.to_nat N)) fixflux (local g 0 f) (local g 0 v) (local g 0 ws) (Z.to_nat N) (j + a)%Z.
Proof.
  intros Hj. unfold fvv_line. apply line_piece; [exact Hj| |].
  - unfold momentum_flux. rewrite !shift_below, !shift_above, shift_speed. reflexivity.
  - intros B. unfold fvv_end, end_momentum_flux, fvv_free_low, fvv_free_high. cbn [piece ystart].
    rewrite !shift_below, !shift_above, !shift_face_value.
    rewrite (local_local g a ws j), (local_local g a ws (j - 1)), (local_local g a v j), (local_local g a v (j - 1)).
    replace (j - 1 + a)%Z with (j + a - 1)%Z by lia.
    destruct (Z.eqb_spec j g), (Z.eqb_spec (j + a) g); try lia; reflexivity.
Qed.
End shifted.


Lemma mod_piece edges N per g a n c f v ws fixflux :
  (2 <= g)%Z -> (0 < n)%nat -> (0 <= a)%Z -> (a + Z.of_nat n <= N)%Z -> positive_metric c ->
  exists r w r' w',
    Div_par_mod edges (piece N per g a n) (local_coords g a c) (local g a f) (local g a v) (local g a ws) fixflux = Some (r, w) /\
    Div_par_mod edges (piece N per g 0 (Z.to_nat N)) (local_coords g 0 c) (local g 0 f) (local g 0 v) (local g 0 ws) fixflux = Some (r', w') /\
    forall k, (0 <= k < Z.of_nat n)%Z -> r (g + k)%Z = r' (g + (a + k))%Z.
Proof.
  intros G Hn Ha HN P.
  destruct (mod_divergence edges (piece N per g a n) (local_coords g a c) n (local g a f) (local g a v) (local g a ws) fixflux)
    as (r & w & E & D & _); [now apply piece_ok|now apply local_positive|].
  destruct (mod_divergence edges (piece N per g 0 (Z.to_nat N)) (local_coords g 0 c) (Z.to_nat N) (local g 0 f) (local g 0 v) (local g 0 ws) fixflux)
    as (r' & w' & E' & D' & _); [apply piece_ok; lia|now apply local_positive|].
  exists r, w, r', w'. split; [exact E|]. split; [exact E'|]. intros k Hk.
  cbn [piece ystart] in D, D'.
  pose proof (D (g + k)%Z ltac:(lia)) as X. pose proof (D' (g + (a + k))%Z ltac:(lia)) as Y.
  unfold divergence_of in X, Y. unfold local_coords in X, Y. cbn [c_J c_g22 c_dy] in X, Y.
  replace (g + (a + k))%Z with (g + k + a)%Z in * by lia.
  rewrite (shift_volume g a), (shift_area1 g a), (shift_area g a _ _ (g + k)), !(mod_line_piece edges g a N per n Hn Ha HN) in X by lia.
  replace (g + k + 1 + a)%Z with (g + k + a + 1)%Z in X by lia. rewrite <- Y in X.
  apply Rmult_eq_reg_l in X; [exact X|]. unfold cell_volume, local.
  destruct (P (g + k + a + (0 - g))%Z) as (PJ & _ & Pd). apply Rmult_integral_contrapositive_currified; lra.
Qed.

Lemma fvv_piece edges N per g a n c f v ws fixflux :
  (2 <= g)%Z -> (0 < n)%nat -> (0 <= a)%Z -> (a + Z.of_nat n <= N)%Z -> positive_metric c ->
  exists r r',
    Div_par_fvv edges (piece N per g a n) (local_coords g a c) (local g a f) (local g a v) (local g a ws) fixflux = Some r /\
    Div_par_fvv edges (piece N per g 0 (Z.to_nat N)) (local_coords g 0 c) (local g 0 f) (local g 0 v) (local g 0 ws) fixflux = Some r' /\
    forall k, (0 <= k < Z.of_nat n)%Z -> r (g + k)%Z = r' (g + (a + k))%Z.
Proof.
  intros G Hn Ha HN P.
  destruct (fvv_divergence edges (piece N per g a n) (local_coords g a c) n (local g a f) (local g a v) (local g a ws) fixflux)
    as (r & E & D); [now apply piece_ok|now apply local_positive|].
  destruct (fvv_divergence edges (piece N per g 0 (Z.to_nat N)) (local_coords g 0 c) (Z.to_nat N) (local g 0 f) (local g 0 v) (local g 0 ws) fixflux)
    as (r' & E' & D'); [apply piece_ok; lia|now apply local_positive|].
  exists r, r'. split; [exact E|]. split; [exact E'|]. intros k Hk.
  cbn [piece ystart] in D, D'.
  pose proof (D (g + k)%Z ltac:(lia)) as X. pose proof (D' (g + (a + k))%Z ltac:(lia)) as Y.
  unfold divergence_of in X, Y. unfold local_coords in X, Y. cbn [c_J c_g22 c_dy] in X, Y.
  replace (g + (a + k))%Z with (g + k + a)%Z in * by lia.
  rewrite (shift_volume g a), (shift_area1 g a), (shift_area g a _ _ (g + k)), !(fvv_line_piece edges g a N per n Hn Ha HN) in X by lia.
  replace (g + k + 1 + a)%Z with (g + k + a + 1)%Z in X by lia. rewrite <- Y in X.
  apply Rmult_eq_reg_l in X; [exact X|]. unfold cell_volume, local.
  destruct (P (g + k + a + (0 - g))%Z) as (PJ & _ & Pd). apply Rmult_integral_contrapositive_currified; lra.
Qed.

(** Gathering the pieces. *)
Lemma cells_app g a n1 n2 (r' : Z -> R) :
  map (fun k => r' (g + (a + Z.of_nat k))%Z) (seq 0 (n1 + n2))
  = (map (fun k => r' (g + (a + Z.of_nat k))%Z) (seq 0 n1)
     ++ map (fun k => r' (g + (a + Z.of_nat n1 + Z.of_nat k))%Z) (seq 0 n2))%list.
Proof.
  rewrite seq_app, map_app. f_equal. rewrite <- (Nat.add_0_r n1) at 1. rewrite Nat.add_0_l.
  replace (n1 + 0)%nat with n1 by lia.
  replace (seq n1 n2) with (map (fun k => (n1 + k)%nat) (seq 0 n2)).
  - rewrite map_map. apply map_ext. intros k. f_equal. lia.
  - clear. revert n1. induction n2 as [|n2 IH]; intros n1; [reflexivity|].
    rewrite !seq_S, map_app, IH. cbn. reflexivity.
Qed.

Lemma gather_pieces (run : Z -> nat -> option (list R)) g r' N sizes :
  (forall a n, (0 < n)%nat -> (0 <= a)%Z -> (a + Z.of_nat n <= N)%Z ->
     run a n = Some (map (fun k => r' (g + (a + Z.of_nat k))%Z) (seq 0 n))) ->
  Forall (fun n => (0 < n)%nat) sizes ->
  forall a, (0 <= a)%Z -> (a + Z.of_nat (list_sum sizes) <= N)%Z ->
  gather (map (fun p => run (fst p) (snd p)) (pieces a sizes))
  = Some (map (fun k => r' (g + (a + Z.of_nat k))%Z) (seq 0 (list_sum sizes))).
Proof.
  intros H F. induction F as [|n sizes Hn F IH]; intros a Ha HN; [reflexivity|].
  cbn [pieces map fst snd]. cbn [list_sum fold_right] in *. fold (list_sum sizes) in *.
  rewrite H by lia. cbn [gather]. rewrite IH by lia. rewrite cells_app. reflexivity.
Qed.


Lemma mod_split edges per g c f v ws fixflux sizes :
  (2 <= g)%Z -> sizes <> [] -> Forall (fun n => (0 < n)%nat) sizes -> positive_metric c ->
  let N := Z.of_nat (list_sum sizes) in
  gather (map (fun p => mod_cells edges N per g c f v ws fixflux (fst p) (snd p)) (pieces 0 sizes))
  = mod_cells edges N per g c f v ws fixflux 0 (list_sum sizes) /\
  mod_cells edges N per g c f v ws fixflux 0 (list_sum sizes) <> None.
Proof.
  intros G Ne F P N.
  assert (NP : (0 < list_sum sizes)%nat).
  { destruct F as [|n s Hn F']; [congruence|]. cbn [list_sum fold_right]. lia. }
  destruct (mod_piece edges N per g 0 (list_sum sizes) c f v ws fixflux G NP) as (r & w & r' & w' & E & E' & _); [lia|lia|exact P|].
  assert (N' : Z.to_nat N = list_sum sizes) by (unfold N; lia). rewrite N' in E'.
  rewrite E in E'. injection E' as <- <-.
  assert (C : mod_cells edges N per g c f v ws fixflux 0 (list_sum sizes) = Some (cells g (list_sum sizes) r)).
  { unfold mod_cells. rewrite E. reflexivity. }
  rewrite C. split; [|discriminate].
  rewrite (gather_pieces _ g r N sizes); [reflexivity| |exact F|lia|lia].
  intros a n Hn Ha HN. destruct (mod_piece edges N per g a n c f v ws fixflux G Hn Ha HN P) as (r1 & w1 & r2 & w2 & E1 & E2 & H).
  rewrite N', E in E2. injection E2 as <- <-. unfold mod_cells. rewrite E1. unfold cells. f_equal.
  apply map_ext_in. intros k Hk. apply in_seq in Hk. apply H. lia.
Qed.

Lemma fvv_split edges per g c f v ws fixflux sizes :
  (2 <= g)%Z -> sizes <> [] -> Forall (fun n => (0 < n)%nat) sizes -> positive_metric c ->
  let N := Z.of_nat (list_sum sizes) in
  gather (map (fun p => fvv_cells edges N per g c f v ws fixflux (fst p) (snd p)) (pieces 0 sizes))
  = fvv_cells edges N per g c f v ws fixflux 0 (list_sum sizes) /\
  fvv_cells edges N per g c f v ws fixflux 0 (list_sum sizes) <> None.
Proof.
  intros G Ne F P N.
  assert (NP : (0 < list_sum sizes)%nat).
  { destruct F as [|n s Hn F']; [congruence|]. cbn [list_sum fold_right]. lia. }
  destruct (fvv_piece edges N per g 0 (list_sum sizes) c f v ws fixflux G NP) as (r & r' & E & E' & _); [lia|lia|exact P|].
  assert (N' : Z.to_nat N = list_sum sizes) by (unfold N; lia). rewrite N' in E'.
  rewrite E in E'. injection E' as <-.
  assert (C : fvv_cells edges N per g c f v ws fixflux 0 (list_sum sizes) = Some (cells g (list_sum sizes) r)).
  { unfold fvv_cells. rewrite E. reflexivity. }
  rewrite C. split; [|discriminate].
  rewrite (gather_pieces _ g r N sizes); [reflexivity| |exact F|lia|lia].
  intros a n Hn Ha HN. destruct (fvv_piece edges N per g a n c f v ws fixflux G Hn Ha HN P) as (r1 & r2 & E1 & E2 & H).
  rewrite N', E in E2. injection E2 as <-. unfold fvv_cells. rewrite E1. unfold cells. f_equal.
  apply map_ext_in. intros k Hk. apply in_seq in Hk. apply H. lia.
Qed.
