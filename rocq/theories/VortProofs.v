(** Proofs for VortProps.v: the advection is homogeneous. *)

From Coq Require Import List Bool ZArith Reals Lra Lia.
From Verif Require Import StateMonad StateMonadProofs LimitersModel ParallelModel DiffusionModel ExBModel VortSpec.
Import ListNotations.
Open Scope R_scope.

Definition scale_deposit (c : R) (d : deposit) : deposit := mkDeposit (d_i d) (d_k d) (c * d_x d).

Lemma add_scale c r d i k : add (fun i k => c * r i k) (scale_deposit c d) i k = c * add r d i k.
Proof. unfold add, scale_deposit. cbn [d_i d_k d_x]. destruct (Z.eqb i (d_i d) && Z.eqb k (d_k d))%bool; ring. Qed.
Lemma fold_add_ext l r r' : (forall i k, r i k = r' i k) -> forall i k, fold_left add l r i k = fold_left add l r' i k.
Proof.
  revert r r'. induction l as [|d l IH]; intros r r' E i k; cbn [fold_left]; [apply E|]. apply IH. intros a b. unfold add. now rewrite E.
Qed.
Lemma fold_scale c l : forall r i k, fold_left add (map (scale_deposit c) l) (fun i k => c * r i k) i k = c * fold_left add l r i k.
Proof.
  induction l as [|d l IH]; intros r i k; cbn [map fold_left]; [reflexivity|]. rewrite <- IH. apply fold_add_ext. intros. apply add_scale.
Qed.
Lemma flat_map_map {A B} (g : B -> B) (f f' : A -> list B) l : (forall a, f' a = map g (f a)) -> flat_map f' l = map g (flat_map f l).
Proof. intros H. induction l as [|a l IH]; cbn [flat_map]; [reflexivity|]. now rewrite H, IH, map_app. Qed.

Lemma two_deposits i k x y i' k' x' y' : x = y -> x' = y' -> [mkDeposit i k x; mkDeposit i' k' x'] = [mkDeposit i k y; mkDeposit i' k' y'].
Proof. now intros -> ->. Qed.
Section Homogeneous.
  Context (edges : R -> R -> R -> R * R) (H : homogeneous edges) (c : R) (Hc : 0 <= c).
  Definition cn (n : Z -> Z -> R) : Z -> Z -> R := fun i k => c * n i k.
  Lemma right_scale m nz J dz n g f b i k : xz_right edges m nz J dz (cn n) g f b i k = option_map (Rmult c) (xz_right edges m nz J dz n g f b i k).
  Proof.
    unfold xz_right, x_edges, cn. cbv zeta. rewrite H by exact Hc. cbn [snd].
    destruct (Z.eqb i (xend m) && lastX m)%bool; [destruct b; [destruct (Rltb 0 _)|]|destruct (Rltb 0 _)]; cbn [option_map]; try reflexivity; f_equal; ring.
  Qed.
  Lemma left_scale m nz J dz n g f b i k : xz_left edges m nz J dz (cn n) g f b i k = option_map (Rmult c) (xz_left edges m nz J dz n g f b i k).
  Proof.
    unfold xz_left, x_edges, cn. cbv zeta. rewrite H by exact Hc. cbn [fst].
    destruct (Z.eqb i (xstart m) && firstX m)%bool; [destruct b; [destruct (Rltb _ 0)|]|destruct (Rltb _ 0)]; cbn [option_map]; try reflexivity; f_equal; ring.
  Qed.
  Lemma up_scale nz J dx dz n g f i k : xz_up edges nz J dx dz (cn n) g f i k = option_map (Rmult c) (xz_up edges nz J dx dz n g f i k).
  Proof.
    unfold xz_up, z_edges, cn. cbv zeta. rewrite H by exact Hc. cbn [snd]. destruct (Rltb 0 _); cbn [option_map]; [|reflexivity]. f_equal. unfold Rdiv. ring.
  Qed.
  Lemma down_scale nz J dx dz n g f i k : xz_down edges nz J dx dz (cn n) g f i k = option_map (Rmult c) (xz_down edges nz J dx dz n g f i k).
  Proof.
    unfold xz_down, z_edges, cn. cbv zeta. rewrite H by exact Hc. cbn [fst]. destruct (Rltb _ 0); cbn [option_map]; [|reflexivity]. f_equal. unfold Rdiv. ring.
  Qed.
  Lemma cell_scale m nz J dx dz n gf f b i k : xz_cell edges m nz J dx dz (cn n) gf f b i k = map (scale_deposit c) (xz_cell edges m nz J dx dz n gf f b i k).
  Proof.
    unfold xz_cell. rewrite right_scale, left_scale, up_scale, down_scale, !map_app.
    f_equal; [|f_equal; [|f_equal]].
    - destruct (xz_right _ _ _ _ _ _ _ _ _ _ _); cbn [option_map map]; [|reflexivity]. unfold scale_deposit. cbn [d_i d_k d_x]. apply two_deposits; unfold Rdiv; ring.
    - destruct (xz_left _ _ _ _ _ _ _ _ _ _ _); cbn [option_map map]; [|reflexivity]. unfold scale_deposit. cbn [d_i d_k d_x]. apply two_deposits; unfold Rdiv; ring.
    - destruct (xz_up _ _ _ _ _ _ _ _ _ _); cbn [option_map map]; [|reflexivity]. unfold scale_deposit. cbn [d_i d_k d_x]. apply two_deposits; unfold Rdiv; ring.
    - destruct (xz_down _ _ _ _ _ _ _ _ _ _); cbn [option_map map]; [|reflexivity]. unfold scale_deposit. cbn [d_i d_k d_x]. apply two_deposits; unfold Rdiv; ring.
  Qed.
  Lemma advection_scale procs N nz J dx dz n f b i k : XPPM_XZ edges procs N nz J dx dz (cn n) f b i k = c * XPPM_XZ edges procs N nz J dx dz n f b i k.
  Proof.
    unfold XPPM_XZ, xz_all.
    rewrite (flat_map_map (scale_deposit c) (fun p => xz_processor edges N (fst p) (snd p) nz J dx dz n g_none f b)).
    2:{ intros p. unfold xz_processor, xz_loop. cbv zeta. apply flat_map_map. intros x. apply flat_map_map. intros y. apply cell_scale. }
    rewrite <- fold_scale. apply fold_add_ext. intros. ring.
  Qed.
End Homogeneous.

Lemma half : 0.5 = / 2. Proof. lra. Qed.
Lemma quarter : 0.25 = / 4. Proof. lra. Qed.
Lemma upwind_homogeneous : homogeneous upwind_edges. Proof. intros c m x p Hc. reflexivity. Qed.
Lemma fromm_homogeneous : homogeneous fromm_edges. Proof. intros c m x p Hc. unfold fromm_edges. cbn [fst snd]. rewrite quarter. f_equal; ring. Qed.
Lemma Rltb_scale c a b : 0 < c -> Rltb (c * a) (c * b) = Rltb a b.
Proof. intros Hc. pose proof (Rltb_spec a b) as RS. destruct (Rltb a b); [apply Rltb_true|apply Rltb_false]; nra. Qed.
Lemma Rltb_scale0 c a : 0 < c -> Rltb (c * a) 0 = Rltb a 0.
Proof. intros Hc. pose proof (Rltb_scale c a 0 Hc) as E. now rewrite Rmult_0_r in E. Qed.
Lemma Rleb_scale0 c a b : 0 < c -> Rleb (c * a * (c * b)) 0 = Rleb (a * b) 0.
Proof.
  intros Hc. unfold Rleb. replace (c * a * (c * b)) with (c * c * (a * b)) by ring.
  destruct (Rle_dec (c * c * (a * b)) 0), (Rle_dec (a * b) 0); try reflexivity; exfalso; assert (0 < c * c) by nra; nra.
Qed.
Lemma minmod2_scale c a b : 0 < c -> minmod2 (c * a) (c * b) = c * minmod2 a b.
Proof.
  intros Hc. unfold minmod2. rewrite Rleb_scale0 by exact Hc. rewrite !Rabs_mult, (Rabs_right c) by lra. rewrite Rltb_scale by exact Hc.
  destruct (Rleb (a * b) 0); [ring|]. destruct (Rltb (Rabs a) (Rabs b)); reflexivity.
Qed.
Lemma min_scale c a b : 0 < c -> BOUTMIN (c * a) (c * b) = c * BOUTMIN a b.
Proof. intros Hc. unfold BOUTMIN. rewrite Rltb_scale by exact Hc. now destruct (Rltb a b). Qed.
Lemma minmod3_scale c a b d : 0 < c -> minmod3 (c * a) (c * b) (c * d) = c * minmod3 a b d.
Proof.
  intros Hc. unfold minmod3. rewrite !Rleb_scale0 by exact Hc. destruct (Rleb (a * b) 0 || Rleb (a * d) 0)%bool; [ring|].
  rewrite !Rabs_mult, (Rabs_right c) by lra. unfold BOUTMIN3. rewrite !min_scale by exact Hc. unfold SIGN. rewrite Rltb_scale0 by exact Hc. ring.
Qed.
Lemma minmod_homogeneous : homogeneous minmod_edges.
Proof.
  intros c m x p Hc. unfold minmod_edges. cbn [fst snd]. destruct (Req_dec c 0) as [->|Z].
  - rewrite !Rmult_0_l. replace (minmod2 (0 - 0) (0 - 0)) with 0; [f_equal; ring|]. unfold minmod2, Rleb. destruct (Rle_dec _ 0) as [|N]; [reflexivity|]. exfalso; apply N; lra.
  - rewrite <- !Rmult_minus_distr_l, minmod2_scale by lra. f_equal; ring.
Qed.
Lemma mc_homogeneous : homogeneous mc_edges.
Proof.
  intros c m x p Hc. unfold mc_edges. cbn [fst snd]. destruct (Req_dec c 0) as [->|Z].
  - rewrite !Rmult_0_l. replace (minmod3 (2 * (0 - 0)) (0.5 * (0 - 0)) (2 * (0 - 0))) with 0; [f_equal; ring|].
    unfold minmod3, Rleb. destruct (Rle_dec _ 0) as [|N]; [reflexivity|]. exfalso; apply N; lra.
  - replace (2 * (c * p - c * x)) with (c * (2 * (p - x))) by ring. replace (0.5 * (c * p - c * m)) with (c * (0.5 * (p - m))) by ring.
    replace (2 * (c * x - c * m)) with (c * (2 * (x - m))) by ring. rewrite minmod3_scale by lra. f_equal; ring.
Qed.
