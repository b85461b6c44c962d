(** Conservation laws of the ExB advection operators. *)

From Coq Require Import List Bool ZArith Reals Lra Lia.
From Verif Require Import StateMonad LimitersModel LimitersSpec LimitersProofs ParallelModel ParallelSpec ParallelProofs ParallelLaws
  DiffusionModel DiffusionSpec DiffusionProofs DiffusionProofs2 ExBModel ExBSpec ExBProofs.
Import ListNotations.
Open Scope R_scope.

Lemma vR_face nz J dz h f i k : (0 <= k < nz)%Z -> (forall i, dz i = h) -> vR nz J dz f i k = x_velocity nz J h f (i + 1) k.
Proof.
  intros Hk Hd. unfold vR, x_velocity, corner, fpp, fpm. rewrite Hd, zminus_plus by assumption. replace (i + 1 - 1)%Z with i by lia.
  unfold Rdiv. replace 0.5 with (/ 2) by lra. replace 0.25 with (/ 4) by lra. ring.
Qed.
Lemma vL_face nz J dz h f i k : (0 <= k < nz)%Z -> (forall i, dz i = h) -> vL nz J dz f i k = x_velocity nz J h f i k.
Proof.
  intros Hk Hd. unfold vL, x_velocity, corner, fmp, fmm. rewrite Hd, zminus_plus by assumption.
  unfold Rdiv. replace 0.5 with (/ 2) by lra. replace 0.25 with (/ 4) by lra. ring.
Qed.
Lemma vU_face nz J dx f i k : (0 <= k < nz)%Z -> vU nz J dx f i k = z_velocity nz J dx f i (zplus nz k).
Proof.
  intros Hk. unfold vU, z_velocity, corner, fmp, fpp. rewrite zminus_plus by assumption. replace (i + 1 - 1)%Z with i by lia.
  unfold Rdiv. replace 0.25 with (/ 4) by lra. ring.
Qed.
Lemma vD_face nz J dx f i k : vD nz J dx f i k = z_velocity nz J dx f i k.
Proof.
  unfold vD, z_velocity, corner, fmm, fpm. replace (i + 1 - 1)%Z with i by lia.
  unfold Rdiv. replace 0.25 with (/ 4) by lra. ring.
Qed.

Definition faces_match nz (gf : Z -> Z -> g_faces) (gx gz : Z -> Z -> R) : Prop :=
  forall i k, (0 <= k < nz)%Z ->
    g_R (gf i k) = gx (i + 1)%Z k /\ g_L (gf i k) = gx i k /\ g_U (gf i k) = gz i (zplus nz k) /\ g_D (gf i k) = gz i k.

Lemma none_match nz : faces_match nz g_none one_faces one_faces.
Proof. intros i k _. unfold g_none, one_faces. cbn [g_R g_L g_U g_D]. auto. Qed.
Lemma mean_match nz g : faces_match nz (g_mean nz g) (mean_x g) (mean_z nz g).
Proof.
  intros i k Hk. unfold g_mean, mean_x, mean_z. cbn [g_R g_L g_U g_D]. rewrite zminus_plus by assumption.
  replace (i + 1 - 1)%Z with i by lia. repeat split; lra.
Qed.

Section Laws.
  Context (edges : R -> R -> R -> R * R) (nzn : nat) (J dx dz : Z -> R) (h : R) (n f : Z -> Z -> R) (gf : Z -> Z -> g_faces)
          (gx gz : Z -> Z -> R) (bf : bool) (N : Z).
  Let nz := Z.of_nat nzn.
  Hypothesis HJ : forall i, 0 < J i.
  Hypothesis Hdx : forall i, 0 < dx i.
  Hypothesis Hh : 0 < h.
  Hypothesis Hdz : forall i, dz i = h.
  Hypothesis Hg : faces_match nz gf gx gz.

  Notation FR := (FR edges (whole N) nz J dz n gf f bf).
  Notation FL := (FL edges (whole N) nz J dz n gf f bf).
  Notation FU := (FU edges nz J dx dz n gf f).
  Notation FD := (FD edges nz J dx dz n gf f).

  Lemma upwind_split v a b g : (if Rltb 0 v then v * a * g else 0) + (if Rltb v 0 then v * b * g else 0) = upwind v a b * g.
  Proof.
    unfold upwind, Rltb. destruct (Rlt_dec 0 v), (Rlt_dec v 0); try lra. replace v with 0 by lra. ring.
  Qed.

  Lemma x_face_right i k : (0 <= i < N)%Z -> (0 <= k < nz)%Z ->
    FR i k + (if Z.eqb (i + 1) N then 0 else FL (i + 1) k) = x_line edges nz J h n gx f bf N (i + 1) k.
  Proof using Hdz Hg.
    intros Hi Hk. unfold ExBProofs.FR, ExBProofs.FL, x_line, xz_right, xz_left, whole. cbn [xstart xend firstX lastX].
    rewrite !andb_true_r. destruct (Hg i k Hk) as (G1 & _). destruct (Hg (i + 1)%Z k Hk) as (_ & G2 & _). rewrite G1, G2.
    rewrite (vR_face _ _ _ h) by assumption. rewrite (vL_face _ _ _ h) by assumption.
    replace (Z.eqb (i + 1) 0) with false by (symmetry; apply Z.eqb_neq; lia).
    destruct (Z.eqb_spec (i + 1) N) as [E|E].
    - replace (Z.eqb i (N - 1)) with true by (symmetry; apply Z.eqb_eq; lia). destruct bf; cbn [val]; [|lra].
      unfold x_flux_high, upwind, below, x_edges. rewrite <- E. replace (i + 1 - 2)%Z with (i - 1)%Z by lia. replace (i + 1 - 1)%Z with i by lia.
      unfold Rltb. destruct (Rlt_dec 0 (x_velocity nz J h f (i + 1) k)); lra.
    - replace (Z.eqb i (N - 1)) with false by (symmetry; apply Z.eqb_neq; lia).
      unfold x_flux, x_edges. rewrite <- upwind_split. unfold below, above. replace (i + 1 - 2)%Z with (i - 1)%Z by lia. replace (i + 1 - 1)%Z with i by lia.
      destruct (Rltb 0 _), (Rltb _ 0); cbn [val]; reflexivity.
  Qed.

  Lemma x_face_left i k : (0 <= i < N)%Z -> (0 <= k < nz)%Z ->
    FL i k + (if Z.eqb i 0 then 0 else FR (i - 1) k) = x_line edges nz J h n gx f bf N i k.
  Proof using Hdz Hg.
    intros Hi Hk. destruct (Z.eqb_spec i 0) as [E|E].
    - subst i. unfold ExBProofs.FL, x_line, xz_left, whole. cbn [xstart xend firstX lastX]. rewrite !Z.eqb_refl, !andb_true_r.
      destruct (Hg 0%Z k Hk) as (_ & G2 & _). rewrite G2. rewrite (vL_face _ _ _ h) by assumption.
      destruct bf; cbn [val]; [|lra]. unfold x_flux_low, upwind, above, x_edges. change (0 - 1)%Z with (-1)%Z.
      unfold Rltb. destruct (Rlt_dec (x_velocity nz J h f 0 k) 0), (Rlt_dec 0 (x_velocity nz J h f 0 k)); try lra.
      replace (x_velocity nz J h f 0 k) with 0 by lra. ring.
    - pose proof (x_face_right (i - 1) k) as A. replace (i - 1 + 1)%Z with i in A by lia.
      rewrite <- A by lia. replace (Z.eqb i N) with false by (symmetry; apply Z.eqb_neq; lia). ring.
  Qed.

  Lemma z_face i k : (0 <= k < nz)%Z -> FU i k + FD i (zplus nz k) = z_flux_exb edges nz J dx n gz f i (zplus nz k) / (J i * h).
  Proof using Hdz Hg HJ Hh.
    intros Hk. unfold ExBProofs.FU, ExBProofs.FD, xz_up, xz_down, z_flux_exb.
    assert (Hp : (0 <= zplus nz k < nz)%Z) by (apply zplus_range; lia).
    destruct (Hg i k Hk) as (_ & _ & G1 & _). destruct (Hg i (zplus nz k) Hp) as (_ & _ & _ & G2). rewrite G1, G2.
    rewrite vU_face, vD_face by assumption. rewrite <- upwind_split. unfold z_edges, z_below, z_above. rewrite zminus_plus by assumption.
    rewrite Hdz. pose proof (HJ i).
    destruct (Rltb 0 _), (Rltb _ 0); cbn [val]; field; lra.
  Qed.

  Lemma cell_divergence i k sizes : Forall (fun s => (0 < s)%nat) sizes -> N = Z.of_nat (list_sum sizes) ->
    (0 <= i < N)%Z -> (0 <= k < nz)%Z ->
    xz_all edges (processors 0 sizes) N nz J dx dz n gf f bf i k
    = (x_line edges nz J h n gx f bf N (i + 1) k - x_line edges nz J h n gx f bf N i k) / (dx i * J i)
      + (z_flux_exb edges nz J dx n gz f i (zplus nz k) - z_flux_exb edges nz J dx n gz f i k) / (J i * h).
  Proof using Hdz Hg HJ Hh Hdx.
    intros Hs HN Hi Hk. unfold xz_all. rewrite fold_add.
    rewrite (split_loops edges N nz J dx dz n gf f bf sizes 0) by (assumption || lia).
    replace (0 + Z.of_nat (list_sum sizes) - 1)%Z with (N - 1)%Z by lia.
    change (flat_map _ (irange 0 (N - 1))) with (xz_loop edges (whole N) nz J dx dz n gf f bf).
    rewrite (loop_hits edges (whole N) nz J dx dz n gf f bf (list_sum sizes) nzn);
      [|reflexivity|unfold whole; cbn [xstart xend]; lia|assumption|unfold whole; cbn [xstart]; lia].
    cbn [xstart whole]. unfold within.
    rewrite <- x_face_right, <- x_face_left by assumption.
    pose proof (z_face i k Hk) as Z1.
    assert (Hm : (0 <= zminus nz k < nz)%Z) by (apply zminus_range; lia).
    pose proof (z_face i (zminus nz k) Hm) as Z2. rewrite zplus_minus in Z2 by assumption.
    replace ((z_flux_exb edges nz J dx n gz f i (zplus nz k) - z_flux_exb edges nz J dx n gz f i k) / (J i * h))
      with (z_flux_exb edges nz J dx n gz f i (zplus nz k) / (J i * h) - z_flux_exb edges nz J dx n gz f i k / (J i * h))
      by (pose proof (HJ i); field; lra).
    rewrite <- Z1, <- Z2.
    replace (Z.leb 0 (i - 1) && Z.ltb (i - 1) (0 + Z.of_nat (list_sum sizes)))%bool with (negb (Z.eqb i 0))
      by (destruct (Z.eqb_spec i 0), (Z.leb_spec 0 (i - 1)), (Z.ltb_spec (i - 1) (0 + Z.of_nat (list_sum sizes))); cbn; auto; lia).
    replace (Z.leb 0 (i + 1) && Z.ltb (i + 1) (0 + Z.of_nat (list_sum sizes)))%bool with (negb (Z.eqb (i + 1) N))
      by (destruct (Z.eqb_spec (i + 1) N), (Z.leb_spec 0 (i + 1)), (Z.ltb_spec (i + 1) (0 + Z.of_nat (list_sum sizes))); cbn; auto; lia).
    pose proof (HJ i). pose proof (Hdx i).
    destruct (Z.eqb i 0), (Z.eqb (i + 1) N); cbn [negb]; field; lra.
  Qed.

  (** Integral over the domain. *)
  Lemma cell_total sizes : (0 < nzn)%nat -> Forall (fun s => (0 < s)%nat) sizes -> N = Z.of_nat (list_sum sizes) ->
    total2 (fun i _ => J i * dx i) 0 (list_sum sizes) 0 nzn (xz_all edges (processors 0 sizes) N nz J dx dz n gf f bf)
    = zsum 0 nzn (fun k => x_line edges nz J h n gx f bf N N k - x_line edges nz J h n gx f bf N 0 k).
  Proof using Hdz Hg HJ Hh Hdx.
    intros Hz Hs HN. unfold total2.
    rewrite (zsum_ext 0 (list_sum sizes) _ (fun i =>
      zsum 0 nzn (fun k => x_line edges nz J h n gx f bf N (i + 1) k - x_line edges nz J h n gx f bf N i k)
      + dx i / h * zsum 0 nzn (fun k => z_flux_exb edges nz J dx n gz f i (zplus nz k) - z_flux_exb edges nz J dx n gz f i k))).
    - rewrite zsum_plus.
      rewrite (zsum_ext 0 (list_sum sizes) (fun i => dx i / h * _) (fun _ => 0)).
      + rewrite zsum_zero. rewrite zsum_swap.
        rewrite (zsum_ext 0 nzn _ (fun k => x_line edges nz J h n gx f bf N N k - x_line edges nz J h n gx f bf N 0 k)); [ring|].
        intros k Hk. rewrite (zsum_telescope 0 (list_sum sizes) (fun i => x_line edges nz J h n gx f bf N i k)). replace (0 + Z.of_nat (list_sum sizes))%Z with N by lia. reflexivity.
      + intros i Hi. pose proof (zsum_rotate nzn (z_flux_exb edges nz J dx n gz f i) Hz) as E. fold nz in E.
        rewrite (zsum_minus 0 nzn (fun k => z_flux_exb edges nz J dx n gz f i (zplus nz k)) (z_flux_exb edges nz J dx n gz f i)).
        rewrite E. ring.
    - intros i Hi. rewrite <- zsum_scal, <- zsum_plus. apply zsum_ext. intros k Hk.
      rewrite (cell_divergence i k sizes) by (assumption || (unfold nz; lia)).
      pose proof (HJ i). pose proof (Hdx i). field. lra.
  Qed.
End Laws.
