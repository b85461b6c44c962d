(** Radial hyper-diffusion, operators periodic in Z, and the X-Y Laplacian. *)

From Coq Require Import List Bool ZArith Reals Lra Lia.
From Verif Require Import ParallelModel ParallelSpec ParallelProofs ParallelLaws ParallelHeating
  DiffusionModel DiffusionSpec DiffusionProofs.
Import ListNotations.
Open Scope R_scope.

(** ** D4DX4_FV_Index *)


Definition d4_left_value m J dx f b j i : R := match d4_left m J dx f b j i with Some x => x | None => 0 end.

Lemma zsum_shiftm lo n i g :
  zsum lo n (fun j => if Z.eqb i (j - 1) then g j else 0) = if (Z.leb lo (i + 1) && Z.ltb (i + 1) (lo + Z.of_nat n))%bool then g (i + 1)%Z else 0.
Proof.
  rewrite <- zsum_indicator. apply zsum_ext. intros j _.
  destruct (Z.eqb_spec i (j - 1)), (Z.eqb_spec (i + 1) j); lia || reflexivity.
Qed.

Lemma d4_cell m n J dx f b j i : xmesh_ok m n -> (forall i, 0 < J i) -> (forall i, 0 < dx i) ->
  (xstart m <= i < xstart m + Z.of_nat n)%Z ->
  J i * dx i * D4DX4_FV_Index m J dx f b j i
  = d4_right m J dx f b i - (if Z.eqb i (xstart m) then 0 else d4_right m J dx f b (i - 1))
    - (d4_left_value m J dx f b j i - (if Z.eqb i (xend m) then 0 else d4_left_value m J dx f b j (i + 1))).
Proof.
  intros (N & Ex) PJ Pd Hi. unfold D4DX4_FV_Index. rewrite Ex.
  rewrite (fold_plain _ (fun k i => 
       (if Z.eqb i k then (d4_right m J dx f b k - d4_left_value m J dx f b j k) / (J k * dx k) else 0)
       + ((if Z.eqb i (k + 1) then - (d4_right m J dx f b k / (J (k + 1)%Z * dx (k + 1)%Z)) else 0)
       + (if Z.eqb i (k - 1) then d4_left_value m J dx f b j k / (J (k - 1)%Z * dx (k - 1)%Z) else 0)))).
  - rewrite !zsum_plus, zsum_indicator, zsum_shift1, zsum_shiftm.
    replace (Z.leb (xstart m) i && Z.ltb i (xstart m + Z.of_nat n))%bool with true
      by (symmetry; apply andb_true_intro; split; [apply Z.leb_le|apply Z.ltb_lt]; lia).
    replace (Z.leb (xstart m) (i - 1) && Z.ltb (i - 1) (xstart m + Z.of_nat n))%bool with (negb (Z.eqb i (xstart m))).
    2:{ destruct (Z.eqb_spec i (xstart m)), (Z.leb_spec (xstart m) (i - 1)), (Z.ltb_spec (i - 1) (xstart m + Z.of_nat n)); try lia; reflexivity. }
    replace (Z.leb (xstart m) (i + 1) && Z.ltb (i + 1) (xstart m + Z.of_nat n))%bool with (negb (Z.eqb i (xstart m + Z.of_nat n - 1))).
    2:{ destruct (Z.eqb_spec i (xstart m + Z.of_nat n - 1)), (Z.leb_spec (xstart m) (i + 1)), (Z.ltb_spec (i + 1) (xstart m + Z.of_nat n)); try lia; reflexivity. }
    replace (i - 1 + 1)%Z with i by lia. replace (i + 1 - 1)%Z with i by lia.
    pose proof (PJ i). pose proof (Pd i).
    destruct (Z.eqb i (xstart m)), (Z.eqb i (xstart m + Z.of_nat n - 1)); cbn [negb]; field; lra.
  - intros r k l. unfold d4_step, d4_left_value.
    pose proof (PJ k). pose proof (Pd k). 
    destruct (d4_left m J dx f b j k) as [x|]; rewrite !upd_eq;
      repeat match goal with |- context [Z.eqb ?a ?b] => destruct (Z.eqb_spec a b); try (exfalso; lia); try subst; rewrite ?upd_eq end;
      try lra; unfold Rdiv; ring.
Qed.

(** On one processor, without boundary flux. *)
Lemma d4_conserves m n J dx f j : xmesh_ok m n -> (forall i, 0 < J i) -> (forall i, 0 < dx i) ->
  firstX m = true -> lastX m = true ->
  total (fun i => J i * dx i) (xstart m) n (D4DX4_FV_Index m J dx f false j) = 0.
Proof.
  intros M PJ Pd F L.
  assert (LV : forall i, d4_left_value m J dx f false j i = 0).
  { intros i. unfold d4_left_value, d4_left. rewrite F. destruct (Z.eqb j (xstart m)); reflexivity. }
  rewrite (total_flux_form _ _ _ _ (fun i => if Z.eqb i (xstart m) then 0 else d4_right m J dx f false (i - 1))).
  - destruct M as (N & Ex). rewrite Z.eqb_refl. replace (Z.eqb (xstart m + Z.of_nat n) (xstart m)) with false by (symmetry; apply Z.eqb_neq; lia).
    replace (xstart m + Z.of_nat n - 1)%Z with (xend m) by lia. unfold d4_right. rewrite L, Z.eqb_refl. cbn [andb]. ring.
  - intros i Hi. rewrite (d4_cell m n) by assumption. rewrite !LV.
    replace (Z.eqb (i + 1) (xstart m)) with false by (symmetry; apply Z.eqb_neq; lia).
    replace (i + 1 - 1)%Z with i by lia. destruct (Z.eqb i (xend m)); ring.
Qed.

(** In general what is gained is the flux through the right end (plus, if j = xstart, through the left end). *)
Lemma d4_total m n J dx f b j : xmesh_ok m n -> (forall i, 0 < J i) -> (forall i, 0 < dx i) ->
  total (fun i => J i * dx i) (xstart m) n (D4DX4_FV_Index m J dx f b j)
  = d4_right m J dx f b (xend m) - d4_left_value m J dx f b j (xstart m).
Proof.
  intros M PJ Pd.
  rewrite (total_flux_form _ _ _ _ (fun i => (if Z.eqb i (xstart m) then 0 else d4_right m J dx f b (i - 1))
                                             + (if Z.eqb i (xend m + 1) then 0 else d4_left_value m J dx f b j i))).
  - destruct M as (N & Ex). rewrite Z.eqb_refl. replace (Z.eqb (xstart m + Z.of_nat n) (xstart m)) with false by (symmetry; apply Z.eqb_neq; lia).
    replace (xstart m + Z.of_nat n - 1)%Z with (xend m) by lia. replace (xstart m + Z.of_nat n)%Z with (xend m + 1)%Z by lia.
    rewrite Z.eqb_refl. replace (Z.eqb (xstart m) (xend m + 1)) with false by (symmetry; apply Z.eqb_neq; lia). ring.
  - intros i Hi. rewrite (d4_cell m n) by assumption. destruct M as (N & Ex).
    replace (Z.eqb (i + 1) (xstart m)) with false by (symmetry; apply Z.eqb_neq; lia).
    replace (Z.eqb i (xend m + 1)) with false by (symmetry; apply Z.eqb_neq; lia).
    replace (i + 1 - 1)%Z with i by lia. 
    destruct (Z.eqb_spec i (xend m)), (Z.eqb_spec (i + 1) (xend m + 1)); try lia; ring.
Qed.

(** Two processors with one cell each: [2] is the cell, 0, 1 and 3, 4 the guard cells. *)
Definition xleft : xmesh := mkXmesh 2 2 5 true false.
Definition xright : xmesh := mkXmesh 2 2 5 false true.
Definition one : Z -> R := fun _ => 1.

Lemma d4_left_piece j : j <> 2%Z ->
  total (fun i => one i * one i) 2 1 (D4DX4_FV_Index xleft one one (values [0; 0; 1; 0; 0]) false j) = 3 /\
  total (fun i => one i * one i) 2 1 (D4DX4_FV_Index xright one one (values [0; 1; 0; 0; 0]) false j) = 0.
Proof.
  intros Hj. split.
  - change 2%Z with (xstart xleft) at 1. rewrite d4_total; [|split; [lia|reflexivity]|unfold one; intros; lra|unfold one; intros; lra].
    unfold d4_left_value, d4_left. cbn [xstart xleft]. destruct (Z.eqb_spec j 2); [lia|].
    unfold d4_right. cbn [lastX andb xend xleft]. zify_idx. vals. unfold one. lra.
  - change 2%Z with (xstart xright) at 1. rewrite d4_total; [|split; [lia|reflexivity]|unfold one; intros; lra|unfold one; intros; lra].
    unfold d4_left_value, d4_left. cbn [xstart xright]. destruct (Z.eqb_spec j 2); [lia|].
    unfold d4_right. cbn [lastX andb xend xright Z.eqb Pos.eqb]. lra.
Qed.

Definition xmiddle : xmesh := mkXmesh 2 2 5 false false.
Lemma d4_depends_on_j :
  D4DX4_FV_Index xmiddle one one (values [0; 0; 1; 0; 0]) false 2 2 <>
  D4DX4_FV_Index xmiddle one one (values [0; 0; 1; 0; 0]) false 3 2.
Proof.
  assert (M : xmesh_ok xmiddle 1) by (split; [lia|reflexivity]).
  assert (P : forall i, 0 < one i) by (unfold one; intros; lra).
  pose proof (d4_cell xmiddle 1 one one (values [0; 0; 1; 0; 0]) false 2 2 M P P) as A.
  pose proof (d4_cell xmiddle 1 one one (values [0; 0; 1; 0; 0]) false 3 2 M P P) as B.
  specialize (A ltac:(cbn; lia)). specialize (B ltac:(cbn; lia)). intros E. rewrite E in A. rewrite A in B. revert B.
  unfold d4_left_value, d4_left. cbn [xstart xend xmiddle Z.eqb Pos.eqb firstX]. zify_idx. vals. unfold one. lra.
Qed.

(** ** Periodic sums *)

Lemma zsum_first lo n g : zsum lo (S n) g = g lo + zsum (lo + 1) n g.
Proof.
  induction n as [|n IH].
  - cbn [zsum]. replace (lo + Z.of_nat 0)%Z with lo by lia. lra.
  - cbn [zsum] in *. rewrite IH. replace (lo + 1 + Z.of_nat n)%Z with (lo + Z.of_nat (S n))%Z by lia. lra.
Qed.

Lemma zsum_shift lo n d g : zsum (lo + d) n g = zsum lo n (fun j => g (j + d)%Z).
Proof.
  induction n as [|n IH]; cbn [zsum]; [reflexivity|]. rewrite IH. do 2 f_equal. lia.
Qed.

Lemma zplus_next nz k : (0 <= k < nz - 1)%Z -> zplus nz k = (k + 1)%Z.
Proof. intros H. unfold zplus. apply Z.mod_small. lia. Qed.
Lemma zplus_last nz : (0 < nz)%Z -> zplus nz (nz - 1) = 0%Z.
Proof. intros H. unfold zplus. replace (nz - 1 + 1)%Z with nz by lia. apply Z.mod_same. lia. Qed.
Lemma zminus_zplus nz k : (0 < nz)%Z -> (0 <= k < nz)%Z -> zminus nz (zplus nz k) = k /\ zplus nz (zminus nz k) = k.
Proof.
  intros N H. unfold zminus, zplus. split.
  - replace ((k + 1) mod nz - 1 + nz)%Z with ((k + 1) mod nz + (nz - 1))%Z by lia.
    rewrite Zplus_mod_idemp_l. replace (k + 1 + (nz - 1))%Z with (k + 1 * nz)%Z by lia.
    rewrite Z_mod_plus_full. apply Z.mod_small. lia.
  - rewrite Zplus_mod_idemp_l. replace (k - 1 + nz + 1)%Z with (k + 1 * nz)%Z by lia.
    rewrite Z_mod_plus_full. apply Z.mod_small. lia.
Qed.
Lemma zplus_range nz k : (0 < nz)%Z -> (0 <= zplus nz k < nz)%Z.
Proof. intros N. unfold zplus. apply Z.mod_pos_bound. exact N. Qed.
Lemma zminus_range nz k : (0 < nz)%Z -> (0 <= zminus nz k < nz)%Z.
Proof. intros N. unfold zminus. apply Z.mod_pos_bound. exact N. Qed.

Lemma zsum_rotate n g : (0 < n)%nat -> zsum 0 n (fun k => g (zplus (Z.of_nat n) k)) = zsum 0 n g.
Proof.
  intros H. destruct n as [|n]; [lia|]. clear H. rewrite (zsum_first 0 n g). cbn [zsum].
  replace (0 + Z.of_nat n)%Z with (Z.of_nat (S n) - 1)%Z by lia. rewrite zplus_last by lia.
  rewrite (zsum_ext _ _ _ (fun k => g (k + 1)%Z)).
  - rewrite <- zsum_shift. lra.
  - intros k Hk. rewrite zplus_next by lia. reflexivity.
Qed.

Lemma zsum_rotate_back n g : (0 < n)%nat -> zsum 0 n (fun k => g (zminus (Z.of_nat n) k)) = zsum 0 n g.
Proof.
  intros H. rewrite <- (zsum_rotate n (fun k => g (zminus (Z.of_nat n) k)) H). apply zsum_ext. intros k Hk.
  destruct (zminus_zplus (Z.of_nat n) k) as [-> _]; [lia|lia|reflexivity].
Qed.

(** Fluxes through Z faces cancel. *)
Lemma zsum_z_fluxes n F : (0 < n)%nat -> zsum 0 n (fun k => F k - F (zminus (Z.of_nat n) k)) = 0.
Proof.
  intros H. rewrite (zsum_ext _ _ _ (fun k => F k + -1 * (fun k => F (zminus (Z.of_nat n) k)) k)) by (intros; ring).
  rewrite zsum_plus, zsum_scal, (zsum_rotate_back n F H). ring.
Qed.

(** ** Div_Z_FV_Index and D4DZ4_Index *)


Lemma Div_Z_flux nz a f k : (0 < nz)%Z -> (0 <= k < nz)%Z ->
  Div_Z_FV_Index nz a f k = z_flux nz a f k - z_flux nz a f (zminus nz k).
Proof.
  intros N H. unfold Div_Z_FV_Index, z_flux. destruct (zminus_zplus nz k N H) as [_ ->]. lra.
Qed.

Lemma Div_Z_conserves n a f : (0 < n)%nat -> zsum 0 n (Div_Z_FV_Index (Z.of_nat n) a f) = 0.
Proof.
  intros H. rewrite (zsum_ext _ _ _ (fun k => z_flux (Z.of_nat n) a f k - z_flux (Z.of_nat n) a f (zminus (Z.of_nat n) k))).
  - now apply zsum_z_fluxes.
  - intros k Hk. apply Div_Z_flux; lia.
Qed.

Lemma zsum_z_parts n F g : (0 < n)%nat ->
  zsum 0 n (fun k => g k * (F k - F (zminus (Z.of_nat n) k)))
  = - zsum 0 n (fun k => F k * (g (zplus (Z.of_nat n) k) - g k)).
Proof.
  intros H. set (nz := Z.of_nat n).
  rewrite (zsum_ext _ _ (fun k => g k * (F k - F (zminus nz k))) (fun k => g k * F k + -1 * (fun k => g k * F (zminus nz k)) k)) by (intros; ring).
  rewrite zsum_plus, zsum_scal.
  rewrite (zsum_ext _ _ (fun k => F k * (g (zplus nz k) - g k)) (fun k => F k * g (zplus nz k) + -1 * (g k * F k))) by (intros; ring).
  rewrite zsum_plus, zsum_scal.
  rewrite <- (zsum_rotate n (fun k => g k * F (zminus nz k)) H). fold nz.
  rewrite (zsum_ext _ _ (fun k => g (zplus nz k) * F (zminus nz (zplus nz k))) (fun k => F k * g (zplus nz k))).
  - ring.
  - intros k Hk. destruct (zminus_zplus nz k) as [-> _]; [unfold nz; lia|unfold nz; lia|ring].
Qed.

Lemma Div_Z_dissipates n a f : (0 < n)%nat -> (forall k, 0 <= a k) ->
  zsum 0 n (fun k => f k * Div_Z_FV_Index (Z.of_nat n) a f k) <= 0.
Proof.
  intros H Ha.
  rewrite (zsum_ext _ _ _ (fun k => f k * (z_flux (Z.of_nat n) a f k - z_flux (Z.of_nat n) a f (zminus (Z.of_nat n) k)))).
  - rewrite (zsum_z_parts n (z_flux (Z.of_nat n) a f) f H).
    assert (0 <= zsum 0 n (fun k => z_flux (Z.of_nat n) a f k * (f (zplus (Z.of_nat n) k) - f k))).
    { apply zsum_nonneg. intros k Hk. unfold z_flux.
      set (d := f (zplus (Z.of_nat n) k) - f k).
      replace (d * ((a k + a (zplus (Z.of_nat n) k)) / 2) * d) with ((a k + a (zplus (Z.of_nat n) k)) / 2 * (d * d)) by ring.
      apply Rmult_le_pos; [|apply Rle_0_sqr]. pose proof (Ha k). pose proof (Ha (zplus (Z.of_nat n) k)). lra. }
    lra.
  - intros k Hk. rewrite Div_Z_flux by lia. reflexivity.
Qed.


Lemma zplus2 nz k : (0 < nz)%Z -> Z.modulo (k + 2) nz = zplus nz (zplus nz k).
Proof. intros N. unfold zplus. rewrite Zplus_mod_idemp_l. f_equal. lia. Qed.
Lemma zminus2 nz k : (0 < nz)%Z -> Z.modulo (k - 2 + 2 * nz) nz = zminus nz (zminus nz k).
Proof.
  intros N. unfold zminus. replace ((k - 1 + nz) mod nz - 1 + nz)%Z with ((k - 1 + nz) mod nz + (nz - 1))%Z by lia.
  rewrite Zplus_mod_idemp_l. f_equal. lia.
Qed.

Lemma D4DZ4_twice nz f k : (0 < nz)%Z -> (0 <= k < nz)%Z ->
  D4DZ4_Index nz f k = second_difference nz (second_difference nz f) k.
Proof.
  intros N H. unfold D4DZ4_Index, second_difference. rewrite zplus2, zminus2 by exact N.
  destruct (zminus_zplus nz k N H) as [-> ->]. ring.
Qed.

Lemma second_difference_sum n f g : (0 < n)%nat ->
  zsum 0 n (fun k => f k * second_difference (Z.of_nat n) g k) = zsum 0 n (fun k => second_difference (Z.of_nat n) f k * g k).
Proof.
  intros H. unfold second_difference. set (nz := Z.of_nat n).
  rewrite (zsum_ext _ _ (fun k => f k * (g (zplus nz k) - 2 * g k + g (zminus nz k)))
            (fun k => (fun k => f (zminus nz k) * g k) (zplus nz k) + (-2 * (f k * g k) + (fun k => f (zplus nz k) * g k) (zminus nz k)))).
  2:{ intros k Hk. cbv beta. destruct (zminus_zplus nz k) as [-> ->]; [unfold nz; lia|unfold nz; lia|ring]. }
  rewrite !zsum_plus, zsum_scal. unfold nz. rewrite (zsum_rotate n (fun k => f (zminus (Z.of_nat n) k) * g k) H).
  rewrite (zsum_rotate_back n (fun k => f (zplus (Z.of_nat n) k) * g k) H).
  rewrite <- zsum_scal, <- !zsum_plus. apply zsum_ext. intros. ring.
Qed.

Lemma D4DZ4_conserves n f : (0 < n)%nat -> zsum 0 n (D4DZ4_Index (Z.of_nat n) f) = 0.
Proof.
  intros H. rewrite (zsum_ext _ _ _ (fun k => 1 * second_difference (Z.of_nat n) (second_difference (Z.of_nat n) f) k)).
  - rewrite (second_difference_sum n (fun _ => 1) _ H).
    rewrite (zsum_ext _ _ _ (fun k => 0 * 0)) by (intros; unfold second_difference; ring).
    rewrite zsum_scal. ring.
  - intros k Hk. rewrite D4DZ4_twice by lia. ring.
Qed.

Lemma D4DZ4_square n f : (0 < n)%nat ->
  zsum 0 n (fun k => f k * D4DZ4_Index (Z.of_nat n) f k) = zsum 0 n (fun k => second_difference (Z.of_nat n) f k * second_difference (Z.of_nat n) f k).
Proof.
  intros H. rewrite (zsum_ext _ _ _ (fun k => f k * second_difference (Z.of_nat n) (second_difference (Z.of_nat n) f) k)).
  - apply (second_difference_sum n f _ H).
  - intros k Hk. rewrite D4DZ4_twice by lia. reflexivity.
Qed.

Lemma D4DZ4_dissipates n f : (0 < n)%nat -> 0 <= zsum 0 n (fun k => f k * D4DZ4_Index (Z.of_nat n) f k).
Proof. intros H. rewrite D4DZ4_square by exact H. apply zsum_nonneg. intros. apply Rle_0_sqr. Qed.

(** ** Div_Perp_Lap_FV_Index *)


Lemma perp_cell nz J dx a f i k : (0 < nz)%Z -> (0 <= k < nz)%Z -> 0 < J i -> 0 < dx i ->
  J i * dx i * Div_Perp_Lap_FV_Index nz J dx a f i k
  = (perp_flux J dx a f (i + 1) k - perp_flux J dx a f i k)
    + J i * dx i * (z_flux nz (a i) (f i) k - z_flux nz (a i) (f i) (zminus nz k)).
Proof.
  intros N H PJ Pd. unfold Div_Perp_Lap_FV_Index, perp_flux, z_flux.
  destruct (zminus_zplus nz k N H) as [_ ->]. replace (i + 1 - 1)%Z with i by lia.
  replace 0.25 with (/ 4) by lra. replace 0.5 with (/ 2) by lra. field. lra.
Qed.

Lemma zsum_swap lo1 n1 lo2 n2 (g : Z -> Z -> R) :
  zsum lo1 n1 (fun i => zsum lo2 n2 (g i)) = zsum lo2 n2 (fun j => zsum lo1 n1 (fun i => g i j)).
Proof.
  induction n1 as [|n1 IH]; cbn [zsum].
  - rewrite (zsum_ext _ _ _ (fun j => 0 * 0)) by (intros; ring). rewrite zsum_scal. ring.
  - rewrite IH, <- zsum_plus. apply zsum_ext. reflexivity.
Qed.

Lemma perp_total lo n nz J dx a f : (0 < nz)%nat -> (forall i, 0 < J i) -> (forall i, 0 < dx i) ->
  total2 (fun i _ => J i * dx i) lo n 0 nz (Div_Perp_Lap_FV_Index (Z.of_nat nz) J dx a f)
  = zsum 0 nz (fun k => perp_flux J dx a f (lo + Z.of_nat n) k - perp_flux J dx a f lo k).
Proof.
  intros N PJ Pd. unfold total2.
  rewrite (zsum_ext lo n _ (fun i => zsum 0 nz (fun k => perp_flux J dx a f (i + 1) k - perp_flux J dx a f i k))).
  - rewrite zsum_swap. apply zsum_ext. intros k _. apply (zsum_telescope lo n (fun i => perp_flux J dx a f i k)).
  - intros i _.
    rewrite (zsum_ext 0 nz _ (fun k => (perp_flux J dx a f (i + 1) k - perp_flux J dx a f i k)
        + J i * dx i * (fun k => z_flux (Z.of_nat nz) (a i) (f i) k - z_flux (Z.of_nat nz) (a i) (f i) (zminus (Z.of_nat nz) k)) k)).
    + rewrite zsum_plus, zsum_scal, (zsum_z_fluxes nz _ N). ring.
    + intros k Hk. apply perp_cell; auto; lia.
Qed.

Lemma perp_const nz J dx a c i k : Div_Perp_Lap_FV_Index nz J dx a (fun _ _ => c) i k = 0.
Proof. unfold Div_Perp_Lap_FV_Index. unfold Rdiv. ring. Qed.

(** On a uniform grid diffusion in X is twice as strong as in Z. *)
Lemma perp_uniform nz a f i k : 
  Div_Perp_Lap_FV_Index nz one one (fun _ _ => a) f i k
  = 2 * a * (f (i + 1)%Z k - 2 * f i k + f (i - 1)%Z k) + a * (f i (zplus nz k) - 2 * f i k + f i (zminus nz k)).
Proof. unfold Div_Perp_Lap_FV_Index, one. lra. Qed.

(** ** Laplace_FV *)


Lemma laplace_cell c k f i j : positive_metric2 c ->
  l_J c i j * l_dx c i j * l_dy c i j * Laplace_FV c k f i j
  = l_dy c i j * (laplace_x c k f (i + 1) j - laplace_x c k f i j)
    + l_dx c i j * (laplace_y c k f i (j + 1) - laplace_y c k f i j).
Proof.
  intros P. unfold Laplace_FV, laplace_x, laplace_y.
  replace (i + 1 - 1)%Z with i by lia. replace (j + 1 - 1)%Z with j by lia.
  destruct (P i j) as (A1 & A2 & A3 & A4 & A5), (P (i + 1)%Z j) as (B1 & B2 & B3 & B4 & B5), (P (i - 1)%Z j) as (C1 & C2 & C3 & C4 & C5),
    (P i (j + 1)%Z) as (D1 & D2 & D3 & D4 & D5), (P i (j - 1)%Z) as (E1 & E2 & E3 & E4 & E5).
  replace 0.25 with (/ 4) by lra. field. repeat split; lra.
Qed.

(** Boundary flows through the four sides of a rectangle of cells. *)
Lemma laplace_total c k f lo1 n1 lo2 n2 : positive_metric2 c ->
  (forall i j, l_dy c (i + 1)%Z j = l_dy c i j) -> (forall i j, l_dx c i (j + 1)%Z = l_dx c i j) ->
  total2 (fun i j => l_J c i j * l_dx c i j * l_dy c i j) lo1 n1 lo2 n2 (Laplace_FV c k f)
  = zsum lo2 n2 (fun j => l_dy c lo1 j * (laplace_x c k f (lo1 + Z.of_nat n1) j - laplace_x c k f lo1 j))
    + zsum lo1 n1 (fun i => l_dx c i lo2 * (laplace_y c k f i (lo2 + Z.of_nat n2) - laplace_y c k f i lo2)).
Proof.
  intros P Hy Hx. unfold total2.
  assert (Iy : forall n i j, l_dy c (i + Z.of_nat n)%Z j = l_dy c i j).
  { induction n as [|n IH]; intros i j; [f_equal; lia|]. replace (i + Z.of_nat (S n))%Z with (i + Z.of_nat n + 1)%Z by lia.
    rewrite Hy. apply IH. }
  assert (Ix : forall n i j, l_dx c i (j + Z.of_nat n)%Z = l_dx c i j).
  { induction n as [|n IH]; intros i j; [f_equal; lia|]. replace (j + Z.of_nat (S n))%Z with (j + Z.of_nat n + 1)%Z by lia.
    rewrite Hx. apply IH. }
  rewrite (zsum_ext lo1 n1 _ (fun i => zsum lo2 n2 (fun j => l_dy c lo1 j * (laplace_x c k f (i + 1) j - laplace_x c k f i j))
      + l_dx c i lo2 * (laplace_y c k f i (lo2 + Z.of_nat n2) - laplace_y c k f i lo2))).
  - rewrite zsum_plus. f_equal. rewrite zsum_swap. apply zsum_ext. intros j _. rewrite zsum_scal. f_equal.
    apply (zsum_telescope lo1 n1 (fun i => laplace_x c k f i j)).
  - intros i Hi.
    rewrite (zsum_ext lo2 n2 _ (fun j => l_dy c lo1 j * (laplace_x c k f (i + 1) j - laplace_x c k f i j)
        + l_dx c i lo2 * (fun j => laplace_y c k f i (j + 1) - laplace_y c k f i j) j)).
    + rewrite zsum_plus, zsum_scal. do 2 f_equal. apply (zsum_telescope lo2 n2 (fun j => laplace_y c k f i j)).
    + intros j Hj. rewrite laplace_cell by exact P.
      replace (l_dy c i j) with (l_dy c lo1 j) by (rewrite <- (Iy (Z.to_nat (i - lo1)) lo1 j); f_equal; lia).
      replace (l_dx c i j) with (l_dx c i lo2) by (rewrite <- (Ix (Z.to_nat (j - lo2)) i lo2); f_equal; lia).
      reflexivity.
Qed.

Lemma laplace_const c k a i j : Laplace_FV c k (fun _ _ => a) i j = 0.
Proof. unfold Laplace_FV, Rdiv. ring. Qed.

(** ** Splitting between processors *)

Lemma K_piece N per g a n c K f b k : (0 < n)%nat -> (0 <= a)%Z -> (a + Z.of_nat n <= N)%Z -> (0 <= k < Z.of_nat n)%Z ->
  fst (Div_par_K_Grad_par_mod (piece N per g a n) (local_coords g a c) (local g a K) (local g a f) b (g + k))
  = fst (Div_par_K_Grad_par_mod (piece N per g 0 (Z.to_nat N)) (local_coords g 0 c) (local g 0 K) (local g 0 f) b (g + (a + k))).
Proof.
  intros Hn Ha HN Hk. unfold Div_par_K_Grad_par_mod, K_upper, K_lower, K_upper_on, K_lower_on, local_coords, local, piece.
  cbn [c_J c_g22 c_dy c_dx c_dz firstY lastY periodicY ystart yend].
  replace (g + k + (a - g))%Z with (a + k)%Z by lia. replace (g + k + 1 + (a - g))%Z with (a + k + 1)%Z by lia.
  replace (g + k - 1 + (a - g))%Z with (a + k - 1)%Z by lia.
  replace (g + (a + k) + (0 - g))%Z with (a + k)%Z by lia. replace (g + (a + k) + 1 + (0 - g))%Z with (a + k + 1)%Z by lia.
  replace (g + (a + k) - 1 + (0 - g))%Z with (a + k - 1)%Z by lia.
  rewrite Z.eqb_refl. replace (0 + Z.of_nat (Z.to_nat N))%Z with N by lia. rewrite Z.eqb_refl.
  replace (Z.of_nat (Z.to_nat N)) with N by lia.
  destruct (Z.eqb_spec a 0), (Z.eqb_spec (a + Z.of_nat n) N), (Z.eqb_spec (g + k) g), (Z.eqb_spec (g + k) (g + Z.of_nat n - 1)),
    (Z.eqb_spec (g + (a + k)) g), (Z.eqb_spec (g + (a + k)) (g + N - 1)); try lia; destruct per, b; reflexivity.
Qed.
