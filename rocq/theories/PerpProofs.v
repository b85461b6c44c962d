(** Lemmas about the perpendicular diffusion operators. *)

From Coq Require Import List Bool ZArith Reals Lra Lia.
From Verif Require Import StateMonad LimitersModel LimitersSpec LimitersProofs ParallelModel ParallelSpec ParallelProofs ParallelLaws
  ParallelHeating DiffusionModel DiffusionSpec DiffusionProofs DiffusionProofs2 ExBModel ExBSpec ExBProofs ExBLaws ExBLaws2 PerpModel PerpSpec.
Import ListNotations.
Open Scope R_scope.

(** ** X fluxes *)

Lemma x_loop_fst_snd c flux j k l : forall st,
  fst (fold_left (x_step c flux j k) l st)
  = fold_left (fun r i => upd (upd r i (r i + flux i j k / (p_dx c i j * p_J c i j))) (i + 1)
      (upd r i (r i + flux i j k / (p_dx c i j * p_J c i j)) (i + 1)%Z - flux i j k / (p_dx c (i + 1)%Z j * p_J c (i + 1)%Z j))) l (fst st)
  /\ snd (fold_left (x_step c flux j k) l st)
     = fold_left (fun w i => upd w (i + 1)%Z (- 1 * flux i j k * p_dy c i j * p_dz c i j)) l (snd st).
Proof.
  induction l as [|i l IH]; intros [r w]; [split; reflexivity|]. cbn [fold_left]. apply (IH (x_step c flux j k (r, w) i)).
Qed.

Lemma x_cell m nx c flux i j k : xmesh_ok m nx -> pcoords_ok c -> (xstart m <= i < xstart m + Z.of_nat nx)%Z ->
  fst (x_loop m c flux j k) i = (flux i j k - flux (i - 1)%Z j k) / (p_dx c i j * p_J c i j).
Proof.
  intros [Hn Hx] P Hi. unfold x_loop. rewrite (proj1 (x_loop_fst_snd c flux j k _ _)). cbn [fst].
  replace (irange (xstart m - 1) (xend m)) with (irange (xstart m - 1) (xstart m - 1 + Z.of_nat (S nx) - 1)) by (f_equal; lia).
  rewrite (move_loop _ (fun i => flux i j k / (p_dx c i j * p_J c i j)) (fun i => flux i j k / (p_dx c (i + 1)%Z j * p_J c (i + 1)%Z j)))
    by (intros; apply move_step).
  unfold within.
  replace (Z.leb (xstart m - 1) i && Z.ltb i (xstart m - 1 + Z.of_nat (S nx)))%bool with true
    by (symmetry; apply andb_true_intro; split; [apply Z.leb_le|apply Z.ltb_lt]; lia).
  replace (Z.leb (xstart m - 1) (i - 1) && Z.ltb (i - 1) (xstart m - 1 + Z.of_nat (S nx)))%bool with true
    by (symmetry; apply andb_true_intro; split; [apply Z.leb_le|apply Z.ltb_lt]; lia).
  replace (i - 1 + 1)%Z with i by lia. destruct (P i j) as (HJ & Hdx & _). field. lra.
Qed.

Lemma assign_loop (v : Z -> R) n : forall lo i, (lo <= i - 1 < lo + Z.of_nat n)%Z ->
  fold_left (fun w i => upd w (i + 1)%Z (v i)) (irange lo (lo + Z.of_nat n - 1)) (fun _ => 0) i = v (i - 1)%Z.
Proof.
  induction n as [|n IH]; intros lo i Hi; [lia|].
  rewrite irange_snoc, fold_left_app. cbn [fold_left]. unfold upd at 1.
  destruct (Z.eqb_spec i (lo + Z.of_nat n + 1)) as [->|E]; [f_equal; lia|]. apply IH. lia.
Qed.

Lemma x_flow m nx c flux i j k : xmesh_ok m nx -> (xstart m <= i <= xstart m + Z.of_nat nx)%Z ->
  snd (x_loop m c flux j k) i = - flux (i - 1)%Z j k * p_dy c (i - 1)%Z j * p_dz c (i - 1)%Z j.
Proof.
  intros [Hn Hx] Hi. unfold x_loop. rewrite (proj2 (x_loop_fst_snd c flux j k _ _)). cbn [snd].
  replace (irange (xstart m - 1) (xend m)) with (irange (xstart m - 1) (xstart m - 1 + Z.of_nat (S nx) - 1)) by (f_equal; lia).
  rewrite (assign_loop (fun i => - 1 * flux i j k * p_dy c i j * p_dz c i j)) by lia. ring.
Qed.

(** ** Z fluxes *)

Lemma z_loop_cell nzn norm flux y k : (0 < nzn)%nat -> (0 <= k < Z.of_nat nzn)%Z ->
  z_loop (Z.of_nat nzn) norm flux y k = y k + flux k / norm - flux (zminus (Z.of_nat nzn) k) / norm.
Proof.
  intros Hn Hk. set (nz := Z.of_nat nzn) in *.
  assert (S : forall r j i, (0 <= j < nz)%Z -> (0 <= i < nz)%Z ->
     z_step nz norm flux r j i = r i + (if Z.eqb i j then flux j / norm else 0) - (if Z.eqb (zminus nz i) j then flux j / norm else 0)).
  { intros r j i Hj Hi. unfold z_step. rewrite <- zplus_eqb by assumption. unfold upd.
    destruct (Z.eqb_spec i (zplus nz j)) as [E|E].
    - rewrite E. destruct (Z.eqb (zplus nz j) j) eqn:E'; [|ring]. apply Z.eqb_eq in E'. rewrite E'. ring.
    - destruct (Z.eqb_spec i j) as [->|]; ring. }
  assert (G : forall n r i, (n <= nzn)%nat -> (0 <= i < nz)%Z ->
     fold_left (z_step nz norm flux) (irange 0 (0 + Z.of_nat n - 1)) r i
     = r i + zsum 0 n (fun j => if Z.eqb i j then flux j / norm else 0) - zsum 0 n (fun j => if Z.eqb (zminus nz i) j then flux j / norm else 0)).
  { induction n as [|n IH]; intros r i Hle Hi.
    - rewrite irange_nil. cbn [fold_left zsum]. ring.
    - rewrite irange_snoc, fold_left_app. cbn [fold_left zsum]. rewrite S by (unfold nz; lia). rewrite IH by (assumption || lia). ring. }
  unfold z_loop. replace (nz - 1)%Z with (0 + Z.of_nat nzn - 1)%Z by (unfold nz; lia). rewrite G by (assumption || lia).
  rewrite (zsum_indicator 0 nzn k (fun j => flux j / norm)), (zsum_indicator 0 nzn (zminus nz k) (fun j => flux j / norm)).
  pose proof (zminus_range nz k ltac:(unfold nz; lia)) as Hm.
  replace (Z.leb 0 k && Z.ltb k (0 + Z.of_nat nzn))%bool with true by (symmetry; apply andb_true_intro; split; [apply Z.leb_le|apply Z.ltb_lt]; lia).
  replace (Z.leb 0 (zminus nz k) && Z.ltb (zminus nz k) (0 + Z.of_nat nzn))%bool with true
    by (symmetry; apply andb_true_intro; split; [apply Z.leb_le|apply Z.ltb_lt]; lia).
  reflexivity.
Qed.

Lemma z_loop_sum nzn norm flux y : (0 < nzn)%nat -> zsum 0 nzn (z_loop (Z.of_nat nzn) norm flux y) = zsum 0 nzn y.
Proof.
  intros Hn. rewrite (zsum_ext _ _ _ (fun k => y k + ((fun k => flux k / norm) k - (fun k => flux k / norm) (zminus (Z.of_nat nzn) k)))).
  - rewrite zsum_plus, zsum_minus. rewrite (zsum_rotate_back nzn (fun k => flux k / norm) Hn). ring.
  - intros k Hk. rewrite z_loop_cell by (assumption || lia). ring.
Qed.

(** ** The generic operator: X fluxes, Y fluxes with matching faces, Z fluxes *)

Lemma zsum_faces (up down : Z -> R) y0 ny : (0 < ny)%nat ->
  (forall j, (y0 <= j < y0 + Z.of_nat ny - 1)%Z -> up j = down (j + 1)%Z) ->
  zsum y0 ny (fun j => up j - down j) = up (y0 + Z.of_nat ny - 1)%Z - down y0.
Proof.
  destruct ny as [|n]; [lia|]. intros _. induction n as [|n IH]; intros U.
  - cbn [zsum]. replace (y0 + Z.of_nat 0)%Z with y0 by lia. replace (y0 + Z.of_nat 1 - 1)%Z with y0 by lia. ring.
  - change (zsum y0 (S (S n)) (fun j => up j - down j)) with
      (zsum y0 (S n) (fun j => up j - down j) + (up (y0 + Z.of_nat (S n))%Z - down (y0 + Z.of_nat (S n))%Z)).
    rewrite IH by (intros; apply U; lia). rewrite (U (y0 + Z.of_nat (S n) - 1)%Z) by lia.
    replace (y0 + Z.of_nat (S n) - 1 + 1)%Z with (y0 + Z.of_nat (S n))%Z by lia.
    replace (y0 + Z.of_nat (S (S n)) - 1)%Z with (y0 + Z.of_nat (S n))%Z by lia. ring.
Qed.

Lemma sum_ends_x x0 nx (g : Z -> R) : zsum x0 nx (fun i => g i - g (i - 1)%Z) = g (x0 + Z.of_nat nx - 1)%Z - g (x0 - 1)%Z.
Proof.
  rewrite (zsum_ext _ _ _ (fun i => (fun i => g (i - 1)%Z) (i + 1)%Z - (fun i => g (i - 1)%Z) i)).
  - rewrite (zsum_telescope x0 nx (fun i => g (i - 1)%Z)). reflexivity.
  - intros i _. cbv beta. replace (i + 1 - 1)%Z with i by lia. reflexivity.
Qed.

Section Generic.
  Context (fromFA : field -> field) (m : pmesh) (c : pcoords) (nx ny nzn : nat)
          (X up down : Z -> Z -> Z -> R) (norm : Z -> Z -> R) (zf : Z -> Z -> Z -> R).
  Hypothesis M : pmesh_ok m nx ny nzn.
  Hypothesis P : pcoords_ok c.
  Hypothesis K : keeps_z_sums nzn fromFA.

  Let x0 := xstart (pm_x m).
  Let y0 := ystart (pm_y m).

  Definition generic : field := fun i j k =>
    fst (x_loop (pm_x m) c X j k) i
    + fromFA (fun i j => z_loop (pm_nz m) (norm i j) (zf i j) (y_result c up down i j)) i j k.

  (** The content of the ring of cells at (i, j) changes by the flows through its four sides. *)
  Lemma generic_ring i j : (x0 <= i < x0 + Z.of_nat nx)%Z ->
    zsum 0 nzn (fun k => volume c i j * generic i j k)
    = zsum 0 nzn (fun k => p_dy c i j * p_dz c i j * (X i j k - X (i - 1)%Z j k))
      + zsum 0 nzn (fun k => p_dx c i j * p_dz c i j * (up i j k - down i j k)).
  Proof using M P K.
    intros Hi. destruct M as (MX & Hny & Hy & Hnz & Hz). unfold generic.
    rewrite (zsum_ext 0 nzn _ (fun k => p_dy c i j * p_dz c i j * (X i j k - X (i - 1)%Z j k)
        + volume c i j * fromFA (fun i j => z_loop (pm_nz m) (norm i j) (zf i j) (y_result c up down i j)) i j k)).
    - rewrite zsum_plus. f_equal. rewrite zsum_scal, K, Hz, z_loop_sum by exact Hnz.
      rewrite <- !zsum_scal. apply zsum_ext. intros k Hk. unfold y_result, volume.
      destruct (P i j) as (A & B & C & D). field. lra.
    - intros k Hk. rewrite (x_cell (pm_x m) nx) by (assumption || (unfold x0 in Hi; lia)). unfold volume.
      destruct (P i j) as (A & B & C & D). field. lra.
  Qed.

  Hypothesis T : tensor_grid c.
  (** The flux through the upper face of j is the one through the lower face of j + 1. *)
  Hypothesis U : forall i j k, (y0 <= j < yend (pm_y m))%Z -> (0 <= k < Z.of_nat nzn)%Z -> up i j k = down i (j + 1)%Z k.

  Lemma generic_total :
    total3 x0 nx y0 ny nzn (volume c) generic
    = zsum y0 ny (fun j => zsum 0 nzn (fun k => p_dy c x0 j * p_dz c x0 y0 * (X (x0 + Z.of_nat nx - 1)%Z j k - X (x0 - 1)%Z j k)))
      + zsum x0 nx (fun i => zsum 0 nzn (fun k => p_dx c i y0 * p_dz c x0 y0 * (up i (y0 + Z.of_nat ny - 1)%Z k - down i y0 k))).
  Proof using M P K T U.
    destruct M as (MX & Hny & Hy & Hnz & Hz). destruct T as (T1 & T2 & T3). unfold total3.
    rewrite (zsum_ext x0 nx _ (fun i => zsum y0 ny (fun j => zsum 0 nzn (fun k => p_dy c x0 j * p_dz c x0 y0 * (X i j k - X (i - 1)%Z j k)))
        + zsum 0 nzn (fun k => p_dx c i y0 * p_dz c x0 y0 * (up i (y0 + Z.of_nat ny - 1)%Z k - down i y0 k)))).
    - rewrite zsum_plus. f_equal. rewrite zsum_swap. apply zsum_ext. intros j _. rewrite zsum_swap. apply zsum_ext. intros k _.
      rewrite zsum_scal. f_equal. apply (sum_ends_x x0 nx (fun i => X i j k)).
    - intros i Hi.
      rewrite (zsum_ext y0 ny _ (fun j => zsum 0 nzn (fun k => p_dy c x0 j * p_dz c x0 y0 * (X i j k - X (i - 1)%Z j k))
         + p_dx c i y0 * p_dz c x0 y0 * zsum 0 nzn (fun k => up i j k - down i j k))).
      + rewrite zsum_plus. f_equal. rewrite zsum_scal. rewrite zsum_scal. f_equal.
        rewrite zsum_swap. apply zsum_ext. intros k Hk. apply (zsum_faces (fun j => up i j k) (fun j => down i j k)); [exact Hny|].
        intros j Hj. apply U; [|lia]. fold y0 in Hy. lia.
      + intros j Hj. rewrite generic_ring by exact Hi. f_equal.
        * apply zsum_ext. intros k _. rewrite (T1 x0 i j), (T3 x0 i y0 j). ring.
        * rewrite <- zsum_scal. apply zsum_ext. intros k _. rewrite (T2 i y0 j), (T3 x0 i y0 j). ring.
  Qed.
End Generic.

(** ** Fluxes of the three versions *)

Lemma y_coef_sym c i j j' : y_coef c i j j' = y_coef c i j' j.
Proof. unfold y_coef. rewrite Rplus_comm. reflexivity. Qed.

Lemma y_flows_match c nz a f i j k : y_flows_up c nz a f i j k = y_flows_down c nz a f i (j + 1) k.
Proof.
  unfold y_flows_up, y_flows_down. replace (j + 1 - 1)%Z with j by lia. rewrite (y_coef_sym c i j (j + 1)).
  rewrite (Rplus_comm (a i j k)), (Rplus_comm (p_J c i j * _)), (Rplus_comm (p_dz c i j)).
  unfold Rdiv. ring.
Qed.
Lemma y_upwind_match c nz a f i j k : tensor_grid c -> y_upwind_up c nz a f i j k = y_upwind_down c nz a f i (j + 1) k.
Proof.
  intros (T1 & T2 & T3). unfold y_upwind_up, y_upwind_down. replace (j + 1 - 1)%Z with j by lia. rewrite (y_coef_sym c i j (j + 1)).
  rewrite (T3 i i (j + 1)%Z j). unfold Rdiv. ring.
Qed.

Lemma half_eqs : 0.5 = / 2 /\ 0.25 = / 4. Proof. lra. Qed.

Lemma pos_sum a b : 0 < a -> 0 < b -> a + b <> 0. Proof. lra. Qed.

Lemma y_flows_spec c nz a f i j k : pcoords_ok c -> y_flows_down c nz a f i j k = diffusive_y c nz a f i j k.
Proof.
  intros P. unfold y_flows_down, diffusive_y, y_coef. destruct half_eqs as [-> ->].
  destruct (P i j) as (A1 & A2 & A3 & A4), (P i (j - 1)%Z) as (B1 & B2 & B3 & B4).
  set (q1 := p_g_23 c i j / _). set (q2 := p_g_23 c i (j - 1)%Z / _). field. split; apply pos_sum; assumption.
Qed.
Lemma y_upwind_spec c nz a f i j k : pcoords_ok c -> tensor_grid c -> y_upwind_down c nz a f i j k = diffusive_y c nz a f i j k.
Proof.
  intros P (T1 & T2 & T3). unfold y_upwind_down, diffusive_y, y_coef. destruct half_eqs as [-> ->].
  destruct (P i j) as (A1 & A2 & A3 & A4), (P i (j - 1)%Z) as (B1 & B2 & B3 & B4).
  set (q1 := p_g_23 c i j / _). set (q2 := p_g_23 c i (j - 1)%Z / _). rewrite (T3 i i (j - 1)%Z j).
  field. split; [apply pos_sum; assumption|lra].
Qed.

Lemma rlt_minus x y (A : Type) (u v : A) : (if Rlt_dec 0 (x - y) then u else v) = (if Rlt_dec y x then u else v).
Proof. destruct (Rlt_dec 0 (x - y)), (Rlt_dec y x); try reflexivity; exfalso; lra. Qed.

Lemma rlt_quotient x y d (A : Type) (u v : A) : 0 < d ->
  (if Rlt_dec 0 (2 * (x - y) / d) then u else v) = (if Rlt_dec y x then u else v).
Proof.
  intros H. assert (Hd : 0 < / d) by (apply Rinv_0_lt_compat; exact H). replace (2 * (x - y) / d) with ((x - y) * (2 * / d)) by (field; lra).
  destruct (Rlt_dec 0 ((x - y) * (2 * / d))) as [L|L], (Rlt_dec y x) as [L'|L']; try reflexivity; exfalso.
  - assert (0 <= (y - x) * (2 * / d)) by (apply Rmult_le_pos; lra). lra.
  - apply L. apply Rmult_lt_0_compat; lra.
Qed.

Lemma y_limit_down_spec m c nz a g f i j k : pcoords_ok c -> tensor_grid c -> j <> (yend m + 1)%Z ->
  y_limit_down m c nz a g f i j k = limited_y m c nz a g f i j k.
Proof.
  intros P (T1 & T2 & T3) Hj. unfold y_limit_down, limited_y, slope_y, y_coef.
  replace (Z.eqb j (yend m + 1)) with false by (symmetry; apply Z.eqb_neq; lia). rewrite andb_false_r, orb_false_r.
  rewrite (andb_comm (firstY m)). unfold Rltb.
  destruct (P i j) as (A1 & A2 & A3 & A4), (P i (j - 1)%Z) as (B1 & B2 & B3 & B4).
  destruct half_eqs as [-> ->].
  set (q1 := p_g_23 c i j / _). set (q2 := p_g_23 c i (j - 1)%Z / _). rewrite (T3 i i (j - 1)%Z j).
  destruct (Z.eqb j (ystart m) && firstY m)%bool.
  - field. split; [apply pos_sum; assumption|lra].
  - replace (if (if Rlt_dec 0 _ then true else false) then g i j k else g i (j - 1)%Z k) with
      (if Rlt_dec (f i (j - 1)%Z k) (f i j k) then g i j k else g i (j - 1)%Z k).
    + set (G := if Rlt_dec _ _ then _ else _). field. split; [apply pos_sum; assumption|lra].
    + rewrite <- (rlt_quotient (f i j k) (f i (j - 1)%Z k) (p_dy c i j + p_dy c i (j - 1)%Z)) by lra. destruct (Rlt_dec 0 _); reflexivity.
Qed.
Lemma y_limit_up_spec m c nz a g f i j k : pcoords_ok c -> tensor_grid c -> (j + 1)%Z <> ystart m ->
  y_limit_up m c nz a g f i j k = limited_y m c nz a g f i (j + 1) k.
Proof.
  intros P (T1 & T2 & T3) Hj. unfold y_limit_up, limited_y, slope_y, y_coef. replace (j + 1 - 1)%Z with j by lia.
  replace (Z.eqb (j + 1) (ystart m)) with false by (symmetry; apply Z.eqb_neq; lia). rewrite andb_false_r, orb_false_l.
  replace (Z.eqb (j + 1) (yend m + 1)) with (Z.eqb j (yend m)) by (destruct (Z.eqb_spec j (yend m)), (Z.eqb_spec (j + 1) (yend m + 1)); auto; lia).
  rewrite (andb_comm (lastY m)). unfold Rltb.
  destruct (P i j) as (A1 & A2 & A3 & A4), (P i (j + 1)%Z) as (B1 & B2 & B3 & B4).
  destruct half_eqs as [-> ->].
  set (q1 := p_g_23 c i j / _). set (q2 := p_g_23 c i (j + 1)%Z / _). rewrite (T3 i i (j + 1)%Z j).
  destruct (Z.eqb j (yend m) && lastY m)%bool.
  - field. split; [apply pos_sum; assumption|lra].
  - replace (if (if Rlt_dec 0 _ then true else false) then g i (j + 1)%Z k else g i j k) with
      (if Rlt_dec (f i j k) (f i (j + 1)%Z k) then g i (j + 1)%Z k else g i j k).
    + set (G := if Rlt_dec _ _ then _ else _). field. split; [apply pos_sum; assumption|lra].
    + rewrite <- (rlt_quotient (f i (j + 1)%Z k) (f i j k) (p_dy c i (j + 1)%Z + p_dy c i j)) by lra. destruct (Rlt_dec 0 _); reflexivity.
Qed.

Lemma x_flows_spec c a f i j k : pcoords_ok c -> x_flows c a f (i - 1) j k = diffusive_x c a f i j k.
Proof.
  intros P. unfold x_flows, diffusive_x. replace (i - 1 + 1)%Z with i by lia. destruct half_eqs as [-> _].
  destruct (P i j) as (A1 & A2 & A3 & A4), (P (i - 1)%Z j) as (B1 & B2 & B3 & B4). field. apply pos_sum; assumption.
Qed.
Lemma x_upwind_spec c a f i j k : pcoords_ok c -> x_upwind c a f (i - 1) j k = upwind_x c a f i j k.
Proof.
  intros P. unfold x_upwind, upwind_x. replace (i - 1 + 1)%Z with i by lia.
  destruct (P i j) as (A1 & A2 & A3 & A4), (P (i - 1)%Z j) as (B1 & B2 & B3 & B4).
  replace (_ / (p_dx c (i - 1)%Z j + p_dx c i j)) with (slope_x c f i j k) by (unfold slope_x; field; apply pos_sum; assumption).
  unfold Rltb. destruct (Rlt_dec _ _); reflexivity.
Qed.
Lemma x_limit_spec edges m c a g f i j k : pcoords_ok c -> x_limit edges m c a g f (i - 1) j k = limited_x edges m c a g f i j k.
Proof.
  intros P. unfold x_limit, limited_x, limited_g, slope_x, above, below. replace (i - 1 + 1)%Z with i by lia.
  replace (i - 1 + 2)%Z with (i + 1)%Z by lia. replace (i - 1 - 1)%Z with (i - 2)%Z by lia.
  destruct (P i j) as (A1 & A2 & A3 & A4), (P (i - 1)%Z j) as (B1 & B2 & B3 & B4). destruct half_eqs as [-> _].
  replace (Z.eqb (i - 1) (xstart m - 1)) with (Z.eqb i (xstart m)) by (destruct (Z.eqb_spec i (xstart m)), (Z.eqb_spec (i - 1) (xstart m - 1)); auto; lia).
  replace (Z.eqb (i - 1) (xend m)) with (Z.eqb i (xend m + 1)) by (destruct (Z.eqb_spec i (xend m + 1)), (Z.eqb_spec (i - 1) (xend m)); auto; lia).
  rewrite (andb_comm _ (firstX m)), (andb_comm _ (lastX m)).
  destruct (_ || _)%bool; [field; apply pos_sum; assumption|].
  unfold Rltb. rewrite <- (rlt_minus (f i j k) (f (i - 1)%Z j k)).
  destruct (Rlt_dec _ _); field; apply pos_sum; assumption.
Qed.
