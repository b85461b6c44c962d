(** Laws of the perpendicular diffusion operators. *)

From Coq Require Import List Bool ZArith Reals Lra Lia FunctionalExtensionality.
From Verif Require Import StateMonad LimitersModel LimitersSpec LimitersProofs ParallelModel ParallelSpec ParallelProofs ParallelLaws
  ParallelHeating DiffusionModel DiffusionSpec DiffusionProofs DiffusionProofs2 ExBModel ExBSpec ExBProofs ExBLaws ExBLaws2
  PerpModel PerpSpec PerpProofs.
Import ListNotations.
Open Scope R_scope.

Section Totals.
  Context (toFA fromFA : field -> field) (m : pmesh) (c : pcoords) (nx ny nzn : nat).
  Hypothesis M : pmesh_ok m nx ny nzn.
  Hypothesis P : pcoords_ok c.
  Hypothesis K : keeps_z_sums nzn fromFA.
  Hypothesis T : tensor_grid c.
  Let x0 := xstart (pm_x m).
  Let y0 := ystart (pm_y m).

  Lemma total_of X X' up down Y norm zf :
    (forall i j k, X (i - 1)%Z j k = X' i j k) ->
    (forall i j k, (y0 <= j <= yend (pm_y m))%Z -> up i j k = Y i (j + 1)%Z k) ->
    (forall i j k, (y0 <= j <= yend (pm_y m))%Z -> down i j k = Y i j k) ->
    total3 x0 nx y0 ny nzn (volume c) (generic fromFA m c X up down norm zf) = edge_flows x0 nx y0 ny nzn c X' Y.
  Proof using M P K T.
    intros HX HU HD. pose proof M as (MX & Hny & Hy & Hnz & Hz).
    unfold x0, y0 in *. rewrite (generic_total fromFA m c nx ny nzn X up down norm zf M P K T).
    - unfold edge_flows. f_equal.
      + apply zsum_ext. intros j _. apply zsum_ext. intros k _. rewrite <- !HX. reflexivity.
      + apply zsum_ext. intros i _. apply zsum_ext. intros k _. rewrite HU, HD by lia.
        replace (ystart (pm_y m) + Z.of_nat ny - 1 + 1)%Z with (ystart (pm_y m) + Z.of_nat ny)%Z by lia. reflexivity.
    - intros i j k Hj Hk. rewrite HU, HD by lia. reflexivity.
  Qed.

  Lemma flows_total a f :
    total3 x0 nx y0 ny nzn (volume c) (result (Div_a_Grad_perp_flows toFA fromFA m c a f))
    = edge_flows x0 nx y0 ny nzn c (diffusive_x c a f) (diffusive_y c (pm_nz m) (toFA a) (toFA f)).
  Proof using M P K T.
    unfold Div_a_Grad_perp_flows, result. cbn [fst snd].
    apply (total_of (x_flows c a f) _ (y_flows_up c (pm_nz m) (toFA a) (toFA f)) (y_flows_down c (pm_nz m) (toFA a) (toFA f)));
      intros; [now apply x_flows_spec| |now apply y_flows_spec].
    rewrite y_flows_match. now apply y_flows_spec.
  Qed.
  Lemma upwind_total a f :
    total3 x0 nx y0 ny nzn (volume c) (result (Div_a_Grad_perp_upwind_flows toFA fromFA m c a f))
    = edge_flows x0 nx y0 ny nzn c (upwind_x c a f) (diffusive_y c (pm_nz m) (toFA a) (toFA f)).
  Proof using M P K T.
    unfold Div_a_Grad_perp_upwind_flows, result. cbn [fst snd].
    apply (total_of (x_upwind c a f) _ (y_upwind_up c (pm_nz m) (toFA a) (toFA f)) (y_upwind_down c (pm_nz m) (toFA a) (toFA f)));
      intros; [now apply x_upwind_spec| |now apply y_upwind_spec].
    rewrite y_upwind_match by assumption. now apply y_upwind_spec.
  Qed.
  Lemma limit_total edges a g f :
    total3 x0 nx y0 ny nzn (volume c) (Div_a_Grad_perp_limit edges toFA fromFA m c a g f)
    = edge_flows x0 nx y0 ny nzn c (limited_x edges (pm_x m) c a g f) (limited_y (pm_y m) c (pm_nz m) (toFA a) (toFA g) (toFA f)).
  Proof using M P K T.
    unfold Div_a_Grad_perp_limit.
    apply (total_of (x_limit edges (pm_x m) c a g f) _ (y_limit_up (pm_y m) c (pm_nz m) (toFA a) (toFA g) (toFA f))
             (y_limit_down (pm_y m) c (pm_nz m) (toFA a) (toFA g) (toFA f)));
      intros; [now apply x_limit_spec| |]; [apply y_limit_up_spec|apply y_limit_down_spec]; try assumption; unfold y0 in *; lia.
  Qed.

  (** ** Flow diagnostics *)

  Lemma flows_of X up down norm zf i j :
    (x0 <= i < x0 + Z.of_nat nx)%Z -> (y0 <= j < y0 + Z.of_nat ny - 1)%Z ->
    (forall k, up i j k = down i (j + 1)%Z k) ->
    zsum 0 nzn (fun k => volume c i j * generic fromFA m c X up down norm zf i j k)
    = zsum 0 nzn (fun k => snd (x_loop (pm_x m) c X j k) i - snd (x_loop (pm_x m) c X j k) (i + 1)%Z
                           + (fromFA (y_flow (pm_y m) c down) i j k - fromFA (y_flow (pm_y m) c down) i (j + 1)%Z k)).
  Proof using M P K T.
    intros Hi Hj HU. pose proof M as (MX & Hny & Hy & Hnz & Hz). pose proof T as (T1 & T2 & T3).
    rewrite (generic_ring fromFA m c nx ny nzn X up down norm zf M P K) by exact Hi.
    rewrite zsum_plus. f_equal.
    - apply zsum_ext. intros k _. rewrite !(x_flow (pm_x m) nx) by (assumption || (unfold x0 in *; lia)).
      replace (i + 1 - 1)%Z with i by lia. rewrite (T1 (i - 1)%Z i j), (T3 (i - 1)%Z i j j). ring.
    - rewrite zsum_minus, !K, <- zsum_minus. apply zsum_ext. intros k _. rewrite HU. unfold y_flow.
      replace (Z.leb (ystart (pm_y m)) j && Z.leb j (yend (pm_y m)))%bool with true
        by (symmetry; apply andb_true_intro; split; apply Z.leb_le; unfold y0 in *; lia).
      replace (Z.leb (ystart (pm_y m)) (j + 1) && Z.leb (j + 1) (yend (pm_y m)))%bool with true
        by (symmetry; apply andb_true_intro; split; apply Z.leb_le; unfold y0 in *; lia).
      rewrite (T2 i (j + 1)%Z j), (T3 i i (j + 1)%Z j). ring.
  Qed.

  Lemma flows_diagnostic a f i j :
    (x0 <= i < x0 + Z.of_nat nx)%Z -> (y0 <= j < y0 + Z.of_nat ny - 1)%Z ->
    let r := Div_a_Grad_perp_flows toFA fromFA m c a f in
    zsum 0 nzn (fun k => volume c i j * result r i j k)
    = zsum 0 nzn (fun k => flow_xlow r i j k - flow_xlow r (i + 1)%Z j k + (flow_ylow r i j k - flow_ylow r i (j + 1)%Z k)).
  Proof using M P K T.
    intros Hi Hj. apply (flows_of (x_flows c a f) (y_flows_up c (pm_nz m) (toFA a) (toFA f)) (y_flows_down c (pm_nz m) (toFA a) (toFA f)));
      [exact Hi|exact Hj|]. intros k. apply y_flows_match.
  Qed.
  Lemma upwind_diagnostic a f i j :
    (x0 <= i < x0 + Z.of_nat nx)%Z -> (y0 <= j < y0 + Z.of_nat ny - 1)%Z ->
    let r := Div_a_Grad_perp_upwind_flows toFA fromFA m c a f in
    zsum 0 nzn (fun k => volume c i j * result r i j k)
    = zsum 0 nzn (fun k => flow_xlow r i j k - flow_xlow r (i + 1)%Z j k + (flow_ylow r i j k - flow_ylow r i (j + 1)%Z k)).
  Proof using M P K T.
    intros Hi Hj. apply (flows_of (x_upwind c a f) (y_upwind_up c (pm_nz m) (toFA a) (toFA f)) (y_upwind_down c (pm_nz m) (toFA a) (toFA f)));
      [exact Hi|exact Hj|]. intros k. now apply y_upwind_match.
  Qed.
End Totals.

(** ** Constants *)


Lemma x_loop_zero m c (flux : Z -> Z -> Z -> R) j k : (forall i, flux i j k = 0) ->
  forall i, fst (x_loop m c flux j k) i = 0 /\ snd (x_loop m c flux j k) i = 0.
Proof.
  intros H. unfold x_loop.
  assert (G : forall l st, (forall i, fst st i = 0 /\ snd st i = 0) ->
     forall i, fst (fold_left (x_step c flux j k) l st) i = 0 /\ snd (fold_left (x_step c flux j k) l st) i = 0).
  { induction l as [|a l IH]; intros [r w] Hst; [exact Hst|]. cbn [fold_left]. apply IH. cbn [fst snd] in Hst.
    intros i. unfold x_step. rewrite H. cbn [fst snd]. unfold upd. unfold Rdiv. rewrite !Rmult_0_l, !Rmult_0_r, !Rmult_0_l.
    destruct (Hst a), (Hst (a + 1)%Z), (Hst i).
    split; [|destruct (Z.eqb _ _); lra]. destruct (Z.eqb i (a + 1)); [destruct (Z.eqb _ _); lra|]. destruct (Z.eqb _ _); lra. }
  apply G. cbn. auto.
Qed.
Lemma z_loop_zero nz norm (flux y : Z -> R) : (forall k, flux k = 0) -> forall k, z_loop nz norm flux y k = y k.
Proof.
  intros H. unfold z_loop. revert y. induction (irange 0 (nz - 1)) as [|a l IH]; intros y k; [reflexivity|].
  cbn [fold_left]. rewrite IH. unfold z_step. rewrite H. unfold upd, Rdiv. rewrite Rmult_0_l.
  destruct (Z.eqb_spec k (zplus nz a)) as [->|]; [destruct (Z.eqb_spec (zplus nz a) a) as [E|]; [rewrite E|]; ring|].
  destruct (Z.eqb_spec k a) as [->|]; ring.
Qed.

Lemma generic_zero fromFA m c X up down norm zf :
  vanishes fromFA -> (forall i j k, X i j k = 0) -> (forall i j k, up i j k = 0) -> (forall i j k, down i j k = 0) ->
  (forall i j k, zf i j k = 0) -> forall i j k, generic fromFA m c X up down norm zf i j k = 0.
Proof.
  intros V HX HU HD HZ i j k. unfold generic. rewrite (proj1 (x_loop_zero (pm_x m) c X j k ltac:(intros; apply HX) i)).
  rewrite V; [ring|]. intros i' j' k'. rewrite z_loop_zero by (intros; apply HZ). unfold y_result. rewrite HU, HD. unfold Rdiv. ring.
Qed.

Lemma z_gradient_const c nz f v i j k : (forall i j k, f i j k = v) -> z_gradient c nz f i j k = 0.
Proof. intros H. unfold z_gradient. rewrite !H. unfold Rdiv. ring. Qed.
Lemma Rltb_irrefl0 : Rltb 0 0 = false. Proof. unfold Rltb. destruct (Rlt_dec 0 0); [exfalso; lra|reflexivity]. Qed.

Lemma flows_const toFA fromFA m c a v : vanishes fromFA -> (forall i j k, toFA (fun _ _ _ => v) i j k = v) ->
  forall i j k, result (Div_a_Grad_perp_flows toFA fromFA m c a (fun _ _ _ => v)) i j k = 0.
Proof.
  intros V C i j k. unfold Div_a_Grad_perp_flows, result. cbn [fst snd].
  apply (generic_zero fromFA m c (x_flows c a (fun _ _ _ => v)) (y_flows_up c (pm_nz m) (toFA a) (toFA (fun _ _ _ => v)))
    (y_flows_down c (pm_nz m) (toFA a) (toFA (fun _ _ _ => v)))); [exact V|..]; intros.
  - unfold x_flows, Rdiv. ring.
  - unfold y_flows_up. rewrite !C. unfold Rdiv. ring.
  - unfold y_flows_down. rewrite !C. unfold Rdiv. ring.
  - unfold z_flows. rewrite (z_gradient_const _ _ _ v _ _ _ C). unfold Rdiv. ring.
Qed.
Lemma upwind_const toFA fromFA m c a v : vanishes fromFA -> (forall i j k, toFA (fun _ _ _ => v) i j k = v) ->
  forall i j k, result (Div_a_Grad_perp_upwind_flows toFA fromFA m c a (fun _ _ _ => v)) i j k = 0.
Proof.
  intros V C i j k. unfold Div_a_Grad_perp_upwind_flows, result. cbn [fst snd].
  apply (generic_zero fromFA m c (x_upwind c a (fun _ _ _ => v)) (y_upwind_up c (pm_nz m) (toFA a) (toFA (fun _ _ _ => v)))
    (y_upwind_down c (pm_nz m) (toFA a) (toFA (fun _ _ _ => v)))); [exact V|..]; intros.
  - unfold x_upwind, Rdiv. replace (v - v) with 0 by ring. rewrite !Rmult_0_r, !Rmult_0_l. reflexivity.
  - unfold y_upwind_up. rewrite !C. unfold Rdiv. ring.
  - unfold y_upwind_down. rewrite !C. unfold Rdiv. ring.
  - unfold z_upwind. rewrite (z_gradient_const _ _ _ v _ _ _ C). ring.
Qed.
Lemma limit_const edges toFA fromFA m c a g v : vanishes fromFA -> (forall i j k, toFA (fun _ _ _ => v) i j k = v) ->
  forall i j k, Div_a_Grad_perp_limit edges toFA fromFA m c a g (fun _ _ _ => v) i j k = 0.
Proof.
  intros V C i j k. unfold Div_a_Grad_perp_limit.
  apply (generic_zero fromFA m c (x_limit edges (pm_x m) c a g (fun _ _ _ => v)) (y_limit_up (pm_y m) c (pm_nz m) (toFA a) (toFA g) (toFA (fun _ _ _ => v)))
    (y_limit_down (pm_y m) c (pm_nz m) (toFA a) (toFA g) (toFA (fun _ _ _ => v)))); [exact V|..]; intros.
  - unfold x_limit, Rdiv. replace (v - v) with 0 by ring. ring.
  - unfold y_limit_up. rewrite !C. unfold Rdiv. ring.
  - unfold y_limit_down. rewrite !C. unfold Rdiv. ring.
  - unfold z_limit. rewrite (z_gradient_const _ _ _ v _ _ _ C). ring.
Qed.

(** ** The central and upwind versions *)

Lemma z_loop_scale nz n1 n2 (f1 f2 y : Z -> R) : (forall k, f1 k / n1 = f2 k / n2) -> z_loop nz n1 f1 y = z_loop nz n2 f2 y.
Proof.
  intros H. unfold z_loop. revert y. induction (irange 0 (nz - 1)) as [|a l IH]; intros y; [reflexivity|].
  cbn [fold_left]. rewrite IH. f_equal. unfold z_step. rewrite H. reflexivity.
Qed.

Lemma upwind_is_flows toFA fromFA m c v f : pcoords_ok c -> tensor_grid c ->
  (forall i j k, toFA (fun _ _ _ => v) i j k = v) -> (forall i j, p_g33 c i j = 1) ->
  forall i j k, result (Div_a_Grad_perp_upwind_flows toFA fromFA m c (fun _ _ _ => v) f) i j k
    = result (Div_a_Grad_perp_flows toFA fromFA m c (fun _ _ _ => v) f) i j k.
Proof.
  intros P T C G i j k. unfold Div_a_Grad_perp_upwind_flows, Div_a_Grad_perp_flows, result. cbn [fst snd]. f_equal.
  - assert (EX : x_upwind c (fun _ _ _ => v) f = x_flows c (fun _ _ _ => v) f); [|rewrite EX; reflexivity].
    extensionality i'. extensionality j'. extensionality k'.
    pose proof (x_upwind_spec c (fun _ _ _ => v) f (i' + 1) j' k' P) as E1. pose proof (x_flows_spec c (fun _ _ _ => v) f (i' + 1) j' k' P) as E2.
    replace (i' + 1 - 1)%Z with i' in E1, E2 by lia. rewrite E1, E2. unfold upwind_x, diffusive_x, slope_x.
    replace (if Rlt_dec _ _ then v else v) with v by (destruct (Rlt_dec _ _); reflexivity). field.
    destruct (P (i' + 1)%Z j') as (_ & A & _), (P (i' + 1 - 1)%Z j') as (_ & B & _). lra.
  - match goal with |- fromFA ?x i j k = fromFA ?y i j k => assert (EY : x = y); [|rewrite EY; reflexivity] end.
    extensionality i'. extensionality j'.
    rewrite (z_loop_scale _ (p_dz c i' j') (p_J c i' j' * p_dz c i' j') _ (z_flows c (pm_nz m) (toFA (fun _ _ _ => v)) (toFA f) i' j')).
    + f_equal. extensionality k'. unfold y_result. rewrite y_upwind_match, y_flows_match by exact T.
      rewrite !y_upwind_spec, !y_flows_spec by assumption. reflexivity.
    + intros k'. unfold z_upwind, z_flows. rewrite !C, !G. destruct half_eqs as [_ ->].
      replace (if Rltb _ _ then v else v) with v by (destruct (Rltb _ _); reflexivity).
      destruct (P i' j') as (A1 & A2 & A3 & A4). field. lra.
Qed.

(** ** Cells without density in the limited version *)

Lemma slope_sign c f i j k : pcoords_ok c -> (forall i j, 0 <= p_g11 c i j) ->
  exists s, 0 <= s /\ slope_x c f i j k = s * (f i j k - f (i - 1)%Z j k).
Proof.
  intros P G. destruct (P i j) as (A1 & A2 & A3 & A4), (P (i - 1)%Z j) as (B1 & B2 & B3 & B4).
  exists ((p_J c (i - 1)%Z j * p_g11 c (i - 1)%Z j + p_J c i j * p_g11 c i j) / 2 * / ((p_dx c (i - 1)%Z j + p_dx c i j) / 2)). split.
  - pose proof (G i j) as G1. pose proof (G (i - 1)%Z j) as G2. apply Rmult_le_pos.
    + assert (0 <= p_J c (i - 1)%Z j * p_g11 c (i - 1)%Z j) by (apply Rmult_le_pos; lra).
      assert (0 <= p_J c i j * p_g11 c i j) by (apply Rmult_le_pos; lra). lra.
    + left. apply Rinv_0_lt_compat. lra.
  - unfold slope_x, Rdiv. ring.
Qed.

Lemma limit_x_empty edges m nx c a g f i j k :
  xmesh_ok m nx -> pcoords_ok c -> bounded_by_neighbours edges -> flat_at_extrema edges -> (forall i j, 0 <= p_g11 c i j) ->
  (forall i j k, 0 <= a i j k) -> (forall i j k, 0 <= g i j k) -> g i j k = 0 ->
  (xstart m <= i < xstart m + Z.of_nat nx)%Z ->
  (firstX m = true -> i <> xstart m) -> (lastX m = true -> i <> xend m) ->
  0 <= fst (x_loop m c (x_limit edges m c a g f) j k) i.
Proof.
  intros M P B F G Ha Hg H0 Hi HF HL. rewrite (x_cell m nx) by assumption.
  pose proof (x_limit_spec edges m c a g f (i + 1) j k P) as E. replace (i + 1 - 1)%Z with i in E by lia. rewrite E, x_limit_spec by exact P. clear E.
  destruct (P i j) as (A1 & A2 & A3 & A4). apply Rle_mult_inv_pos; [|apply Rmult_lt_0_compat; assumption].
  assert (Em : edges (g (i - 1)%Z j k) (g i j k) (g (i + 1)%Z j k) = (0, 0)) by (rewrite H0; apply edges_empty; [exact F|apply Hg|apply Hg]).
  assert (U : 0 <= limited_x edges m c a g f (i + 1) j k).
  { unfold limited_x, limited_g. destruct (slope_sign c f (i + 1) j k P G) as (s & Hs & ->). replace (i + 1 - 1)%Z with i by lia.
    replace ((firstX m && Z.eqb (i + 1) (xstart m)) || (lastX m && Z.eqb (i + 1) (xend m + 1)))%bool with false.
    2: { symmetry. replace (Z.eqb (i + 1) (xstart m)) with false by (symmetry; apply Z.eqb_neq; lia). rewrite andb_false_r. cbn [orb].
         destruct (lastX m); [cbn [andb]; apply Z.eqb_neq; specialize (HL eq_refl); lia|reflexivity]. }
    pose proof (Ha i j k) as Ha1. pose proof (Ha (i + 1)%Z j k) as Ha2.
    destruct (Rlt_dec _ _) as [L|L].
    - unfold above. replace (i + 1 - 1)%Z with i by lia.
      destruct (edges_nonneg edges (g i j k) (g (i + 1)%Z j k) (g (i + 1 + 1)%Z j k) B (Hg _ _ _) (Hg _ _ _) (Hg _ _ _)) as [G1 _].
      apply Rmult_le_pos; [apply Rmult_le_pos; [apply Rmult_le_pos|]|]; lra.
    - unfold below. replace (i + 1 - 2)%Z with (i - 1)%Z by lia. replace (i + 1 - 1)%Z with i by lia. rewrite Em. cbn [snd]. lra. }
  assert (D : limited_x edges m c a g f i j k <= 0).
  { unfold limited_x, limited_g. destruct (slope_sign c f i j k P G) as (s & Hs & ->).
    replace ((firstX m && Z.eqb i (xstart m)) || (lastX m && Z.eqb i (xend m + 1)))%bool with false.
    2: { symmetry. replace (Z.eqb i (xend m + 1)) with false by (symmetry; apply Z.eqb_neq; destruct M; lia). rewrite andb_false_r, orb_false_r.
         destruct (firstX m); [cbn [andb]; apply Z.eqb_neq; specialize (HF eq_refl); lia|reflexivity]. }
    pose proof (Ha i j k) as Ha1. pose proof (Ha (i - 1)%Z j k) as Ha2.
    destruct (Rlt_dec _ _) as [L|L].
    - unfold above. rewrite Em. cbn [fst]. lra.
    - unfold below.
      destruct (edges_nonneg edges (g (i - 2)%Z j k) (g (i - 1)%Z j k) (g i j k) B (Hg _ _ _) (Hg _ _ _) (Hg _ _ _)) as [_ G1].
      assert (0 <= s * (f (i - 1)%Z j k - f i j k) * ((a (i - 1)%Z j k + a i j k) / 2) * snd (edges (g (i - 2)%Z j k) (g (i - 1)%Z j k) (g i j k))).
      { apply Rmult_le_pos; [apply Rmult_le_pos; [apply Rmult_le_pos|]|]; lra. }
      lra. }
  lra.
Qed.

(** ** Witnesses *)

Definition one2 (i j : Z) : R := 1.
Definition identity (f : field) : field := f.
Lemma identity_keeps nzn : keeps_z_sums nzn identity. Proof. intros g i j. reflexivity. Qed.
Lemma identity_vanishes : vanishes identity. Proof. intros g H. exact H. Qed.

(** A mesh of 2 x 3 x 4 cells in the middle of the domain. *)
Definition box : pmesh := mkPmesh (mkXmesh 1 2 4 false false) (mkMesh 1 3 5 false false false) 4.

Lemma box_ok : pmesh_ok box 2 3 4.
Proof. unfold pmesh_ok, xmesh_ok. cbn [box pm_x pm_y pm_nz xstart xend ystart yend]. repeat split; lia. Qed.

(** Metric 1 apart from g23 = - 1, as in a sheared field-aligned grid. *)
Definition sheared (g33 : R) : pcoords := mkPcoords one2 one2 (fun _ _ => -1) one2 (fun _ _ => g33) one2 one2 one2 one2.
Lemma sheared_ok g33 : pcoords_ok (sheared g33).
Proof. intros i j. cbn [sheared p_J p_dx p_dy p_dz]. unfold one2. lra. Qed.
Lemma sheared_tensor g33 : tensor_grid (sheared g33).
Proof. repeat split. Qed.

(** The flow out of the top row is not in flow_ylow. *)
Definition top_guard : field := fun i j k => if Z.eqb j 4 then 1 else 0.
Lemma top_flow_missing :
  let r := Div_a_Grad_perp_flows identity identity box (sheared 1) (fun _ _ _ => 1) top_guard in
  zsum 0 4 (fun k => volume (sheared 1) 1 3 * result r 1%Z 3%Z k) = 4 /\
  zsum 0 4 (fun k => flow_xlow r 1%Z 3%Z k - flow_xlow r 2%Z 3%Z k + (flow_ylow r 1%Z 3%Z k - flow_ylow r 1%Z 4%Z k)) = 0.
Proof.
  intros r. split.
  - unfold r, result, Div_a_Grad_perp_flows. cbn [fst snd].
    pose proof (generic_ring identity box (sheared 1) 2 3 4 (x_flows (sheared 1) (fun _ _ _ => 1) top_guard)
      (y_flows_up (sheared 1) 4 (fun _ _ _ => 1) top_guard) (y_flows_down (sheared 1) 4 (fun _ _ _ => 1) top_guard)
      (fun i j => p_J (sheared 1) i j * p_dz (sheared 1) i j)
      (fun i j => z_flows (sheared 1) 4 (fun _ _ _ => 1) top_guard i j) box_ok (sheared_ok 1) (identity_keeps 4) 1 3 ltac:(cbn; lia)) as E.
    unfold generic in E. unfold identity at 2 3. refine (eq_trans E _). clear E.
    unfold x_flows, y_flows_up, y_flows_down, y_coef, top_guard.
    cbn [zsum sheared p_J p_g11 p_g23 p_g_23 p_g33 p_Bxy p_dx p_dy p_dz]. unfold one2. 
    cbn [Z.of_nat Pos.of_succ_nat Z.add Pos.add Pos.succ Z.sub Z.opp Z.pos_sub Pos.pred_double Z.eqb Pos.eqb]. lra.
  - unfold r, flow_xlow, flow_ylow, Div_a_Grad_perp_flows, identity. cbn [fst snd].
    rewrite (zsum_ext 0 4 _ (fun _ => 0)); [apply zsum_zero|]. intros k _.
    rewrite !(x_flow (pm_x box) 2 (sheared 1)) by (try (split; cbn; lia); cbn; lia).
    unfold y_flow. cbn [box pm_x pm_y pm_nz ystart yend]. replace (Z.leb 1 3 && Z.leb 3 3)%bool with true by reflexivity.
    replace (Z.leb 1 4 && Z.leb 4 3)%bool with false by reflexivity.
    unfold x_flows, y_flows_down, y_coef, top_guard. cbn [sheared p_J p_g11 p_g23 p_g_23 p_g33 p_Bxy p_dx p_dy p_dz]. unfold one2.
    cbn [Z.add Pos.add Pos.succ Z.sub Z.opp Z.pos_sub Pos.pred_double Z.eqb Pos.eqb]. lra.
Qed.

(** Different results of the central and upwind versions for a = 1 and g33 = 2. *)
Definition ridge : field := fun i j k => if Z.eqb k 1 then 1 else 0.
Lemma ridge_z c j : p_J c 1 j = 1 -> p_dz c 1 j = 1 -> forall k, z_gradient c 4 ridge 1 j k = ridge 1%Z j (zplus 4 k) - ridge 1%Z j k.
Proof. intros HJ Hz k. unfold z_gradient. rewrite Hz. unfold ridge. field_simplify. unfold Rdiv. lra. Qed.

Lemma versions_differ :
  result (Div_a_Grad_perp_flows identity identity box (sheared 2) (fun _ _ _ => 1) ridge) 1%Z 2%Z 1%Z = -4 /\
  result (Div_a_Grad_perp_upwind_flows identity identity box (sheared 2) (fun _ _ _ => 1) ridge) 1%Z 2%Z 1%Z = -2.
Proof.
  unfold result, Div_a_Grad_perp_flows, Div_a_Grad_perp_upwind_flows, identity. cbn [fst snd pm_nz pm_x box].
  assert (Z4 : 4%Z = Z.of_nat 4) by reflexivity. rewrite Z4.
  rewrite !(z_loop_cell 4) by lia. rewrite <- Z4.
  rewrite !(x_cell (mkXmesh 1 2 4 false false) 2) by (try apply sheared_ok; try (split; cbn; lia); cbn; lia).
  change (zminus 4 1) with 0%Z. unfold z_flows, z_upwind. rewrite !ridge_z by reflexivity.
  change (zplus 4 1) with 2%Z. change (zplus 4 0) with 1%Z.
  unfold y_result, x_flows, x_upwind, y_flows_up, y_flows_down, y_upwind_up, y_upwind_down, y_coef, ridge.
  change (zplus 4 1) with 2%Z. change (zminus 4 1) with 0%Z.
  cbn [sheared p_J p_g11 p_g23 p_g_23 p_g33 p_Bxy p_dx p_dy p_dz]. unfold one2.
  cbn [Z.add Pos.add Pos.succ Z.sub Z.opp Z.pos_sub Pos.pred_double Z.eqb Pos.eqb].
  split; [lra|]. unfold Rltb. repeat (destruct (Rlt_dec _ _)); lra.
Qed.

(** The limited version takes from a row without density in the Y direction. *)
Definition sloped : field := fun i j k => (if Z.eqb k 2 then 10 else 0) + IZR j.
Definition density_above : field := fun i j k => if Z.eqb j 3 then 1 else 0.
Lemma limit_y_drains_empty_cell edges :
  (forall x, edges x x x = (x, x)) ->
  (forall i j k, 0 <= density_above i j k) /\ density_above 1%Z 2%Z 1%Z = 0 /\
  Div_a_Grad_perp_limit edges identity identity box (sheared 1) (fun _ _ _ => 1) density_above sloped 1%Z 2%Z 1%Z < 0.
Proof.
  intros HE. split; [intros i j k; unfold density_above; destruct (Z.eqb _ _); lra|]. split; [reflexivity|].
  unfold Div_a_Grad_perp_limit, identity. cbn [pm_nz pm_x pm_y box].
  assert (Z4 : 4%Z = Z.of_nat 4) by reflexivity. rewrite Z4.
  rewrite !(z_loop_cell 4) by lia. rewrite <- Z4.
  rewrite !(x_cell (mkXmesh 1 2 4 false false) 2) by (try apply sheared_ok; try (split; cbn; lia); cbn; lia).
  change (zminus 4 1) with 0%Z. unfold z_limit.
  unfold y_result, x_limit, y_limit_up, y_limit_down, y_coef.
  change (zplus 4 1) with 2%Z. change (zminus 4 1) with 0%Z. change (zplus 4 0) with 1%Z.
  cbn [box ystart yend xstart xend firstX lastX firstY lastY sheared p_J p_g11 p_g23 p_g_23 p_g33 p_Bxy p_dx p_dy p_dz]. unfold one2.
  rewrite !andb_false_r. cbn [orb]. unfold density_above, sloped.
  cbn [Z.add Pos.add Pos.succ Z.sub Z.opp Z.pos_sub Pos.pred_double Z.eqb Pos.eqb].
  rewrite !HE. cbn [fst snd]. unfold Rltb. repeat (destruct (Rlt_dec _ _)); lra.
Qed.
