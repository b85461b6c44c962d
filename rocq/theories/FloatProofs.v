(** Proofs about rounding. *)

From Coq Require Import List Bool ZArith Reals Lra Lia Permutation.
From Flocq Require Import Core Plus_error Relative.
From Verif Require Import StateMonad StateMonadProofs LimitersModel PpmProofs ParallelModel FloatModel FloatSpec.
Import ListNotations.
Open Scope R_scope.

Definition toward (t x : R) : Prop := 0 <= x <= t \/ t <= x <= 0.

Lemma half5 : 0.5 = / 2. Proof. lra. Qed.

Section Laws.
  Variables (F : R -> Prop) (rnd : R -> R) (u : R).
  Hypothesis H : rounding F rnd u.
  Lemma rz : rnd 0 = 0.
  Proof. pose proof (r_opp _ _ _ H 0) as E. rewrite Ropp_0 in E. lra. Qed.
  Lemma F0 : F 0. Proof. rewrite <- rz. apply (r_in _ _ _ H). Qed.
  Lemma F_opp x : F x -> F (- x).
  Proof. intros A. rewrite <- (r_id _ _ _ H x A), <- (r_opp _ _ _ H). apply (r_in _ _ _ H). Qed.
  Lemma rpos x : 0 <= x -> 0 <= rnd x. Proof. intros A. rewrite <- rz. apply (r_mono _ _ _ H). exact A. Qed.
  Lemma rneg x : x <= 0 -> rnd x <= 0. Proof. intros A. rewrite <- rz. apply (r_mono _ _ _ H). exact A. Qed.
  Lemma rpos_inv x : 0 < rnd x -> 0 < x.
  Proof. intros A. destruct (Rle_lt_dec x 0) as [B|B]; [apply rneg in B; lra | exact B]. Qed.
  Lemma toward_rnd t x : F t -> toward t x -> toward t (rnd x).
  Proof.
    intros A [B|B]; [left | right]; rewrite <- rz, <- (r_id _ _ _ H t A); split; apply (r_mono _ _ _ H); rewrite ?rz, ?(r_id _ _ _ H t A); lra.
  Qed.
  Lemma toward0 t : toward t 0.
  Proof. destruct (Rle_lt_dec 0 t); [left | right]; lra. Qed.
  Lemma toward_half t x : toward (2 * t) x -> toward t (/ 2 * x).
  Proof. intros [B|B]; [left | right]; lra. Qed.
  Lemma toward_dbl t x : toward t x -> toward (2 * t) x.
  Proof. intros [B|B]; [left | right]; lra. Qed.

  Lemma minmod2_toward a b : toward a (minmod2_r rnd a b) /\ toward b (minmod2_r rnd a b).
  Proof.
    unfold minmod2_r. pose proof (Rleb_spec (rnd (a * b)) 0) as A. destruct (Rleb (rnd (a * b)) 0); [split; apply toward0|].
    apply rpos_inv in A. pose proof (Rltb_spec (Rabs a) (Rabs b)) as B. 
    assert (C : (0 < a /\ 0 < b) \/ (a < 0 /\ b < 0)).
    { destruct (Rtotal_order a 0) as [K|[K|K]]; [right; split; [exact K|] | subst; lra | left; split; [exact K|]].
      - destruct (Rle_lt_dec 0 b) as [L|L]; [|exact L]. pose proof (Rmult_le_compat_neg_l a 0 b (Rlt_le _ _ K) L). lra.
      - destruct (Rle_lt_dec b 0) as [L|L]; [|exact L]. pose proof (Rmult_le_compat_l a b 0 (Rlt_le _ _ K) L). lra. }
    unfold toward. destruct C as [(C & D)|(C & D)].
    - rewrite (Rabs_pos_eq a), (Rabs_pos_eq b) in * by lra. destruct (Rltb a b); split; left; lra.
    - rewrite (Rabs_left a), (Rabs_left b) in * by lra. destruct (Rltb (- a) (- b)); split; right; lra.
  Qed.
  Lemma bmin3 a b c : BOUTMIN3 a b c <= a /\ BOUTMIN3 a b c <= c /\ (0 <= a -> 0 <= b -> 0 <= c -> 0 <= BOUTMIN3 a b c).
  Proof.
    unfold BOUTMIN3, BOUTMIN. pose proof (Rltb_spec b c). destruct (Rltb b c).
    - pose proof (Rltb_spec a b). destruct (Rltb a b); lra.
    - pose proof (Rltb_spec a c). destruct (Rltb a c); lra.
  Qed.
  Lemma minmod3_toward a b c : F a -> F c -> toward a (minmod3_r rnd a b c) /\ toward c (minmod3_r rnd a b c).
  Proof.
    intros Fa Fc. unfold minmod3_r. pose proof (Rleb_spec (rnd (a * b)) 0) as A. destruct (Rleb (rnd (a * b)) 0); [cbn [orb]; split; apply toward0|].
    pose proof (Rleb_spec (rnd (a * c)) 0) as B. destruct (Rleb (rnd (a * c)) 0); cbn [orb]; [split; apply toward0|].
    apply rpos_inv in A, B. destruct (bmin3 (Rabs a) (Rabs b) (Rabs c)) as (P & Q & N). specialize (N (Rabs_pos _) (Rabs_pos _) (Rabs_pos _)).
    set (w := BOUTMIN3 _ _ _) in *. unfold SIGN. pose proof (Rltb_spec a 0) as S0.
    assert (C : (0 < a /\ 0 < c) \/ (a < 0 /\ c < 0)).
    { destruct (Rtotal_order a 0) as [K|[K|K]]; [right; split; [exact K|] | subst; lra | left; split; [exact K|]].
      - destruct (Rle_lt_dec 0 c) as [L|L]; [|exact L]. pose proof (Rmult_le_compat_neg_l a 0 c (Rlt_le _ _ K) L). lra.
      - destruct (Rle_lt_dec c 0) as [L|L]; [|exact L]. pose proof (Rmult_le_compat_l a c 0 (Rlt_le _ _ K) L). lra. }
    destruct C as [(C & D)|(C & D)].
    - rewrite (Rabs_pos_eq a) in P by lra. rewrite (Rabs_pos_eq c) in Q by lra. destruct (Rltb a 0); [lra|]. split; apply toward_rnd; try assumption; left; lra.
    - rewrite (Rabs_left a) in P by lra. rewrite (Rabs_left c) in Q by lra. destruct (Rltb a 0); [|lra]. split; apply toward_rnd; try assumption; right; lra.
  Qed.

  (* What the two limiters have in common. *)
  Definition limited (e : R -> R -> R -> R * R) : Prop := forall m c p, exists h, e m c p = (rnd (c - h), rnd (c + h)) /\ F h /\ toward (rnd (p - c)) h /\ toward (rnd (c - m)) h.
  Lemma minmod_limited : limited (minmod_edges_r rnd).
  Proof.
    intros m c p. unfold minmod_edges_r, sides_r. set (s := minmod2_r _ _ _). exists (rnd (0.5 * s)). split; [reflexivity|]. split; [apply (r_in _ _ _ H)|].
    destruct (minmod2_toward (rnd (p - c)) (rnd (c - m))) as (A & B). fold s in A, B. rewrite half5.
    split; (apply toward_rnd; [apply (r_in _ _ _ H)|]; apply toward_half, toward_dbl; assumption).
  Qed.
  Lemma mc_limited : limited (mc_edges_r rnd).
  Proof.
    intros m c p. unfold mc_edges_r, sides_r. set (s := minmod3_r _ _ _ _). exists (rnd (0.5 * s)). split; [reflexivity|]. split; [apply (r_in _ _ _ H)|].
    destruct (minmod3_toward (rnd (2 * rnd (p - c))) (rnd (0.5 * rnd (p - m))) (rnd (2 * rnd (c - m)))) as (A & B); [apply (r_in _ _ _ H) | apply (r_in _ _ _ H)|].
    fold s in A, B. rewrite half5.
    rewrite (r_id _ _ _ H) in A by (apply (r_dbl _ _ _ H), (r_in _ _ _ H)).
    rewrite (r_id _ _ _ H (2 * _)) in B by (apply (r_dbl _ _ _ H), (r_in _ _ _ H)).
    split; (apply toward_rnd; [apply (r_in _ _ _ H)|]; apply toward_half; assumption).
  Qed.
  Lemma upwind_limited_c m c p : F c -> upwind_edges m c p = (rnd (c - 0), rnd (c + 0)).
  Proof. intros A. unfold upwind_edges. rewrite Rminus_0_r, Rplus_0_r, (r_id _ _ _ H c A). reflexivity. Qed.

  Lemma faces_pos e m c p : limited e -> F c -> 0 <= m -> 0 <= c -> 0 <= p -> 0 <= fst (e m c p) /\ 0 <= snd (e m c p).
  Proof.
    intros E Fc A B C. destruct (E m c p) as (h & -> & _ & X & Y). cbn [fst snd].
    assert (K : rnd (c - m) <= c) by (rewrite <- (r_id _ _ _ H c Fc) at 2; apply (r_mono _ _ _ H); lra).
    assert (L : - c <= rnd (p - c)) by (rewrite <- (r_id _ _ _ H c Fc) at 1; rewrite <- (r_opp _ _ _ H); apply (r_mono _ _ _ H); lra).
    split; apply rpos; unfold toward in X, Y; lra.
  Qed.
  Lemma faces_empty e m p : limited e -> 0 <= m -> 0 <= p -> e m 0 p = (0, 0).
  Proof.
    intros E A C. destruct (E m 0 p) as (h & -> & _ & X & Y).
    assert (K : rnd (0 - m) <= 0) by (apply rneg; lra). assert (L : 0 <= rnd (p - 0)) by (apply rpos; lra).
    assert (h = 0) by (unfold toward in X, Y; lra). subst h. rewrite Rminus_0_r, Rplus_0_r, rz. reflexivity.
  Qed.
  Lemma faces_const e c : limited e -> F c -> e c c c = (c, c).
  Proof.
    intros E A. destruct (E c c c) as (h & -> & _ & X & Y). rewrite Rminus_eq_0, rz in X. assert (h = 0) by (unfold toward in X; lra). subst h.
    rewrite Rminus_0_r, Rplus_0_r, (r_id _ _ _ H c A). reflexivity.
  Qed.
  (* One side: the value towards a neighbour a. *)
  Lemma side_near c a h : F c -> F a -> F h -> toward (rnd (a - c)) h ->
    Rmin a c - 4 * u * Rmax (Rabs a) (Rabs c) <= rnd (c + h) <= Rmax a c + 4 * u * Rmax (Rabs a) (Rabs c).
  Proof.
    intros Fc Fa Fh T. set (M := Rmax (Rabs a) (Rabs c)). pose proof (r_u _ _ _ H) as U.
    assert (Ma : Rabs a <= M) by apply Rmax_l. assert (Mc : Rabs c <= M) by apply Rmax_r.
    pose proof (r_sum _ _ _ H a (- c) Fa (F_opp c Fc)) as D. change (a + - c) with (a - c) in D.
    assert (AC : Rabs (a - c) <= 2 * M) by (apply Rabs_le; apply Rabs_le_inv in Ma; apply Rabs_le_inv in Mc; lra).
    assert (D2 : Rabs (rnd (a - c) - (a - c)) <= 2 * u * M).
    { apply (Rle_trans _ _ _ D). replace (2 * u * M) with (u * (2 * M)) by ring. apply Rmult_le_compat_l; [lra | exact AC]. }
    assert (M0 : 0 <= M) by (apply (Rle_trans _ (Rabs a)); [apply Rabs_pos | exact Ma]).
    assert (uM : 0 <= u * M) by (apply Rmult_le_pos; lra).
    assert (Lo : Rmin a c - 2 * u * M <= c + h <= Rmax a c + 2 * u * M).
    { apply Rabs_le_inv in D2. unfold Rmin, Rmax, toward in *. destruct (Rle_dec a c); lra. }
    assert (CM : - M <= Rmin a c /\ Rmax a c <= M).
    { apply Rabs_le_inv in Ma. apply Rabs_le_inv in Mc. unfold Rmin, Rmax. destruct (Rle_dec a c); lra. }
    assert (B : Rabs (c + h) <= M + 2 * u * M) by (apply Rabs_le; lra).
    pose proof (r_sum _ _ _ H c h Fc Fh) as E.
    assert (E2 : Rabs (rnd (c + h) - (c + h)) <= 2 * (u * M)).
    { apply (Rle_trans _ _ _ E). apply (Rle_trans _ (u * (M + 2 * u * M))); [apply Rmult_le_compat_l; [lra | exact B]|].
      replace (u * (M + 2 * u * M)) with (u * M + 2 * u * (u * M)) by ring.
      assert (2 * u * (u * M) <= 1 * (u * M)) by (apply Rmult_le_compat_r; lra). lra. }
    apply Rabs_le_inv in E2. lra.
  Qed.
  Lemma faces_near e m c p : limited e -> F m -> F c -> F p ->
    Rmin m c - 4 * u * Rmax (Rabs m) (Rabs c) <= fst (e m c p) <= Rmax m c + 4 * u * Rmax (Rabs m) (Rabs c)
    /\ Rmin p c - 4 * u * Rmax (Rabs p) (Rabs c) <= snd (e m c p) <= Rmax p c + 4 * u * Rmax (Rabs p) (Rabs c).
  Proof.
    intros E Fm Fc Fp. destruct (E m c p) as (h & -> & Fh & X & Y). cbn [fst snd]. split; [|apply side_near; assumption].
    unfold Rminus at 3. apply side_near; try assumption; [apply F_opp, Fh|].
    replace (m - c) with (- (c - m)) by ring. rewrite (r_opp _ _ _ H). unfold toward in *. lra.
  Qed.
  Lemma near_abs a c x : Rmin a c - 4 * u * Rmax (Rabs a) (Rabs c) <= x <= Rmax a c + 4 * u * Rmax (Rabs a) (Rabs c) ->
    Rabs x <= (1 + 4 * u) * Rmax (Rabs a) (Rabs c).
  Proof.
    intros A. assert (Ma := Rmax_l (Rabs a) (Rabs c)). assert (Mc := Rmax_r (Rabs a) (Rabs c)). set (M := Rmax (Rabs a) (Rabs c)) in *.
    apply Rabs_le. apply Rabs_le_inv in Ma. apply Rabs_le_inv in Mc. unfold Rmin, Rmax in A. destruct (Rle_dec a c); lra.
  Qed.

  (* Transport. *)
  Definition waves_ok (v ws : Z -> R) : Prop := forall k, (1 + 4 * u) * Rabs (v k) <= ws k.
  Lemma factor_pos c j i k : metric_ok rnd c -> 0 <= factor_r rnd c j i k.
  Proof.
    intros M. unfold factor_r, common_r. destruct (M j i) as (A & _ & B). destruct (M i i) as (A' & _). destruct (M k i) as (_ & D & _).
    apply rpos. unfold Rdiv. apply Rmult_le_pos; [|apply Rlt_le, Rinv_0_lt_compat, D].
    apply rpos. apply Rmult_le_pos; [apply rpos; lra | apply Rlt_le, Rinv_0_lt_compat, B].
  Qed.
  Lemma bmax4 a b c d : a <= BOUTMAX4 a b c d /\ b <= BOUTMAX4 a b c d.
  Proof.
    unfold BOUTMAX4, BOUTMAX. pose proof (Rltb_spec d c). destruct (Rltb d c).
    - pose proof (Rltb_spec c b). destruct (Rltb c b); [pose proof (Rltb_spec b a); destruct (Rltb b a) | pose proof (Rltb_spec c a); destruct (Rltb c a)]; lra.
    - pose proof (Rltb_spec d b). destruct (Rltb d b); [pose proof (Rltb_spec b a); destruct (Rltb b a) | pose proof (Rltb_spec d a); destruct (Rltb d a)]; lra.
  Qed.
  Lemma wave_bound v ws j i x c d : waves_ok v ws -> Rabs x <= (1 + 4 * u) * Rmax (Rabs (v i)) (Rabs (v j)) -> Rabs x <= BOUTMAX4 (ws j) (ws i) c d.
  Proof.
    intros W A. destruct (bmax4 (ws j) (ws i) c d) as (P & Q). pose proof (W j). pose proof (W i).
    unfold Rmax in A. destruct (Rle_dec (Rabs (v i)) (Rabs (v j))); lra.
  Qed.
  Variables (e : R -> R -> R -> R * R) (m : mesh) (c : coords) (fix_ : bool) (f v ws : Z -> R).
  Hypothesis E : limited e.
  Hypothesis Ff : forall k, F (f k). Hypothesis Fv : forall k, F (v k).
  Hypothesis P : forall k, 0 <= f k. Hypothesis W : waves_ok v ws. Hypothesis MO : metric_ok rnd c.
  Lemma right_pos j : last_point m j = false -> 0 <= mod_right_r rnd e m fix_ f v ws j.
  Proof.
    intros L. unfold mod_right_r. rewrite L. apply rpos. apply Rmult_le_pos.
    - apply rpos. apply Rmult_le_pos; [|lra]. unfold sR. apply (faces_pos e _ _ _ E); [apply Ff | apply P | apply P | apply P].
    - apply rpos. destruct (faces_near e (v (j - 1)%Z) (v j) (v (j + 1)%Z) E (Fv _) (Fv _) (Fv _)) as (_ & A). apply near_abs in A.
      apply (wave_bound v ws _ _ _ (Rabs (v j)) (Rabs (v (j + 1)%Z)) W) in A. apply Rabs_le_inv in A. unfold sR. lra.
  Qed.
  Lemma left_neg j : first_point m j = false -> mod_left_r rnd e m fix_ f v ws j <= 0.
  Proof.
    intros L. unfold mod_left_r. rewrite L. apply rneg.
    destruct (faces_near e (v (j - 1)%Z) (v j) (v (j + 1)%Z) E (Fv _) (Fv _) (Fv _)) as (A & _). apply near_abs in A.
    apply (wave_bound v ws _ _ _ (Rabs (v j)) (Rabs (v (j - 1)%Z)) W) in A. apply Rabs_le_inv in A.
    set (amax := BOUTMAX4 _ _ _ _) in *.
    assert (K : rnd (sL e v j - amax) <= 0) by (apply rneg; unfold sL; lra).
    assert (N : 0 <= rnd (sL e f j * 0.5)).
    { apply rpos. apply Rmult_le_pos; [|lra]. unfold sL. apply (faces_pos e _ _ _ E); [apply Ff | apply P | apply P | apply P]. }
    pose proof (Rmult_le_compat_l _ _ 0 N K). lra.
  Qed.
  Variable j : Z.
  Hypothesis Z0 : f j = 0.
  Hypothesis In : (ystart m <= j <= yend m)%Z. Hypothesis NL : last_point m j = false. Hypothesis NF : first_point m j = false.
  Lemma right_zero : mod_right_r rnd e m fix_ f v ws j = 0.
  Proof.
    unfold mod_right_r. rewrite NL. unfold sR at 1. rewrite Z0, (faces_empty e _ _ E (P _) (P _)). cbn [snd]. rewrite Rmult_0_l, rz, Rmult_0_l. exact rz.
  Qed.
  Lemma left_zero : mod_left_r rnd e m fix_ f v ws j = 0.
  Proof.
    unfold mod_left_r. rewrite NF. unfold sL at 1. rewrite Z0, (faces_empty e _ _ E (P _) (P _)). cbn [fst]. rewrite Rmult_0_l, rz, Rmult_0_l. exact rz.
  Qed.
  Lemma step_neg i r w r' w' : flux_step_r rnd m c (mod_right_r rnd e m fix_ f v ws) (mod_left_r rnd e m fix_ f v ws) (Some (r, w)) i = Some (r', w') ->
    r j <= 0 -> r' j <= 0.
  Proof.
    unfold flux_step_r. destruct (negb (in_bounds m i)); [discriminate|]. intros Q R0. injection Q as <- _.
    unfold upd. destruct (Z.eq_dec i j) as [->|N].
    - rewrite Z.eqb_refl. replace (Z.eqb j (j - 1)) with false by (symmetry; apply Z.eqb_neq; lia). replace (Z.eqb j (j + 1)) with false by (symmetry; apply Z.eqb_neq; lia).
      rewrite right_zero, left_zero, !Rmult_0_l, rz, Rplus_0_r, Rminus_0_r. apply rneg, rneg, R0.
    - replace (Z.eqb j i) with false by (symmetry; apply Z.eqb_neq; lia). destruct (Z.eq_dec i (j - 1)%Z) as [->|N2].
      + replace (Z.eqb j (j - 1 - 1)) with false by (symmetry; apply Z.eqb_neq; lia). replace (j - 1 + 1)%Z with j by lia. rewrite Z.eqb_refl.
        replace (Z.eqb j (j - 1)) with false by (symmetry; apply Z.eqb_neq; lia). apply rneg.
        assert (L : last_point m (j - 1) = false).
        { unfold last_point. destruct (Z.eqb_spec (j - 1) (yend m)); [lia|]. destruct (lastY m); reflexivity. }
        pose proof (right_pos _ L) as A. pose proof (rpos _ (Rmult_le_pos _ _ A (factor_pos c (j - 1) j j MO))). lra.
      + destruct (Z.eq_dec i (j + 1)%Z) as [->|N3].
        * replace (j + 1 - 1)%Z with j by lia. rewrite Z.eqb_refl.
          replace (Z.eqb j (j + 1)) with false by (symmetry; apply Z.eqb_neq; lia). replace (Z.eqb j (j + 1 + 1)) with false by (symmetry; apply Z.eqb_neq; lia). apply rneg.
          assert (L : first_point m (j + 1) = false).
          { unfold first_point. destruct (Z.eqb_spec (j + 1) (ystart m)); [lia|]. destruct (firstY m); reflexivity. }
          pose proof (left_neg _ L) as A. pose proof (factor_pos c (j + 1) j j MO) as B.
          pose proof (Rmult_le_compat_r _ _ _ B A) as D. rewrite Rmult_0_l in D. apply rneg in D. lra.
        * replace (Z.eqb j (i - 1)) with false by (symmetry; apply Z.eqb_neq; lia). replace (Z.eqb j (i + 1)) with false by (symmetry; apply Z.eqb_neq; lia). exact R0.
  Qed.
  Lemma fold_none l g : fold_left (flux_step_r rnd m c (mod_right_r rnd e m fix_ f v ws) (mod_left_r rnd e m fix_ f v ws)) l None = Some g -> False.
  Proof. induction l; [discriminate | exact IHl]. Qed.
  Lemma fold_neg l r w r' w' : fold_left (flux_step_r rnd m c (mod_right_r rnd e m fix_ f v ws) (mod_left_r rnd e m fix_ f v ws)) l (Some (r, w)) = Some (r', w') ->
    r j <= 0 -> r' j <= 0.
  Proof.
    revert r w. induction l as [|i l IH]; intros r w Q R0.
    - injection Q as -> ->. exact R0.
    - cbn [fold_left] in Q. destruct (flux_step_r rnd m c _ _ (Some (r, w)) i) as [[r1 w1]|] eqn:S1; [|exfalso; apply (fold_none l _ Q)].
      apply (IH _ _ Q). apply (step_neg _ _ _ _ _ S1 R0).
  Qed.
  Lemma empty_neg r w : Div_par_mod_r rnd e m c f v ws fix_ = Some (r, w) -> r j <= 0.
  Proof. intros Q. unfold Div_par_mod_r in Q. apply (fold_neg _ _ _ _ _ Q). lra. Qed.
End Laws.

(* Sums of sources. *)
Lemma fold_step rnd l v : fold_left (add_r rnd) l (Some v) = Some (fold_left (fun a w => rnd (w + a)) l v).
Proof. revert v. induction l as [|w l IH]; intros v; [reflexivity | exact (IH _)]. Qed.
Lemma total_bound l : Rabs (total l) <= total_abs l.
Proof. induction l as [|v l IH]; cbn [total total_abs fold_right]; [rewrite Rabs_R0; lra|]. apply (Rle_trans _ _ _ (Rabs_triang _ _)). unfold total, total_abs in IH. lra. Qed.
Lemma abs_pos l : 0 <= total_abs l.
Proof. apply (Rle_trans _ _ _ (Rabs_pos (total l)) (total_bound l)). Qed.
Lemma run_error F rnd u (H : rounding F rnd u) l : List.Forall F l -> forall a s T g, F a -> 0 <= g -> Rabs s <= T -> Rabs (a - s) <= g * T ->
  Rabs (fold_left (fun a w => rnd (w + a)) l a - (s + total l)) <= ((1 + g) * (1 + u) ^ List.length l - 1) * (T + total_abs l).
Proof.
  induction 1 as [|v l Fv Fl IH]; intros a s T g Fa G S1 D.
  - cbn [fold_left total total_abs fold_right List.length pow]. rewrite Rplus_0_r, Rplus_0_r. replace ((1 + g) * 1 - 1) with g by ring. exact D.
  - cbn [fold_left List.length pow]. pose proof (r_u _ _ _ H) as U.
    pose proof (r_sum _ _ _ H v a Fv Fa) as A. assert (T0 : 0 <= T) by (apply (Rle_trans _ _ _ (Rabs_pos s) S1)).
    assert (K : Rabs (rnd (v + a) - (s + v)) <= ((1 + g) * (1 + u) - 1) * (T + Rabs v)).
    { replace (rnd (v + a) - (s + v)) with ((rnd (v + a) - (v + a)) + (a - s)) by ring.
      apply (Rle_trans _ _ _ (Rabs_triang _ _)).
      assert (B : Rabs (v + a) <= Rabs v + T + g * T).
      { replace (v + a) with (v + (s + (a - s))) by ring. apply (Rle_trans _ _ _ (Rabs_triang _ _)). pose proof (Rabs_triang s (a - s)). lra. }
      pose proof (Rmult_le_compat_l u _ _ (proj1 U) B) as C. pose proof (Rabs_pos v) as V.
      assert (0 <= g * Rabs v) by (apply Rmult_le_pos; lra). assert (0 <= u * (g * Rabs v)) by (apply Rmult_le_pos; lra).
      replace (((1 + g) * (1 + u) - 1) * (T + Rabs v)) with (u * (Rabs v + T + g * T) + g * T + (g * Rabs v + u * (g * Rabs v))) by ring. lra. }
    assert (G2 : 0 <= (1 + g) * (1 + u) - 1) by (replace ((1 + g) * (1 + u) - 1) with (g + u + g * u) by ring; assert (0 <= g * u) by (apply Rmult_le_pos; lra); lra).
    assert (S2 : Rabs (s + v) <= T + Rabs v) by (apply (Rle_trans _ _ _ (Rabs_triang _ _)); lra).
    pose proof (IH (rnd (v + a)) (s + v) (T + Rabs v) ((1 + g) * (1 + u) - 1) (r_in _ _ _ H _) G2 S2 K) as Q.
    cbn [total total_abs fold_right]. unfold total, total_abs in Q.
    replace (s + (v + fold_right Rplus 0 l)) with (s + v + fold_right Rplus 0 l) by ring.
    replace (T + (Rabs v + fold_right (fun w s => Rabs w + s) 0 l)) with (T + Rabs v + fold_right (fun w s => Rabs w + s) 0 l) by ring.
    replace (((1 + g) * ((1 + u) * (1 + u) ^ List.length l) - 1)) with ((1 + ((1 + g) * (1 + u) - 1)) * (1 + u) ^ List.length l - 1) by ring. exact Q.
Qed.
Lemma sources_error F rnd u (H : rounding F rnd u) v l : F v -> List.Forall F l ->
  exists x, sources_r rnd (v :: l) = Some x /\ Rabs (x - total (v :: l)) <= ((1 + u) ^ List.length l - 1) * total_abs (v :: l).
Proof.
  intros Fv Fl. exists (fold_left (fun a w => rnd (w + a)) l v). split; [unfold sources_r; cbn [fold_left add_r]; apply fold_step|].
  pose proof (run_error F rnd u H l Fl v v (Rabs v) 0 Fv (Rle_refl 0) (Rle_refl _)) as Q. cbn [total total_abs fold_right].
  replace ((1 + u) ^ List.length l - 1) with ((1 + 0) * (1 + u) ^ List.length l - 1) by ring. apply Q. rewrite Rminus_eq_0, Rabs_R0. lra.
Qed.
Lemma total_perm l l' : Permutation l l' -> total l = total l' /\ total_abs l = total_abs l'.
Proof.
  induction 1; cbn [total total_abs fold_right]; unfold total, total_abs in *; try (split; [reflexivity | reflexivity]); [split; lra | split; lra | destruct IHPermutation1, IHPermutation2; split; congruence].
Qed.
Lemma order_error F rnd u (H : rounding F rnd u) l l' x y : List.Forall F l -> Permutation l l' -> sources_r rnd l = Some x -> sources_r rnd l' = Some y ->
  Rabs (x - y) <= 2 * ((1 + u) ^ (List.length l - 1) - 1) * total_abs l.
Proof.
  intros Fl Pm A B. assert (Fl' : List.Forall F l') by (apply (Permutation_Forall Pm Fl)).
  destruct (total_perm _ _ Pm) as (T1 & T2). pose proof (Permutation_length Pm) as L.
  destruct l as [|v l]; [discriminate A|]. destruct l' as [|v' l']; [discriminate B|].
  destruct (sources_error F rnd u H v l) as (x1 & A1 & A2); [inversion Fl; assumption | inversion Fl; assumption|].
  destruct (sources_error F rnd u H v' l') as (y1 & B1 & B2); [inversion Fl'; assumption | inversion Fl'; assumption|].
  assert (x1 = x) by congruence. assert (y1 = y) by congruence. subst x1 y1. rewrite <- T1, <- T2 in B2.
  cbn [List.length] in L. injection L as L. rewrite <- L in B2. cbn [List.length]. rewrite Nat.sub_succ, Nat.sub_0_r.
  replace (x - y) with ((x - total (v :: l)) + - (y - total (v :: l))) by ring. apply (Rle_trans _ _ _ (Rabs_triang _ _)). rewrite Rabs_Ropp. lra.
Qed.
Lemma two_sources rnd a b : sources_r rnd [a; b] = sources_r rnd [b; a].
Proof. change (Some (rnd (b + a)) = Some (rnd (a + b))). rewrite Rplus_comm. reflexivity. Qed.
Lemma exchange_exact rnd F0 : exists a b, exchange_r rnd None None F0 = (Some a, Some b) /\ a + b = 0.
Proof. exists F0, (- F0). split; [reflexivity | lra]. Qed.

(* Exact arithmetic. *)
Lemma exact_edges m c p : minmod_edges_r (fun x => x) m c p = minmod_edges m c p /\ mc_edges_r (fun x => x) m c p = mc_edges m c p.
Proof. split; reflexivity. Qed.
Lemma exact_div e m c f v ws fixf : Div_par_mod_r (fun x => x) e m c f v ws fixf = Div_par_mod e m c f v ws fixf.
Proof. reflexivity. Qed.

(* binary64 *)
Lemma prec53 : Prec_gt_0 53. Proof. red. lia. Qed.
#[local] Existing Instance prec53.
Lemma u64_val : u64 = / 9007199254740992.
Proof.
  unfold u64. change (-53 + 1)%Z with (-(52))%Z. rewrite bpow_opp. change (bpow radix2 52) with (IZR (Z.pow_pos 2 52)).
  change (Z.pow_pos 2 52) with 4503599627370496%Z. rewrite <- Rinv_mult. f_equal.
Qed.
Lemma dbl_float m e : (Z.abs m < 9007199254740992)%Z -> (-1074 <= e)%Z -> double (F2R (Float radix2 m e)).
Proof. intros A B. apply generic_format_FLT. exists (Float radix2 m e); [reflexivity | exact A | exact B]. Qed.
Lemma double_twice x : double x -> double (2 * x).
Proof.
  intros A. apply FLT_format_generic in A; [|exact prec53]. destruct A as [[m e] E B C]. cbn [Fnum Fexp] in B, C. subst x.
  replace (2 * F2R (Float radix2 m e)) with (F2R (Float radix2 m (e + 1))); [apply dbl_float; [exact B | lia]|].
  unfold F2R. cbn [Fnum Fexp]. rewrite bpow_plus. change (bpow radix2 1) with 2. ring.
Qed.
Lemma rounding64 : rounding double rnd64 u64.
Proof.
  constructor.
  - intros x. apply generic_format_round; [apply FLT_exp_valid; exact prec53 | apply valid_rnd_N].
  - intros x A. apply round_generic; [apply valid_rnd_N | exact A].
  - intros x y A. apply round_le; [apply FLT_exp_valid; exact prec53 | apply valid_rnd_N | exact A].
  - intros x. unfold rnd64. apply round_NE_opp.
  - replace 1 with (F2R (Float radix2 1 0)) by (unfold F2R; cbn; lra). apply dbl_float; lia.
  - exact double_twice.
  - intros x y A B. destruct (FLT_plus_error_N_ex radix2 (-1074) 53 (fun x => negb (Z.even x)) x y A B) as (eps & C & D).
    unfold rnd64. change ZnearestE with (Znearest (fun x => negb (Z.even x))). rewrite D. replace ((x + y) * (1 + eps) - (x + y)) with (eps * (x + y)) by ring.
    rewrite Rabs_mult. apply Rmult_le_compat_r; [apply Rabs_pos|]. apply (Rle_trans _ _ _ C). unfold u_ro.
    change (/ 2 * bpow radix2 (- (53) + 1)) with u64. rewrite u64_val. unfold Rdiv. lra.
  - rewrite u64_val. lra.
Qed.
