(** Proofs for PpmProps.v. *)

From Coq Require Import List Bool Reals Lra Lia.
From Coq Require Import Psatz.
From Verif Require Import StateMonad StateMonadProofs LimitersModel PpmModel PpmSpec.
Import ListNotations.
Open Scope R_scope.

Lemma half : 0.5 = / 2. Proof. lra. Qed.
Lemma Rleb_spec x y : if Rleb x y then x <= y else y < x.
Proof. unfold Rleb. destruct (Rle_dec x y); lra. Qed.
Ltac rltb x y := let RS := fresh "RS" in pose proof (Rltb_spec x y) as RS; destruct (Rltb x y).

(** One formula for both faces. *)
Lemma left_right h mm m c p : ppm_left h mm m c p = ppm_right h mm m c p.
Proof.
  unfold ppm_left, ppm_right. cbv zeta. replace (c + m) with (m + c) by ring. reflexivity.
Qed.
Lemma not_extremum h mm m c p pp : ppm_extremum (ppm_left h mm m c p) (ppm_right h m c p pp) m c p = false ->
  XPPM h mm m c p pp = (ppm_right h mm m c p, ppm_right h m c p pp).
Proof. intros E. unfold XPPM. cbv zeta. rewrite E, left_right. reflexivity. Qed.
Lemma shared_face h mm m c p pp ppp : ppm_extremum (ppm_left h mm m c p) (ppm_right h m c p pp) m c p = false ->
  ppm_extremum (ppm_left h m c p pp) (ppm_right h c p pp ppp) c p pp = false -> snd (XPPM h mm m c p pp) = fst (XPPM h m c p pp ppp).
Proof. intros E E'. rewrite not_extremum, not_extremum by assumption. reflexivity. Qed.

(** The limited second derivative. *)
Lemma min3_bounds a b c : 0 <= a -> 0 <= b -> 0 <= c -> 0 <= BOUTMIN3 a b c <= c /\ BOUTMIN3 a b c <= a /\ BOUTMIN3 a b c <= b.
Proof. intros A B C. unfold BOUTMIN3, BOUTMIN. rltb b c; rltb a b; rltb a c; lra. Qed.
Lemma min4_bounds a b c d : 0 <= a -> 0 <= b -> 0 <= c -> 0 <= d -> 0 <= BOUTMIN4 a b c d <= d.
Proof. intros A B C D. unfold BOUTMIN4. cbv zeta. rltb a b; rltb c d; match goal with |- context [Rltb ?x ?y] => rltb x y end; lra. Qed.
(** D2lim in units of 1 / h^2: at most 1.25 times each neighbour's, of the same sign. *)
Lemma lim_bounds D2 DL DR : (0 <= ppm_D2lim D2 DL DR /\ ppm_D2lim D2 DL DR <= ppm_C * Rmax 0 DL /\ ppm_D2lim D2 DL DR <= ppm_C * Rmax 0 DR)
  \/ (ppm_D2lim D2 DL DR <= 0 /\ ppm_C * Rmin 0 DL <= ppm_D2lim D2 DL DR /\ ppm_C * Rmin 0 DR <= ppm_D2lim D2 DL DR).
Proof.
  unfold ppm_D2lim, ppm_C. rltb 0 (D2 * DL); [rltb 0 (D2 * DR)|]; cbn [andb];
    [|left; split; [lra|]; pose proof (Rmax_l 0 DL); pose proof (Rmax_l 0 DR); lra|left; split; [lra|]; pose proof (Rmax_l 0 DL); pose proof (Rmax_l 0 DR); lra].
  pose proof (Rabs_pos D2) as A. pose proof (Rabs_pos DL) as AL. pose proof (Rabs_pos DR) as AR.
  destruct (min3_bounds (1.25 * Rabs DL) (1.25 * Rabs DR) (Rabs D2) ltac:(lra) ltac:(lra) A) as ((B1 & B2) & B3 & B4).
  revert B1 B2 B3 B4. generalize (BOUTMIN3 (1.25 * Rabs DL) (1.25 * Rabs DR) (Rabs D2)). intros q B1 B2 B3 B4.
  unfold SIGN. rltb D2 0.
  - right. assert (DL < 0) by nra. assert (DR < 0) by nra. rewrite Rabs_left in B3 by lra. rewrite (Rabs_left DR) in B4 by lra.
    rewrite (Rmin_right 0 DL), (Rmin_right 0 DR) by lra. lra.
  - left. assert (D2 <> 0) by (intros ->; lra). assert (0 < DL) by nra. assert (0 < DR) by nra. rewrite Rabs_right in B3 by lra. rewrite (Rabs_right DR) in B4 by lra.
    rewrite (Rmax_right 0 DL), (Rmax_right 0 DR) by lra. lra.
Qed.
Lemma scaled_lim h D2 DL DR : h <> 0 -> let x := h * h / 6 * ppm_D2lim D2 (1 / (h * h) * DL) (1 / (h * h) * DR) in
  (0 <= x /\ x <= ppm_C / 6 * Rmax 0 DL /\ x <= ppm_C / 6 * Rmax 0 DR) \/ (x <= 0 /\ ppm_C / 6 * Rmin 0 DL <= x /\ ppm_C / 6 * Rmin 0 DR <= x).
Proof.
  intros H x. assert (P : 0 < h * h) by nra.
  assert (Mx : forall y, Rmax 0 (1 / (h * h) * y) = 1 / (h * h) * Rmax 0 y).
  { intros y. assert (Q : 0 < 1 / (h * h)) by (apply Rdiv_lt_0_compat; lra). unfold Rmax. destruct (Rle_dec 0 (1 / (h * h) * y)), (Rle_dec 0 y); nra. }
  assert (Mn : forall y, Rmin 0 (1 / (h * h) * y) = 1 / (h * h) * Rmin 0 y).
  { intros y. assert (Q : 0 < 1 / (h * h)) by (apply Rdiv_lt_0_compat; lra). unfold Rmin. destruct (Rle_dec 0 (1 / (h * h) * y)), (Rle_dec 0 y); nra. }
  pose proof (lim_bounds D2 (1 / (h * h) * DL) (1 / (h * h) * DR)) as B. rewrite !Mx, !Mn in B. revert x B.
  generalize (ppm_D2lim D2 (1 / (h * h) * DL) (1 / (h * h) * DR)). intros d x B.
  assert (S : forall a b, a <= ppm_C * (1 / (h * h) * b) -> h * h / 6 * a <= ppm_C / 6 * b).
  { intros a b L. apply (Rmult_le_compat_l (h * h / 6)) in L; [|lra]. replace (h * h / 6 * (ppm_C * (1 / (h * h) * b))) with (ppm_C / 6 * b) in L by (field; exact H). exact L. }
  assert (S' : forall a b, ppm_C * (1 / (h * h) * b) <= a -> ppm_C / 6 * b <= h * h / 6 * a).
  { intros a b L. apply (Rmult_le_compat_l (h * h / 6)) in L; [|lra]. replace (h * h / 6 * (ppm_C * (1 / (h * h) * b))) with (ppm_C / 6 * b) in L by (field; exact H). exact L. }
  destruct B as [(B1 & B2 & B3)|(B1 & B2 & B3)]; [left|right]; unfold x; repeat split; try (apply S; assumption); try (apply S'; assumption); nra.
Qed.
(** The face value between four monotone values lies between the middle two. *)
Lemma face_increasing h a b c d : h <> 0 -> a <= b -> b <= c -> c <= d -> b <= ppm_right h a b c d <= c.
Proof.
  intros H A B C. unfold ppm_right. cbv zeta. set (n := 7 / 12 * (b + c) - 1 / 12 * (a + d)).
  rltb 0 ((b - n) * (c - n)).
  - pose proof (scaled_lim h (3 / (h * h) * (b - 2 * n + c)) (a - 2 * b + c) (b - 2 * c + d) H) as L. cbv zeta in L. revert L.
    generalize (h * h / 6 * ppm_D2lim (3 / (h * h) * (b - 2 * n + c)) (1 / (h * h) * (a - 2 * b + c)) (1 / (h * h) * (b - 2 * c + d))). intros x L.
    unfold ppm_C in L. destruct L as [(L1 & L2 & L3)|(L1 & L2 & L3)].
    + assert (M : Rmax 0 (a - 2 * b + c) <= c - b) by (apply Rmax_lub; lra). lra.
    + assert (M : - (c - b) <= Rmin 0 (b - 2 * c + d)) by (apply Rmin_glb; lra). lra.
  - split; nra.
Qed.
Lemma sign_opp x : x <> 0 -> SIGN (- x) = - SIGN x.
Proof. intros N. unfold SIGN. rltb (- x) 0; rltb x 0; lra. Qed.
Lemma lim_opp D2 DL DR : ppm_D2lim (- D2) (- DL) (- DR) = - ppm_D2lim D2 DL DR.
Proof.
  unfold ppm_D2lim. rewrite !Rabs_Ropp. replace (- D2 * - DL) with (D2 * DL) by ring. replace (- D2 * - DR) with (D2 * DR) by ring.
  rltb 0 (D2 * DL); [rltb 0 (D2 * DR)|]; cbn [andb]; [|lra|lra]. rewrite sign_opp; [ring|]. intros ->. lra.
Qed.
Lemma right_opp h a b c d : ppm_right h (- a) (- b) (- c) (- d) = - ppm_right h a b c d.
Proof.
  unfold ppm_right. cbv zeta. set (n := 7 / 12 * (b + c) - 1 / 12 * (a + d)). replace (7 / 12 * (- b + - c) - 1 / 12 * (- a + - d)) with (- n) by (unfold n; ring).
  replace ((- b - - n) * (- c - - n)) with ((b - n) * (c - n)) by ring. destruct (Rltb 0 ((b - n) * (c - n))); [|reflexivity].
  replace (3 / (h * h) * (- b - 2 * - n + - c)) with (- (3 / (h * h) * (b - 2 * n + c))) by ring.
  replace (1 / (h * h) * (- a - 2 * - b + - c)) with (- (1 / (h * h) * (a - 2 * b + c))) by ring.
  replace (1 / (h * h) * (- b - 2 * - c + - d)) with (- (1 / (h * h) * (b - 2 * c + d))) by ring. rewrite lim_opp. ring.
Qed.
Lemma min4_sym a b c d : BOUTMIN4 a b c d = BOUTMIN4 b a c d.
Proof. unfold BOUTMIN4. cbv zeta. rltb a b; rltb b a; try reflexivity; replace a with b by lra; reflexivity. Qed.
Lemma flatten_opp h nL nR mm m c p pp : ppm_flatten h (- nL) (- nR) (- mm) (- m) (- c) (- p) (- pp)
  = (- fst (ppm_flatten h nL nR mm m c p pp), - snd (ppm_flatten h nL nR mm m c p pp)).
Proof.
  unfold ppm_flatten. cbv zeta.
  replace (6 / (h * h) * (- nL - 2 * - c + - nR)) with (- (6 / (h * h) * (nL - 2 * c + nR))) by ring.
  replace (1 / (h * h) * (- m - 2 * - c + - p)) with (- (1 / (h * h) * (m - 2 * c + p))) by ring.
  replace (1 / (h * h) * (- mm - 2 * - m + - c)) with (- (1 / (h * h) * (mm - 2 * m + c))) by ring.
  replace (1 / (h * h) * (- c - 2 * - p + - pp)) with (- (1 / (h * h) * (c - 2 * p + pp))) by ring.
  generalize (6 / (h * h) * (nL - 2 * c + nR)) (1 / (h * h) * (m - 2 * c + p)) (1 / (h * h) * (mm - 2 * m + c)) (1 / (h * h) * (c - 2 * p + pp)). intros D DC DL DR.
  rewrite !Rabs_Ropp. replace (- D * - DC) with (D * DC) by ring. replace (- D * - DL) with (D * DL) by ring. replace (- D * - DR) with (D * DR) by ring.
  rltb (Rabs D) 1e-10; [reflexivity|]. destruct (Rltb 0 (D * DC) && Rltb 0 (D * DL) && Rltb 0 (D * DR))%bool; [|reflexivity]. cbn [fst snd].
  assert (D <> 0) by (intros ->; rewrite Rabs_R0 in RS; lra). rewrite sign_opp by assumption. f_equal; field; assumption.
Qed.
Lemma extremum_opp nL nR m c p : ppm_extremum (- nL) (- nR) (- m) (- c) (- p) = ppm_extremum nL nR m c p.
Proof. unfold ppm_extremum. replace ((- nR - - c) * (- c - - nL)) with ((nR - c) * (c - nL)) by ring. replace ((- m - - c) * (- c - - p)) with ((m - c) * (c - p)) by ring. reflexivity. Qed.
Lemma ppm_opp h mm m c p pp : XPPM h (- mm) (- m) (- c) (- p) (- pp) = (- fst (XPPM h mm m c p pp), - snd (XPPM h mm m c p pp)).
Proof.
  unfold XPPM. cbv zeta. rewrite !left_right, !right_opp, extremum_opp. destruct (ppm_extremum _ _ m c p); [apply flatten_opp|reflexivity].
Qed.

(** Mirror image. *)
Lemma min3_sym a b c : BOUTMIN3 a b c = BOUTMIN3 b a c.
Proof. unfold BOUTMIN3, BOUTMIN. rltb b c; rltb a c; rltb a b; rltb b a; try (rltb b c); try (rltb a c); try lra. Qed.
Lemma lim_sym D2 DL DR : ppm_D2lim D2 DL DR = ppm_D2lim D2 DR DL.
Proof. unfold ppm_D2lim. rewrite andb_comm, min3_sym. reflexivity. Qed.
Lemma right_mirror h a b c d : ppm_right h d c b a = ppm_right h a b c d.
Proof.
  unfold ppm_right. cbv zeta. replace (7 / 12 * (c + b) - 1 / 12 * (d + a)) with (7 / 12 * (b + c) - 1 / 12 * (a + d)) by ring. set (n := 7 / 12 * (b + c) - 1 / 12 * (a + d)).
  rewrite (Rmult_comm (c - n)). destruct (Rltb 0 ((b - n) * (c - n))); [|reflexivity].
  replace (c - 2 * n + b) with (b - 2 * n + c) by ring. replace (d - 2 * c + b) with (b - 2 * c + d) by ring. replace (c - 2 * b + a) with (a - 2 * b + c) by ring.
  rewrite lim_sym. ring.
Qed.
Lemma flatten_mirror h nL nR mm m c p pp : ppm_flatten h nR nL pp p c m mm = (snd (ppm_flatten h nL nR mm m c p pp), fst (ppm_flatten h nL nR mm m c p pp)).
Proof.
  unfold ppm_flatten. cbv zeta. replace (nR - 2 * c + nL) with (nL - 2 * c + nR) by ring. replace (p - 2 * c + m) with (m - 2 * c + p) by ring.
  replace (pp - 2 * p + c) with (c - 2 * p + pp) by ring. replace (c - 2 * m + mm) with (mm - 2 * m + c) by ring.
  destruct (Rltb _ 1e-10); [reflexivity|]. rewrite <- !andb_assoc, (andb_comm (Rltb 0 (_ * (1 / (h * h) * (c - 2 * p + pp))))).
  destruct (_ && _)%bool; [|reflexivity]. cbn [fst snd]. rewrite min4_sym. reflexivity.
Qed.
Lemma extremum_mirror nL nR m c p : ppm_extremum nR nL p c m = ppm_extremum nL nR m c p.
Proof. unfold ppm_extremum. replace ((nL - c) * (c - nR)) with ((nR - c) * (c - nL)) by ring. replace ((p - c) * (c - m)) with ((m - c) * (c - p)) by ring. reflexivity. Qed.
Lemma ppm_mirror h mm m c p pp : XPPM h pp p c m mm = (snd (XPPM h mm m c p pp), fst (XPPM h mm m c p pp)).
Proof.
  unfold XPPM. cbv zeta. rewrite !left_right, !(right_mirror h mm), !(right_mirror h m), extremum_mirror. destruct (ppm_extremum _ _ m c p); [apply flatten_mirror|reflexivity].
Qed.

(** Adding a constant. *)
Lemma right_shift h t a b c d : ppm_right h (a + t) (b + t) (c + t) (d + t) = ppm_right h a b c d + t.
Proof.
  unfold ppm_right. cbv zeta. replace (7 / 12 * (b + t + (c + t)) - 1 / 12 * (a + t + (d + t))) with (7 / 12 * (b + c) - 1 / 12 * (a + d) + t) by field. set (n := 7 / 12 * (b + c) - 1 / 12 * (a + d)).
  replace ((b + t - (n + t)) * (c + t - (n + t))) with ((b - n) * (c - n)) by ring. destruct (Rltb 0 ((b - n) * (c - n))); [|reflexivity].
  replace (b + t - 2 * (n + t) + (c + t)) with (b - 2 * n + c) by ring. replace (a + t - 2 * (b + t) + (c + t)) with (a - 2 * b + c) by ring.
  replace (b + t - 2 * (c + t) + (d + t)) with (b - 2 * c + d) by ring. rewrite half. field.
Qed.
Lemma flatten_shift h t nL nR mm m c p pp : ppm_flatten h (nL + t) (nR + t) (mm + t) (m + t) (c + t) (p + t) (pp + t)
  = (fst (ppm_flatten h nL nR mm m c p pp) + t, snd (ppm_flatten h nL nR mm m c p pp) + t).
Proof.
  unfold ppm_flatten. cbv zeta. replace (nL + t - 2 * (c + t) + (nR + t)) with (nL - 2 * c + nR) by ring. replace (m + t - 2 * (c + t) + (p + t)) with (m - 2 * c + p) by ring.
  replace (mm + t - 2 * (m + t) + (c + t)) with (mm - 2 * m + c) by ring. replace (c + t - 2 * (p + t) + (pp + t)) with (c - 2 * p + pp) by ring.
  destruct (Rltb _ 1e-10); [reflexivity|]. destruct (_ && _ && _)%bool; [|reflexivity]. cbn [fst snd]. f_equal; replace (nL + t - (c + t)) with (nL - c) by ring; replace (nR + t - (c + t)) with (nR - c) by ring; ring.
Qed.
Lemma ppm_shift h t mm m c p pp : XPPM h (mm + t) (m + t) (c + t) (p + t) (pp + t) = (fst (XPPM h mm m c p pp) + t, snd (XPPM h mm m c p pp) + t).
Proof.
  unfold XPPM. cbv zeta. rewrite !left_right, !right_shift.
  assert (E : forall x y, ppm_extremum (x + t) (y + t) (m + t) (c + t) (p + t) = ppm_extremum x y m c p).
  { intros x y. unfold ppm_extremum. replace ((y + t - (c + t)) * (c + t - (x + t))) with ((y - c) * (c - x)) by ring. replace ((m + t - (c + t)) * (c + t - (p + t))) with ((m - c) * (c - p)) by ring. reflexivity. }
  rewrite E. destruct (ppm_extremum _ _ m c p); [apply flatten_shift|reflexivity].
Qed.

(** The last step moves the faces towards the centre. *)
Lemma flatten_ratio h nL nR mm m c p pp : exists r, 0 <= r <= 1 /\ ppm_flatten h nL nR mm m c p pp = (c + r * (nL - c), c + r * (nR - c)).
Proof.
  unfold ppm_flatten. cbv zeta. generalize (6 / (h * h) * (nL - 2 * c + nR)) (1 / (h * h) * (m - 2 * c + p)) (1 / (h * h) * (mm - 2 * m + c)) (1 / (h * h) * (c - 2 * p + pp)). intros D DC DL DR.
  assert (Z : exists r, 0 <= r <= 1 /\ (c, c) = (c + r * (nL - c), c + r * (nR - c))) by (exists 0; split; [lra|f_equal; ring]).
  rltb (Rabs D) 1e-10; [exact Z|]. destruct (_ && _ && _)%bool; [|exact Z]. clear Z.
  assert (N : D <> 0) by (intros ->; rewrite Rabs_R0 in RS; lra).
  set (q := BOUTMIN4 _ _ _ _). exists (SIGN D * q / D). split; [|f_equal; field; exact N].
  assert (Q : 0 <= q <= Rabs D).
  { unfold q, ppm_C. pose proof (Rabs_pos D). pose proof (Rabs_pos DL). pose proof (Rabs_pos DR). pose proof (Rabs_pos DC). apply min4_bounds; lra. }
  assert (E : SIGN D * q / D = q / Rabs D).
  { unfold SIGN. rltb D 0; [rewrite Rabs_left by lra|rewrite Rabs_right by lra]; field; lra. }
  rewrite E. assert (P : 0 < Rabs D) by (apply Rabs_pos_lt; exact N). split.
  - apply Rmult_le_pos; [lra|]. left. now apply Rinv_0_lt_compat.
  - apply (Rmult_le_reg_r (Rabs D)); [exact P|]. unfold Rdiv. rewrite Rmult_assoc, Rinv_l by lra. lra.
Qed.
Lemma ppm_ratio h mm m c p pp : exists r, 0 <= r <= 1 /\ XPPM h mm m c p pp = (c + r * (ppm_right h mm m c p - c), c + r * (ppm_right h m c p pp - c)).
Proof.
  unfold XPPM. cbv zeta. rewrite left_right. destruct (ppm_extremum _ _ m c p); [apply flatten_ratio|]. exists 1. split; [lra|f_equal; ring].
Qed.
Lemma ppm_increasing h mm m c p pp : h <> 0 -> mm <= m -> m <= c -> c <= p -> p <= pp -> m <= fst (XPPM h mm m c p pp) <= c /\ c <= snd (XPPM h mm m c p pp) <= p.
Proof.
  intros H A B C D. destruct (ppm_ratio h mm m c p pp) as (r & Hr & ->). cbn [fst snd].
  pose proof (face_increasing h mm m c p H A B C). pose proof (face_increasing h m c p pp H B C D). nra.
Qed.
Lemma ppm_monotone h mm m c p pp : h <> 0 -> (mm <= m <= c /\ c <= p <= pp) \/ (pp <= p <= c /\ c <= m <= mm) ->
  between m c (fst (XPPM h mm m c p pp)) /\ between c p (snd (XPPM h mm m c p pp)).
Proof.
  intros H [((A & B) & C & D)|((A & B) & C & D)]; unfold between.
  - rewrite !Rmin_left, !Rmax_right by lra. apply ppm_increasing; assumption.
  - rewrite !Rmin_right, !Rmax_left by lra. destruct (ppm_increasing h (- mm) (- m) (- c) (- p) (- pp) H) as (P & Q); try lra. rewrite ppm_opp in P, Q. cbn [fst snd] in P, Q. lra.
Qed.

(** Straight lines. *)
Lemma ppm_linear h c s : h <> 0 -> XPPM h (c - 2 * s) (c - s) c (c + s) (c + 2 * s) = (c - s / 2, c + s / 2).
Proof.
  intros H. assert (F : forall x, ppm_right h (x - s) x (x + s) (x + 2 * s) = x + s / 2).
  { intros x. unfold ppm_right. cbv zeta. replace (7 / 12 * (x + (x + s)) - 1 / 12 * (x - s + (x + 2 * s))) with (x + s / 2) by field.
    rewrite Rltb_false; [reflexivity|]. nra. }
  destruct (ppm_ratio h (c - 2 * s) (c - s) c (c + s) (c + 2 * s)) as (r & _ & E). destruct (Req_dec s 0) as [->|N].
  - rewrite E. pose proof (F c) as F1. replace (c - 0) with c in F1 by ring. replace (c - 2 * 0) with c by ring. replace (c - 0) with c by ring.
    rewrite F1. replace (ppm_right h c c c (c + 0)) with (c + 0 / 2); [f_equal; field|]. replace (c + 2 * 0) with (c + 0) in F1 by ring. replace (c + 0) with c in * by ring. now rewrite F1.
  - rewrite not_extremum.
    + pose proof (F (c - s)) as F1. replace (c - s - s) with (c - 2 * s) in F1 by ring. replace (c - s + s) with c in F1 by ring. replace (c - s + 2 * s) with (c + s) in F1 by ring.
      rewrite F1, (F c). f_equal; field.
    + rewrite left_right. pose proof (F (c - s)) as F1. replace (c - s - s) with (c - 2 * s) in F1 by ring. replace (c - s + s) with c in F1 by ring. replace (c - s + 2 * s) with (c + s) in F1 by ring.
      rewrite F1, (F c). unfold ppm_extremum. apply orb_false_intro.
      * pose proof (Rleb_spec ((c + s / 2 - c) * (c - (c - s + s / 2))) 0) as RS. destruct (Rleb _ 0); [|reflexivity]. exfalso. nra.
      * pose proof (Rleb_spec ((c - s - c) * (c - (c + s))) 0) as RS. destruct (Rleb _ 0); [|reflexivity]. exfalso. nra.
Qed.

(** Fourth order. *)
Lemma face_cubic h a b c d x : (cell_mean a b c d h x - cubic a b c d (x + h / 2)) * (cell_mean a b c d h (x + h) - cubic a b c d (x + h / 2)) <= 0 ->
  ppm_right h (cell_mean a b c d h (x - h)) (cell_mean a b c d h x) (cell_mean a b c d h (x + h)) (cell_mean a b c d h (x + 2 * h)) = cubic a b c d (x + h / 2).
Proof.
  intros B. unfold ppm_right. cbv zeta.
  replace (7 / 12 * (cell_mean a b c d h x + cell_mean a b c d h (x + h)) - 1 / 12 * (cell_mean a b c d h (x - h) + cell_mean a b c d h (x + 2 * h))) with (cubic a b c d (x + h / 2)) by (unfold cell_mean, cubic; field).
  now rewrite Rltb_false.
Qed.
Lemma ppm_cubic h a b c d x : let u := cell_mean a b c d h in let f := cubic a b c d in
  (u (x - h) - f (x - h / 2)) * (u x - f (x - h / 2)) <= 0 -> (u x - f (x + h / 2)) * (u (x + h) - f (x + h / 2)) <= 0 ->
  0 < (f (x + h / 2) - u x) * (u x - f (x - h / 2)) -> 0 < (u (x - h) - u x) * (u x - u (x + h)) ->
  XPPM h (u (x - 2 * h)) (u (x - h)) (u x) (u (x + h)) (u (x + 2 * h)) = (f (x - h / 2), f (x + h / 2)).
Proof.
  intros u f B1 B2 M1 M2.
  assert (F1 : ppm_right h (u (x - 2 * h)) (u (x - h)) (u x) (u (x + h)) = f (x - h / 2)).
  { pose proof (face_cubic h a b c d (x - h)) as F. replace (x - h - h) with (x - 2 * h) in F by ring. replace (x - h + h) with x in F by ring. replace (x - h + 2 * h) with (x + h) in F by ring.
    replace (x - h + h / 2) with (x - h / 2) in F by field. exact (F B1). }
  pose proof (face_cubic h a b c d x B2) as F2. fold u f in F2. rewrite not_extremum.
  - now rewrite F1, F2.
  - rewrite left_right, F1, F2. unfold ppm_extremum. apply orb_false_intro.
    + pose proof (Rleb_spec ((f (x + h / 2) - u x) * (u x - f (x - h / 2))) 0) as RS. destruct (Rleb _ 0); [lra|reflexivity].
    + pose proof (Rleb_spec ((u (x - h) - u x) * (u x - u (x + h))) 0) as RS. destruct (Rleb _ 0); [lra|reflexivity].
Qed.

(** Scaling. *)
Lemma Rltb_mult k x : 0 < k -> Rltb 0 (k * x) = Rltb 0 x.
Proof. intros K. rltb 0 x; [apply Rltb_true|apply Rltb_false]; nra. Qed.
Lemma Rleb_mult k x : 0 < k -> Rleb (k * x) 0 = Rleb x 0.
Proof. intros K. pose proof (Rleb_spec x 0) as A. pose proof (Rleb_spec (k * x) 0) as B. destruct (Rleb x 0), (Rleb (k * x) 0); try reflexivity; nra. Qed.
Lemma sign_mult k x : 0 < k -> SIGN (k * x) = SIGN x.
Proof. intros K. unfold SIGN. rltb x 0; rltb (k * x) 0; try reflexivity; nra. Qed.
Lemma min3_mult k a b c : 0 < k -> BOUTMIN3 (k * a) (k * b) (k * c) = k * BOUTMIN3 a b c.
Proof.
  intros K. assert (M : forall x y, BOUTMIN (k * x) (k * y) = k * BOUTMIN x y).
  { intros x y. unfold BOUTMIN. rltb x y; rltb (k * x) (k * y); try reflexivity; nra. }
  unfold BOUTMIN3. now rewrite !M.
Qed.
Lemma lim_mult k D2 DL DR : 0 < k -> ppm_D2lim (k * D2) (k * DL) (k * DR) = k * ppm_D2lim D2 DL DR.
Proof.
  intros K. assert (K2 : 0 < k * k) by nra. unfold ppm_D2lim. replace (k * D2 * (k * DL)) with (k * k * (D2 * DL)) by ring. replace (k * D2 * (k * DR)) with (k * k * (D2 * DR)) by ring.
  rewrite (Rltb_mult (k * k) (D2 * DL)), (Rltb_mult (k * k) (D2 * DR)), (sign_mult k D2) by assumption. destruct (Rltb 0 (D2 * DL) && Rltb 0 (D2 * DR))%bool; [|ring]. rewrite !Rabs_mult, (Rabs_right k) by lra.
  replace (ppm_C * (k * Rabs DL)) with (k * (ppm_C * Rabs DL)) by ring. replace (ppm_C * (k * Rabs DR)) with (k * (ppm_C * Rabs DR)) by ring. rewrite min3_mult by assumption. ring.
Qed.
Lemma right_mult h k a b c d : 0 < k -> ppm_right h (k * a) (k * b) (k * c) (k * d) = k * ppm_right h a b c d.
Proof.
  intros K. assert (K2 : 0 < k * k) by nra. unfold ppm_right. cbv zeta. replace (7 / 12 * (k * b + k * c) - 1 / 12 * (k * a + k * d)) with (k * (7 / 12 * (b + c) - 1 / 12 * (a + d))) by ring.
  set (n := 7 / 12 * (b + c) - 1 / 12 * (a + d)). replace ((k * b - k * n) * (k * c - k * n)) with (k * k * ((b - n) * (c - n))) by ring. rewrite Rltb_mult by exact K2.
  destruct (Rltb 0 ((b - n) * (c - n))); [|reflexivity].
  replace (3 / (h * h) * (k * b - 2 * (k * n) + k * c)) with (k * (3 / (h * h) * (b - 2 * n + c))) by ring.
  replace (1 / (h * h) * (k * a - 2 * (k * b) + k * c)) with (k * (1 / (h * h) * (a - 2 * b + c))) by ring.
  replace (1 / (h * h) * (k * b - 2 * (k * c) + k * d)) with (k * (1 / (h * h) * (b - 2 * c + d))) by ring. rewrite lim_mult by exact K. ring.
Qed.
Lemma extremum_mult k nL nR m c p : 0 < k -> ppm_extremum (k * nL) (k * nR) (k * m) (k * c) (k * p) = ppm_extremum nL nR m c p.
Proof.
  intros K. assert (K2 : 0 < k * k) by nra. unfold ppm_extremum. replace ((k * nR - k * c) * (k * c - k * nL)) with (k * k * ((nR - c) * (c - nL))) by ring.
  replace ((k * m - k * c) * (k * c - k * p)) with (k * k * ((m - c) * (c - p))) by ring. rewrite (Rleb_mult (k * k) ((nR - c) * (c - nL))), (Rleb_mult (k * k) ((m - c) * (c - p))) by assumption. reflexivity.
Qed.
Lemma ppm_mult h k mm m c p pp : 0 < k -> ppm_extremum (ppm_left h mm m c p) (ppm_right h m c p pp) m c p = false ->
  XPPM h (k * mm) (k * m) (k * c) (k * p) (k * pp) = (k * fst (XPPM h mm m c p pp), k * snd (XPPM h mm m c p pp)).
Proof.
  intros K E. rewrite (not_extremum h mm m c p pp E). rewrite left_right in E. rewrite not_extremum.
  - rewrite !right_mult by exact K. reflexivity.
  - now rewrite left_right, !right_mult, extremum_mult.
Qed.

(** A minimum. *)
Lemma min_right k : 0 < k -> ppm_right 1 (k * 100) (k * 0) (k * 1) (k * 100) = k * (-193 / 12).
Proof.
  intros K. rewrite right_mult by exact K. f_equal. unfold ppm_right. cbv zeta. rewrite Rltb_true by lra. unfold ppm_D2lim. rewrite !Rltb_true by lra. cbn [andb].
  unfold SIGN. rewrite Rltb_false by lra. rewrite !Rabs_right by lra. unfold ppm_C, BOUTMIN3, BOUTMIN.
  repeat (match goal with |- context [Rltb ?a ?b] => first [rewrite (Rltb_true a b) by lra | rewrite (Rltb_false a b) by lra] end; cbv iota). lra.
Qed.
Lemma min_left k : 0 < k -> ppm_right 1 (k * 400) (k * 100) (k * 0) (k * 1) = k * (299 / 12).
Proof. intros K. rewrite right_mult by exact K. f_equal. unfold ppm_right. cbv zeta. rewrite Rltb_false by lra. lra. Qed.
Lemma min_extremum k : 0 < k -> ppm_extremum (k * (299 / 12)) (k * (-193 / 12)) (k * 100) (k * 0) (k * 1) = true.
Proof.
  intros K. rewrite extremum_mult by exact K. unfold ppm_extremum. apply orb_true_intro. right. pose proof (Rleb_spec ((100 - 0) * (0 - 1)) 0) as RS. destruct (Rleb _ 0); [reflexivity|lra].
Qed.
Lemma negative_face : XPPM 1 400 100 0 1 100 = (299 / 12, -193 / 12).
Proof.
  pose proof (min_right 1 Rlt_0_1) as A. pose proof (min_left 1 Rlt_0_1) as B. pose proof (min_extremum 1 Rlt_0_1) as X. repeat rewrite Rmult_1_l in A; repeat rewrite Rmult_1_l in B; repeat rewrite Rmult_1_l in X.
  unfold XPPM. cbv zeta. rewrite left_right, A, B, X. unfold ppm_flatten. cbv zeta. rewrite Rabs_right by lra. rewrite Rltb_false by lra. rewrite !Rltb_true by lra. cbn [andb].
  unfold SIGN. rewrite Rltb_false by lra. rewrite !Rabs_right by lra. unfold ppm_C, BOUTMIN4. cbv zeta.
  repeat (match goal with |- context [Rltb ?a ?b] => first [rewrite (Rltb_true a b) by lra | rewrite (Rltb_false a b) by lra] end; cbv iota). f_equal; lra.
Qed.
Lemma tiny_face : XPPM 1 (1e-12 * 400) (1e-12 * 100) (1e-12 * 0) (1e-12 * 1) (1e-12 * 100) = (1e-12 * 0, 1e-12 * 0).
Proof.
  assert (K : 0 < 1e-12) by lra. pose proof (min_right _ K) as A. pose proof (min_left _ K) as B. pose proof (min_extremum _ K) as X.
  unfold XPPM. cbv zeta. rewrite left_right, A, B, X. unfold ppm_flatten. cbv zeta. rewrite Rabs_right by lra. rewrite Rltb_true by lra. reflexivity.
Qed.
Lemma ppm_inwards h mm m c p pp : exists r, 0 <= r <= 1 /\ XPPM h mm m c p pp = (c + r * (ppm_left h mm m c p - c), c + r * (ppm_right h m c p pp - c)).
Proof. rewrite left_right. apply ppm_ratio. Qed.
Lemma scale_refuted : exists h k mm m c p pp, 0 < k /\ XPPM h (k * mm) (k * m) (k * c) (k * p) (k * pp) <> (k * fst (XPPM h mm m c p pp), k * snd (XPPM h mm m c p pp)).
Proof.
  exists 1, 1e-12, 400, 100, 0, 1, 100. split; [lra|]. rewrite negative_face, tiny_face. cbn [fst snd]. intros E. injection E as E1 E2. lra.
Qed.
Lemma positive_refuted : exists h mm m c p pp, h <> 0 /\ 0 <= mm /\ 0 <= m /\ 0 <= c /\ 0 <= p /\ 0 <= pp /\ snd (XPPM h mm m c p pp) < 0.
Proof. exists 1, 400, 100, 0, 1, 100. rewrite negative_face. cbn [snd]. repeat split; lra. Qed.
Lemma squares_right : ppm_right 1 1 4 9 16 = 7 / 12 * 13 - 17 / 12 /\ ppm_right 1 0 1 4 9 = 7 / 12 * 5 - 9 / 12 /\ ppm_right 1 4 9 16 25 = 7 / 12 * 25 - 29 / 12.
Proof. unfold ppm_right. cbv zeta. rewrite !Rltb_false by lra. repeat split; lra. Qed.
Lemma shared_case : ppm_extremum (ppm_left 1 0 1 4 9) (ppm_right 1 1 4 9 16) 1 4 9 = false /\ ppm_extremum (ppm_left 1 1 4 9 16) (ppm_right 1 4 9 16 25) 4 9 16 = false.
Proof.
  rewrite !left_right. destruct squares_right as (-> & -> & ->). unfold ppm_extremum.
  split; apply orb_false_intro; match goal with |- Rleb ?a 0 = false => pose proof (Rleb_spec a 0) as RS; destruct (Rleb a 0); [lra|reflexivity] end.
Qed.
Lemma monotone_case : (0 <= 1 <= 4 /\ 4 <= 9 <= 100) /\ snd (XPPM 1 0 1 4 9 100) = 6.5 - 2.5 / 6.
Proof.
  split; [lra|].
  assert (A : ppm_right 1 1 4 9 100 = 6.5 - 2.5 / 6).
  { unfold ppm_right. cbv zeta. rewrite Rltb_true by lra. unfold ppm_D2lim. rewrite !Rltb_true by lra. cbn [andb]. unfold SIGN. rewrite Rltb_false by lra. rewrite !Rabs_right by lra. unfold ppm_C, BOUTMIN3, BOUTMIN.
    repeat (match goal with |- context [Rltb ?a ?b] => first [rewrite (Rltb_true a b) by lra | rewrite (Rltb_false a b) by lra] end; cbv iota). lra. }
  rewrite not_extremum; [exact A|]. rewrite left_right, A. destruct squares_right as (_ & -> & _). unfold ppm_extremum.
  apply orb_false_intro; match goal with |- Rleb ?a 0 = false => pose proof (Rleb_spec a 0) as RS; destruct (Rleb a 0); [lra|reflexivity] end.
Qed.
