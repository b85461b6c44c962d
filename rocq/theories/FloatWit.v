(** Concrete doubles. *)

From Coq Require Import List Bool ZArith Reals Lra Lia Permutation.
From Flocq Require Import Core.
From Verif Require Import StateMonad StateMonadProofs LimitersModel PpmProofs ParallelModel FloatModel FloatSpec FloatProofs.
Import ListNotations.
Open Scope R_scope.

Notation H64 := rounding64.
Lemma dblZ n : (Z.abs n < 9007199254740992)%Z -> double (IZR n).
Proof. intros A. replace (IZR n) with (F2R (Float radix2 n 0)) by (unfold F2R; cbn [Fnum Fexp bpow]; ring). apply dbl_float; [exact A | lia]. Qed.
Lemma dblZ2 n k : (Z.abs n < 9007199254740992)%Z -> (0 <= k)%Z -> double (IZR (n * 2 ^ k)).
Proof.
  intros A K. replace (IZR (n * 2 ^ k)) with (F2R (Float radix2 n k)); [apply dbl_float; [exact A | lia]|].
  unfold F2R. cbn [Fnum Fexp]. rewrite mult_IZR. f_equal. symmetry. apply (IZR_Zpower radix2 k K).
Qed.
Lemma dbl_half : double (/ 2).
Proof. replace (/ 2) with (F2R (Float radix2 1 (-1))) by (unfold F2R; cbn; lra). apply dbl_float; lia. Qed.
Lemma rx x : double x -> rnd64 x = x. Proof. exact (r_id _ _ _ H64 x). Qed.
Lemma tie k : (9007199254740992 <= 2 * k + 1 < 18014398509481984)%Z -> rnd64 (IZR (2 * k + 1)) = IZR (if Z.even k then 2 * k else 2 * k + 2).
Proof.
  intros A. unfold rnd64, round. 
  assert (M : cexp radix2 (FLT_exp (-1074) 53) (IZR (2 * k + 1)) = 1%Z).
  { unfold cexp. rewrite (mag_unique radix2 (IZR (2 * k + 1)) 54); [reflexivity|].
    rewrite Rabs_pos_eq by (apply IZR_le; lia). change (54 - 1)%Z with 53%Z.
    change (bpow radix2 53) with (IZR 9007199254740992). change (bpow radix2 54) with (IZR 18014398509481984). split; [apply IZR_le; lia | apply IZR_lt; lia]. }
  unfold scaled_mantissa. rewrite M. change (bpow radix2 (- (1))) with (/ 2).
  assert (X : IZR (2 * k + 1) * / 2 = IZR k + / 2) by (rewrite plus_IZR, mult_IZR; field).
  rewrite X. unfold ZnearestE, Znearest.
  assert (FL : Zfloor (IZR k + / 2) = k) by (apply Zfloor_imp; rewrite plus_IZR; lra).
  assert (CL : Zceil (IZR k + / 2) = (k + 1)%Z) by (apply Zceil_imp; rewrite plus_IZR, minus_IZR, plus_IZR; lra).
  rewrite FL, CL. rewrite Rcompare_Eq by lra. unfold F2R. cbn [Fnum Fexp]. change (bpow radix2 1) with 2.
  destruct (Z.even k); cbn [negb]; rewrite <- mult_IZR; f_equal; lia.
Qed.
Lemma tie1 : rnd64 9007199254740993 = 9007199254740992.
Proof. exact (tie 4503599627370496 ltac:(lia)). Qed.
Lemma tie3 : rnd64 9007199254740995 = 9007199254740996.
Proof. exact (tie 4503599627370497 ltac:(lia)). Qed.
Lemma tie54 : rnd64 18014398509481983 = 18014398509481984.
Proof. exact (tie 9007199254740991 ltac:(lia)). Qed.
Lemma d53 : double 9007199254740992. Proof. exact (dblZ2 1 53 ltac:(lia) ltac:(lia)). Qed.
Lemma d53b : double 9007199254740996. Proof. exact (dblZ2 2251799813685249 2 ltac:(lia) ltac:(lia)). Qed.
Lemma d53c : double 9007199254740991. Proof. exact (dblZ 9007199254740991 ltac:(lia)). Qed.
Lemma d53d : double 9007199254740994. Proof. exact (dblZ2 4503599627370497 1 ltac:(lia) ltac:(lia)). Qed.
Lemma d54 : double 18014398509481984. Proof. exact (dblZ2 1 54 ltac:(lia) ltac:(lia)). Qed.
Lemma d54b : double 18014398509481992. Proof. exact (dblZ2 2251799813685249 3 ltac:(lia) ltac:(lia)). Qed.
Lemma d55 : double 36028797018963968. Proof. exact (dblZ2 1 55 ltac:(lia) ltac:(lia)). Qed.
Lemma d56 : double 72057594037927936. Proof. exact (dblZ2 1 56 ltac:(lia) ltac:(lia)). Qed.
Lemma d57 : double 144115188075855872. Proof. exact (dblZ2 1 57 ltac:(lia) ltac:(lia)). Qed.
Lemma d1 : double 1. Proof. exact (dblZ 1 ltac:(lia)). Qed.
Lemma d2 : double 2. Proof. exact (dblZ 2 ltac:(lia)). Qed.
Lemma d4 : double 4. Proof. exact (dblZ 4 ltac:(lia)). Qed.
Lemma d0 : double 0. Proof. exact (dblZ 0 ltac:(lia)). Qed.
Lemma r_ge x y : double x -> x <= y -> x <= rnd64 y.
Proof. intros A B. rewrite <- (rx x A) at 1. exact (r_mono _ _ _ H64 x y B). Qed.
Lemma r_le x y : double x -> y <= x -> rnd64 y <= x.
Proof. intros A B. rewrite <- (rx x A) at 1. exact (r_mono _ _ _ H64 y x B). Qed.
Lemma dn x : double x -> double (- x). Proof. exact (F_opp _ _ _ H64 x). Qed.

(* Sources. *)
Lemma order_wit : exists l l' x y, List.Forall double l /\ Permutation l l' /\ sources_r rnd64 l = Some x /\ sources_r rnd64 l' = Some y /\ x <> y.
Proof.
  exists [9007199254740992; 1; 1], [1; 1; 9007199254740992]. exists 9007199254740992, 9007199254740994.
  split; [repeat constructor; first [exact d53 | exact d1]|].
  split; [apply (Permutation_cons_append [1; 1] 9007199254740992)|].
  assert (E : 1 + 9007199254740992 = 9007199254740993) by lra.
  split; [|split; [|lra]].
  - change (Some (rnd64 (1 + rnd64 (1 + 9007199254740992))) = Some 9007199254740992). rewrite E, tie1, E, tie1. reflexivity.
  - change (Some (rnd64 (9007199254740992 + rnd64 (1 + 1))) = Some 9007199254740994).
    replace (1 + 1) with 2 by lra. rewrite (rx 2 d2). replace (9007199254740992 + 2) with 9007199254740994 by lra. rewrite (rx _ d53d). reflexivity.
Qed.

(* Limiters. *)
Lemma prod1 a b : 1 <= a * b -> Rleb (rnd64 (a * b)) 0 = false.
Proof. intros A. apply Rleb_false. pose proof (r_ge 1 (a * b) d1 A). lra. Qed.
Lemma mm3_pos a b c : 1 <= a -> 1 <= b -> 1 <= c -> c <= a -> c <= b -> double c -> minmod3_r rnd64 a b c = c.
Proof.
  intros A B C D E K. unfold minmod3_r. rewrite !prod1 by (apply (Rle_trans _ (1 * 1)); [lra | apply Rmult_le_compat; lra]). cbn [orb].
  unfold SIGN, BOUTMIN3, BOUTMIN. pose proof (Rltb_spec a 0). destruct (Rltb a 0); [lra|]. rewrite !Rabs_pos_eq by lra.
  pose proof (Rltb_spec b c) as S1. destruct (Rltb b c).
  - lra.
  - pose proof (Rltb_spec a c) as S2. destruct (Rltb a c); [lra|]. rewrite Rmult_1_l. exact (rx c K).
Qed.
Lemma mm3_neg a b c : a <= -1 -> b <= a -> c <= a -> double a -> minmod3_r rnd64 a b c = a.
Proof.
  intros A B C K. assert (P : forall x y, x <= -1 -> y <= -1 -> 1 <= x * y).
  { intros x y X Y. replace (x * y) with ((- x) * (- y)) by ring. apply (Rle_trans _ (1 * 1)); [lra | apply Rmult_le_compat; lra]. }
  unfold minmod3_r. rewrite !prod1 by (apply P; lra). cbn [orb].
  unfold SIGN, BOUTMIN3, BOUTMIN. pose proof (Rltb_spec a 0). destruct (Rltb a 0); [|lra]. rewrite (Rabs_left a), (Rabs_left b), (Rabs_left c) by lra.
  assert (R1 : rnd64 (-1 * - a) = a) by (replace (-1 * - a) with a by ring; exact (rx a K)).
  pose proof (Rltb_spec (- b) (- c)) as S1. destruct (Rltb (- b) (- c)).
  - pose proof (Rltb_spec (- a) (- b)) as S2. destruct (Rltb (- a) (- b)); [exact R1|]. replace b with a by lra. exact R1.
  - pose proof (Rltb_spec (- a) (- c)) as S2. destruct (Rltb (- a) (- c)); [exact R1|]. replace c with a by lra. exact R1.
Qed.
Lemma extremum_wit : exists m c p, double m /\ double c /\ double p /\ 0 < m < c /\ c < p /\ fst (mc_edges_r rnd64 m c p) < m.
Proof.
  exists 1, 18014398509481984, 144115188075855872. split; [exact d1|]. split; [exact d54|]. split; [exact d57|]. split; [lra|]. split; [lra|].
  unfold mc_edges_r, sides_r. cbn [fst].
  assert (A : rnd64 (18014398509481984 - 1) = 18014398509481984) by (replace (18014398509481984 - 1) with 18014398509481983 by lra; exact tie54).
  rewrite A. replace (2 * 18014398509481984) with 36028797018963968 by lra. rewrite (rx _ d55).
  assert (B : 36028797018963968 <= rnd64 (2 * rnd64 (144115188075855872 - 18014398509481984))).
  { apply r_ge; [exact d55|]. assert (18014398509481984 <= rnd64 (144115188075855872 - 18014398509481984)) by (apply r_ge; [exact d54 | lra]). lra. }
  assert (C : 36028797018963968 <= rnd64 (0.5 * rnd64 (144115188075855872 - 1))).
  { apply r_ge; [exact d55|]. assert (72057594037927936 <= rnd64 (144115188075855872 - 1)) by (apply r_ge; [exact d56 | lra]). lra. }
  rewrite mm3_pos; [|lra|lra|lra|exact B|exact C|exact d55].
  replace (0.5 * 36028797018963968) with 18014398509481984 by lra. rewrite (rx _ d54), Rminus_eq_0, (rz _ _ _ H64). lra.
Qed.

(* Transport. *)
Definition mesh3 : mesh := mkMesh 1 3 5 true true false.
Definition flat : coords := mkCoords (fun _ => 1) (fun _ => 1) (fun _ => 1) (fun _ => 1) (fun _ => 1).
Definition fw (k : Z) : R := if Z.leb k 1 then 1 else 0.
Definition vw (k : Z) : R := if Z.leb k 0 then 144115188075855872 else if Z.eqb k 1 then 4 else - 9007199254740991.
Definition ww (k : Z) : R := Rabs (vw k).
Lemma sq1 : rnd64 (sqrt 1) = 1. Proof. rewrite sqrt_1. exact (rx 1 d1). Qed.
Lemma flat_ok : metric_ok rnd64 flat.
Proof.
  intros k i. cbn [flat c_J c_dy c_g22]. rewrite sq1, Rmult_1_l, (rx 1 d1). replace (1 + 1) with 2 by lra. rewrite (rx 2 d2). lra.
Qed.
Lemma flat_factor j i k : factor_r rnd64 flat j i k = 1.
Proof.
  unfold factor_r, common_r. cbn [flat c_J c_dy c_g22]. rewrite sq1, Rmult_1_l, (rx 1 d1). replace (1 + 1) with 2 by lra. rewrite (rx 2 d2).
  replace (2 / 2) with 1 by lra. rewrite (rx 1 d1). unfold Rdiv. rewrite Rinv_1, Rmult_1_l. exact (rx 1 d1).
Qed.
Lemma fast_face : snd (mc_edges_r rnd64 144115188075855872 4 (- (9007199254740991))) = - (9007199254740992).
Proof.
  unfold mc_edges_r, sides_r. cbn [snd].
  assert (A : rnd64 (- (9007199254740991) - 4) = - (9007199254740996)).
  { replace (- (9007199254740991) - 4) with (- (9007199254740995)) by lra. rewrite (r_opp _ _ _ H64), tie3. reflexivity. }
  rewrite A. replace (2 * - (9007199254740996)) with (- (18014398509481992)) by lra. rewrite (rx _ (dn _ d54b)).
  assert (B : rnd64 (0.5 * rnd64 (- (9007199254740991) - 144115188075855872)) <= - (18014398509481992)).
  { apply r_le; [exact (dn _ d54b)|]. assert (rnd64 (- (9007199254740991) - 144115188075855872) <= - (144115188075855872)) by (apply r_le; [exact (dn _ d57) | lra]). lra. }
  assert (C : rnd64 (2 * rnd64 (4 - 144115188075855872)) <= - (18014398509481992)).
  { apply r_le; [exact (dn _ d54b)|]. assert (rnd64 (4 - 144115188075855872) <= - (72057594037927936)) by (apply r_le; [exact (dn _ d56) | lra]). lra. }
  rewrite mm3_neg; [|lra|exact B|exact C|exact (dn _ d54b)].
  replace (0.5 * - (18014398509481992)) with (- (9007199254740996)) by lra. rewrite (rx _ (dn _ d53b)).
  replace (4 + - (9007199254740996)) with (- (9007199254740992)) by lra. exact (rx _ (dn _ d53)).
Qed.
Lemma fw_pos k : 0 <= fw k. Proof. unfold fw. destruct (Z.leb k 1); lra. Qed.
Lemma flux_wit fix_ : mod_right_r rnd64 (mc_edges_r rnd64) mesh3 fix_ fw vw ww 1 = - / 2.
Proof.
  unfold mod_right_r. change (last_point mesh3 1) with false. cbv beta iota zeta.
  assert (A : sR (mc_edges_r rnd64) vw 1 = - (9007199254740992)) by exact fast_face.
  assert (B : sR (mc_edges_r rnd64) fw 1 = 1).
  { change (snd (mc_edges_r rnd64 1 1 0) = 1). destruct (mc_limited _ _ _ H64 1 1 0) as (h & -> & _ & X & Y).
    rewrite Rminus_eq_0, (rz _ _ _ H64) in Y. assert (h = 0) by (unfold toward in Y; lra). subst h. cbn [snd]. rewrite Rplus_0_r. exact (rx 1 d1). }
  assert (C : BOUTMAX4 (ww 1) (ww (1 + 1)%Z) (Rabs (vw 1)) (Rabs (vw (1 + 1)%Z)) = 9007199254740991).
  { change (BOUTMAX4 (Rabs 4) (Rabs (- (9007199254740991))) (Rabs 4) (Rabs (- (9007199254740991))) = 9007199254740991).
    rewrite Rabs_Ropp, !Rabs_pos_eq by lra. unfold BOUTMAX4, BOUTMAX.
    pose proof (Rltb_spec 9007199254740991 4) as S1. destruct (Rltb 9007199254740991 4); [lra|].
    pose proof (Rltb_spec 9007199254740991 9007199254740991) as S2. destruct (Rltb 9007199254740991 9007199254740991); [lra|].
    pose proof (Rltb_spec 9007199254740991 4) as S3. destruct (Rltb 9007199254740991 4); [lra | reflexivity]. }
  rewrite A, B, C. rewrite half5, Rmult_1_l, (rx _ dbl_half). replace (- (9007199254740992) + 9007199254740991) with (- (1)) by lra.
  rewrite (rx _ (dn _ d1)). replace (/ 2 * - (1)) with (- / 2) by lra. exact (rx _ (dn _ dbl_half)).
Qed.
Lemma zero_left fix_ j : (2 <= j)%Z -> mod_left_r rnd64 (mc_edges_r rnd64) mesh3 fix_ fw vw ww j = 0.
Proof.
  intros J. apply (left_zero double rnd64 u64 H64 (mc_edges_r rnd64) mesh3 fix_ fw vw ww (mc_limited _ _ _ H64) fw_pos).
  - unfold fw. replace (Z.leb j 1) with false by (symmetry; apply Z.leb_gt; lia). reflexivity.
  - unfold first_point. cbn [mesh3 firstY ystart periodicY]. replace (Z.eqb j 1) with false by (symmetry; apply Z.eqb_neq; lia). reflexivity.
Qed.
Lemma zero_right fix_ : mod_right_r rnd64 (mc_edges_r rnd64) mesh3 fix_ fw vw ww 2 = 0.
Proof. apply (right_zero double rnd64 u64 H64 (mc_edges_r rnd64) mesh3 fix_ fw vw ww (mc_limited _ _ _ H64) fw_pos); reflexivity. Qed.
Lemma transport_wit : exists m c f v ws r w, (forall k, double (f k) /\ double (v k) /\ 0 <= f k /\ Rabs (v k) <= ws k) /\ metric_ok rnd64 c
  /\ (ystart m < 2 < yend m)%Z /\ f 2%Z = 0 /\ Div_par_mod_r rnd64 (mc_edges_r rnd64) m c f v ws true = Some (r, w) /\ r 2%Z = / 2.
Proof.
  exists mesh3, flat, fw, vw, ww. do 2 eexists. split.
  { intros k. repeat split; [unfold fw; destruct (Z.leb k 1); [exact d1 | exact d0] | | apply fw_pos | apply Rle_refl].
    unfold vw. destruct (Z.leb k 0); [exact d57|]. destruct (Z.eqb k 1); [exact d4 | exact (dn _ d53c)]. }
  split; [exact flat_ok|]. split; [cbn [mesh3 ystart yend]; lia|]. split; [reflexivity|].
  split; [unfold Div_par_mod_r; change (irange (loop_ys mesh3) (loop_ye mesh3)) with [1%Z; 2%Z; 3%Z];
    cbn [fold_left]; unfold flux_step_r; change (in_bounds mesh3 1) with true; change (in_bounds mesh3 2) with true; change (in_bounds mesh3 3) with true; cbn [negb]; reflexivity|].
  unfold upd. cbn [Z.eqb Pos.eqb Z.add Z.sub Z.opp Z.pos_sub Pos.add Pos.pred_double Pos.succ].
  rewrite flux_wit, zero_right, (zero_left true 2), (zero_left true 3) by lia. rewrite !flat_factor, !Rmult_0_l, (rz _ _ _ H64), !Rmult_1_r.
  rewrite (rx _ (dn _ dbl_half)). replace (0 - - / 2) with (/ 2) by lra. rewrite !(rx _ dbl_half), !Rplus_0_r, !Rminus_0_r, !(rx _ dbl_half), ?Rplus_0_r, ?(rx _ dbl_half). reflexivity.
Qed.

(* Both limiters at once. *)
Lemma both F rnd u (H : rounding F rnd u) e : e = minmod_edges_r rnd \/ e = mc_edges_r rnd -> limited F rnd e.
Proof. intros [-> | ->]; [exact (minmod_limited F rnd u H) | exact (mc_limited F rnd u H)]. Qed.
Lemma both_pos F rnd u (H : rounding F rnd u) e m c p : e = minmod_edges_r rnd \/ e = mc_edges_r rnd -> F c -> 0 <= m -> 0 <= c -> 0 <= p ->
  0 <= fst (e m c p) /\ 0 <= snd (e m c p).
Proof. intros E. exact (faces_pos F rnd u H e m c p (both F rnd u H e E)). Qed.
Lemma both_empty F rnd u (H : rounding F rnd u) e m p : e = minmod_edges_r rnd \/ e = mc_edges_r rnd -> 0 <= m -> 0 <= p -> e m 0 p = (0, 0).
Proof. intros E. exact (faces_empty F rnd u H e m p (both F rnd u H e E)). Qed.
Lemma both_const F rnd u (H : rounding F rnd u) e c : e = minmod_edges_r rnd \/ e = mc_edges_r rnd -> F c -> e c c c = (c, c).
Proof. intros E. exact (faces_const F rnd u H e c (both F rnd u H e E)). Qed.
Lemma both_near F rnd u (H : rounding F rnd u) e m c p : e = minmod_edges_r rnd \/ e = mc_edges_r rnd -> F m -> F c -> F p ->
  Rmin m c - 4 * u * Rmax (Rabs m) (Rabs c) <= fst (e m c p) <= Rmax m c + 4 * u * Rmax (Rabs m) (Rabs c)
  /\ Rmin p c - 4 * u * Rmax (Rabs p) (Rabs c) <= snd (e m c p) <= Rmax p c + 4 * u * Rmax (Rabs p) (Rabs c).
Proof. intros E. exact (faces_near F rnd u H e m c p (both F rnd u H e E)). Qed.
Lemma both_transport F rnd u (H : rounding F rnd u) e m c fixf f v ws j r w : e = minmod_edges_r rnd \/ e = mc_edges_r rnd ->
  (forall k, F (f k)) -> (forall k, F (v k)) -> (forall k, 0 <= f k) -> (forall k, (1 + 4 * u) * Rabs (v k) <= ws k) -> metric_ok rnd c -> f j = 0 ->
  (ystart m <= j <= yend m)%Z -> last_point m j = false -> first_point m j = false -> Div_par_mod_r rnd e m c f v ws fixf = Some (r, w) -> r j <= 0.
Proof. intros E A B C D M0 Z0 I L1 L2. exact (empty_neg F rnd u H e m c fixf f v ws (both F rnd u H e E) A B C D M0 j Z0 I L1 L2 r w). Qed.
Lemma transport_case : let f := fun k => if Z.eqb k 2 then 0 else 1 in let v := fun _ : Z => 1 in let ws := fun _ : Z => 2 in
  (forall k, double (f k)) /\ (forall k, double (v k)) /\ (forall k, 0 <= f k) /\ (forall k, (1 + 4 * u64) * Rabs (v k) <= ws k) /\ metric_ok rnd64 flat /\ f 2%Z = 0
  /\ last_point mesh3 2 = false /\ first_point mesh3 2 = false /\ Div_par_mod_r rnd64 (mc_edges_r rnd64) mesh3 flat f v ws true <> None.
Proof.
  cbv zeta. split; [intros k; destruct (Z.eqb k 2); [exact d0 | exact d1]|]. split; [intros _; exact d1|]. split; [intros k; destruct (Z.eqb k 2); lra|].
  split; [intros _; rewrite Rabs_R1, u64_val; lra|]. split; [exact flat_ok|]. do 3 (split; [reflexivity|]).
  unfold Div_par_mod_r. change (irange (loop_ys mesh3) (loop_ye mesh3)) with [1%Z; 2%Z; 3%Z]. cbn [fold_left]. unfold flux_step_r.
  change (in_bounds mesh3 1) with true. change (in_bounds mesh3 2) with true. change (in_bounds mesh3 3) with true. cbn [negb]. discriminate.
Qed.
Lemma order_case : List.Forall double [9007199254740992; 1; 1] /\ Permutation [9007199254740992; 1; 1] [1; 1; 9007199254740992].
Proof. split; [repeat constructor; first [exact d53 | exact d1] | apply (Permutation_cons_append [1; 1] 9007199254740992)]. Qed.
