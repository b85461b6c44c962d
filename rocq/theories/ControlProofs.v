(** Lemmas about the controllers. *)

From Coq Require Import List Bool ZArith Reals Lra Lia.
From Verif Require Import StateMonad LimitersProofs ParallelModel ParallelSpec ParallelProofs ParallelHeating ControlModel ControlSpec.
Import ListNotations.
Open Scope R_scope.

(** ** Least squares *)

Lemma accumulate_sum l : accumulate l = rsum l.
Proof.
  unfold accumulate. assert (G : forall l a, fold_left Rplus l a = a + rsum l).
  { induction l0 as [|x l0 IH]; intros a; cbn [fold_left]; unfold rsum; cbn [fold_right]; [lra|]. rewrite IH. unfold rsum. lra. }
  rewrite G. lra.
Qed.

Definition xs (h : list (R * R)) := map fst h.
Definition ys (h : list (R * R)) := map snd h.
Definition Sxy (h : list (R * R)) := rsum (map (fun p => fst p * snd p) h).
Definition Sxx (h : list (R * R)) := rsum (map (fun p => fst p * fst p) h).
Definition Syy (h : list (R * R)) := rsum (map (fun p => snd p * snd p) h).

Lemma gradient_sums_eq h : gradient_sums (xs h) (ys h) = Some (Sxy h, Sxx h).
Proof.
  induction h as [|[x y] h IH]; [reflexivity|]. unfold xs, ys in *. cbn [map fst snd gradient_sums]. rewrite IH. reflexivity.
Qed.

Lemma gradient_eq h : calculateGradient (xs h) (ys h)
  = Some (let N := INR (length h) in
          let D := N * Sxx h - rsum (xs h) * rsum (xs h) in
          if Req_EM_T D 0 then 0 else (N * Sxy h - rsum (xs h) * rsum (ys h)) / D).
Proof.
  unfold calculateGradient. rewrite gradient_sums_eq, !accumulate_sum. cbv zeta.
  replace (List.length (xs h)) with (length h) by (symmetry; apply map_length). destruct (Req_EM_T _ _); reflexivity.
Qed.

Lemma squared_error_expand a b h :
  squared_error a b h = Syy h - 2 * a * rsum (ys h) - 2 * b * Sxy h + INR (length h) * (a * a) + 2 * a * b * rsum (xs h) + b * b * Sxx h.
Proof.
  induction h as [|[x y] h IH].
  - unfold squared_error, Syy, Sxy, Sxx, rsum. cbn. lra.
  - cbn [length]. rewrite S_INR.
    unfold squared_error, Syy, Sxy, Sxx, xs, ys, rsum in *. cbn [map fold_right fst snd]. rewrite IH. ring.
Qed.

Lemma squared_error_nonneg a b h : 0 <= squared_error a b h.
Proof.
  induction h as [|[x y] h IH]; [unfold squared_error, rsum; cbn; lra|].
  unfold squared_error, rsum in *. cbn [map fold_right fst snd]. pose proof (Rle_0_sqr (y - (a + b * x))). unfold Rsqr in *. lra.
Qed.

(** Spread of the times: N times the sum of squared distances from the mean. *)
Definition spread (h : list (R * R)) : R := rsum (map (fun p => (INR (length h) * fst p - rsum (xs h)) * (INR (length h) * fst p - rsum (xs h))) h).

Lemma sum_affine (N c : R) (h : list (R * R)) :
  rsum (map (fun p => (N * fst p - c) * (N * fst p - c)) h) = N * N * Sxx h - 2 * N * c * rsum (xs h) + INR (length h) * (c * c).
Proof.
  induction h as [|[x y] h IH]; [unfold Sxx, xs, rsum; cbn; lra|].
  cbn [length]. rewrite S_INR. unfold Sxx, xs, rsum in *. cbn [map fold_right fst snd]. rewrite IH. ring.
Qed.
Lemma sum_affine_y (N c : R) (h : list (R * R)) :
  rsum (map (fun p => (N * fst p - c) * snd p) h) = N * Sxy h - c * rsum (ys h).
Proof.
  induction h as [|[x y] h IH]; [unfold Sxy, ys, rsum; cbn; lra|].
  unfold Sxy, ys, rsum in *. cbn [map fold_right fst snd]. rewrite IH. ring.
Qed.

Lemma spread_eq h : spread h = INR (length h) * (INR (length h) * Sxx h - rsum (xs h) * rsum (xs h)).
Proof. unfold spread. rewrite sum_affine. ring. Qed.

Lemma rsum_squares_nonneg {A} (f : A -> R) l : 0 <= rsum (map (fun p => f p * f p) l).
Proof. induction l as [|x l IH]; unfold rsum in *; cbn; [lra|]. pose proof (Rle_0_sqr (f x)). unfold Rsqr in *. lra. Qed.
Lemma rsum_squares_zero {A} (f : A -> R) l : rsum (map (fun p => f p * f p) l) = 0 -> forall p, In p l -> f p = 0.
Proof.
  induction l as [|x l IH]; [contradiction|]. unfold rsum in *. cbn [map fold_right]. intros E p Hp.
  pose proof (Rle_0_sqr (f x)) as H1. unfold Rsqr in H1. pose proof (rsum_squares_nonneg f l) as H2. unfold rsum in H2.
  destruct Hp as [<-|Hp].
  - assert (E' : f x * f x = 0) by lra. destruct (Rmult_integral _ _ E'); assumption.
  - apply IH; [lra|exact Hp].
Qed.

Definition same_times (h : list (R * R)) : Prop := exists t, forall p, In p h -> fst p = t.

Lemma denominator_zero h : h <> [] ->
  (INR (length h) * Sxx h - rsum (xs h) * rsum (xs h) = 0 <-> same_times h).
Proof.
  intros Hne. assert (HN : 0 < INR (length h)) by (apply lt_0_INR; destruct h; [congruence|cbn; lia]). split.
  - intros E. exists (rsum (xs h) / INR (length h)). intros p Hp.
    assert (S : spread h = 0) by (rewrite spread_eq, E; ring).
    pose proof (rsum_squares_zero (fun p => INR (length h) * fst p - rsum (xs h)) h S p Hp) as Z. cbv beta in Z.
    apply (Rmult_eq_reg_l (INR (length h))); [|lra]. replace (INR (length h) * (rsum (xs h) / INR (length h))) with (rsum (xs h)) by (field; lra). lra.
  - intros [t Ht].
    assert (E1 : rsum (xs h) = INR (length h) * t /\ Sxx h = INR (length h) * (t * t)).
    { clear Hne HN. induction h as [|[x y] h IH]; [unfold Sxx, xs, rsum; cbn; lra|].
      destruct IH as [IH1 IH2]; [intros p Hp; apply Ht; right; exact Hp|].
      pose proof (Ht (x, y) (or_introl eq_refl)) as Hx. cbn [fst] in Hx. subst x.
      cbn [length]. rewrite S_INR. unfold Sxx, xs, rsum in *. cbn [map fold_right fst snd]. rewrite IH1, IH2. lra. }
    destruct E1 as [-> ->]. ring.
Qed.

Lemma denominator_pos h : 0 <= INR (length h) * Sxx h - rsum (xs h) * rsum (xs h).
Proof.
  destruct h as [|p h]; [unfold Sxx, xs, rsum; cbn; lra|].
  assert (HN : 0 < INR (length (p :: h))) by (apply lt_0_INR; cbn; lia).
  pose proof (rsum_squares_nonneg (fun q => INR (length (p :: h)) * fst q - rsum (xs (p :: h))) (p :: h)) as S.
  change (0 <= spread (p :: h)) in S. rewrite spread_eq in S.
  apply (Rmult_le_reg_l (INR (length (p :: h)))); [exact HN|]. lra.
Qed.

Lemma least_squares h : h <> [] ->
  exists b, calculateGradient (xs h) (ys h) = Some b /\ exists a, forall a' b', squared_error a b h <= squared_error a' b' h.
Proof.
  intros Hne. rewrite gradient_eq. eexists. split; [reflexivity|]. cbv zeta.
  set (N := INR (length h)). set (D := N * Sxx h - rsum (xs h) * rsum (xs h)). set (M := N * Sxy h - rsum (xs h) * rsum (ys h)).
  assert (HN : 0 < N) by (apply lt_0_INR; destruct h; [congruence|cbn; lia]).
  set (b := if Req_EM_T D 0 then 0 else M / D).
  assert (EM : M = D * b).
  { unfold b. destruct (Req_EM_T D 0) as [E|E]; [|field; exact E].
    assert (Sp : spread h = 0) by (rewrite spread_eq; fold N; fold D; rewrite E; ring).
    assert (Z : M = 0); [|rewrite Z; ring].
    unfold M. rewrite <- (sum_affine_y N (rsum (xs h)) h).
    assert (G : forall l, (forall p, In p l -> N * fst p - rsum (xs h) = 0) -> rsum (map (fun p => (N * fst p - rsum (xs h)) * snd p) l) = 0).
    { induction l as [|q l IH]; intros Hl; [reflexivity|]. unfold rsum in *. cbn [map fold_right]. rewrite IH by (intros p Hp; apply Hl; now right).
      rewrite (Hl q (or_introl eq_refl)). ring. }
    apply G. intros p Hp. exact (rsum_squares_zero (fun p => N * fst p - rsum (xs h)) h Sp p Hp). }
  exists ((rsum (ys h) - b * rsum (xs h)) / N). intros a' b'.
  apply (Rmult_le_reg_l N); [exact HN|].
  assert (ID : forall a b0, N * squared_error a b0 h
    = (N * a + b0 * rsum (xs h) - rsum (ys h)) * (N * a + b0 * rsum (xs h) - rsum (ys h)) + D * (b0 * b0) - 2 * b0 * M
      + (N * Syy h - rsum (ys h) * rsum (ys h))).
  { intros a b0. rewrite squared_error_expand. fold N. unfold D, M. ring. }
  rewrite !ID, EM.
  replace (N * ((rsum (ys h) - b * rsum (xs h)) / N) + b * rsum (xs h) - rsum (ys h)) with 0 by (field; lra).
  pose proof (Rle_0_sqr (N * a' + b' * rsum (xs h) - rsum (ys h))) as Q. unfold Rsqr in Q.
  assert (HD : 0 <= D * ((b' - b) * (b' - b))).
  { apply Rmult_le_pos; [apply denominator_pos|]. pose proof (Rle_0_sqr (b' - b)). unfold Rsqr in *. assumption. }
  lra.
Qed.

Lemma exact_on_line h a b : h <> [] -> ~ same_times h -> (forall p, In p h -> snd p = a + b * fst p) ->
  calculateGradient (xs h) (ys h) = Some b.
Proof.
  intros Hne Hs Hl. rewrite gradient_eq. cbv zeta. f_equal.
  destruct (Req_EM_T _ _) as [E|E]; [exfalso; apply Hs; now apply denominator_zero|].
  assert (G : rsum (ys h) = INR (length h) * a + b * rsum (xs h) /\ Sxy h = a * rsum (xs h) + b * Sxx h).
  { clear E Hs Hne. induction h as [|[x y] h IH]; [unfold Sxy, Sxx, xs, ys, rsum; cbn; lra|].
    destruct IH as [IH1 IH2]; [intros p Hp; apply Hl; now right|].
    pose proof (Hl (x, y) (or_introl eq_refl)) as Hy. cbn [fst snd] in Hy. subst y.
    cbn [length]. rewrite S_INR. unfold Sxy, Sxx, xs, ys, rsum in *. cbn [map fold_right fst snd]. rewrite IH1, IH2. split; ring. }
  destruct G as [-> ->]. field. exact E.
Qed.

Lemma zero_when_times_coincide h : h <> [] -> same_times h -> calculateGradient (xs h) (ys h) = Some 0.
Proof.
  intros Hne Hs. rewrite gradient_eq. cbv zeta. f_equal. destruct (Req_EM_T _ _) as [E|E]; [reflexivity|].
  exfalso. apply E. now apply denominator_zero.
Qed.

(** ** The front *)

Lemma clamp_range x L : 0 <= L -> x <> NaN -> exists d, ext_min (ext_max0 x) L = Fin d /\ 0 <= d <= L.
Proof.
  intros HL Hx. destruct x as [r| | |]; cbn [ext_max0 ext_min]; try congruence.
  - eexists. split; [reflexivity|]. destruct (Rlt_dec r 0), (Rlt_dec L _); lra.
  - exists L. split; [reflexivity|lra].
  - exists (if Rlt_dec L 0 then L else 0). split; [reflexivity|]. destruct (Rlt_dec L 0); lra.
Qed.

Lemma intersection_number x1 x2 a1 a2 b1 b2 : x1 < x2 -> b2 < a2 -> intersection x1 x2 a1 a2 b1 b2 <> NaN.
Proof.
  intros Hx Hd. unfold intersection, ext_div. destruct (Req_EM_T _ _) as [E|E]; [|discriminate].
  assert (P : 0 < (x1 * b2 - b1 * x2) - (x1 * a2 - a1 * x2)).
  { replace ((x1 * b2 - b1 * x2) - (x1 * a2 - a1 * x2)) with ((x2 - x1) * (a2 - b2)) by (replace a1 with (a2 + (b1 - b2)) by lra; ring).
    apply Rmult_lt_0_compat; lra. }
  destruct (Rlt_dec 0 _); [discriminate|contradiction].
Qed.

Lemma intersection_inside x1 x2 a1 a2 b1 b2 : x1 < x2 -> a1 <= b1 -> b2 < a2 ->
  exists t, 0 <= t < 1 /\ intersection x1 x2 a1 a2 b1 b2 = Fin (between_values x1 x2 t) /\
    between_values a1 a2 t = between_values b1 b2 t.
Proof.
  intros Hx H1 H2. assert (D : 0 < (b1 - a1) + (a2 - b2)) by lra.
  assert (I : 0 < / ((b1 - a1) + (a2 - b2))) by (apply Rinv_0_lt_compat; exact D).
  exists ((b1 - a1) / ((b1 - a1) + (a2 - b2))). split; [|split].
  - split; [apply Rle_mult_inv_pos; lra|]. apply (Rmult_lt_reg_r ((b1 - a1) + (a2 - b2))); [exact D|]. unfold Rdiv. rewrite Rmult_assoc, Rinv_l; lra.
  - unfold intersection, ext_div. destruct (Req_EM_T _ _) as [E|E]; [exfalso; lra|]. f_equal. unfold between_values. field. lra.
  - unfold between_values. field. lra.
Qed.

Lemma front_not_nan dy a b js d : (forall j, 0 < dy j) -> front_loop dy a b js d <> NaN.
Proof.
  intros Hdy. revert d. induction js as [|j js IH]; intros d; cbn [front_loop]; [discriminate|].
  destruct (Rlt_dec _ _) as [L|L]; [|apply IH]. apply intersection_number; [|exact L]. pose proof (Hdy j). pose proof (Hdy (j - 1)%Z). lra.
Qed.

Lemma front_on_line m L dy a b : 0 <= L -> (forall j, 0 < dy j) ->
  exists x, detachment_front_location m L dy a b = Fin x /\ 0 <= x <= L.
Proof.
  intros HL Hdy. unfold detachment_front_location, distance_from_upstream.
  destruct (clamp_range (front_loop dy a b (irange (ystart m) (yend m)) (- (dy (ystart m - 1)%Z + dy (ystart m)) / 4)) L HL (front_not_nan _ _ _ _ _ Hdy))
    as (d & -> & Hd). exists (L - d). split; [reflexivity|lra].
Qed.

(** Positions in the loop are the centres of cells. *)
Lemma front_skip dy a b first n rest d : (forall j, (first <= j < first + Z.of_nat n)%Z -> a j <= b j) ->
  front_loop dy a b (irange first (first + Z.of_nat n - 1) ++ rest) d
  = front_loop dy a b rest (d + zsum first n (fun j => (dy (j - 1)%Z + dy j) / 2)).
Proof.
  revert rest. induction n as [|n IH]; intros rest H.
  - rewrite irange_nil. cbn [app zsum]. f_equal. lra.
  - rewrite irange_snoc, <- app_assoc, IH by (intros; apply H; lia). cbn [app front_loop zsum].
    destruct (Rlt_dec _ _) as [L|L]; [exfalso; specialize (H (first + Z.of_nat n)%Z ltac:(lia)); lra|]. f_equal. lra.
Qed.

Lemma half_widths dy first n : zsum first n (fun j => (dy j + dy (j + 1)%Z) / 2) = zsum first n dy + dy (first + Z.of_nat n)%Z / 2 - dy first / 2.
Proof.
  induction n as [|n IH]; [cbn [zsum]; replace (first + Z.of_nat 0)%Z with first by lia; lra|].
  cbn [zsum]. rewrite IH. replace (first + Z.of_nat (S n))%Z with (first + Z.of_nat n + 1)%Z by lia. lra.
Qed.
Lemma zsum_first f first n : zsum first (S n) f = f first + zsum (first + 1) n f.
Proof.
  induction n as [|n IH]; [cbn [zsum]; replace (first + Z.of_nat 0)%Z with first by lia; lra|].
  change (zsum first (S (S n)) f) with (zsum first (S n) f + f (first + Z.of_nat (S n))%Z). rewrite IH. cbn [zsum].
  replace (first + 1 + Z.of_nat n)%Z with (first + Z.of_nat (S n))%Z by lia. lra.
Qed.
Lemma zsum_shift f first n : zsum (first + 1) n (fun j => f (j - 1)%Z) = zsum first n f.
Proof. induction n as [|n IH]; [reflexivity|]. cbn [zsum]. rewrite IH. f_equal. f_equal. lia. Qed.

Lemma position dy first n : dy (first - 1)%Z = dy first ->
  - (dy (first - 1)%Z + dy first) / 4 + zsum first (S n) (fun j => (dy (j - 1)%Z + dy j) / 2) = centre dy first n.
Proof.
  intros E. rewrite zsum_first.
  rewrite (zsum_ext (first + 1) n _ (fun j => (fun j => (dy j + dy (j + 1)%Z) / 2) (j - 1)%Z)).
  - rewrite (zsum_shift (fun j => (dy j + dy (j + 1)%Z) / 2)), half_widths. unfold centre. lra.
  - intros j _. cbv beta. replace (j - 1 + 1)%Z with j by lia. reflexivity.
Qed.

(** First cell, after the first one, with more neutrals than electrons. *)
Lemma front_between m L dy a b n :
  (forall j, 0 < dy j) -> dy (ystart m - 1)%Z = dy (ystart m) ->
  (ystart m + Z.of_nat n + 1 <= yend m)%Z ->
  (forall j, (ystart m <= j <= ystart m + Z.of_nat n)%Z -> a j <= b j) ->
  b (ystart m + Z.of_nat n + 1)%Z < a (ystart m + Z.of_nat n + 1)%Z ->
  centre dy (ystart m) (S n) <= L ->
  exists t, 0 <= t < 1 /\
    detachment_front_location m L dy a b = Fin (L - between_values (centre dy (ystart m) n) (centre dy (ystart m) (S n)) t) /\
    between_values (a (ystart m + Z.of_nat n)%Z) (a (ystart m + Z.of_nat n + 1)%Z) t
    = between_values (b (ystart m + Z.of_nat n)%Z) (b (ystart m + Z.of_nat n + 1)%Z) t.
Proof.
  intros Hdy E Hn Hle Hgt HL. set (y0 := ystart m) in *.
  assert (R : irange y0 (yend m) = irange y0 (y0 + Z.of_nat (S n) - 1) ++ (y0 + Z.of_nat n + 1)%Z :: irange (y0 + Z.of_nat n + 2) (yend m)).
  { unfold irange. replace (Z.to_nat (yend m - y0 + 1)) with (S n + S (Z.to_nat (yend m - (y0 + Z.of_nat n + 2) + 1)))%nat by lia.
    rewrite seq_app, map_app. f_equal; [f_equal; f_equal; lia|]. cbn [seq map]. f_equal; [lia|].
    replace (Z.to_nat (yend m - (y0 + Z.of_nat n + 2) + 1)) with (Z.to_nat (yend m - (y0 + Z.of_nat n + 2) + 1)) by reflexivity.
    generalize (Z.to_nat (yend m - (y0 + Z.of_nat n + 2) + 1)). intros c. rewrite <- (seq_shift c (0 + S n)). rewrite map_map.
    replace (0 + S n)%nat with (S n) by lia.
    assert (G : forall s, map (fun x => y0 + Z.of_nat (S x))%Z (seq (S n + s) c) = map (fun k => y0 + Z.of_nat n + 2 + Z.of_nat k)%Z (seq s c)).
    { induction c as [|c IH]; intros s; [reflexivity|]. cbn [seq map]. f_equal; [lia|]. replace (S (S n + s)) with (S n + S s)%nat by lia. apply IH. }
    specialize (G 0%nat). rewrite Nat.add_0_r in G. exact G. }
  assert (P1 : - (dy (y0 - 1)%Z + dy y0) / 4 + zsum y0 (S n) (fun j => (dy (j - 1)%Z + dy j) / 2) = centre dy y0 n) by now apply position.
  assert (P2 : - (dy (y0 - 1)%Z + dy y0) / 4 + zsum y0 (S (S n)) (fun j => (dy (j - 1)%Z + dy j) / 2) = centre dy y0 (S n)) by now apply position.
  assert (X2 : centre dy y0 n + 0.5 * dy (y0 + Z.of_nat n)%Z + 0.5 * dy (y0 + Z.of_nat n + 1)%Z = centre dy y0 (S n)).
  { rewrite <- P1, <- P2. change (zsum y0 (S (S n)) (fun j => (dy (j - 1)%Z + dy j) / 2)) with
      (zsum y0 (S n) (fun j => (dy (j - 1)%Z + dy j) / 2) + (dy (y0 + Z.of_nat (S n) - 1)%Z + dy (y0 + Z.of_nat (S n))%Z) / 2).
    replace (y0 + Z.of_nat (S n) - 1)%Z with (y0 + Z.of_nat n)%Z by lia. replace (y0 + Z.of_nat (S n))%Z with (y0 + Z.of_nat n + 1)%Z by lia. lra. }
  destruct (intersection_inside (centre dy y0 n) (centre dy y0 (S n)) (a (y0 + Z.of_nat n)%Z) (a (y0 + Z.of_nat n + 1)%Z)
              (b (y0 + Z.of_nat n)%Z) (b (y0 + Z.of_nat n + 1)%Z)) as (t & Ht & EI & EV).
  { rewrite <- X2. pose proof (Hdy (y0 + Z.of_nat n)%Z). pose proof (Hdy (y0 + Z.of_nat n + 1)%Z). lra. }
  { apply Hle. lia. }
  { exact Hgt. }
  exists t. split; [exact Ht|]. split; [|exact EV].
  unfold detachment_front_location, distance_from_upstream. fold y0.
  rewrite R, front_skip by (intros; apply Hle; lia). rewrite P1. cbn [front_loop].
  destruct (Rlt_dec _ _) as [_|Hno]; [|contradiction].
  replace (y0 + Z.of_nat n + 1 - 1)%Z with (y0 + Z.of_nat n)%Z by lia. rewrite X2, EI. cbn [ext_max0 ext_min].
  assert (C0 : 0 <= centre dy y0 n).
  { unfold centre. assert (0 <= zsum y0 n dy) by (apply zsum_nonneg; intros; left; apply Hdy). pose proof (Hdy (y0 + Z.of_nat n)%Z). lra. }
  assert (C1 : centre dy y0 n < centre dy y0 (S n)).
  { rewrite <- X2. pose proof (Hdy (y0 + Z.of_nat n)%Z). pose proof (Hdy (y0 + Z.of_nat n + 1)%Z). lra. }
  assert (B : centre dy y0 n <= between_values (centre dy y0 n) (centre dy y0 (S n)) t < centre dy y0 (S n)).
  { unfold between_values. set (u := centre dy y0 n) in *. set (v := centre dy y0 (S n)) in *.
    assert (0 <= t * (v - u)) by (apply Rmult_le_pos; lra). assert (0 < (1 - t) * (v - u)) by (apply Rmult_lt_0_compat; lra). lra. }
  destruct (Rlt_dec _ 0); [exfalso; lra|]. destruct (Rlt_dec L _); [exfalso; lra|]. reflexivity.
Qed.

(** No front: the centre of the last cell. *)
Lemma front_absent m L dy a b n : (forall j, 0 < dy j) -> dy (ystart m - 1)%Z = dy (ystart m) -> yend m = (ystart m + Z.of_nat n)%Z ->
  (forall j, (ystart m <= j <= yend m)%Z -> a j <= b j) -> centre dy (ystart m) n <= L ->
  detachment_front_location m L dy a b = Fin (L - centre dy (ystart m) n).
Proof.
  intros Hdy E Hy Hle HL. unfold detachment_front_location, distance_from_upstream.
  rewrite <- (app_nil_r (irange (ystart m) (yend m))).
  replace (yend m) with (ystart m + Z.of_nat (S n) - 1)%Z by lia.
  rewrite front_skip by (intros; apply Hle; lia). rewrite position by exact E. cbn [front_loop ext_max0 ext_min].
  assert (C0 : 0 <= centre dy (ystart m) n).
  { unfold centre. assert (0 <= zsum (ystart m) n dy) by (apply zsum_nonneg; intros; left; apply Hdy). pose proof (Hdy (ystart m + Z.of_nat n)%Z). lra. }
  destruct (Rlt_dec _ 0); [exfalso; lra|]. destruct (Rlt_dec L _); [exfalso; lra|]. reflexivity.
Qed.
