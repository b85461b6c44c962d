From Coq Require Import List Bool String Reals Lra Lia Arith.
From Verif Require Import OptionsModel StateMonad StateSpec StateMonadProofs LimitersModel LimitersProofs
  ReactionsModel ReactionsSpec.
Import ListNotations.
Open Scope R_scope.

Lemma clip_clamp x lo hi : lo <= hi -> clip x lo hi = clamp lo hi x.
Proof. intros H. unfold clip, clamp. cases_R; lra. Qed.

Lemma clamp_range x lo hi : lo <= hi -> lo <= clamp lo hi x <= hi.
Proof. intros H. unfold clamp. cases_R; lra. Qed.

(** ** AMJUEL double fits *)

Section Fit.
  Variables (t : table) (c : nat -> nat -> R) (k : nat).
  Hypothesis Ht : forall i j, (i < k)%nat -> (j < k)%nat -> coef t i j = Some (c i j).
  Variables (lT ln : R).

  Lemma loop_m_sum i a : (i < k)%nat -> forall r m res, (m + r <= k)%nat ->
    loop_m t i a ln r m (ln ^ m) res = Some (res + sumR (fun j => c i j * ln ^ j * a) (seq m r)).
  Proof.
    intros Hi. induction r as [|r IH]; intros m res Hm; cbn [loop_m seq sumR].
    - f_equal. lra.
    - rewrite Ht by lia.
      replace (ln ^ m * ln) with (ln ^ S m) by (cbn [pow]; lra).
      rewrite IH by lia. f_equal. lra.
  Qed.

  Lemma loop_n_sum r : forall i res, (i + r <= k)%nat ->
    loop_n t k lT ln r i (lT ^ i) res
    = Some (res + sumR (fun i => sumR (fun j => c i j * ln ^ j * lT ^ i) (seq 0 k)) (seq i r)).
  Proof.
    induction r as [|r IH]; intros i res Hi; cbn [loop_n seq sumR].
    - f_equal. lra.
    - pose proof (loop_m_sum i (lT ^ i) ltac:(lia) k 0 res ltac:(lia)) as X. cbn [pow] in X. rewrite X.
      replace (lT ^ i * lT) with (lT ^ S i) by (cbn [pow]; lra).
      rewrite IH by lia. f_equal. lra.
  Qed.
End Fit.

Lemma evaluate_fit k t c T n :
  (forall i j, (i < k)%nat -> (j < k)%nat -> coef t i j = Some (c i j)) ->
  evaluate k k t T n = Some (amjuel_fit k c (clamp 0.1 1e4 T) (clamp 1e14 1e22 n)).
Proof.
  intros Ht. unfold evaluate, amjuel_fit. cbv zeta.
  rewrite !clip_clamp by lra.
  pose proof (loop_n_sum t c k Ht (ln (clamp 0.1 1e4 T)) (ln (clamp 1e14 1e22 n / 1e14)) k 0 0 ltac:(lia)) as X.
  rewrite pow_O in X. rewrite X.
  do 3 f_equal. lra.
Qed.

Lemma evaluate_positive rows cols t T n r : evaluate rows cols t T n = Some r -> 0 < r.
Proof.
  unfold evaluate. cbv zeta. destruct (loop_n _ _ _ _ _ _ _ _) as [x|]; [|discriminate].
  intros [= <-]. pose proof (exp_pos x). lra.
Qed.

Lemma evaluate_clamped rows cols t T n T' n' :
  clamp 0.1 1e4 T = clamp 0.1 1e4 T' -> clamp 1e14 1e22 n = clamp 1e14 1e22 n' ->
  evaluate rows cols t T n = evaluate rows cols t T' n'.
Proof.
  intros H1 H2. unfold evaluate. cbv zeta. rewrite !clip_clamp by lra. now rewrite H1, H2.
Qed.

(** Reads do not depend on the point of evaluation. *)
Lemma loop_m_defined t n a b r : forall m x y a' b' x' y',
  loop_m t n a b r m x y = None <-> loop_m t n a' b' r m x' y' = None.
Proof.
  induction r as [|r IH]; intros; cbn [loop_m]; [split; discriminate|].
  destruct (coef t n m); [apply IH|tauto].
Qed.
Lemma loop_n_defined t rows b r : forall a n x y a' b' x' y',
  loop_n t rows a b r n x y = None <-> loop_n t rows a' b' r n x' y' = None.
Proof.
  revert b. induction r as [|r IH]; intros; cbn [loop_n]; [split; discriminate|].
  pose proof (loop_m_defined t n x b rows 0 1 y x' b' 1 y') as Hm.
  destruct (loop_m t n x b rows 0 1 y) eqn:E1, (loop_m t n x' b' rows 0 1 y') eqn:E2.
  - apply IH.
  - exfalso. now destruct Hm as [_ Hm]; specialize (Hm eq_refl).
  - exfalso. now destruct Hm as [Hm _]; specialize (Hm eq_refl).
  - tauto.
Qed.
Lemma reads_inside_all rows cols t T n :
  reads_inside rows cols t = true <-> exists r, evaluate rows cols t T n = Some r.
Proof.
  unfold reads_inside, evaluate. cbv zeta.
  pose proof (loop_n_defined t rows (ln (clip 1e14 1e14 1e22 / 1e14)) cols (ln (clip 1 0.1 1e4)) 0 1 0
                (ln (clip T 0.1 1e4)) (ln (clip n 1e14 1e22 / 1e14)) 1 0) as H.
  destruct (loop_n t rows (ln (clip 1 0.1 1e4)) _ cols 0 1 0), (loop_n t rows (ln (clip T 0.1 1e4)) _ cols 0 1 0).
  - split; eauto.
  - exfalso. now destruct H as [_ H]; specialize (H eq_refl).
  - exfalso. now destruct H as [H _]; specialize (H eq_refl).
  - split; [discriminate|]. intros [r X]. discriminate.
Qed.

(** A rectangular array with more rows than columns is read outside. *)
Lemma evaluate_rectangular rows cols t T n :
  (0 < cols)%nat -> (cols < rows)%nat ->
  (forall row, In row t -> List.length row = cols) ->
  evaluate rows cols t T n = None.
Proof.
  intros H0 H Hr. unfold evaluate. cbv zeta.
  destruct cols as [|cols]; [lia|]. cbn [loop_n].
  enough (X : forall r m a b x y, (m + r > S cols)%nat -> (m <= S cols)%nat -> loop_m t 0 a b r m x y = None).
  { rewrite X; auto; lia. }
  induction r as [|r IH]; intros m a b x y Hm1 Hm2; [lia|]. cbn [loop_m].
  destruct (coef t 0 m) as [v|] eqn:E; auto. apply IH; [lia|].
  unfold coef in E. destruct (nth_error t 0) as [row|] eqn:Er; [|discriminate].
  apply nth_error_In in Er. apply Hr in Er.
  assert (m < List.length row)%nat by (apply nth_error_Some; congruence). lia.
Qed.

(** ** OpenADAS interpolation *)

Lemma ln10_pos : 0 < ln 10.
Proof. rewrite <- ln_1. apply ln_increasing; lra. Qed.

Lemma log10_Rpower x : log10 (Rpower 10 x) = x.
Proof.
  unfold log10, Rpower. rewrite ln_exp. field. pose proof ln10_pos; lra.
Qed.
Lemma Rpower10_log10 x : 0 < x -> Rpower 10 (log10 x) = x.
Proof.
  intros H. unfold log10, Rpower. replace (ln x / ln 10 * ln 10) with (ln x).
  - now apply exp_ln.
  - field. pose proof ln10_pos; lra.
Qed.
Lemma log10_le x y : 0 < x -> x <= y -> log10 x <= log10 y.
Proof.
  intros H [L| ->]; [|lra]. unfold log10. apply Rmult_le_compat_r.
  - left. apply Rinv_0_lt_compat, ln10_pos.
  - left. now apply ln_increasing.
Qed.
Lemma Rpower10_le x y : x <= y -> Rpower 10 x <= Rpower 10 y.
Proof.
  intros [L| ->]; [|lra]. left. apply Rpower_lt; lra.
Qed.
Lemma Rpower10_pos x : 0 < Rpower 10 x.
Proof. apply exp_pos. Qed.

Lemma increasing_tail a l : increasing (a :: l) -> increasing l.
Proof. intros H i j x y Hij Hi Hj. apply (H (S i) (S j)); auto. lia. Qed.

Lemma lower_bound_le vec v : (lower_bound vec v <= List.length vec)%nat.
Proof. induction vec as [|x vec IH]; cbn; [lia|]. destruct (Rltb x v); cbn; lia. Qed.

(** Everything before the lower bound is smaller, the element there is not. *)
Lemma lower_bound_before vec v i x :
  (i < lower_bound vec v)%nat -> nth_error vec i = Some x -> x < v.
Proof.
  revert i. induction vec as [|a vec IH]; intros i; cbn; [lia|].
  destruct (Rltb a v) eqn:E; [|lia].
  destruct i as [|i]; cbn; intros Hi Hx.
  - injection Hx as <-. unfold Rltb in E. destruct (Rlt_dec a v); congruence || auto.
  - apply (IH i); auto. lia.
Qed.
Lemma lower_bound_at vec v x :
  nth_error vec (lower_bound vec v) = Some x -> v <= x.
Proof.
  induction vec as [|a vec IH]; cbn; [discriminate|].
  destruct (Rltb a v) eqn:E; auto. cbn. intros [= <-].
  unfold Rltb in E. destruct (Rlt_dec a v); [discriminate|lra].
Qed.

Lemma last_nth vec (d : R) : vec <> [] -> nth_error vec (List.length vec - 1) = Some (last vec d).
Proof.
  induction vec as [|a vec IH]; [congruence|]. intros _.
  destruct vec as [|b vec]; [reflexivity|].
  replace (List.length (a :: b :: vec) - 1)%nat with (S (List.length (b :: vec) - 1)) by (cbn; lia).
  cbn [nth_error]. rewrite IH by congruence. reflexivity.
Qed.

(** The interval found contains the value when that lies within the axis. *)
Lemma get_high_index_spec vec v :
  increasing vec -> (2 <= List.length vec)%nat ->
  (forall x, nth_error vec 0 = Some x -> x <= v) -> v <= last vec 0 ->
  exists h lo hi, get_high_index vec v = Some h /\ (1 <= h < List.length vec)%nat /\
    nth_error vec (h - 1) = Some lo /\ nth_error vec h = Some hi /\ lo <= v <= hi /\ lo < hi.
Proof.
  intros Inc Len H0 Hl. unfold get_high_index. cbv zeta.
  replace (Nat.ltb (List.length vec) 2) with false by (symmetry; apply Nat.ltb_ge; lia).
  pose proof (lower_bound_le vec v) as Lb. pose proof (lower_bound_before vec v) as Bf.
  pose proof (lower_bound_at vec v) as At.
  set (h := lower_bound vec v) in *. clearbody h.
  assert (Ne : vec <> []) by (intros ->; cbn in Len; lia).
  assert (Get : forall i, (i < List.length vec)%nat -> exists x, nth_error vec i = Some x).
  { intros i Hi. destruct (nth_error vec i) eqn:E; eauto. apply nth_error_None in E. lia. }
  destruct (Nat.eqb_spec h (List.length vec)) as [Eh|Nh].
  - (* beyond the end: excluded, the last value is at least v *)
    exfalso. pose proof (last_nth vec 0 Ne) as L. specialize (Bf (List.length vec - 1)%nat _ ltac:(lia) L). lra.
  - destruct (Nat.eqb_spec h 0) as [->|N0].
    + destruct (Get 0%nat ltac:(lia)) as [lo Elo]. destruct (Get 1%nat ltac:(lia)) as [hi Ehi].
      specialize (H0 _ Elo). specialize (At _ Elo). pose proof (Inc 0%nat 1%nat lo hi ltac:(lia) Elo Ehi).
      exists 1%nat, lo, hi. repeat split; auto; lia || lra.
    + destruct (Get (h - 1)%nat ltac:(lia)) as [lo Elo]. destruct (Get h ltac:(lia)) as [hi Ehi].
      pose proof (Inc (h - 1)%nat h lo hi ltac:(lia) Elo Ehi).
      specialize (Bf (h - 1)%nat lo ltac:(lia) Elo). specialize (At _ Ehi).
      exists h, lo, hi. repeat split; auto; lia || lra.
Qed.

Lemma coef_rectangular a i j :
  rectangular a -> (i < List.length (log_temperature a))%nat -> (j < List.length (log_density a))%nat ->
  exists x, coef (log_coeff a) i j = Some x.
Proof.
  intros [H1 H2] Hi Hj. unfold coef.
  destruct (nth_error (log_coeff a) i) as [row|] eqn:E.
  - apply nth_error_In in E. apply H2 in E.
    destruct (nth_error row j) eqn:Ej; eauto. apply nth_error_None in Ej. lia.
  - apply nth_error_None in E. lia.
Qed.

  Lemma axis_ends axis : increasing axis -> (2 <= List.length axis)%nat -> hd 0 axis < last axis 0.
  Proof.
    intros I L. destruct axis as [|x axis]; [cbn in L; lia|].
    pose proof (last_nth (x :: axis) 0 ltac:(congruence)) as E.
    apply (I 0%nat (List.length (x :: axis) - 1)%nat); auto. cbn in L |- *. lia.
  Qed.

  Lemma clamped_range axis x : increasing axis -> (2 <= List.length axis)%nat ->
    hd 0 axis <= clamped axis x <= last axis 0.
  Proof.
    intros I L. pose proof (axis_ends axis I L) as Hl. unfold clamped.
    pose proof (clamp_range x (Rpower 10 (hd 0 axis)) (Rpower 10 (last axis 0)) ltac:(apply Rpower10_le; lra)) as [C1 C2].
    pose proof (Rpower10_pos (hd 0 axis)).
    split.
    - apply Rle_trans with (log10 (Rpower 10 (hd 0 axis))); [rewrite log10_Rpower; lra|]. apply log10_le; lra.
    - apply Rle_trans with (log10 (Rpower 10 (last axis 0))); [|rewrite log10_Rpower; lra]. apply log10_le; lra.
  Qed.

Section Adas.
  Variable a : adas.
  Hypothesis IT : increasing (log_temperature a).
  Hypothesis In' : increasing (log_density a).
  Hypothesis LT : (2 <= List.length (log_temperature a))%nat.
  Hypothesis Ln : (2 <= List.length (log_density a))%nat.
  Hypothesis Rect : rectangular a.

  (* The cell of the table that is used, with the interpolated value. *)
  Lemma adas_evaluate_spec T n :
    exists hT hn tl th nl nh c00 c01 c10 c11,
      (1 <= hT)%nat /\ (1 <= hn)%nat /\
      nth_error (log_temperature a) (hT - 1) = Some tl /\ nth_error (log_temperature a) hT = Some th /\
      nth_error (log_density a) (hn - 1) = Some nl /\ nth_error (log_density a) hn = Some nh /\
      tl <= clamped (log_temperature a) T <= th /\ tl < th /\
      nl <= clamped (log_density a) n <= nh /\ nl < nh /\
      coef (log_coeff a) (hT - 1) (hn - 1) = Some c00 /\ coef (log_coeff a) (hT - 1) hn = Some c01 /\
      coef (log_coeff a) hT (hn - 1) = Some c10 /\ coef (log_coeff a) hT hn = Some c11 /\
      let x := (clamped (log_temperature a) T - tl) / (th - tl) in
      let y := (clamped (log_density a) n - nl) / (nh - nl) in
      adas_evaluate a T n
      = Some (Rpower 10 ((c00 * (1 - y) + c01 * y) * (1 - x) + (c10 * (1 - y) + c11 * y) * x)).
  Proof.
    pose proof (clamped_range (log_temperature a) T IT LT) as CT.
    pose proof (clamped_range (log_density a) n In' Ln) as Cn.
    destruct (get_high_index_spec (log_temperature a) (clamped (log_temperature a) T) IT LT) as (hT & tl & th & G1 & B1 & A1 & A2 & A3 & A4).
    { destruct (log_temperature a); cbn; [discriminate|]. intros x [= <-]. apply CT. }
    { apply CT. }
    destruct (get_high_index_spec (log_density a) (clamped (log_density a) n) In' Ln) as (hn & nl & nh & G2 & B2 & D1 & D2 & D3 & D4).
    { destruct (log_density a); cbn; [discriminate|]. intros x [= <-]. apply Cn. }
    { apply Cn. }
    destruct (coef_rectangular a (hT - 1) (hn - 1) Rect ltac:(lia) ltac:(lia)) as [c00 E00].
    destruct (coef_rectangular a (hT - 1) hn Rect ltac:(lia) ltac:(lia)) as [c01 E01].
    destruct (coef_rectangular a hT (hn - 1) Rect ltac:(lia) ltac:(lia)) as [c10 E10].
    destruct (coef_rectangular a hT hn Rect ltac:(lia) ltac:(lia)) as [c11 E11].
    exists hT, hn, tl, th, nl, nh, c00, c01, c10, c11.
    do 2 (split; [lia|]). do 12 (split; [assumption|]). cbv zeta.
    pose proof (axis_ends _ IT LT) as HT. pose proof (axis_ends _ In' Ln) as Hn.
    unfold adas_evaluate.
    destruct (log_temperature a) as [|T0 rT] eqn:ET; [cbn in LT; lia|].
    destruct (log_density a) as [|n0 rn] eqn:EN; [cbn in Ln; lia|].
    cbv zeta. unfold clamped in G1, G2 |- *. cbn [hd] in G1, G2, HT, Hn |- *.
    rewrite !clip_clamp by (apply Rpower10_le; lra).
    rewrite G1, G2, A1, A2, D1, D2, E00, E01, E10, E11. reflexivity.
  Qed.
End Adas.

Section AdasLaws.
  Variable a : adas.
  Hypothesis Ok : table_ok a.

  Lemma adas_total T n : exists r, adas_evaluate a T n = Some r /\ 0 < r.
  Proof.
    destruct Ok as (IT & In' & LT & Ln & Rect).
    destruct (adas_evaluate_spec a IT In' LT Ln Rect T n)
      as (hT & hn & tl & th & nl & nh & c00 & c01 & c10 & c11 & H).
    destruct H as (_ & _ & _ & _ & _ & _ & _ & _ & _ & _ & _ & _ & _ & _ & E). cbv zeta in E.
    rewrite E. eexists. split; [reflexivity|]. apply exp_pos.
  Qed.

  Lemma bilinear_between c00 c01 c10 c11 x y lo hi :
    0 <= x <= 1 -> 0 <= y <= 1 ->
    lo <= c00 <= hi -> lo <= c01 <= hi -> lo <= c10 <= hi -> lo <= c11 <= hi ->
    lo <= (c00 * (1 - y) + c01 * y) * (1 - x) + (c10 * (1 - y) + c11 * y) * x <= hi.
  Proof.
    intros Hx Hy H00 H01 H10 H11.
    assert (A : lo <= c00 * (1 - y) + c01 * y <= hi) by (split; nra).
    assert (B : lo <= c10 * (1 - y) + c11 * y <= hi) by (split; nra).
    split; nra.
  Qed.

  Lemma fraction lo hi v : lo < hi -> lo <= v <= hi -> 0 <= (v - lo) / (hi - lo) <= 1.
  Proof.
    intros H [H1 H2]. assert (P : 0 < / (hi - lo)) by (apply Rinv_0_lt_compat; lra).
    split.
    - apply Rmult_le_pos; lra.
    - apply Rmult_le_reg_r with (hi - lo); [lra|]. unfold Rdiv. rewrite Rmult_assoc, Rinv_l; lra.
  Qed.

  Lemma adas_between T n r :
    adas_evaluate a T n = Some r ->
    exists i j tl th nl nh c00 c01 c10 c11,
      nth_error (log_temperature a) i = Some tl /\ nth_error (log_temperature a) (S i) = Some th /\
      nth_error (log_density a) j = Some nl /\ nth_error (log_density a) (S j) = Some nh /\
      tl <= clamped (log_temperature a) T <= th /\ nl <= clamped (log_density a) n <= nh /\
      coef (log_coeff a) i j = Some c00 /\ coef (log_coeff a) i (S j) = Some c01 /\
      coef (log_coeff a) (S i) j = Some c10 /\ coef (log_coeff a) (S i) (S j) = Some c11 /\
      Rpower 10 (Rmin (Rmin c00 c01) (Rmin c10 c11)) <= r <= Rpower 10 (Rmax (Rmax c00 c01) (Rmax c10 c11)).
  Proof.
    destruct Ok as (IT & In' & LT & Ln & Rect). intros Er.
    destruct (adas_evaluate_spec a IT In' LT Ln Rect T n)
      as (hT & hn & tl & th & nl & nh & c00 & c01 & c10 & c11 & P1 & P2 & A1 & A2 & A3 & A4 & B1 & B2 & B3 & B4 & C1 & C2 & C3 & C4 & E).
    cbv zeta in E. rewrite E in Er. injection Er as <-.
    exists (hT - 1)%nat, (hn - 1)%nat, tl, th, nl, nh, c00, c01, c10, c11.
    replace (S (hT - 1)) with hT by lia. replace (S (hn - 1)) with hn by lia.
    do 10 (split; [assumption|]).
    pose proof (bilinear_between c00 c01 c10 c11
      ((clamped (log_temperature a) T - tl) / (th - tl)) ((clamped (log_density a) n - nl) / (nh - nl))
      (Rmin (Rmin c00 c01) (Rmin c10 c11)) (Rmax (Rmax c00 c01) (Rmax c10 c11))
      (fraction _ _ _ B2 B1) (fraction _ _ _ B4 B3)) as [L U].
    { cases_R; lra. } { cases_R; lra. } { cases_R; lra. } { cases_R; lra. }
    split; apply Rpower10_le; assumption.
  Qed.

  (* Values which are bilinear in the logarithms are reproduced. *)
  Lemma adas_bilinear f0 fT fn fTn T n :
    (forall i j t d, nth_error (log_temperature a) i = Some t -> nth_error (log_density a) j = Some d ->
       coef (log_coeff a) i j = Some (f0 + fT * t + fn * d + fTn * t * d)) ->
    adas_evaluate a T n
    = Some (let t := clamped (log_temperature a) T in let d := clamped (log_density a) n in
            Rpower 10 (f0 + fT * t + fn * d + fTn * t * d)).
  Proof.
    destruct Ok as (IT & In' & LT & Ln & Rect). intros Hc.
    destruct (adas_evaluate_spec a IT In' LT Ln Rect T n)
      as (hT & hn & tl & th & nl & nh & c00 & c01 & c10 & c11 & P1 & P2 & A1 & A2 & A3 & A4 & B1 & B2 & B3 & B4 & C1 & C2 & C3 & C4 & E).
    cbv zeta in E |- *. rewrite E. do 2 f_equal.
    rewrite (Hc _ _ _ _ A1 A3) in C1. rewrite (Hc _ _ _ _ A1 A4) in C2.
    rewrite (Hc _ _ _ _ A2 A3) in C3. rewrite (Hc _ _ _ _ A2 A4) in C4.
    injection C1 as <-. injection C2 as <-. injection C3 as <-. injection C4 as <-.
    field. lra.
  Qed.

  Lemma nth_unique l i j x : increasing l -> nth_error l i = Some x -> nth_error l j = Some x -> i = j.
  Proof.
    intros I Hi Hj. destruct (Nat.lt_trichotomy i j) as [H|[H|H]]; auto.
    - pose proof (I i j x x H Hi Hj). lra.
    - pose proof (I j i x x H Hj Hi). lra.
  Qed.

  Lemma clamped_node axis i t : increasing axis -> nth_error axis i = Some t -> clamped axis (Rpower 10 t) = t.
  Proof.
    intros I Hi. unfold clamped.
    assert (L : hd 0 axis <= t).
    { destruct axis as [|x axis]; [destruct i; discriminate|]. cbn [hd].
      destruct i as [|i]; [injection Hi as <-; lra|]. left. apply (I 0%nat (S i)); auto. lia. }
    assert (U : t <= last axis 0).
    { assert (Ne : axis <> []) by (intros ->; destruct i; discriminate).
      pose proof (last_nth axis 0 Ne) as E.
      assert (i < List.length axis)%nat by (apply nth_error_Some; congruence).
      destruct (Nat.eq_dec i (List.length axis - 1)) as [->|N]; [rewrite Hi in E; injection E as ->; lra|].
      left. refine (I _ _ _ _ _ Hi E). lia. }
    unfold clamp. rewrite Rmin_right by now apply Rpower10_le.
    rewrite Rmax_right by now apply Rpower10_le. apply log10_Rpower.
  Qed.

  Lemma adas_nodes i j t d c :
    nth_error (log_temperature a) i = Some t -> nth_error (log_density a) j = Some d ->
    coef (log_coeff a) i j = Some c ->
    adas_evaluate a (Rpower 10 t) (Rpower 10 d) = Some (Rpower 10 c).
  Proof.
    destruct Ok as (IT & In' & LT & Ln & Rect). intros Hi Hj Hc.
    destruct (adas_evaluate_spec a IT In' LT Ln Rect (Rpower 10 t) (Rpower 10 d))
      as (hT & hn & tl & th & nl & nh & c00 & c01 & c10 & c11 & P1 & P2 & A1 & A2 & A3 & A4 & B1 & B2 & B3 & B4 & C1 & C2 & C3 & C4 & E).
    cbv zeta in E. rewrite (clamped_node _ i t IT Hi) in E, B1. rewrite (clamped_node _ j d In' Hj) in E, B3.
    rewrite E. do 2 f_equal.
    (* t is one of the two ends of the interval, and so is d *)
    assert (Ti : t = tl /\ i = (hT - 1)%nat \/ t = th /\ i = hT).
    { destruct (Nat.lt_trichotomy i (hT - 1)) as [H|[H|H]].
      - pose proof (IT i (hT - 1)%nat t tl H Hi A1). lra.
      - left. subst i. rewrite Hi in A1. injection A1 as ->. auto.
      - right. destruct (Nat.eq_dec i hT) as [->|N]; [rewrite Hi in A2; injection A2 as ->; auto|].
        pose proof (IT hT i th t ltac:(lia) A2 Hi). lra. }
    assert (Dj : d = nl /\ j = (hn - 1)%nat \/ d = nh /\ j = hn).
    { destruct (Nat.lt_trichotomy j (hn - 1)) as [H|[H|H]].
      - pose proof (In' j (hn - 1)%nat d nl H Hj A3). lra.
      - left. subst j. rewrite Hj in A3. injection A3 as ->. auto.
      - right. destruct (Nat.eq_dec j hn) as [->|N]; [rewrite Hj in A4; injection A4 as ->; auto|].
        pose proof (In' hn j nh d ltac:(lia) A4 Hj). lra. }
    destruct Ti as [[-> ->]|[-> ->]], Dj as [[-> ->]|[-> ->]].
    - rewrite Hc in C1. injection C1 as ->. field. lra.
    - rewrite Hc in C2. injection C2 as ->. field. lra.
    - rewrite Hc in C3. injection C3 as ->. field. lra.
    - rewrite Hc in C4. injection C4 as ->. field. lra.
  Qed.

  Lemma adas_edge T n T' n' :
    clamped (log_temperature a) T = clamped (log_temperature a) T' ->
    clamped (log_density a) n = clamped (log_density a) n' ->
    adas_evaluate a T n = adas_evaluate a T' n'.
  Proof.
    destruct Ok as (IT & In' & LT & Ln & Rect). intros H1 H2.
    pose proof (axis_ends _ IT LT) as HT. pose proof (axis_ends _ In' Ln) as Hn.
    unfold adas_evaluate, clamped in *.
    destruct (log_temperature a) as [|T0 rT] eqn:ET; [reflexivity|].
    destruct (log_density a) as [|n0 rn] eqn:EN; [reflexivity|]. cbv zeta. cbn [hd] in H1, H2, HT, Hn.
    rewrite !clip_clamp by (apply Rpower10_le; lra). now rewrite H1, H2.
  Qed.
End AdasLaws.
