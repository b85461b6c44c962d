(** C97: the parabolic interpolation XPPM. *)

From Coq Require Import List Bool Reals Lra.
From Verif Require Import LimitersModel PpmModel PpmSpec PpmProofs.
Import ListNotations.
Open Scope R_scope.

(** Monotone data give face values between the neighbours: no new extrema. *)
Theorem C97_monotone : forall h mm m c p pp, h <> 0 -> (mm <= m <= c /\ c <= p <= pp) \/ (pp <= p <= c /\ c <= m <= mm) ->
  between m c (fst (XPPM h mm m c p pp)) /\ between c p (snd (XPPM h mm m c p pp)).
Proof. exact ppm_monotone. Qed.
Print Assumptions C97_monotone.
Example C97_monotone_case : (0 <= 1 <= 4 /\ 4 <= 9 <= 100) /\ snd (XPPM 1 0 1 4 9 100) = 6.5 - 2.5 / 6.
Proof. exact monotone_case. Qed.
(** Whatever the data, the face values are on the lines from the centre to the limited fourth order values: the last step only moves them inwards,
    by the same factor. *)
Theorem C97_inwards : forall h mm m c p pp, exists r, 0 <= r <= 1 /\ XPPM h mm m c p pp = (c + r * (ppm_left h mm m c p - c), c + r * (ppm_right h m c p pp - c)).
Proof. exact ppm_inwards. Qed.
Print Assumptions C97_inwards.
(** Straight lines are reproduced. *)
Theorem C97_linear : forall h c s, h <> 0 -> XPPM h (c - 2 * s) (c - s) c (c + s) (c + 2 * s) = (c - s / 2, c + s / 2).
Proof. exact ppm_linear. Qed.
Print Assumptions C97_linear.
Example C97_linear_case : XPPM 0.1 (1 - 2 * 3) (1 - 3) 1 (1 + 3) (1 + 2 * 3) = (1 - 3 / 2, 1 + 3 / 2).
Proof. apply C97_linear. lra. Qed.
(** Fourth order: from the cell means of a cubic, monotone around the cell, come its values at the faces. *)
Theorem C97_cubic : forall h a b c d x, let u := cell_mean a b c d h in let f := cubic a b c d in
  (u (x - h) - f (x - h / 2)) * (u x - f (x - h / 2)) <= 0 -> (u x - f (x + h / 2)) * (u (x + h) - f (x + h / 2)) <= 0 ->
  0 < (f (x + h / 2) - u x) * (u x - f (x - h / 2)) -> 0 < (u (x - h) - u x) * (u x - u (x + h)) ->
  XPPM h (u (x - 2 * h)) (u (x - h)) (u x) (u (x + h)) (u (x + 2 * h)) = (f (x - h / 2), f (x + h / 2)).
Proof. exact ppm_cubic. Qed.
Print Assumptions C97_cubic.
Example C97_cubic_case : let u := cell_mean 0 1 0 1 1 in let f := cubic 0 1 0 1 in
  (u (1 - 1) - f (1 - 1 / 2)) * (u 1 - f (1 - 1 / 2)) <= 0 /\ (u 1 - f (1 + 1 / 2)) * (u (1 + 1) - f (1 + 1 / 2)) <= 0
  /\ 0 < (f (1 + 1 / 2) - u 1) * (u 1 - f (1 - 1 / 2)) /\ 0 < (u (1 - 1) - u 1) * (u 1 - u (1 + 1)).
Proof. cbv zeta. unfold cell_mean, cubic. repeat split; lra. Qed.
(** Away from extrema neighbouring cells agree on the value at their common face. *)
Theorem C97_shared_face : forall h mm m c p pp ppp, ppm_extremum (ppm_left h mm m c p) (ppm_right h m c p pp) m c p = false ->
  ppm_extremum (ppm_left h m c p pp) (ppm_right h c p pp ppp) c p pp = false -> snd (XPPM h mm m c p pp) = fst (XPPM h m c p pp ppp).
Proof. exact shared_face. Qed.
Print Assumptions C97_shared_face.
Example C97_shared_case : ppm_extremum (ppm_left 1 0 1 4 9) (ppm_right 1 1 4 9 16) 1 4 9 = false /\ ppm_extremum (ppm_left 1 1 4 9 16) (ppm_right 1 4 9 16 25) 4 9 16 = false.
Proof. exact shared_case. Qed.
(** Left and right, up and down, and the zero of the data make no difference. *)
Theorem C97_mirror : forall h mm m c p pp, XPPM h pp p c m mm = (snd (XPPM h mm m c p pp), fst (XPPM h mm m c p pp)).
Proof. exact ppm_mirror. Qed.
Print Assumptions C97_mirror.
Theorem C97_negate : forall h mm m c p pp, XPPM h (- mm) (- m) (- c) (- p) (- pp) = (- fst (XPPM h mm m c p pp), - snd (XPPM h mm m c p pp)).
Proof. exact ppm_opp. Qed.
Print Assumptions C97_negate.
Theorem C97_shift : forall h t mm m c p pp, XPPM h (mm + t) (m + t) (c + t) (p + t) (pp + t) = (fst (XPPM h mm m c p pp) + t, snd (XPPM h mm m c p pp) + t).
Proof. exact ppm_shift. Qed.
Print Assumptions C97_shift.
(** Away from extrema the unit of the data makes no difference either. *)
Theorem C97_scale_partial : forall h k mm m c p pp, 0 < k -> ppm_extremum (ppm_left h mm m c p) (ppm_right h m c p pp) m c p = false ->
  XPPM h (k * mm) (k * m) (k * c) (k * p) (k * pp) = (k * fst (XPPM h mm m c p pp), k * snd (XPPM h mm m c p pp)).
Proof. exact ppm_mult. Qed.
Print Assumptions C97_scale_partial.
Example C97_scale_case : 0 < 3 /\ ppm_extremum (ppm_left 1 0 1 4 9) (ppm_right 1 1 4 9 16) 1 4 9 = false.
Proof. exact (conj (IZR_lt 0 3 eq_refl) (proj1 shared_case)). Qed.
(** At an extremum it does: the threshold 1e-10 for the second derivative is an absolute number. *)
Theorem C97_scale_refuted : exists h k mm m c p pp, 0 < k /\ XPPM h (k * mm) (k * m) (k * c) (k * p) (k * pp) <> (k * fst (XPPM h mm m c p pp), k * snd (XPPM h mm m c p pp)).
Proof. exact scale_refuted. Qed.
Print Assumptions C97_scale_refuted.
(** Data which are nowhere negative may have a negative value at a face. *)
Theorem C97_positive_refuted : exists h mm m c p pp, h <> 0 /\ 0 <= mm /\ 0 <= m /\ 0 <= c /\ 0 <= p /\ 0 <= pp /\ snd (XPPM h mm m c p pp) < 0.
Proof. exact positive_refuted. Qed.
Print Assumptions C97_positive_refuted.
