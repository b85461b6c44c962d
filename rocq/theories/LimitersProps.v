(** Properties C23 (slope limiters) and C60 (cell averages). *)

From Coq Require Import List Bool Reals Lra.
From Verif Require Import StateMonad StateMonadProofs LimitersModel LimitersSpec LimitersProofs.
Import ListNotations.
Open Scope R_scope.

(** ** C23 *)

(** The limiters which compute their result from the cell values. *)
Theorem C23_limiters_create_no_extrema :
  forall l m c p, l <> Superbee ->
    exists eL eR, operator_edges l m c p = Some (eL, eR) /\
      between m c eL /\ between c p eR /\ eL + eR = 2 * c /\
      ((m <= c /\ p <= c \/ c <= m /\ c <= p) -> eL = c /\ eR = c).
Proof.
  assert (K : forall edges m c p, bounded_by_neighbours edges -> flat_at_extrema edges -> keeps_mean edges ->
    exists eL eR, Some (edges m c p) = Some (eL, eR) /\ between m c eL /\ between c p eR /\ eL + eR = 2 * c /\
      ((m <= c /\ p <= c \/ c <= m /\ c <= p) -> eL = c /\ eR = c)).
  { intros edges m c p B F K. specialize (B m c p). specialize (F m c p). specialize (K m c p).
    destruct (edges m c p) as [eL eR]. exists eL, eR. destruct B as [B1 B2]. split; [reflexivity|].
    split; [exact B1|]. split; [exact B2|]. split; [exact K|].
    intros X; specialize (F X). split; congruence. }
  intros [] m c p H; try congruence; apply K.
  exact minmod_bounded. exact minmod_flat. exact minmod_mean.
  exact mc_bounded. exact mc_flat. exact mc_mean.
  exact upwind_bounded. exact upwind_flat. exact upwind_mean.
Qed.
Print Assumptions C23_limiters_create_no_extrema.

Theorem C23_second_order_on_linear_profiles :
  forall l c d, l = MinMod \/ l = MC ->
    operator_edges l (c - d) c (c + d) = Some (c - d / 2, c + d / 2).
Proof.
  intros l c d [->| ->]; cbn [operator_edges run_limiter st_m st_c st_p]; f_equal.
  exact (minmod_linear c d). exact (mc_linear c d).
Qed.
Print Assumptions C23_second_order_on_linear_profiles.

Theorem C23_limiters_mirror_symmetric :
  forall l m c p, l <> Superbee ->
    operator_edges l p c m = option_map (fun e => (snd e, fst e)) (operator_edges l m c p).
Proof.
  intros [] m c p H; try congruence; cbn [operator_edges run_limiter st_m st_c st_p option_map]; f_equal.
  exact (minmod_mirror m c p). exact (mc_mirror m c p).
Qed.
Print Assumptions C23_limiters_mirror_symmetric.

(** Superbee satisfies the properties if its face values start as the neighbours ... *)
Theorem C23_superbee_as_documented :
  bounded_by_neighbours superbee_intended /\ flat_at_extrema superbee_intended /\
  exact_on_linear superbee_intended.
Proof. exact (conj superbee_bounded (conj superbee_flat superbee_linear)). Qed.
Print Assumptions C23_superbee_as_documented.

(** ... but the operators leave them uninitialised, and the cell average sets them to 0. *)
Theorem C23_superbee_refuted :
  exists m c p, operator_edges Superbee m c p = None.
Proof. exists 1, 2, 3. exact (superbee_operator_undefined 1 2 3). Qed.
Print Assumptions C23_superbee_refuted.

Theorem C23_superbee_average_refuted :
  exists c d, average_edges Superbee (c - d) c (c + d) <> Some (c - d / 2, c + d / 2).
Proof. exists 2, 1. rewrite superbee_average_flat. intros E. injection E. lra. Qed.
Print Assumptions C23_superbee_average_refuted.

Example C23_case : operator_edges MC 1 2 3 = Some (3 / 2, 5 / 2) /\ operator_edges MC 1 5 2 = Some (5, 5).
Proof.
  split.
  - replace 1 with (2 - 1) at 1 by lra. replace 3 with (2 + 1) at 1 by lra.
    rewrite (C23_second_order_on_linear_profiles MC 2 1) by auto. do 2 f_equal; lra.
  - destruct (C23_limiters_create_no_extrema MC 1 5 2) as (eL & eR & -> & _ & _ & _ & F); [discriminate|].
    destruct F as [-> ->]; auto. lra.
Qed.

(** ** C60 *)

(** The quadrature is within the range of the sampled values when the Jacobian varies linearly. *)
Theorem C60_average_within_samples :
  forall (edges : R -> R -> R -> R * R) Jm Ji Jp func args lo hi,
    0 < Jm -> 0 < Ji -> 0 < Jp -> Jm + Jp = 2 * Ji ->
    lo <= func (map t_c args) <= hi ->
    lo <= func (map (fun a => fst (edges (t_m a) (t_c a) (t_p a))) args) <= hi ->
    lo <= func (map (fun a => snd (edges (t_m a) (t_c a) (t_p a))) args) <= hi ->
    lo <= cellAverage edges Jm Ji Jp func args <= hi.
Proof. exact average_range. Qed.
Print Assumptions C60_average_within_samples.

(** Linear functions are averaged exactly on a uniform grid, with any of the limiters. *)
Theorem C60_average_exact_for_linear :
  forall (edges : R -> R -> R -> R * R) J (func : list R -> R) args,
    J <> 0 ->
    edges = minmod_edges \/ edges = mc_edges \/ edges = upwind_edges ->
    (forall u v : list R, List.length u = List.length v ->
       func u + func v = 2 * func (map (fun xy => (fst xy + snd xy) / 2) (combine u v))) ->
    cellAverage edges J J J func args = func (map t_c args).
Proof.
  intros edges J func args HJ He. apply average_linear; auto.
  destruct He as [->|[->| ->]]. exact minmod_mean. exact mc_mean. exact upwind_mean.
Qed.
Print Assumptions C60_average_exact_for_linear.

(** Simpson's rule: exact for the square of a linear profile up to the fixed quadrature
    error term, here checked as the value of the mean of x^2 over the cell. *)
Theorem C60_average_exact_for_products_of_linear_profiles :
  forall J c d c' d', J <> 0 ->
    cellAverage mc_edges J J J (fun l => match l with [x; y] => x * y | _ => 0 end)
      [mkTriple (c - d) c (c + d); mkTriple (c' - d') c' (c' + d')]
    = c * c' + d * d' / 12.
Proof.
  intros J c d c' d' HJ. unfold cellAverage. cbn [map t_m t_c t_p].
  rewrite !mc_linear. cbn [fst snd]. field; lra.
Qed.
Print Assumptions C60_average_exact_for_products_of_linear_profiles.

(** The average of a non-negative function is non-negative, and it vanishes with the function. *)
Theorem C60_average_non_negative :
  forall (edges : R -> R -> R -> R * R) Jm Ji Jp func args,
    0 < Jm -> 0 < Ji -> 0 < Jp ->
    (forall u, 0 <= func u) ->
    0 <= cellAverage edges Jm Ji Jp func args.
Proof. intros. apply average_nonneg; auto. Qed.
Print Assumptions C60_average_non_negative.

(** "These weights sum to 1" holds exactly if the Jacobian is the mean of its neighbours. *)
Theorem C60_weights_sum_to_one_iff :
  forall (edges : R -> R -> R -> R * R) Jm Ji Jp args, Ji <> 0 ->
    (cellAverage edges Jm Ji Jp (fun _ => 1) args = 1 <-> Jm + Jp = 2 * Ji).
Proof.
  intros edges Jm Ji Jp args HJ. rewrite <- (weights_one Jm Ji Jp HJ).
  unfold cellAverage, weights. rewrite !Rmult_1_r. reflexivity.
Qed.
Print Assumptions C60_weights_sum_to_one_iff.

Theorem C60_constants_refuted :
  exists edges Jm Ji Jp args, 0 < Jm /\ 0 < Ji /\ 0 < Jp /\
    cellAverage edges Jm Ji Jp (fun _ => 1) args <> 1.
Proof.
  exists mc_edges, 1, 2, 1, []. repeat split; try lra.
  rewrite C60_weights_sum_to_one_iff by lra. lra.
Qed.
Print Assumptions C60_constants_refuted.

Example C60_case :
  cellAverage mc_edges 3 3 3 (fun l => match l with [x; y] => x + 2 * y | _ => 0 end)
    [mkTriple 1 2 4; mkTriple 0 1 7] = 4.
Proof.
  unfold cellAverage. cbn [map t_m t_c t_p].
  pose proof (mc_mean 1 2 4). pose proof (mc_mean 0 1 7).
  destruct (mc_edges 1 2 4) as [a b], (mc_edges 0 1 7) as [a' b']. cbn [fst snd] in *.
  replace ((3 + 3) / (12 * 3)) with (1 / 6) by field. lra.
Qed.
