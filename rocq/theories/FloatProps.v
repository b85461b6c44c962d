(** C99: limiters, transport and sources in double precision. *)

From Coq Require Import List Bool ZArith Reals Lra Lia Permutation.
From Verif Require Import LimitersModel ParallelModel FloatModel FloatSpec FloatProofs FloatWit.
Import ListNotations.
Open Scope R_scope.

(** Round-to-nearest of binary64 obeys the laws which the other theorems assume. *)
Theorem C99_binary64 : rounding double rnd64 u64.
Proof. exact rounding64. Qed.
Print Assumptions C99_binary64.
Theorem C99_unit : u64 = / 9007199254740992.
Proof. exact u64_val. Qed.
Print Assumptions C99_unit.
(** Without rounding the model is that of exact arithmetic. *)
Theorem C99_exact : forall e m c f v ws fixf, Div_par_mod_r (fun x => x) e m c f v ws fixf = Div_par_mod e m c f v ws fixf.
Proof. exact exact_div. Qed.
Print Assumptions C99_exact.
Theorem C99_exact_edges : forall m c p, minmod_edges_r (fun x => x) m c p = minmod_edges m c p /\ mc_edges_r (fun x => x) m c p = mc_edges m c p.
Proof. exact exact_edges. Qed.
Print Assumptions C99_exact_edges.

(** Rounding makes no face value negative. *)
Theorem C99_faces_positive : forall F rnd u, rounding F rnd u -> forall e m c p, e = minmod_edges_r rnd \/ e = mc_edges_r rnd -> F c -> 0 <= m -> 0 <= c -> 0 <= p ->
  0 <= fst (e m c p) /\ 0 <= snd (e m c p).
Proof. exact both_pos. Qed.
Print Assumptions C99_faces_positive.
(** The face values of an empty cell, and of a constant, are exact. *)
Theorem C99_faces_empty : forall F rnd u, rounding F rnd u -> forall e m p, e = minmod_edges_r rnd \/ e = mc_edges_r rnd -> 0 <= m -> 0 <= p -> e m 0 p = (0, 0).
Proof. exact both_empty. Qed.
Print Assumptions C99_faces_empty.
Theorem C99_faces_const : forall F rnd u, rounding F rnd u -> forall e c, e = minmod_edges_r rnd \/ e = mc_edges_r rnd -> F c -> e c c c = (c, c).
Proof. exact both_const. Qed.
Print Assumptions C99_faces_const.
(** Rounding makes no new extremum beyond four units in the last place. *)
Theorem C99_faces_near_partial : forall F rnd u, rounding F rnd u -> forall e m c p, e = minmod_edges_r rnd \/ e = mc_edges_r rnd -> F m -> F c -> F p ->
  Rmin m c - 4 * u * Rmax (Rabs m) (Rabs c) <= fst (e m c p) <= Rmax m c + 4 * u * Rmax (Rabs m) (Rabs c)
  /\ Rmin p c - 4 * u * Rmax (Rabs p) (Rabs c) <= snd (e m c p) <= Rmax p c + 4 * u * Rmax (Rabs p) (Rabs c).
Proof. exact both_near. Qed.
Print Assumptions C99_faces_near_partial.
Example C99_faces_case : double 1 /\ double 4 /\ double 18014398509481984 /\ 0 <= 1.
Proof. split; [exact d1|]. split; [exact d4|]. split; [exact d54 | lra]. Qed.
(** In exact arithmetic there is none at all (C23); in double precision a face value may lie below both cells. *)
Theorem C99_extremum_refuted : exists m c p, double m /\ double c /\ double p /\ 0 < m < c /\ c < p /\ fst (mc_edges_r rnd64 m c p) < m.
Proof. exact extremum_wit. Qed.
Print Assumptions C99_extremum_refuted.

(** With wave speeds a few units in the last place above the flow speeds, transport takes nothing from an empty cell: its divergence is not
    positive whatever the rounding. *)
Theorem C99_transport_partial : forall F rnd u, rounding F rnd u -> forall e m c fixf f v ws j r w, e = minmod_edges_r rnd \/ e = mc_edges_r rnd ->
  (forall k, F (f k)) -> (forall k, F (v k)) -> (forall k, 0 <= f k) -> (forall k, (1 + 4 * u) * Rabs (v k) <= ws k) -> metric_ok rnd c -> f j = 0 ->
  (ystart m <= j <= yend m)%Z -> last_point m j = false -> first_point m j = false -> Div_par_mod_r rnd e m c f v ws fixf = Some (r, w) -> r j <= 0.
Proof. exact both_transport. Qed.
Print Assumptions C99_transport_partial.
Example C99_transport_case : let f := fun k => if Z.eqb k 2 then 0 else 1 in let v := fun _ : Z => 1 in let ws := fun _ : Z => 2 in
  (forall k, double (f k)) /\ (forall k, double (v k)) /\ (forall k, 0 <= f k) /\ (forall k, (1 + 4 * u64) * Rabs (v k) <= ws k) /\ metric_ok rnd64 flat /\ f 2%Z = 0
  /\ last_point mesh3 2 = false /\ first_point mesh3 2 = false /\ Div_par_mod_r rnd64 (mc_edges_r rnd64) mesh3 flat f v ws true <> None.
Proof. exact transport_case. Qed.
(** With wave speeds equal to the flow speeds it may: the velocity at a face, rounded, exceeds the speeds of both cells. *)
Theorem C99_transport_refuted : exists m c f v ws r w, (forall k, double (f k) /\ double (v k) /\ 0 <= f k /\ Rabs (v k) <= ws k) /\ metric_ok rnd64 c
  /\ (ystart m < 2 < yend m)%Z /\ f 2%Z = 0 /\ Div_par_mod_r rnd64 (mc_edges_r rnd64) m c f v ws true = Some (r, w) /\ r 2%Z = / 2.
Proof. exact transport_wit. Qed.
Print Assumptions C99_transport_refuted.

(** A sum of sources differs from the exact sum by the usual bound, in whatever order components add to it. *)
Theorem C99_sources : forall F rnd u, rounding F rnd u -> forall v l, F v -> List.Forall F l ->
  exists x, sources_r rnd (v :: l) = Some x /\ Rabs (x - total (v :: l)) <= ((1 + u) ^ List.length l - 1) * total_abs (v :: l).
Proof. exact sources_error. Qed.
Print Assumptions C99_sources.
Theorem C99_order_partial : forall F rnd u, rounding F rnd u -> forall l l' x y, List.Forall F l -> Permutation l l' -> sources_r rnd l = Some x -> sources_r rnd l' = Some y ->
  Rabs (x - y) <= 2 * ((1 + u) ^ (List.length l - 1) - 1) * total_abs l.
Proof. exact order_error. Qed.
Print Assumptions C99_order_partial.
Theorem C99_two_sources : forall rnd a b, sources_r rnd [a; b] = sources_r rnd [b; a].
Proof. exact two_sources. Qed.
Print Assumptions C99_two_sources.
Example C99_order_case : List.Forall double [9007199254740992; 1; 1] /\ Permutation [9007199254740992; 1; 1] [1; 1; 9007199254740992].
Proof. exact order_case. Qed.
(** From three components on, the order matters in double precision (C03 holds for exact numbers). *)
Theorem C99_order_refuted : exists l l' x y, List.Forall double l /\ Permutation l l' /\ sources_r rnd64 l = Some x /\ sources_r rnd64 l' = Some y /\ x <> y.
Proof. exact order_wit. Qed.
Print Assumptions C99_order_refuted.
(** Friction between two species conserves momentum to the last bit. *)
Theorem C99_exchange : forall rnd Fr, exists a b, exchange_r rnd None None Fr = (Some a, Some b) /\ a + b = 0.
Proof. exact exchange_exact. Qed.
Print Assumptions C99_exchange.
