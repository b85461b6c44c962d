From Coq Require Import List Bool Reals Lra Psatz.
From Verif Require Import StateMonad StateMonadProofs LimitersModel LimitersSpec.
Import ListNotations.
Open Scope R_scope.

Ltac cases_R :=
  unfold Rltb, Rleb, Rabs, Rmin, Rmax;
  repeat match goal with
  | H : context [Rlt_dec ?a ?b] |- _ => destruct (Rlt_dec a b)
  | H : context [Rle_dec ?a ?b] |- _ => destruct (Rle_dec a b)
  | H : context [Rcase_abs ?a] |- _ => destruct (Rcase_abs a)
  | |- context [Rlt_dec ?a ?b] => destruct (Rlt_dec a b)
  | |- context [Rle_dec ?a ?b] => destruct (Rle_dec a b)
  | |- context [Rcase_abs ?a] => destruct (Rcase_abs a)
  end.

(** Signs of a product. *)
Lemma prod_pos a b : 0 < a * b -> (0 < a /\ 0 < b) \/ (a < 0 /\ b < 0).
Proof.
  intros H. destruct (Rtotal_order a 0) as [A|[A|A]], (Rtotal_order b 0) as [B|[B|B]];
    subst; try (rewrite ?Rmult_0_l, ?Rmult_0_r in H; lra); auto; exfalso; nra.
Qed.

(** The slope of minmod2: between zero and each argument. *)
Lemma minmod2_cases a b :
  (a * b <= 0 /\ minmod2 a b = 0) \/
  (0 < a /\ 0 < b /\ minmod2 a b = Rmin a b) \/
  (a < 0 /\ b < 0 /\ minmod2 a b = Rmax a b).
Proof.
  unfold minmod2, Rleb. destruct (Rle_dec (a * b) 0) as [H|H]; auto.
  right. apply Rnot_le_lt in H. destruct (prod_pos _ _ H) as [[A B]|[A B]]; [left|right]; repeat split; auto.
  - rewrite !Rabs_pos_eq by lra. unfold Rltb, Rmin. destruct (Rlt_dec a b), (Rle_dec a b); lra.
  - rewrite !Rabs_left by lra. unfold Rltb, Rmax. destruct (Rlt_dec (-a) (-b)), (Rle_dec a b); lra.
Qed.

Lemma minmod3_cases a b c :
  ((a * b <= 0 \/ a * c <= 0) /\ minmod3 a b c = 0) \/
  (0 < a /\ 0 < b /\ 0 < c /\ minmod3 a b c = Rmin a (Rmin b c)) \/
  (a < 0 /\ b < 0 /\ c < 0 /\ minmod3 a b c = Rmax a (Rmax b c)).
Proof.
  unfold minmod3, Rleb. destruct (Rle_dec (a * b) 0) as [H|H]; [left; split; auto|].
  destruct (Rle_dec (a * c) 0) as [H'|H']; [left; split; auto|].
  cbn [orb]. right. apply Rnot_le_lt in H. apply Rnot_le_lt in H'.
  destruct (prod_pos _ _ H) as [[A B]|[A B]], (prod_pos _ _ H') as [[A' C]|[A' C]]; try lra; [left|right];
    repeat split; auto; unfold SIGN, BOUTMIN3, BOUTMIN.
  - rewrite !Rabs_pos_eq by lra. rewrite (Rltb_false a 0) by lra.
    cases_R; lra.
  - rewrite !Rabs_left by lra. rewrite (Rltb_true a 0) by lra. cases_R; lra.
Qed.

Lemma upwind_bounded : bounded_by_neighbours upwind_edges.
Proof. intros m c p. cbn. unfold between; split; cases_R; lra. Qed.
Lemma minmod_bounded : bounded_by_neighbours minmod_edges.
Proof.
  intros m c p. unfold minmod_edges, between. cbn [fst snd].
  destruct (minmod2_cases (p - c) (c - m)) as [[_ ->]|[(A & B & ->)|(A & B & ->)]];
    split; cases_R; lra.
Qed.
Lemma mc_bounded : bounded_by_neighbours mc_edges.
Proof.
  intros m c p. unfold mc_edges, between. cbn [fst snd].
  destruct (minmod3_cases (2 * (p - c)) (0.5 * (p - m)) (2 * (c - m))) as [[_ ->]|[(A & B & C & ->)|(A & B & C & ->)]];
    split; cases_R; lra.
Qed.

Lemma upwind_flat : flat_at_extrema upwind_edges.
Proof. intros m c p _. reflexivity. Qed.
Lemma minmod_flat : flat_at_extrema minmod_edges.
Proof.
  intros m c p H. unfold minmod_edges.
  destruct (minmod2_cases (p - c) (c - m)) as [[_ ->]|[(A & B & ->)|(A & B & ->)]]; try lra.
  f_equal; lra.
Qed.
Lemma mc_flat : flat_at_extrema mc_edges.
Proof.
  intros m c p H. unfold mc_edges.
  destruct (minmod3_cases (2 * (p - c)) (0.5 * (p - m)) (2 * (c - m))) as [[_ ->]|[(A & B & C & ->)|(A & B & C & ->)]]; try lra.
  f_equal; lra.
Qed.

Lemma minmod_linear : exact_on_linear minmod_edges.
Proof.
  intros c d. unfold minmod_edges.
  replace (c + d - c) with d by lra. replace (c - (c - d)) with d by lra.
  assert (minmod2 d d = d) as ->; [|f_equal; lra].
  destruct (minmod2_cases d d) as [[A ->]|[(A & B & ->)|(A & B & ->)]]; [nra|cases_R; lra|cases_R; lra].
Qed.
Lemma mc_linear : exact_on_linear mc_edges.
Proof.
  intros c d. unfold mc_edges.
  replace (c + d - c) with d by lra. replace (c - (c - d)) with d by lra.
  replace (0.5 * (c + d - (c - d))) with d by lra.
  assert (minmod3 (2 * d) d (2 * d) = d) as ->; [|f_equal; lra].
  destruct (minmod3_cases (2 * d) d (2 * d)) as [[[A|A] ->]|[(A & B & C & ->)|(A & B & C & ->)]];
    [nra|nra|cases_R; lra|cases_R; lra].
Qed.

Lemma upwind_mean : keeps_mean upwind_edges.
Proof. intros m c p; cbn; lra. Qed.
Lemma minmod_mean : keeps_mean minmod_edges.
Proof. intros m c p. unfold minmod_edges. cbn [fst snd]. lra. Qed.
Lemma mc_mean : keeps_mean mc_edges.
Proof. intros m c p. unfold mc_edges. cbn [fst snd]. lra. Qed.

Lemma minmod2_sym a b : minmod2 (- b) (- a) = - minmod2 a b.
Proof.
  destruct (minmod2_cases a b) as [[A ->]|[(A & B & ->)|(A & B & ->)]];
  destruct (minmod2_cases (- b) (- a)) as [[A' ->]|[(A' & B' & ->)|(A' & B' & ->)]]; try lra; try nra;
  cases_R; lra.
Qed.
Lemma minmod3_sym a b c : minmod3 (- c) (- b) (- a) = - minmod3 a b c.
Proof.
  assert (Hs : forall x y z, 0 < x * y -> 0 < x * z -> 0 < z * y).
  { intros x y z H1 H2. destruct (prod_pos _ _ H1), (prod_pos _ _ H2); nra. }
  destruct (minmod3_cases a b c) as [[A ->]|[(A & B & C & ->)|(A & B & C & ->)]];
  destruct (minmod3_cases (- c) (- b) (- a)) as [[A' ->]|[(A' & B' & C' & ->)|(A' & B' & C' & ->)]];
    try lra; try (exfalso; nra); cases_R; lra.
Qed.
Lemma upwind_mirror : mirror_symmetric upwind_edges.
Proof. intros m c p; reflexivity. Qed.
Lemma minmod_mirror : mirror_symmetric minmod_edges.
Proof.
  intros m c p. unfold minmod_edges. cbn [fst snd].
  replace (m - c) with (- (c - m)) by lra. replace (c - p) with (- (p - c)) by lra.
  rewrite minmod2_sym. f_equal; lra.
Qed.
Lemma mc_mirror : mirror_symmetric mc_edges.
Proof.
  intros m c p. unfold mc_edges. cbn [fst snd].
  replace (2 * (m - c)) with (- (2 * (c - m))) by lra. replace (2 * (c - p)) with (- (2 * (p - c))) by lra.
  replace (0.5 * (m - p)) with (- (0.5 * (p - m))) by lra.
  rewrite minmod3_sym. f_equal; lra.
Qed.

(** ** Superbee *)

(** The limiter as documented: the face values initially hold the neighbours. *)
Definition superbee_intended (m c p : R) : R * R :=
  match superbee (mkStencil m c p (Some m) (Some p)) with Some e => e | None => (c, c) end.

Ltac superbee_cases m c p :=
  unfold superbee_intended, superbee; cbn [st_L st_R st_c];
  destruct (Rltb ((c - m) * (p - c)) 0) eqn:E; unfold Rltb in E;
  destruct (Rlt_dec ((c - m) * (p - c)) 0) as [H|H]; try discriminate; clear E; cbn [fst snd].

Lemma prod_nonneg a b : ~ a * b < 0 -> (0 <= a /\ 0 <= b) \/ (a <= 0 /\ b <= 0).
Proof.
  intros H. destruct (Rle_dec 0 a), (Rle_dec 0 b); auto; try lra.
  - right. split; [|lra]. destruct (Req_dec a 0); [lra|]. nra.
  - right. split; [lra|]. destruct (Req_dec b 0); [lra|]. nra.
Qed.

Lemma superbee_bounded : bounded_by_neighbours superbee_intended.
Proof.
  intros m c p. superbee_cases m c p.
  - unfold between; split; cases_R; lra.
  - unfold SIGN, BOUTMAX, BOUTMIN, between.
    destruct (prod_nonneg _ _ H) as [[A B]|[A B]].
    + rewrite !Rabs_pos_eq by lra. rewrite (Rltb_false (c - m) 0) by lra.
      split; cases_R; lra.
    + rewrite !Rabs_left1 by lra. unfold Rltb at 1. destruct (Rlt_dec (c - m) 0).
      * rewrite (Rltb_true (c - m) 0) by lra. split; cases_R; lra.
      * rewrite (Rltb_false (c - m) 0) by lra. split; cases_R; lra.
Qed.
Lemma superbee_flat : flat_at_extrema superbee_intended.
Proof.
  intros m c p Hx. superbee_cases m c p; auto.
  assert (Z : c - m = 0 \/ p - c = 0).
  { destruct (Req_dec (c - m) 0); auto. destruct (Req_dec (p - c) 0); auto. exfalso.
    destruct Hx as [[X Y]|[X Y]]; assert ((c - m) * (p - c) < 0) by nra; lra. }
  assert (forall x, BOUTMAX (BOUTMIN 0 x) (BOUTMIN x 0) = 0 \/ x < 0) as Zz.
  { intros x. unfold BOUTMAX, BOUTMIN. cases_R; lra. }
  assert (forall g, BOUTMAX (BOUTMIN (Rabs 0) (0.5 * Rabs g)) (BOUTMIN (Rabs g) (0.5 * Rabs 0)) = 0 /\
                    BOUTMAX (BOUTMIN (Rabs g) (0.5 * Rabs 0)) (BOUTMIN (Rabs 0) (0.5 * Rabs g)) = 0) as Zg.
  { intros g. rewrite Rabs_R0. pose proof (Rabs_pos g). unfold BOUTMAX, BOUTMIN. split; cases_R; lra. }
  destruct Z as [Z|Z]; rewrite Z.
  - rewrite (proj1 (Zg _)). f_equal; lra.
  - rewrite (proj2 (Zg _)). f_equal; lra.
Qed.
Lemma superbee_linear : exact_on_linear superbee_intended.
Proof.
  intros c d. superbee_cases (c - d) c (c + d); [nra|].
  replace (c - (c - d)) with d by lra. replace (c + d - c) with d by lra.
  assert (SIGN d * BOUTMAX (BOUTMIN (Rabs d) (0.5 * Rabs d)) (BOUTMIN (Rabs d) (0.5 * Rabs d)) = d / 2) as ->.
  { unfold SIGN, BOUTMAX, BOUTMIN. cases_R; lra. }
  reflexivity.
Qed.

(** As used by the operators: the read of uninitialised memory. *)
Lemma superbee_operator_undefined m c p : operator_edges Superbee m c p = None.
Proof. reflexivity. Qed.

(** As used by the cell average: no slope at all. *)
Lemma superbee_average_flat m c p : average_edges Superbee m c p = Some (c, c).
Proof.
  unfold average_edges, run_limiter, superbee. cbn [st_L st_R st_c].
  destruct (Req_dec c 0) as [->|N].
  - rewrite Rltb_false by lra. replace (0 - 0) with 0 by lra. rewrite Rabs_R0.
    do 2 f_equal; unfold SIGN, BOUTMAX, BOUTMIN; cases_R; lra.
  - rewrite Rltb_true by nra. reflexivity.
Qed.

(** ** The cell average *)

Lemma average_constant edges Jm Ji Jp k args :
  Ji <> 0 ->
  cellAverage edges Jm Ji Jp (fun _ => k) args = k * (1 + (Jm + Jp - 2 * Ji) / (12 * Ji)).
Proof. intros HJ. unfold cellAverage. field; lra. Qed.

Definition weights (Jm Ji Jp : R) : R := 4 / 6 + (Ji + Jm) / (12 * Ji) + (Ji + Jp) / (12 * Ji).

Lemma weights_one Jm Ji Jp : Ji <> 0 -> (weights Jm Ji Jp = 1 <-> Jm + Jp = 2 * Ji).
Proof.
  intros HJ. unfold weights. split; intros H.
  - assert (4 / 6 + (Ji + Jm) / (12 * Ji) + (Ji + Jp) / (12 * Ji) = 2 / 3 + (2 * Ji + (Jm + Jp)) / (12 * Ji)) as E by (field; lra).
    rewrite E in H. assert ((2 * Ji + (Jm + Jp)) / (12 * Ji) = 1 / 3) as E2 by lra.
    apply (f_equal (fun x => x * (12 * Ji))) in E2.
    unfold Rdiv in E2. rewrite Rmult_assoc, Rinv_l in E2 by lra. lra.
  - replace Jp with (2 * Ji - Jm) by lra. field; lra.
Qed.

(** With non-negative Jacobians the average of a non-negative function is non-negative. *)
Lemma average_nonneg edges Jm Ji Jp func args :
  0 < Jm -> 0 < Ji -> 0 < Jp ->
  0 <= func (map t_c args) ->
  0 <= func (map (fun a => fst (edges (t_m a) (t_c a) (t_p a))) args) ->
  0 <= func (map (fun a => snd (edges (t_m a) (t_c a) (t_p a))) args) ->
  0 <= cellAverage edges Jm Ji Jp func args.
Proof.
  intros A B C H1 H2 H3. unfold cellAverage.
  assert (0 <= (Ji + Jm) / (12 * Ji)) by (apply Rlt_le, Rdiv_lt_0_compat; lra).
  assert (0 <= (Ji + Jp) / (12 * Ji)) by (apply Rlt_le, Rdiv_lt_0_compat; lra).
  assert (0 <= (Ji + Jm) / (12 * Ji) * func (map (fun a => fst (edges (t_m a) (t_c a) (t_p a))) args)) by now apply Rmult_le_pos.
  assert (0 <= (Ji + Jp) / (12 * Ji) * func (map (fun a => snd (edges (t_m a) (t_c a) (t_p a))) args)) by now apply Rmult_le_pos.
  lra.
Qed.

Lemma average_range edges Jm Ji Jp func args lo hi :
  0 < Jm -> 0 < Ji -> 0 < Jp -> Jm + Jp = 2 * Ji ->
  lo <= func (map t_c args) <= hi ->
  lo <= func (map (fun a => fst (edges (t_m a) (t_c a) (t_p a))) args) <= hi ->
  lo <= func (map (fun a => snd (edges (t_m a) (t_c a) (t_p a))) args) <= hi ->
  lo <= cellAverage edges Jm Ji Jp func args <= hi.
Proof.
  intros A B C E H1 H2 H3. unfold cellAverage.
  set (fL := func (map (fun a => fst _) args)) in *. set (fR := func (map (fun a => snd _) args)) in *.
  set (fc := func (map t_c args)) in *.
  assert (P1 : 0 <= (Ji + Jm) / (12 * Ji)) by (apply Rlt_le, Rdiv_lt_0_compat; lra).
  assert (P2 : 0 <= (Ji + Jp) / (12 * Ji)) by (apply Rlt_le, Rdiv_lt_0_compat; lra).
  assert (S : 4 / 6 + (Ji + Jm) / (12 * Ji) + (Ji + Jp) / (12 * Ji) = 1).
  { apply (weights_one Jm Ji Jp); lra. }
  set (w1 := (Ji + Jm) / (12 * Ji)) in *. set (w2 := (Ji + Jp) / (12 * Ji)) in *. nra.
Qed.

(** Linear functions of the (mean-preserving) reconstruction are averaged to the central
    value on a uniform grid. *)
Lemma average_linear edges J func args :
  J <> 0 -> keeps_mean edges ->
  (forall u v : list R, List.length u = List.length v ->
     func u + func v = 2 * func (map (fun xy => (fst xy + snd xy) / 2) (combine u v))) ->
  cellAverage edges J J J func args = func (map t_c args).
Proof.
  intros HJ Hm Hl. unfold cellAverage.
  replace ((J + J) / (12 * J)) with (1 / 6) by (field; lra).
  assert (E : func (map (fun a => fst (edges (t_m a) (t_c a) (t_p a))) args) +
              func (map (fun a => snd (edges (t_m a) (t_c a) (t_p a))) args) = 2 * func (map t_c args)).
  { rewrite Hl by now rewrite !map_length. do 2 f_equal.
    induction args as [|a args IH]; auto. cbn [map combine fst snd]. f_equal; auto.
    pose proof (Hm (t_m a) (t_c a) (t_p a)). lra. }
  lra.
Qed.
