(** Lemmas for RatesProps.v: the fits as polynomials, signs of their derivatives. *)

From Coq Require Import List Bool String ZArith Reals Lra Lia Arith.
From Verif Require Import OptionsModel StateMonad StateSpec StateMonadProofs ReactionsModel ReactionsSpec ReactionsTableProofs ReactionsLaws AmjuelTables
  NumericProofs PolyCheck RatesTables.
Import ListNotations.
Open Scope R_scope.

(** ** Operations on polynomials *)
Section Derivative.
  Context {A : Type} (add : A -> A -> A) (zero : A).
  Fixpoint padd (p q : list A) : list A := match p, q with [], q => q | p, [] => p | a :: p, b :: q => add a b :: padd p q end.
  Fixpoint deriv (p : list A) : list A := match p with [] => [] | a :: r => padd r (match r with [] => [] | _ => zero :: deriv r end) end.
End Derivative.
Lemma padd_map {A B} (f : A -> B) addA addB : (forall a b, f (addA a b) = addB (f a) (f b)) -> forall p q, map f (padd addA p q) = padd addB (map f p) (map f q).
Proof. intros H p. induction p as [|a p IH]; intros [|b q]; cbn [padd map]; try reflexivity. now rewrite H, IH. Qed.
Lemma deriv_map {A B} (f : A -> B) addA addB zA zB : (forall a b, f (addA a b) = addB (f a) (f b)) -> f zA = zB -> forall p, map f (deriv addA zA p) = deriv addB zB (map f p).
Proof.
  intros H Hz p. induction p as [|a r IH]; [reflexivity|]. cbn [deriv map]. rewrite (padd_map f addA addB H). f_equal.
  destruct r as [|b r]; [reflexivity|]. cbn [map] in IH |- *. now rewrite Hz, IH.
Qed.
Lemma heval_padd p q x : heval (padd Rplus p q) x 1 = heval p x 1 + heval q x 1.
Proof. revert q. induction p as [|a p IH]; intros [|b q]; cbn [padd]; rewrite ?heval_1; try (cbn [heval]; lra). rewrite IH. ring. Qed.
Lemma heval_deriv p x : derivable_pt_lim (fun x => heval p x 1) x (heval (deriv Rplus 0 p) x 1).
Proof.
  induction p as [|a r IH]; [cbn [heval deriv]; apply (derivable_pt_lim_const 0)|].
  cbn [deriv]. rewrite heval_padd.
  replace (heval r x 1 + heval (match r with [] => [] | _ => 0 :: deriv Rplus 0 r end) x 1) with (0 + (1 * heval r x 1 + x * heval (deriv Rplus 0 r) x 1)).
  2: { destruct r as [|b r]; [cbn [heval deriv]; ring|]. rewrite (heval_1 0). ring. }
  intros eps Heps.
  destruct (derivable_pt_lim_plus (fun _ => a) (fun x => x * heval r x 1) x 0 (1 * heval r x 1 + x * heval (deriv Rplus 0 r) x 1)
    (derivable_pt_lim_const a x) (derivable_pt_lim_mult (fun x => x) (fun x => heval r x 1) x 1 _ (derivable_pt_lim_id x) IH) eps Heps) as [d Hd].
  exists d. intros h Hh Hd'. specialize (Hd h Hh Hd'). unfold plus_fct, mult_fct in Hd. rewrite !heval_1. exact Hd.
Qed.
Lemma rises_by_derivative p a b : a < b -> (forall c, a < c < b -> 0 < heval (deriv Rplus 0 p) c 1) -> heval p a 1 < heval p b 1.
Proof.
  intros L H. destruct (MVT_cor2 (fun x => heval p x 1) (fun x => heval (deriv Rplus 0 p) x 1) a b L (fun c _ => heval_deriv p c)) as (c & E & Hc).
  pose proof (H c Hc) as P. pose proof (Rmult_lt_0_compat _ _ P (Rlt_Rminus _ _ L)). lra.
Qed.
Lemma falls_by_derivative p a b : a < b -> (forall c, a < c < b -> heval (deriv Rplus 0 p) c 1 < 0) -> heval p b 1 < heval p a 1.
Proof.
  intros L H. destruct (MVT_cor2 (fun x => heval p x 1) (fun x => heval (deriv Rplus 0 p) x 1) a b L (fun c _ => heval_deriv p c)) as (c & E & Hc).
  pose proof (H c Hc) as P. assert (0 < - heval (deriv Rplus 0 p) c 1 * (b - a)) by (apply Rmult_lt_0_compat; lra). lra.
Qed.

(** In two variables. *)
Definition d_x (p : list (list Z)) : list (list Z) := deriv radd [] p.
Definition d_y (p : list (list Z)) : list (list Z) := map (deriv Z.add 0%Z) p.
Definition neg2 (p : list (list Z)) : list (list Z) := map (rowscale (-1)) p.
Lemma neg2_val p x y : val2 (neg2 p) x y = - val2 p x y.
Proof.
  unfold val2, neg2. rewrite map_map. induction p as [|r p IH]; cbn [map]; [cbn [heval]; ring|]. rewrite !heval_1, IH, rowval_scale. unfold rscale.
  change (IZR (-1)) with (-1). ring.
Qed.
Lemma val2_padd p q x y : val2 (padd radd p q) x y = val2 p x y + val2 q x y.
Proof. unfold val2. rewrite (padd_map (rowval y) radd Rplus (rowval_add y)). apply heval_padd. Qed.
Lemma rises_x p y a b : a < b -> (forall c, a < c < b -> 0 < val2 (d_x p) c y) -> val2 p a y < val2 p b y.
Proof.
  intros L H. apply rises_by_derivative; [exact L|]. intros c Hc. specialize (H c Hc). unfold val2, d_x in H.
  now rewrite (deriv_map (rowval y) radd Rplus [] 0 (rowval_add y) eq_refl) in H.
Qed.
Lemma falls_x p y a b : a < b -> (forall c, a < c < b -> 0 < val2 (neg2 (d_x p)) c y) -> val2 p b y < val2 p a y.
Proof.
  intros L H. apply falls_by_derivative; [exact L|]. intros c Hc. specialize (H c Hc). rewrite neg2_val in H. unfold val2, d_x in H.
  rewrite (deriv_map (rowval y) radd Rplus [] 0 (rowval_add y) eq_refl) in H. lra.
Qed.
(** In y: the derivative of every row. *)
Lemma val2_deriv_y p x y : derivable_pt_lim (fun y => val2 p x y) y (val2 (d_y p) x y).
Proof.
  unfold val2, d_y. induction p as [|r p IH]; cbn [map]; [cbn [heval]; apply (derivable_pt_lim_const 0)|].
  rewrite heval_1. intros eps Heps.
  assert (D1 : derivable_pt_lim (fun y => rowval y r) y (rowval y (deriv Z.add 0%Z r))).
  { unfold rowval, zrow. rewrite (deriv_map IZR Z.add Rplus 0%Z 0 zrow_add eq_refl). apply heval_deriv. }
  destruct (derivable_pt_lim_plus (fun y => rowval y r) (mult_real_fct x (fun y => heval (map (rowval y) p) x 1)) y _ _ D1
    (derivable_pt_lim_scal _ x y _ IH) eps Heps) as [d Hd].
  exists d. intros h Hh Hd'. specialize (Hd h Hh Hd'). unfold plus_fct, mult_real_fct in Hd. rewrite !heval_1. exact Hd.
Qed.
Lemma rises_y p x a b : a < b -> (forall c, a < c < b -> 0 < val2 (d_y p) x c) -> val2 p x a < val2 p x b.
Proof.
  intros L H. destruct (MVT_cor2 (fun y => val2 p x y) (fun y => val2 (d_y p) x y) a b L (fun c _ => val2_deriv_y p x c)) as (c & E & Hc).
  pose proof (H c Hc) as P. pose proof (Rmult_lt_0_compat _ _ P (Rlt_Rminus _ _ L)). lra.
Qed.

(** ** The fits *)
Definition big : R := 1e30.
Definition same_row (z : list Z) (r : list R) : Prop := Forall2 (fun a b => IZR a = big * b) z r.
Definition same_table (z : list (list Z)) (t : table) : Prop := Forall2 same_row z t.
Lemma sum_shift (f : nat -> R) (n k : nat) : sumR f (seq (S n) k) = sumR (fun i => f (S i)) (seq n k).
Proof. revert n. induction k as [|k IH]; intros n; cbn [seq sumR]; [reflexivity|]. now rewrite IH. Qed.
Lemma sum_scale {A} (f : A -> R) c l : sumR (fun i => c * f i) l = c * sumR f l.
Proof. induction l as [|a l IH]; cbn [sumR]; [ring|]. rewrite IH. ring. Qed.
Lemma sum_ext {A} (f g : A -> R) l : (forall a, List.In a l -> f a = g a) -> sumR f l = sumR g l.
Proof. intros H. induction l as [|a l IH]; cbn [sumR]; [reflexivity|]. rewrite H by (left; reflexivity). f_equal. apply IH. intros b Hb. apply H. now right. Qed.
Lemma row_sum r y : sumR (fun j => nth j r 0 * y ^ j) (seq 0 (List.length r)) = heval r y 1.
Proof.
  induction r as [|a r IH]; [reflexivity|]. cbn [List.length seq sumR]. rewrite heval_1, sum_shift. rewrite <- IH, <- sum_scale. cbn [nth pow].
  f_equal; [ring|]. apply sum_ext. intros j _. cbn [nth pow]. ring.
Qed.
Lemma same_row_val z r y : same_row z r -> rowval y z = big * heval r y 1.
Proof. intros F. unfold rowval, zrow. induction F as [|a b z r H F IH]; cbn [map]; [cbn [heval]; ring|]. rewrite !heval_1, IH, H. ring. Qed.
Lemma same_table_val z t x y k : same_table z t -> Forall (fun r => List.length r = k) t ->
  val2 z x y = big * sumR (fun i => sumR (fun j => entry t i j * y ^ j * x ^ i) (seq 0 k)) (seq 0 (List.length t)).
Proof.
  intros F. unfold val2. induction F as [|a b z t H F IH]; intros SL; cbn [map]; [cbn; ring|].
  inversion SL as [|b' t' Hb Ht]; subst b' t'. cbn [List.length seq sumR]. rewrite heval_1, (same_row_val a b y H), sum_shift, (IH Ht).
  rewrite Rmult_plus_distr_l. f_equal.
  - rewrite <- (row_sum b y), Hb. f_equal. apply sum_ext. intros j _. unfold entry. cbn [nth pow]. ring.
  - rewrite <- Rmult_assoc, (Rmult_comm x big), Rmult_assoc. f_equal. rewrite <- sum_scale. apply sum_ext. intros i _.
    rewrite <- sum_scale. apply sum_ext. intros j _. unfold entry. cbn [nth pow]. ring.
Qed.

(** The value of the fit through the integer polynomial. *)
Definition lT (T : R) : R := ln (clamp 0.1 1e4 T).
Definition lN (n : R) : R := ln (clamp 1e14 1e22 n / 1e14).
Lemma fit_value z t T n : same_table z t -> square 9 t -> evaluate 9 9 t T n = Some (exp (val2 z (lT T) (lN n) / big) * 1e-6).
Proof.
  intros F [Q1 Q2]. rewrite (evaluate_fit 9 t (entry t)) by (intros i j; now apply coef_square).
  f_equal. unfold amjuel_fit. f_equal. f_equal. rewrite (same_table_val z t (lT T) (lN n) 9 F).
  - rewrite Q1. fold (lT T). fold (lN n). unfold big. field.
  - apply Forall_forall. exact Q2.
Qed.
