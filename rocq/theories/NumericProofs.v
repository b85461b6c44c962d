(** Bounds of exp and ln of rational numbers by integer arithmetic: exp (x / 2^k) between 1 + x / 2^k and 1 / (1 - x / 2^k), squared k times in
    fixed point numbers. *)

From Coq Require Import ZArith Reals Lra Lia.
Open Scope R_scope.

(** Fixed point: the integer L stands for L / S. *)
Fixpoint square_lo (k : nat) (S L : Z) : Z := match k with O => L | Datatypes.S k => square_lo k S (L * L / S)%Z end.
Fixpoint square_hi (k : nat) (S L : Z) : Z := match k with O => L | Datatypes.S k => square_hi k S (L * L / S + 1)%Z end.

Lemma div_lo (a S : Z) : (0 < S)%Z -> IZR (a / S) * IZR S <= IZR a.
Proof. intros HS. rewrite <- mult_IZR. apply IZR_le. rewrite Z.mul_comm. apply Z.mul_div_le. assumption. Qed.
Lemma div_hi (a S : Z) : (0 < S)%Z -> IZR a <= IZR (a / S + 1) * IZR S.
Proof.
  intros HS. rewrite <- mult_IZR. apply IZR_le. pose proof (Z.mod_pos_bound a S HS). pose proof (Z.div_mod a S ltac:(lia)). nia.
Qed.

Lemma square_lo_sound k S L y : (0 < S)%Z -> (0 <= L)%Z -> IZR L <= y * IZR S -> IZR (square_lo k S L) <= y ^ (2 ^ k) * IZR S.
Proof.
  intros HS. revert L y. induction k as [ | k IH ]; intros L y HL H; cbn [square_lo Nat.pow].
  - rewrite pow_1. exact H.
  - assert (HSR : 0 < IZR S) by (apply IZR_lt; assumption). assert (HLR : 0 <= IZR L) by (apply IZR_le; assumption).
    replace (y ^ (2 * 2 ^ k)) with ((y * y) ^ (2 ^ k)) by (rewrite pow_mult; f_equal; ring).
    apply IH; [ apply Z.div_pos; [ apply Z.mul_nonneg_nonneg; assumption | assumption ] | ].
    pose proof (div_lo (L * L) S HS) as D. rewrite mult_IZR in D.
    apply (Rmult_le_reg_r (IZR S)); [ assumption | ].
    apply Rle_trans with (1 := D). replace (y * y * IZR S * IZR S) with ((y * IZR S) * (y * IZR S)) by ring.
    apply Rmult_le_compat; assumption.
Qed.
Lemma square_hi_sound k S L y : (0 < S)%Z -> 0 <= y -> y * IZR S <= IZR L -> y ^ (2 ^ k) * IZR S <= IZR (square_hi k S L).
Proof.
  intros HS. revert L y. induction k as [ | k IH ]; intros L y Hy H; cbn [square_hi Nat.pow].
  - rewrite pow_1. exact H.
  - assert (HSR : 0 < IZR S) by (apply IZR_lt; assumption).
    replace (y ^ (2 * 2 ^ k)) with ((y * y) ^ (2 ^ k)) by (rewrite pow_mult; f_equal; ring).
    apply IH; [ apply Rmult_le_pos; assumption | ].
    pose proof (div_hi (L * L) S HS) as D. rewrite mult_IZR in D.
    apply (Rmult_le_reg_r (IZR S)); [ assumption | ].
    apply Rle_trans with (2 := D). replace (y * y * IZR S * IZR S) with ((y * IZR S) * (y * IZR S)) by ring.
    assert (0 <= y * IZR S) by (apply Rmult_le_pos; lra). apply Rmult_le_compat; assumption.
Qed.

Lemma exp_pow x n : exp x ^ n = exp (INR n * x).
Proof.
  induction n as [ | n IH ]; [ cbn [pow INR]; rewrite Rmult_0_l, exp_0; reflexivity | ].
  rewrite S_INR. cbn [pow]. rewrite IH, <- exp_plus. f_equal. ring.
Qed.
Lemma INR_pow2 k : INR (2 ^ k) = IZR (2 ^ Z.of_nat k).
Proof.
  rewrite INR_IZR_INZ. f_equal. induction k as [ | k IH ]; [ reflexivity | ]. rewrite Nat2Z.inj_succ, Z.pow_succ_r by lia. rewrite <- IH.
  cbn [Nat.pow]. lia.
Qed.
(** exp (p / q), 0 <= p, 0 < q. *)
Definition exp_lo (k : nat) (S p q : Z) : Z := square_lo k S (S + S * p / (q * 2 ^ Z.of_nat k)).
Definition exp_hi (k : nat) (S p q : Z) : Z := square_hi k S (S * (q * 2 ^ Z.of_nat k) / (q * 2 ^ Z.of_nat k - p) + 1).
Lemma exp_lower k S p q : (0 < S)%Z -> (0 <= p)%Z -> (0 < q)%Z -> IZR (exp_lo k S p q) / IZR S <= exp (IZR p / IZR q).
Proof.
  intros HS Hp Hq. set (m := (2 ^ Z.of_nat k)%Z). assert (Hm : (0 < m)%Z) by (apply Z.pow_pos_nonneg; lia).
  assert (HSR : 0 < IZR S) by (apply IZR_lt; assumption). assert (HqR : 0 < IZR q) by (apply IZR_lt; assumption).
  assert (HmR : 0 < IZR m) by (apply IZR_lt; assumption).
  assert (E : exp (IZR p / IZR q) = exp (IZR p / (IZR q * IZR m)) ^ (2 ^ k)).
  { rewrite exp_pow, INR_pow2. fold m. f_equal. field. lra. }
  rewrite E. apply (Rmult_le_reg_r (IZR S)); [ assumption | ]. unfold Rdiv at 1. rewrite Rmult_assoc, Rinv_l, Rmult_1_r by lra.
  apply square_lo_sound; [ assumption | | ].
  - apply Z.add_nonneg_nonneg; [ lia | ]. apply Z.div_pos; [ apply Z.mul_nonneg_nonneg; lia | ]. fold m. apply Z.mul_pos_pos; assumption.
  - fold m. rewrite plus_IZR. pose proof (div_lo (S * p) (q * m) ltac:(apply Z.mul_pos_pos; assumption)) as D.
    rewrite !mult_IZR in D. pose proof (exp_ineq1_le (IZR p / (IZR q * IZR m))) as X.
    assert (HqmR : 0 < IZR q * IZR m) by (apply Rmult_lt_0_compat; assumption).
    apply Rle_trans with ((1 + IZR p / (IZR q * IZR m)) * IZR S).
    + rewrite Rmult_plus_distr_r, Rmult_1_l. apply Rplus_le_compat_l. apply (Rmult_le_reg_r (IZR q * IZR m)); [ assumption | ].
      apply Rle_trans with (1 := D). right. field. lra.
    + apply Rmult_le_compat_r; lra.
Qed.
Lemma exp_upper k S p q : (0 < S)%Z -> (0 <= p)%Z -> (0 < q)%Z -> (p < q * 2 ^ Z.of_nat k)%Z -> exp (IZR p / IZR q) <= IZR (exp_hi k S p q) / IZR S.
Proof.
  intros HS Hp Hq. set (m := (2 ^ Z.of_nat k)%Z). intros Hpm. assert (Hm : (0 < m)%Z) by (apply Z.pow_pos_nonneg; lia).
  assert (HSR : 0 < IZR S) by (apply IZR_lt; assumption). assert (HqR : 0 < IZR q) by (apply IZR_lt; assumption).
  assert (HmR : 0 < IZR m) by (apply IZR_lt; assumption). assert (HpmR : 0 < IZR (q * m - p)) by (apply IZR_lt; lia).
  assert (HqmR : 0 < IZR q * IZR m) by (apply Rmult_lt_0_compat; assumption).
  assert (E : exp (IZR p / IZR q) = exp (IZR p / (IZR q * IZR m)) ^ (2 ^ k)).
  { rewrite exp_pow, INR_pow2. fold m. f_equal. field. lra. }
  rewrite E. apply (Rmult_le_reg_r (IZR S)); [ assumption | ]. unfold Rdiv at 2. rewrite Rmult_assoc, Rinv_l, Rmult_1_r by lra.
  apply square_hi_sound; [ assumption | apply Rlt_le, exp_pos | ]. fold m.
  pose proof (div_hi (S * (q * m)) (q * m - p) ltac:(lia)) as D. rewrite !mult_IZR in D.
  set (t := IZR p / (IZR q * IZR m)). pose proof (exp_ineq1_le (- t)) as X. rewrite exp_Ropp in X. pose proof (exp_pos t) as Y.
  assert (Ht : (1 - t) * (IZR q * IZR m) = IZR (q * m - p)).
  { rewrite minus_IZR, mult_IZR. unfold t. field. lra. }
  apply (Rmult_le_reg_r (IZR (q * m - p))); [ assumption | ]. apply Rle_trans with (2 := D).
  rewrite <- Ht. replace (exp t * IZR S * ((1 - t) * (IZR q * IZR m))) with (IZR S * (IZR q * IZR m) * (exp t * (1 - t))) by ring.
  rewrite <- (Rmult_1_r (IZR S * (IZR q * IZR m))) at 2. apply Rmult_le_compat_l; [ apply Rmult_le_pos; lra | ].
  apply (Rmult_le_compat_l (exp t)) in X; [ | lra ]. rewrite Rinv_r in X by lra. lra.
Qed.

(** Checks by computation. *)
Lemma exp_le_check k S p q n d : (0 < S)%Z -> (0 <= p)%Z -> (0 < q)%Z -> (p < q * 2 ^ Z.of_nat k)%Z -> (0 < d)%Z -> (exp_hi k S p q * d <= n * S)%Z ->
  exp (IZR p / IZR q) <= IZR n / IZR d.
Proof.
  intros HSZ Hp Hq Hpm Hd H. apply Rle_trans with (IZR (exp_hi k S p q) / IZR S); [ apply exp_upper; assumption | ].
  assert (HdR : 0 < IZR d) by (apply IZR_lt; assumption). assert (HS : 0 < IZR S) by (apply IZR_lt; assumption).
  apply IZR_le in H. rewrite !mult_IZR in H. revert H. generalize (exp_hi k S p q). intros z H.
  apply (Rmult_le_reg_r (IZR S * IZR d)); [ apply Rmult_lt_0_compat; assumption | ].
  replace (IZR z / IZR S * (IZR S * IZR d)) with (IZR z * IZR d) by (field; lra).
  replace (IZR n / IZR d * (IZR S * IZR d)) with (IZR n * IZR S) by (field; lra). exact H.
Qed.
Lemma exp_ge_check k S p q n d : (0 < S)%Z -> (0 <= p)%Z -> (0 < q)%Z -> (0 < d)%Z -> (n * S <= exp_lo k S p q * d)%Z ->
  IZR n / IZR d <= exp (IZR p / IZR q).
Proof.
  intros HSZ Hp Hq Hd H. apply Rle_trans with (IZR (exp_lo k S p q) / IZR S); [ | apply exp_lower; assumption ].
  assert (HdR : 0 < IZR d) by (apply IZR_lt; assumption). assert (HS : 0 < IZR S) by (apply IZR_lt; assumption).
  apply IZR_le in H. rewrite !mult_IZR in H. revert H. generalize (exp_lo k S p q). intros z H.
  apply (Rmult_le_reg_r (IZR S * IZR d)); [ apply Rmult_lt_0_compat; assumption | ].
  replace (IZR z / IZR S * (IZR S * IZR d)) with (IZR z * IZR d) by (field; lra).
  replace (IZR n / IZR d * (IZR S * IZR d)) with (IZR n * IZR S) by (field; lra). exact H.
Qed.
Lemma ln_ge x y : exp x <= y -> x <= ln y.
Proof.
  intros H. assert (0 < y) by (pose proof (exp_pos x); lra). rewrite <- (ln_exp x). destruct H as [H | H].
  - left. apply ln_increasing; [ apply exp_pos | assumption ].
  - rewrite H. lra.
Qed.
Lemma ln_le x y : 0 < y -> y <= exp x -> ln y <= x.
Proof.
  intros Hy H. rewrite <- (ln_exp x). destruct H as [H | H].
  - left. apply ln_increasing; assumption.
  - rewrite H. lra.
Qed.
Lemma exp_monotone x y : x <= y -> exp x <= exp y.
Proof. intros [H | ->]; [ left; apply exp_increasing; assumption | lra ]. Qed.
Lemma exp_neg_le x n : 0 < n -> n <= exp x -> exp (- x) <= / n.
Proof. intros Hn H. rewrite exp_Ropp. apply Rinv_le_contravar; assumption. Qed.
Lemma exp_neg_ge x n : exp x <= n -> / n <= exp (- x).
Proof. intros H. rewrite exp_Ropp. apply Rinv_le_contravar; [ apply exp_pos | assumption ]. Qed.
Lemma pow_step x a b n an bn an' bn' : 0 <= a -> a <= x <= b -> 0 <= an -> an <= x ^ n <= bn -> an' <= a * an -> b * bn <= bn' ->
  an' <= x ^ S n <= bn'.
Proof.
  intros Ha [H1 H2] Han [H3 H4] H5 H6. cbn [pow].
  assert (a * an <= x * x ^ n) by (apply Rmult_le_compat; assumption).
  assert (x * x ^ n <= b * bn) by (apply Rmult_le_compat; lra). lra.
Qed.
