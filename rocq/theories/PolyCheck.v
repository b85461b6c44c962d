(** A decision procedure for positivity of polynomials in one and two variables on intervals and boxes with rational ends: integer
    coefficients, Bernstein form, bisection.  A tool for proofs; it models no code. *)

From Coq Require Import List Bool ZArith Reals Lra Lia.
Import ListNotations.
Open Scope R_scope.

(** ** Coefficient lists over an additive type *)
Section Generic.
  Context {A : Type} (add : A -> A -> A).
  Fixpoint mix (a : A) (q : list A) : list A := match q with [] => [a] | b :: q => add a b :: mix b q end.
  (** p(x + 1). *)
  Fixpoint tshift (p : list A) : list A := match p with [] => [] | a :: r => match r with [] => [a] | _ => mix a (tshift r) end end.
End Generic.

(** Homogeneous value: sum of p_i s^i t^(n-i). *)
Fixpoint heval (p : list R) (s t : R) : R := match p with [] => 0 | a :: r => a * t ^ List.length r + s * heval r s t end.

Lemma mix_length {A} (add : A -> A -> A) a q : List.length (mix add a q) = S (List.length q).
Proof. revert a. induction q as [|b q IH]; intros a; cbn [mix List.length]; [reflexivity|]. now rewrite IH. Qed.
Lemma tshift_length {A} (add : A -> A -> A) p : List.length (tshift add p) = List.length p.
Proof. induction p as [|a r IH]; [reflexivity|]. cbn [tshift List.length]. destruct r as [|b r]; [reflexivity|]. rewrite mix_length. now rewrite IH. Qed.
Lemma heval_mix a q s t : heval (mix Rplus a q) s t = a * t ^ List.length q + (s + t) * heval q s t.
Proof.
  revert a. induction q as [|b q IH]; intros a; cbn [mix heval List.length].
  - cbn. ring.
  - rewrite mix_length, IH. cbn [pow]. ring.
Qed.
Lemma heval_tshift p s t : heval (tshift Rplus p) s t = heval p (s + t) t.
Proof.
  induction p as [|a r IH]; [reflexivity|]. cbn [tshift]. destruct r as [|b r]; [cbn [heval List.length pow]; ring|].
  rewrite heval_mix. rewrite tshift_length. rewrite IH. reflexivity.
Qed.
Lemma heval_app p q s t : heval (p ++ q) s t = heval p s t * t ^ List.length q + s ^ List.length p * heval q s t.
Proof.
  induction p as [|a p IH]; cbn [app heval List.length pow]; [ring|]. rewrite IH, app_length, pow_add. ring.
Qed.
Lemma heval_rev p s t : heval (rev p) s t = heval p t s.
Proof.
  induction p as [|a p IH]; [reflexivity|]. cbn [rev]. rewrite heval_app, IH. cbn [heval List.length pow]. rewrite rev_length. ring.
Qed.
(** Positive coefficients. *)
Lemma heval_nonneg p s t : Forall (fun c => 0 < c) p -> 0 <= s -> 0 <= t -> 0 <= heval p s t.
Proof.
  intros F Hs Ht. induction F as [|a p Ha F IH]; cbn [heval]; [lra|].
  apply Rplus_le_le_0_compat; apply Rmult_le_pos; try lra. now apply pow_le.
Qed.
Lemma heval_pos p s t : Forall (fun c => 0 < c) p -> p <> [] -> 0 <= s -> 0 <= t -> s + t = 1 -> 0 < heval p s t.
Proof.
  intros F. induction F as [|a p Ha F IH]; intros N Hs Ht E; [congruence|]. cbn [heval].
  destruct (Rlt_le_dec 0 t) as [Lt|Lt].
  - pose proof (Rmult_lt_0_compat a _ Ha (pow_lt t (List.length p) Lt)).
    pose proof (Rmult_le_pos s (heval p s t) Hs (heval_nonneg p s t F Hs Ht)). lra.
  - replace t with 0 in * by lra. replace s with 1 in * by lra. destruct p as [|b p].
    + cbn. lra.
    + pose proof (IH ltac:(discriminate) Hs Ht E). cbn [List.length]. rewrite pow_i by lia. lra.
Qed.
(** The Bernstein coefficients (up to positive factors): positive on [0, 1]. *)
Definition bern {A} (add : A -> A -> A) (p : list A) : list A := tshift add (rev p).
Lemma heval_bern p x : heval (bern Rplus p) (1 - x) x = heval p x 1.
Proof. unfold bern. rewrite heval_tshift, heval_rev. f_equal. ring. Qed.

(** Halves: 2^n p(x / 2) and 2^n p((x + 1) / 2); [mul] multiplies by a power of two. *)
Section Halves.
  Context {A : Type} (add : A -> A -> A) (mul : nat -> A -> A).
  Fixpoint halve (p : list A) : list A := match p with [] => [] | a :: r => mul (List.length r) a :: halve r end.
  Definition upper (p : list A) : list A := tshift add (halve p).
End Halves.
Definition rmul (k : nat) (a : R) : R := 2 ^ k * a.
Lemma halve_length {A} (mul : nat -> A -> A) p : List.length (halve mul p) = List.length p.
Proof. induction p as [|a p IH]; [reflexivity|]. cbn [halve List.length]. now rewrite IH. Qed.
Lemma heval_halve p s t : heval (halve rmul p) s t = heval p s (2 * t).
Proof.
  induction p as [|a p IH]; [reflexivity|]. cbn [halve heval]. rewrite IH, halve_length. unfold rmul. rewrite Rpow_mult_distr. ring.
Qed.
Lemma heval_scale p k s t : heval p (k * s) (k * t) = k ^ pred (List.length p) * heval p s t.
Proof.
  induction p as [|a p IH]; cbn [heval List.length pred]; [ring|]. rewrite IH, Rpow_mult_distr.
  destruct p as [|b p]; [cbn; ring|]. cbn [List.length pred pow]. ring.
Qed.
Lemma heval_lower p x : heval (halve rmul p) x 1 = 2 ^ pred (List.length p) * heval p (x / 2) 1.
Proof. rewrite heval_halve, <- heval_scale. f_equal; lra. Qed.
Lemma heval_upper p x : heval (upper Rplus rmul p) x 1 = 2 ^ pred (List.length p) * heval p ((x + 1) / 2) 1.
Proof. unfold upper. rewrite heval_tshift, heval_halve, <- heval_scale. f_equal; lra. Qed.

(** Maps. *)
Lemma mix_map {A B} (f : A -> B) addA addB : (forall a b, f (addA a b) = addB (f a) (f b)) -> forall q a, map f (mix addA a q) = mix addB (f a) (map f q).
Proof. intros H q. induction q as [|b q IH]; intros a; cbn [mix map]; [reflexivity|]. now rewrite H, IH. Qed.
Lemma tshift_map {A B} (f : A -> B) addA addB : (forall a b, f (addA a b) = addB (f a) (f b)) -> forall p, map f (tshift addA p) = tshift addB (map f p).
Proof.
  intros H p. induction p as [|a r IH]; [reflexivity|]. cbn [tshift map]. destruct r as [|b r]; [reflexivity|].
  rewrite (mix_map f addA addB H). rewrite IH. reflexivity.
Qed.
Lemma bern_map {A B} (f : A -> B) addA addB : (forall a b, f (addA a b) = addB (f a) (f b)) -> forall p, map f (bern addA p) = bern addB (map f p).
Proof. intros H p. unfold bern. rewrite (tshift_map f addA addB H), map_rev. reflexivity. Qed.
Lemma halve_map {A B} (f : A -> B) mulA mulB : (forall k a, f (mulA k a) = mulB k (f a)) -> forall p, map f (halve mulA p) = halve mulB (map f p).
Proof. intros H p. induction p as [|a p IH]; [reflexivity|]. cbn [halve map]. rewrite map_length. now rewrite H, IH. Qed.
Lemma upper_map {A B} (f : A -> B) addA addB mulA mulB : (forall a b, f (addA a b) = addB (f a) (f b)) -> (forall k a, f (mulA k a) = mulB k (f a)) ->
  forall p, map f (upper addA mulA p) = upper addB mulB (map f p).
Proof. intros H1 H2 p. unfold upper. rewrite (tshift_map f addA addB H1). now rewrite (halve_map f mulA mulB H2). Qed.

(** ** Rows of integers *)
Definition zmul (k : nat) (a : Z) : Z := Z.shiftl a (Z.of_nat k).
Lemma zmul_R k a : IZR (zmul k a) = rmul k (IZR a).
Proof. unfold zmul, rmul. rewrite Z.shiftl_mul_pow2 by lia. rewrite mult_IZR, <- pow_IZR. ring. Qed.
Definition zrow (r : list Z) : list R := map IZR r.
Definition rowval (y : R) (r : list Z) : R := heval (zrow r) y 1.
Lemma heval_1 a r y : heval (a :: r) y 1 = a + y * heval r y 1.
Proof. cbn [heval]. rewrite pow1. ring. Qed.
Fixpoint radd (p q : list Z) : list Z := match p, q with [], q => q | p, [] => p | a :: p, b :: q => Z.add a b :: radd p q end.
Lemma rowval_add y p q : rowval y (radd p q) = rowval y p + rowval y q.
Proof.
  unfold rowval, zrow. revert q. induction p as [|a p IH]; intros [|b q]; cbn [radd map]; try (cbn [heval map]; lra).
  rewrite !heval_1, IH, plus_IZR. ring.
Qed.
Definition rowmul (k : nat) (r : list Z) : list Z := map (zmul k) r.
Lemma rowval_mul y k r : rowval y (rowmul k r) = rmul k (rowval y r).
Proof.
  unfold rowval, zrow, rowmul. induction r as [|a r IH]; cbn [map]; [cbn [heval]; unfold rmul; ring|].
  rewrite !heval_1, IH, zmul_R. unfold rmul. ring.
Qed.

(** ** One variable *)
Definition all_pos (p : list Z) : bool := forallb (fun c => Z.ltb 0 c) p.
Definition nonempty {A} (p : list A) : bool := match p with [] => false | _ => true end.
Fixpoint check1 (fuel : nat) (p : list Z) : bool :=
  (nonempty p && all_pos (bern Z.add p))%bool || match fuel with O => false | S fuel => (check1 fuel (halve zmul p) && check1 fuel (upper Z.add zmul p))%bool end.
Lemma all_pos_R p : all_pos p = true -> Forall (fun c => 0 < c) (zrow p).
Proof.
  unfold all_pos, zrow. intros H. apply Forall_forall. intros x Hx. apply in_map_iff in Hx. destruct Hx as (z & <- & Hz).
  apply IZR_lt. apply Z.ltb_lt. exact (proj1 (forallb_forall _ p) H z Hz).
Qed.
Lemma zrow_add a b : IZR (a + b) = IZR a + IZR b. Proof. apply plus_IZR. Qed.
Lemma bern_nonempty {A} (add : A -> A -> A) p : p <> [] -> bern add p <> [].
Proof. intros N E. apply (f_equal (@List.length A)) in E. unfold bern in E. rewrite tshift_length, rev_length in E. destruct p; [congruence|discriminate E]. Qed.
Lemma scaled_pos k x : 0 < 2 ^ k * x -> 0 < x.
Proof. intros H. assert (0 < 2 ^ k) by (apply pow_lt; lra). destruct (Rlt_le_dec 0 x) as [L|L]; [exact L|]. exfalso. assert (2 ^ k * x <= 2 ^ k * 0) by (apply Rmult_le_compat_l; lra). lra. Qed.
Lemma check1_sound fuel : forall p x, check1 fuel p = true -> 0 <= x <= 1 -> 0 < rowval x p.
Proof.
  induction fuel as [|fuel IH]; intros p x H Hx; cbn [check1] in H; apply orb_true_iff in H; destruct H as [H|H].
  1,3: apply andb_true_iff in H; destruct H as [N H]; unfold rowval; rewrite <- heval_bern;
    unfold zrow; rewrite <- (bern_map IZR Z.add Rplus zrow_add); apply heval_pos; try lra;
    [now apply all_pos_R|]; intros E; apply map_eq_nil in E; apply (bern_nonempty Z.add p); [destruct p; [discriminate N|discriminate]|exact E].
  - discriminate H.
  - apply andb_true_iff in H. destruct H as [H1 H2]. destruct (Rle_dec x (1 / 2)) as [L|L].
    + pose proof (IH _ (2 * x) H1 ltac:(lra)) as P. unfold rowval, zrow in P. rewrite (halve_map IZR zmul rmul zmul_R), heval_lower in P.
      apply scaled_pos in P. replace (2 * x / 2) with x in P by lra. exact P.
    + pose proof (IH _ (2 * x - 1) H2 ltac:(lra)) as P. unfold rowval, zrow in P. rewrite (upper_map IZR Z.add Rplus zmul rmul zrow_add zmul_R), heval_upper in P.
      apply scaled_pos in P. replace ((2 * x - 1 + 1) / 2) with x in P by lra. exact P.
Qed.

(** ** Two variables: rows are polynomials in y, by powers of x. *)
Definition val2 (p : list (list Z)) (x y : R) : R := heval (map (rowval y) p) x 1.
Definition row_pos (r : list Z) : bool := (nonempty r && all_pos (bern Z.add r))%bool.
(** [tree]: how to bisect. *)
Inductive tree := Leaf | SplitX (a b : tree) | SplitY (a b : tree).
Fixpoint check2 (t : tree) (p : list (list Z)) : bool :=
  match t with
  | Leaf => (nonempty p && forallb row_pos (bern radd p))%bool
  | SplitX a b => (check2 a (halve rowmul p) && check2 b (upper radd rowmul p))%bool
  | SplitY a b => (check2 a (map (halve zmul) p) && check2 b (map (upper Z.add zmul) p))%bool
  end.
Lemma row_pos_sound r y : row_pos r = true -> 0 <= y <= 1 -> 0 < rowval y r.
Proof. intros H Hy. apply (check1_sound 0 r y); [|exact Hy]. cbn [check1]. unfold row_pos in H. rewrite H. reflexivity. Qed.
Definition same_length (p : list (list Z)) (k : nat) : Prop := Forall (fun r => List.length r = k) p.
Lemma heval_map_scale c p x : heval (map (fun r => c * r) p) x 1 = c * heval p x 1.
Proof. induction p as [|a p IH]; cbn [map]; [cbn [heval]; ring|]. rewrite !heval_1, IH. ring. Qed.
Lemma mix_Forall {A} (add : A -> A -> A) (P : A -> Prop) : (forall a b, P a -> P b -> P (add a b)) -> forall q a, P a -> Forall P q -> Forall P (mix add a q).
Proof.
  intros H q. induction q as [|b q IH]; intros a Ha F; cbn [mix].
  - apply Forall_cons; [exact Ha|apply Forall_nil].
  - inversion F; subst. apply Forall_cons; [now apply H|]. now apply IH.
Qed.
Lemma tshift_Forall {A} (add : A -> A -> A) (P : A -> Prop) : (forall a b, P a -> P b -> P (add a b)) -> forall p, Forall P p -> Forall P (tshift add p).
Proof.
  intros H p F. induction F as [|a r Ha F IH]; [apply Forall_nil|]. cbn [tshift]. destruct r as [|b r]; [apply Forall_cons; [exact Ha|apply Forall_nil]|].
  apply mix_Forall; assumption.
Qed.
Lemma radd_length p q k : List.length p = k -> List.length q = k -> List.length (radd p q) = k.
Proof. revert q k. induction p as [|a p IH]; intros [|b q] k Hp Hq; cbn [radd List.length] in *; subst; try assumption; try discriminate. f_equal. apply IH; [reflexivity|congruence]. Qed.
Lemma upper_rows p k : same_length p k -> same_length (halve rowmul p) k /\ same_length (upper radd rowmul p) k.
Proof.
  intros F. assert (H : same_length (halve rowmul p) k).
  { induction F as [|a p Ha F IH]; cbn [halve]; [apply Forall_nil|]. apply Forall_cons; [|exact IH]. unfold rowmul. now rewrite map_length. }
  split; [exact H|]. unfold upper. apply tshift_Forall; [|exact H]. intros a b; apply radd_length.
Qed.
Lemma upper_length p : List.length (upper Z.add zmul p) = List.length p.
Proof. unfold upper. now rewrite tshift_length, halve_length. Qed.
Lemma map_rows (f : list Z -> list Z) p k : (forall r, List.length (f r) = List.length r) -> same_length p k -> same_length (map f p) k.
Proof. intros H F. apply Forall_forall. intros r Hr. apply in_map_iff in Hr. destruct Hr as (q & <- & Hq). rewrite H. exact (proj1 (Forall_forall _ p) F q Hq). Qed.
(** Halves in y of all rows. *)
Lemma rows_halve p k y : same_length p k -> map (rowval y) (map (halve zmul) p) = map (fun r => 2 ^ pred k * r) (map (rowval (y / 2)) p).
Proof.
  intros F. rewrite !map_map. apply map_ext_in. intros r Hr. unfold rowval, zrow. rewrite (halve_map IZR zmul rmul zmul_R), heval_lower, map_length.
  now rewrite (proj1 (Forall_forall _ p) F r Hr).
Qed.
Lemma rows_upper p k y : same_length p k -> map (rowval y) (map (upper Z.add zmul) p) = map (fun r => 2 ^ pred k * r) (map (rowval ((y + 1) / 2)) p).
Proof.
  intros F. rewrite !map_map. apply map_ext_in. intros r Hr. unfold rowval, zrow. rewrite (upper_map IZR Z.add Rplus zmul rmul zrow_add zmul_R), heval_upper, map_length.
  now rewrite (proj1 (Forall_forall _ p) F r Hr).
Qed.
Lemma check2_sound t : forall p k x y, same_length p k -> check2 t p = true -> 0 <= x <= 1 -> 0 <= y <= 1 -> 0 < val2 p x y.
Proof.
  induction t as [|a IHa b IHb|a IHa b IHb]; intros p k x y SL H Hx Hy; cbn [check2] in H; apply andb_true_iff in H; destruct H as [H1 H2].
  - unfold val2. rewrite <- heval_bern. rewrite <- (bern_map (rowval y) radd Rplus (rowval_add y)). apply heval_pos; try lra.
    + apply Forall_forall. intros v Hv. apply in_map_iff in Hv. destruct Hv as (r & <- & Hr). apply row_pos_sound; [|exact Hy].
      exact (proj1 (forallb_forall _ _) H2 r Hr).
    + intros E. apply map_eq_nil in E. apply (bern_nonempty radd p); [destruct p; [discriminate H1|discriminate]|exact E].
  - destruct (upper_rows p k SL) as [S1 S2]. destruct (Rle_dec x (1 / 2)) as [L|L].
    + pose proof (IHa _ k (2 * x) y S1 H1 ltac:(lra) Hy) as P. unfold val2 in P. rewrite (halve_map (rowval y) rowmul rmul (rowval_mul y)), heval_lower in P.
      apply scaled_pos in P. replace (2 * x / 2) with x in P by lra. exact P.
    + pose proof (IHb _ k (2 * x - 1) y S2 H2 ltac:(lra) Hy) as P. unfold val2 in P.
      rewrite (upper_map (rowval y) radd Rplus rowmul rmul (rowval_add y) (rowval_mul y)), heval_upper in P.
      apply scaled_pos in P. replace ((2 * x - 1 + 1) / 2) with x in P by lra. exact P.
  - destruct (Rle_dec y (1 / 2)) as [L|L].
    + pose proof (IHa _ k x (2 * y) (map_rows _ p k (halve_length zmul) SL) H1 Hx ltac:(lra)) as P. unfold val2 in P.
      rewrite (rows_halve p k (2 * y) SL), heval_map_scale in P. apply scaled_pos in P. replace (2 * y / 2) with y in P by lra. exact P.
    + pose proof (IHb _ k x (2 * y - 1) (map_rows _ p k upper_length SL) H2 Hx ltac:(lra)) as P. unfold val2 in P.
      rewrite (rows_upper p k (2 * y - 1) SL), heval_map_scale in P. apply scaled_pos in P. replace ((2 * y - 1 + 1) / 2) with y in P by lra. exact P.
Qed.

(** ** From [a, a + w] to [0, 1]: D^n p((A + B u) / D). *)
Fixpoint zpow (d : Z) (n : nat) : Z := match n with O => 1%Z | S n => (d * zpow d n)%Z end.
Lemma zpow_R d n : IZR (zpow d n) = IZR d ^ n.
Proof. induction n as [|n IH]; [reflexivity|]. cbn [zpow pow]. now rewrite mult_IZR, IH. Qed.
Section Affine.
  Context {A : Type} (add : A -> A -> A) (scale : Z -> A -> A) (zero : A).
  Variables (a b d : Z).
  (** (a + b u) q *)
  Fixpoint lin (carry : A) (q : list A) : list A := match q with [] => [carry] | c :: q => add carry (scale a c) :: lin (scale b c) q end.
  Definition addc (c : A) (q : list A) : list A := match q with [] => [c] | e :: q => add c e :: q end.
  Fixpoint affine (p : list A) : list A :=
    match p with [] => [] | c :: r => match r with [] => [c] | _ => addc (scale (zpow d (List.length r)) c) (lin zero (affine r)) end end.
End Affine.
Definition rscale (k : Z) (x : R) : R := IZR k * x.
Lemma heval_lin a b q u : forall carry, heval (lin Rplus rscale a b carry q) u 1 = carry + (IZR a + IZR b * u) * heval q u 1.
Proof.
  induction q as [|c q IH]; intros carry; cbn [lin]; rewrite heval_1; [cbn [heval]; ring|]. rewrite IH, heval_1. unfold rscale. ring.
Qed.
Lemma heval_addc c q u : heval (addc Rplus c q) u 1 = c + heval q u 1.
Proof. destruct q as [|e q]; cbn [addc]; rewrite !heval_1; cbn [heval]; ring. Qed.
Lemma heval_affine a b d p u : heval (affine Rplus rscale 0 a b d p) u 1 = heval p (IZR a + IZR b * u) (IZR d).
Proof.
  induction p as [|c r IH]; [reflexivity|]. cbn [affine]. destruct r as [|e r]; [cbn [heval List.length pow]; ring|].
  rewrite heval_addc, heval_lin, IH. cbn [heval]. unfold rscale. rewrite zpow_R. ring.
Qed.
Lemma heval_affine_scaled a b d p u : (0 < d)%Z -> heval (affine Rplus rscale 0 a b d p) u 1 = IZR d ^ pred (List.length p) * heval p ((IZR a + IZR b * u) / IZR d) 1.
Proof. intros H. apply IZR_lt in H. rewrite heval_affine, <- heval_scale. f_equal; field; lra. Qed.
Lemma lin_map {A B} (f : A -> B) addA addB scA scB a b : (forall x y, f (addA x y) = addB (f x) (f y)) -> (forall k x, f (scA k x) = scB k (f x)) ->
  forall q c, map f (lin addA scA a b c q) = lin addB scB a b (f c) (map f q).
Proof. intros H1 H2 q. induction q as [|e q IH]; intros c; cbn [lin map]; [reflexivity|]. now rewrite H1, H2, IH, H2. Qed.
Lemma affine_map {A B} (f : A -> B) addA addB scA scB zA zB a b d : (forall x y, f (addA x y) = addB (f x) (f y)) -> (forall k x, f (scA k x) = scB k (f x)) -> f zA = zB ->
  forall p, map f (affine addA scA zA a b d p) = affine addB scB zB a b d (map f p).
Proof.
  intros H1 H2 H3 p. induction p as [|c r IH]; [reflexivity|]. cbn [affine map]. destruct r as [|e r]; [reflexivity|].
  cbn [map] in IH |- *. rewrite <- IH. set (q := affine addA scA zA a b d (e :: r)). rewrite <- H3, <- (lin_map f addA addB scA scB a b H1 H2).
  replace (List.length (f e :: map f r)) with (List.length (e :: r)) by (cbn [List.length]; now rewrite map_length).
  destruct (lin addA scA a b zA q) as [|x l]; cbn [addc map]; rewrite ?H1, H2; reflexivity.
Qed.
Definition rowscale (k : Z) (r : list Z) : list Z := map (Z.mul k) r.
Lemma rowval_scale y k r : rowval y (rowscale k r) = rscale k (rowval y r).
Proof.
  unfold rowval, zrow, rowscale, rscale. induction r as [|a r IH]; cbn [map]; [cbn [heval]; ring|]. rewrite !heval_1, IH, mult_IZR. ring.
Qed.
Lemma affine_length {A} (add : A -> A -> A) sc z a b d p : List.length (affine add sc z a b d p) = List.length p.
Proof.
  assert (L : forall q c, List.length (lin add sc a b c q) = S (List.length q)).
  { intros q. induction q as [|e q IH]; intros c; cbn [lin List.length]; [reflexivity|]. now rewrite IH. }
  induction p as [|c r IH]; [reflexivity|]. cbn [affine]. destruct r as [|e r]; [reflexivity|].
  pose proof (L (affine add sc z a b d (e :: r)) z) as E. destruct (lin add sc a b z (affine add sc z a b d (e :: r))) as [|x l]; [discriminate E|].
  cbn [addc List.length] in *. now rewrite E, IH.
Qed.

(** Positivity in one variable on [(a / d, (a + b) / d)]. *)
Definition positive1 (fuel : nat) (a b d : Z) (p : list Z) : bool := ((0 <? d)%Z && (0 <? b)%Z && check1 fuel (affine Z.add Z.mul 0%Z a b d p))%bool.
Lemma pow_pos_cancel d k x : 0 < d -> 0 < d ^ k * x -> 0 < x.
Proof. intros Hd H. assert (0 < d ^ k) by now apply pow_lt. destruct (Rlt_le_dec 0 x) as [L|L]; [exact L|]. exfalso. assert (d ^ k * x <= d ^ k * 0) by (apply Rmult_le_compat_l; lra). lra. Qed.
Lemma unit_coordinate a b d x : 0 < d -> 0 < b -> a / d <= x <= (a + b) / d -> let u := (d * x - a) / b in 0 <= u <= 1 /\ (a + b * u) / d = x.
Proof.
  intros Hd Hb [H1 H2] u. assert (E : (a + b * u) / d = x) by (unfold u; field; lra). split; [|exact E].
  assert (A1 : a <= d * x). { apply (Rmult_le_compat_l d) in H1; [|lra]. replace (d * (a / d)) with a in H1 by (field; lra). exact H1. }
  assert (A2 : d * x <= a + b). { apply (Rmult_le_compat_l d) in H2; [|lra]. replace (d * ((a + b) / d)) with (a + b) in H2 by (field; lra). exact H2. }
  assert (I : 0 < / b) by now apply Rinv_0_lt_compat. unfold u, Rdiv. split.
  - apply Rmult_le_pos; lra.
  - apply Rmult_le_reg_r with b; [exact Hb|]. rewrite Rmult_assoc, Rinv_l by lra. lra.
Qed.
Lemma positive1_sound fuel a b d p x : positive1 fuel a b d p = true -> IZR a / IZR d <= x <= (IZR a + IZR b) / IZR d -> 0 < rowval x p.
Proof.
  unfold positive1. intros H Hx. apply andb_true_iff in H. destruct H as [H C]. apply andb_true_iff in H. destruct H as [Hd Hb]. apply Z.ltb_lt in Hd, Hb.
  pose proof (IZR_lt _ _ Hd) as RD. pose proof (IZR_lt _ _ Hb) as RB. destruct (unit_coordinate (IZR a) (IZR b) (IZR d) x RD RB Hx) as [U E].
  pose proof (check1_sound fuel _ _ C U) as P. unfold rowval, zrow in P.
  rewrite (affine_map IZR Z.add Rplus Z.mul rscale 0%Z 0 a b d zrow_add (fun k x => mult_IZR k x) eq_refl) in P.
  rewrite heval_affine_scaled in P by exact Hd. rewrite E in P. now apply pow_pos_cancel in P.
Qed.
(** Positivity in two variables. *)
Definition rows_ok (k : nat) (p : list (list Z)) : bool := forallb (fun r => Nat.eqb (List.length r) k) p.
Definition positive2 (k : nat) (t : tree) (ax bx dx ay by_ dy : Z) (p : list (list Z)) : bool :=
  ((0 <? dx)%Z && (0 <? bx)%Z && (0 <? dy)%Z && (0 <? by_)%Z && rows_ok k p &&
   (let q := map (affine Z.add Z.mul 0%Z ay by_ dy) p in
    let q := affine radd rowscale [] ax bx dx q in rows_ok k q && check2 t q))%bool.
Lemma rows_ok_same k p : rows_ok k p = true -> same_length p k.
Proof. unfold rows_ok. intros H. apply Forall_forall. intros r Hr. apply Nat.eqb_eq. exact (proj1 (forallb_forall _ p) H r Hr). Qed.
Lemma rows_affine p k a b d y : same_length p k -> (0 < d)%Z ->
  map (rowval y) (map (affine Z.add Z.mul 0%Z a b d) p) = map (fun r => IZR d ^ pred k * r) (map (rowval ((IZR a + IZR b * y) / IZR d)) p).
Proof.
  intros F Hd. rewrite !map_map. apply map_ext_in. intros r Hr. unfold rowval, zrow.
  rewrite (affine_map IZR Z.add Rplus Z.mul rscale 0%Z 0 a b d zrow_add (fun k x => mult_IZR k x) eq_refl).
  rewrite heval_affine_scaled by exact Hd. rewrite map_length. now rewrite (proj1 (Forall_forall _ p) F r Hr).
Qed.
Lemma positive2_sound k t ax bx dx ay by_ dy p x y : positive2 k t ax bx dx ay by_ dy p = true ->
  IZR ax / IZR dx <= x <= (IZR ax + IZR bx) / IZR dx -> IZR ay / IZR dy <= y <= (IZR ay + IZR by_) / IZR dy -> 0 < val2 p x y.
Proof.
  unfold positive2. cbv zeta. intros H Hx Hy. apply andb_true_iff in H. destruct H as [H C]. apply andb_true_iff in H. destruct H as [H SL].
  apply andb_true_iff in H. destruct H as [H H4]. apply andb_true_iff in H. destruct H as [H H3]. apply andb_true_iff in H. destruct H as [H1 H2].
  apply Z.ltb_lt in H1, H2, H3, H4. apply andb_true_iff in C. destruct C as [S2 C]. apply rows_ok_same in SL, S2.
  destruct (unit_coordinate _ _ _ x (IZR_lt _ _ H1) (IZR_lt _ _ H2) Hx) as [UX EX]. destruct (unit_coordinate _ _ _ y (IZR_lt _ _ H3) (IZR_lt _ _ H4) Hy) as [UY EY].
  pose proof (check2_sound t _ k _ _ S2 C UX UY) as P. unfold val2 in P.
  rewrite (affine_map (rowval _) radd Rplus rowscale rscale [] 0 ax bx dx (rowval_add _) (rowval_scale _) eq_refl) in P.
  rewrite heval_affine_scaled in P by exact H1. rewrite EX in P. apply pow_pos_cancel in P; [|now apply IZR_lt].
  rewrite (rows_affine p k ay by_ dy _ SL H3) in P. rewrite EY in P. rewrite heval_map_scale in P. apply pow_pos_cancel in P; [exact P|now apply IZR_lt].
Qed.
