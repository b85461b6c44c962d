(** Lemmas about the ExB advection operators. *)

From Coq Require Import List Bool ZArith Reals Lra Lia.
From Verif Require Import StateMonad LimitersModel LimitersSpec LimitersProofs ParallelModel ParallelSpec ParallelProofs ParallelLaws
  DiffusionModel DiffusionSpec DiffusionProofs DiffusionProofs2 ExBModel ExBSpec.
Import ListNotations.
Open Scope R_scope.

(** ** Deposits *)

Definition lsum (l : list R) : R := fold_right Rplus 0 l.
Lemma lsum_app a b : lsum (a ++ b)%list = lsum a + lsum b.
Proof. unfold lsum. induction a as [|x a IH]; cbn [app fold_right]; [lra|]. rewrite IH. lra. Qed.

Definition hit (i k : Z) (d : deposit) : R := if (Z.eqb i (d_i d) && Z.eqb k (d_k d))%bool then d_x d else 0.
Definition hits (i k : Z) (l : list deposit) : R := lsum (map (hit i k) l).

Lemma hits_app i k a b : hits i k (a ++ b)%list = hits i k a + hits i k b.
Proof. unfold hits. rewrite map_app. apply lsum_app. Qed.

Lemma fold_add l : forall r i k, fold_left add l r i k = r i k + hits i k l.
Proof.
  induction l as [|d l IH]; intros r i k; cbn [fold_left]; [unfold hits, lsum; cbn [map fold_right]; lra|].
  rewrite IH. unfold hits. cbn [map lsum fold_right]. fold (lsum (map (hit i k) l)). unfold add, hit.
  destruct (_ && _)%bool; lra.
Qed.

Lemma hits_flat_map i k (g : Z -> list deposit) lo n :
  hits i k (flat_map g (irange lo (lo + Z.of_nat n - 1))) = zsum lo n (fun j => hits i k (g j)).
Proof.
  induction n as [|n IH].
  - rewrite irange_nil. reflexivity.
  - rewrite irange_snoc, flat_map_app, hits_app, IH. cbn [zsum flat_map]. now rewrite app_nil_r.
Qed.

(** ** Indices *)

Lemma zplus_minus nz k : (0 <= k < nz)%Z -> zplus nz (zminus nz k) = k.
Proof.
  intros H. unfold zplus, zminus.
  rewrite Zplus_mod_idemp_l. replace (k - 1 + nz + 1)%Z with (k + 1 * nz)%Z by lia. rewrite Z_mod_plus_full. apply Z.mod_small. lia.
Qed.
Lemma zminus_plus nz k : (0 <= k < nz)%Z -> zminus nz (zplus nz k) = k.
Proof.
  intros H. unfold zplus, zminus.
  replace ((k + 1) mod nz - 1 + nz)%Z with ((k + 1) mod nz + (nz - 1))%Z by lia.
  rewrite Zplus_mod_idemp_l. replace (k + 1 + (nz - 1))%Z with (k + 1 * nz)%Z by lia. rewrite Z_mod_plus_full. apply Z.mod_small. lia.
Qed.
Lemma zplus_range nz k : (0 < nz)%Z -> (0 <= zplus nz k < nz)%Z.
Proof. intros H. apply Z.mod_pos_bound. lia. Qed.
Lemma zminus_range nz k : (0 < nz)%Z -> (0 <= zminus nz k < nz)%Z.
Proof. intros H. apply Z.mod_pos_bound. lia. Qed.
Lemma zplus_eqb nz k k' : (0 <= k < nz)%Z -> (0 <= k' < nz)%Z -> Z.eqb k (zplus nz k') = Z.eqb (zminus nz k) k'.
Proof.
  intros H H'. destruct (Z.eqb_spec k (zplus nz k')) as [E|E], (Z.eqb_spec (zminus nz k) k') as [E'|E']; auto; exfalso.
  - apply E'. rewrite E. now apply zminus_plus.
  - apply E. rewrite <- E'. symmetry. now apply zplus_minus.
Qed.
Lemma zminus_eqb nz k k' : (0 <= k < nz)%Z -> (0 <= k' < nz)%Z -> Z.eqb k (zminus nz k') = Z.eqb (zplus nz k) k'.
Proof.
  intros H H'. destruct (Z.eqb_spec k (zminus nz k')) as [E|E], (Z.eqb_spec (zplus nz k) k') as [E'|E']; auto; exfalso.
  - apply E'. rewrite E. now apply zplus_minus.
  - apply E. rewrite <- E'. symmetry. now apply zminus_plus.
Qed.

(** ** What one cell adds *)

Definition val (o : option R) : R := match o with Some x => x | None => 0 end.

Section Cell.
  Context (edges : R -> R -> R -> R * R) (m : xmesh) (nz : Z) (J dx dz : Z -> R) (n : Z -> Z -> R)
          (gf : Z -> Z -> g_faces) (f : Z -> Z -> R) (bf : bool).
  Definition FR i k := val (xz_right edges m nz J dz n (g_R (gf i k)) f bf i k).
  Definition FL i k := val (xz_left edges m nz J dz n (g_L (gf i k)) f bf i k).
  Definition FU i k := val (xz_up edges nz J dx dz n (g_U (gf i k)) f i k).
  Definition FD i k := val (xz_down edges nz J dx dz n (g_D (gf i k)) f i k).

  Lemma cell_hits i k i' k' :
    hits i k (xz_cell edges m nz J dx dz n gf f bf i' k')
    = (if Z.eqb i i' then (if Z.eqb k k' then (FR i' k' - FL i' k') / (dx i' * J i') + FU i' k' - FD i' k' else 0) else 0)
      - (if Z.eqb (i - 1) i' then (if Z.eqb k k' then FR i' k' / (dx (i' + 1)%Z * J (i' + 1)%Z) else 0) else 0)
      + (if Z.eqb (i + 1) i' then (if Z.eqb k k' then FL i' k' / (dx (i' - 1)%Z * J (i' - 1)%Z) else 0) else 0)
      - (if Z.eqb i i' then (if Z.eqb k (zplus nz k') then FU i' k' else 0) else 0)
      + (if Z.eqb i i' then (if Z.eqb k (zminus nz k') then FD i' k' else 0) else 0).
  Proof.
    unfold xz_cell, FR, FL, FU, FD.
    replace (Z.eqb (i - 1) i') with (Z.eqb i (i' + 1)) by (destruct (Z.eqb_spec i (i' + 1)), (Z.eqb_spec (i - 1) i'); auto; lia).
    replace (Z.eqb (i + 1) i') with (Z.eqb i (i' - 1)) by (destruct (Z.eqb_spec i (i' - 1)), (Z.eqb_spec (i + 1) i'); auto; lia).
    rewrite !hits_app.
    assert (D : forall (o : option R) a b (g : R -> R) c d (h : R -> R), g 0 = 0 -> h 0 = 0 ->
      hits i k match o with Some x => [mkDeposit a b (g x); mkDeposit c d (h x)] | None => [] end
      = (if (Z.eqb i a && Z.eqb k b)%bool then g (val o) else 0) + (if (Z.eqb i c && Z.eqb k d)%bool then h (val o) else 0)).
    { intros [x|] a b g c d h G H; unfold hits, lsum; cbn [map fold_right val].
      - unfold hit. cbn [d_i d_k d_x]. ring.
      - rewrite G, H. destruct (Z.eqb i a && Z.eqb k b)%bool, (Z.eqb i c && Z.eqb k d)%bool; ring. }
    rewrite (D _ i' k' (fun x => x / (dx i' * J i')) (i' + 1)%Z k' (fun x => - (x / (dx (i' + 1)%Z * J (i' + 1)%Z)))) by (unfold Rdiv; ring).
    rewrite (D _ i' k' (fun x => - (x / (dx i' * J i'))) (i' - 1)%Z k' (fun x => x / (dx (i' - 1)%Z * J (i' - 1)%Z))) by (unfold Rdiv; ring).
    rewrite (D _ i' k' (fun x => x) i' (zplus nz k') (fun x => - x)) by ring.
    rewrite (D _ i' k' (fun x => - x) i' (zminus nz k') (fun x => x)) by ring.
    generalize (val (xz_right edges m nz J dz n (g_R (gf i' k')) f bf i' k')) (val (xz_left edges m nz J dz n (g_L (gf i' k')) f bf i' k'))
      (val (xz_up edges nz J dx dz n (g_U (gf i' k')) f i' k')) (val (xz_down edges nz J dx dz n (g_D (gf i' k')) f i' k')). intros r l u d. clear D.
    destruct (Z.eqb i i'), (Z.eqb i (i' + 1)), (Z.eqb i (i' - 1)), (Z.eqb k k'), (Z.eqb k (zplus nz k')), (Z.eqb k (zminus nz k')); cbn [andb];
      unfold Rdiv; ring.
  Qed.

  Lemma zsum_zero lo c : zsum lo c (fun _ => 0) = 0.
  Proof. induction c as [|c IH]; cbn [zsum]; lra. Qed.
  Lemma zsum_minus lo c g h : zsum lo c (fun j => g j - h j) = zsum lo c g - zsum lo c h.
  Proof. induction c as [|c IH]; cbn [zsum]; lra. Qed.

  Lemma pick (F : Z -> Z -> R) i k lo c nzn : (0 <= k < Z.of_nat nzn)%Z ->
    zsum lo c (fun i' => zsum 0 nzn (fun k' => if Z.eqb i i' then (if Z.eqb k k' then F i' k' else 0) else 0))
    = if (Z.leb lo i && Z.ltb i (lo + Z.of_nat c))%bool then F i k else 0.
  Proof.
    intros Hk.
    rewrite (zsum_ext _ _ _ (fun i' => if Z.eqb i i' then F i' k else 0)).
    - exact (zsum_indicator lo c i (fun i' => F i' k)).
    - intros j _. destruct (Z.eqb_spec i j) as [->|N]; [|apply zsum_zero]. rewrite (zsum_indicator 0 nzn k (fun k' => F j k')).
      replace (Z.leb 0 k && Z.ltb k (0 + Z.of_nat nzn))%bool with true; [reflexivity|].
      symmetry. apply andb_true_intro. split; [apply Z.leb_le|apply Z.ltb_lt]; lia.
  Qed.

  Lemma pick_plus (F : Z -> Z -> R) i k lo c nzn : nz = Z.of_nat nzn -> (0 <= k < Z.of_nat nzn)%Z ->
    zsum lo c (fun i' => zsum 0 nzn (fun k' => if Z.eqb i i' then (if Z.eqb k (zplus nz k') then F i' k' else 0) else 0))
    = if (Z.leb lo i && Z.ltb i (lo + Z.of_nat c))%bool then F i (zminus nz k) else 0.
  Proof.
    intros Hz Hk. rewrite <- (pick F i (zminus nz k) lo c nzn) by (rewrite <- Hz; apply zminus_range; lia).
    apply zsum_ext. intros i' _. apply zsum_ext. intros k' Hk'. rewrite zplus_eqb by lia. reflexivity.
  Qed.
  Lemma pick_minus (F : Z -> Z -> R) i k lo c nzn : nz = Z.of_nat nzn -> (0 <= k < Z.of_nat nzn)%Z ->
    zsum lo c (fun i' => zsum 0 nzn (fun k' => if Z.eqb i i' then (if Z.eqb k (zminus nz k') then F i' k' else 0) else 0))
    = if (Z.leb lo i && Z.ltb i (lo + Z.of_nat c))%bool then F i (zplus nz k) else 0.
  Proof.
    intros Hz Hk. rewrite <- (pick F i (zplus nz k) lo c nzn) by (rewrite <- Hz; apply zplus_range; lia).
    apply zsum_ext. intros i' _. apply zsum_ext. intros k' Hk'. rewrite zminus_eqb by lia. reflexivity.
  Qed.

  Definition within lo c i : bool := (Z.leb lo i && Z.ltb i (lo + Z.of_nat c))%bool.

  Lemma loop_hits c nzn i k : nz = Z.of_nat nzn -> xend m = (xstart m + Z.of_nat c - 1)%Z -> (0 <= k < nz)%Z ->
    (xstart m <= i < xstart m + Z.of_nat c)%Z ->
    hits i k (xz_loop edges m nz J dx dz n gf f bf)
    = (FR i k - FL i k) / (dx i * J i) + FU i k - FD i k
      - (if within (xstart m) c (i - 1) then FR (i - 1)%Z k / (dx i * J i) else 0)
      + (if within (xstart m) c (i + 1) then FL (i + 1)%Z k / (dx i * J i) else 0)
      - FU i (zminus nz k) + FD i (zplus nz k).
  Proof.
    intros Hz Hx Hk Hi. unfold xz_loop. rewrite Hx.
    rewrite hits_flat_map.
    rewrite (zsum_ext _ _ _ (fun i' => zsum 0 nzn (fun k' => hits i k (xz_cell edges m nz J dx dz n gf f bf i' k')))).
    2: { intros j _. replace (nz - 1)%Z with (0 + Z.of_nat nzn - 1)%Z by lia. rewrite hits_flat_map. reflexivity. }
    rewrite (zsum_ext _ _ _ (fun i' =>
      zsum 0 nzn (fun k' => if Z.eqb i i' then (if Z.eqb k k' then (FR i' k' - FL i' k') / (dx i' * J i') + FU i' k' - FD i' k' else 0) else 0)
      - zsum 0 nzn (fun k' => if Z.eqb (i - 1) i' then (if Z.eqb k k' then FR i' k' / (dx (i' + 1)%Z * J (i' + 1)%Z) else 0) else 0)
      + zsum 0 nzn (fun k' => if Z.eqb (i + 1) i' then (if Z.eqb k k' then FL i' k' / (dx (i' - 1)%Z * J (i' - 1)%Z) else 0) else 0)
      - zsum 0 nzn (fun k' => if Z.eqb i i' then (if Z.eqb k (zplus nz k') then FU i' k' else 0) else 0)
      + zsum 0 nzn (fun k' => if Z.eqb i i' then (if Z.eqb k (zminus nz k') then FD i' k' else 0) else 0))).
    2: { intros i' _. rewrite <- zsum_minus, <- zsum_plus, <- zsum_minus, <- zsum_plus. apply zsum_ext. intros k' _. apply cell_hits. }
    rewrite zsum_plus, zsum_minus, zsum_plus, zsum_minus.
    rewrite (pick (fun i' k' => (FR i' k' - FL i' k') / (dx i' * J i') + FU i' k' - FD i' k')) by lia.
    rewrite (pick (fun i' k' => FR i' k' / (dx (i' + 1)%Z * J (i' + 1)%Z))) by lia.
    rewrite (pick (fun i' k' => FL i' k' / (dx (i' - 1)%Z * J (i' - 1)%Z))) by lia.
    rewrite (pick_plus FU) by (assumption || lia). rewrite (pick_minus FD) by (assumption || lia).
    fold (within (xstart m) c i). fold (within (xstart m) c (i - 1)). fold (within (xstart m) c (i + 1)).
    replace (within (xstart m) c i) with true by (symmetry; apply andb_true_intro; split; [apply Z.leb_le|apply Z.ltb_lt]; lia).
    replace (i - 1 + 1)%Z with i by lia. replace (i + 1 - 1)%Z with i by lia. ring.
  Qed.
End Cell.

(** ** Splitting the domain: the processors together run the loop of a single one. *)

Lemma irange_app lo n k :
  irange lo (lo + Z.of_nat (n + k) - 1) = (irange lo (lo + Z.of_nat n - 1) ++ irange (lo + Z.of_nat n) (lo + Z.of_nat n + Z.of_nat k - 1))%list.
Proof.
  induction k as [|k IH].
  - rewrite Nat.add_0_r, irange_nil, app_nil_r. reflexivity.
  - rewrite Nat.add_succ_r, irange_snoc, IH, irange_snoc, app_assoc.
    replace (lo + Z.of_nat (n + k))%Z with (lo + Z.of_nat n + Z.of_nat k)%Z by lia. reflexivity.
Qed.

Lemma irange_in lo n j : In j (irange lo (lo + Z.of_nat n - 1)) -> (lo <= j < lo + Z.of_nat n)%Z.
Proof.
  unfold irange. rewrite in_map_iff. intros (x & <- & Hx). apply in_seq in Hx.
  replace (Z.to_nat (lo + Z.of_nat n - 1 - lo + 1)) with n in Hx by lia. lia.
Qed.

Lemma flat_map_ext_range {A B} (g h : A -> list B) l : (forall x, In x l -> g x = h x) -> flat_map g l = flat_map h l.
Proof.
  induction l as [|x l IH]; intros E; [reflexivity|]. cbn. rewrite (E x) by (left; reflexivity).
  rewrite IH; [reflexivity|]. intros y Hy. apply E. now right.
Qed.

Lemma xz_cell_mesh edges m m' nz J dx dz n gf f bf i k :
  (Z.eqb i (xend m) && lastX m)%bool = (Z.eqb i (xend m') && lastX m')%bool ->
  (Z.eqb i (xstart m) && firstX m)%bool = (Z.eqb i (xstart m') && firstX m')%bool ->
  xz_cell edges m nz J dx dz n gf f bf i k = xz_cell edges m' nz J dx dz n gf f bf i k.
Proof. intros A B. unfold xz_cell, xz_right, xz_left. rewrite A, B. reflexivity. Qed.

Definition whole (N : Z) : xmesh := mkXmesh 0 (N - 1) 0 true true.

Lemma split_loops edges N nz J dx dz n gf f bf sizes : forall a,
  (0 <= a)%Z -> (a + Z.of_nat (list_sum sizes) <= N)%Z -> Forall (fun s => (0 < s)%nat) sizes ->
  flat_map (fun p => xz_processor edges N (fst p) (snd p) nz J dx dz n gf f bf) (processors a sizes)
  = flat_map (fun i => flat_map (fun k => xz_cell edges (whole N) nz J dx dz n gf f bf i k) (irange 0 (nz - 1)))
      (irange a (a + Z.of_nat (list_sum sizes) - 1)).
Proof.
  induction sizes as [|s sizes IH]; intros a Ha HN Hs.
  - change (list_sum []) with 0%nat. rewrite irange_nil. reflexivity.
  - change (list_sum (s :: sizes)) with (s + list_sum sizes)%nat in *.
    cbn [processors flat_map fst snd]. inversion Hs as [|? ? S1 S2]; subst. rewrite irange_app, flat_map_app. f_equal.
    + unfold xz_processor, xz_loop. cbn [xstart xend].
      apply flat_map_ext_range. intros i Hi. apply irange_in in Hi.
      apply flat_map_ext. intros k. apply xz_cell_mesh; unfold whole; cbn [xstart xend firstX lastX].
      * destruct (Z.eqb_spec i (a + Z.of_nat s - 1)), (Z.eqb_spec (a + Z.of_nat s) N), (Z.eqb_spec i (N - 1)); auto; lia.
      * destruct (Z.eqb_spec i a), (Z.eqb_spec a 0), (Z.eqb_spec i 0); auto; lia.
    + rewrite IH; [reflexivity|lia|lia|assumption].
Qed.
