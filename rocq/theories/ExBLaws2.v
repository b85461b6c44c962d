(** Uniform flow, empty cells, splitting, and the poloidal parts of the ExB advection operators. *)

From Coq Require Import List Bool ZArith Reals Lra Lia.
From Verif Require Import StateMonad LimitersModel LimitersSpec LimitersProofs ParallelModel ParallelSpec ParallelProofs ParallelLaws
  ParallelHeating DiffusionModel DiffusionSpec DiffusionProofs DiffusionProofs2 ExBModel ExBSpec ExBProofs ExBLaws.
Import ListNotations.
Open Scope R_scope.

(** ** Wrappers for the two operators *)

Lemma xppm_divergence edges nzn J dx dz h n f bf sizes N i k :
  xz_domain nzn J dx dz h sizes N -> (0 <= i < N)%Z -> (0 <= k < Z.of_nat nzn)%Z ->
  let nz := Z.of_nat nzn in
  let X := x_line edges nz J h n one_faces f bf N in
  let Z := z_flux_exb edges nz J dx n one_faces f in
  XPPM_XZ edges (processors 0 sizes) N nz J dx dz n f bf i k
  = (X (i + 1)%Z k - X i k) / (dx i * J i) + (Z i (zplus nz k) - Z i k) / (J i * h).
Proof.
  intros (Hz & HJ & Hdx & Hh & Hdz & _ & Hs & HN) Hi Hk nz X Z. unfold XPPM_XZ.
  apply (cell_divergence edges nzn J dx dz h n f g_none one_faces one_faces bf N HJ Hdx Hh Hdz (none_match _)); assumption.
Qed.
Lemma xzg_divergence edges nzn J dx dz h n g f bf sizes N i k :
  xz_domain nzn J dx dz h sizes N -> (0 <= i < N)%Z -> (0 <= k < Z.of_nat nzn)%Z ->
  let nz := Z.of_nat nzn in
  let X := x_line edges nz J h n (mean_x g) f bf N in
  let Z := z_flux_exb edges nz J dx n (mean_z nz g) f in
  Div_n_g_bxGrad_f_B_XZ edges (processors 0 sizes) N nz J dx dz n g f bf i k
  = (X (i + 1)%Z k - X i k) / (dx i * J i) + (Z i (zplus nz k) - Z i k) / (J i * h).
Proof.
  intros (Hz & HJ & Hdx & Hh & Hdz & _ & Hs & HN) Hi Hk nz X Z. unfold Div_n_g_bxGrad_f_B_XZ.
  apply (cell_divergence edges nzn J dx dz h n f (g_mean nz g) (mean_x g) (mean_z nz g) bf N HJ Hdx Hh Hdz (mean_match _ _)); assumption.
Qed.

Lemma xppm_total edges nzn J dx dz h n f bf sizes N :
  xz_domain nzn J dx dz h sizes N ->
  let nz := Z.of_nat nzn in
  total2 (fun i _ => J i * dx i) 0 (list_sum sizes) 0 nzn (XPPM_XZ edges (processors 0 sizes) N nz J dx dz n f bf)
  = zsum 0 nzn (fun k => x_line edges nz J h n one_faces f bf N N k - x_line edges nz J h n one_faces f bf N 0 k).
Proof.
  intros (Hz & HJ & Hdx & Hh & Hdz & _ & Hs & HN) nz. unfold XPPM_XZ.
  apply (cell_total edges nzn J dx dz h n f g_none one_faces one_faces bf N HJ Hdx Hh Hdz (none_match _)); assumption.
Qed.
Lemma xzg_total edges nzn J dx dz h n g f bf sizes N :
  xz_domain nzn J dx dz h sizes N ->
  let nz := Z.of_nat nzn in
  total2 (fun i _ => J i * dx i) 0 (list_sum sizes) 0 nzn (Div_n_g_bxGrad_f_B_XZ edges (processors 0 sizes) N nz J dx dz n g f bf)
  = zsum 0 nzn (fun k => x_line edges nz J h n (mean_x g) f bf N N k - x_line edges nz J h n (mean_x g) f bf N 0 k).
Proof.
  intros (Hz & HJ & Hdx & Hh & Hdz & _ & Hs & HN) nz. unfold Div_n_g_bxGrad_f_B_XZ.
  apply (cell_total edges nzn J dx dz h n f (g_mean nz g) (mean_x g) (mean_z nz g) bf N HJ Hdx Hh Hdz (mean_match _ _)); assumption.
Qed.

Lemma domain_pos sizes : sizes <> [] -> Forall (fun s => (0 < s)%nat) sizes -> (0 < list_sum sizes)%nat.
Proof. intros H F. destruct F as [|s l Hs F]; [congruence|]. cbn. lia. Qed.

Lemma x_line_off edges nz J h n gx f N k : x_line edges nz J h n gx f false N N k = 0 /\ x_line edges nz J h n gx f false N 0 k = 0.
Proof. unfold x_line. rewrite !Z.eqb_refl. destruct (Z.eqb N 0); auto. Qed.

Lemma xppm_closed edges nzn J dx dz h n f sizes N :
  xz_domain nzn J dx dz h sizes N ->
  total2 (fun i _ => J i * dx i) 0 (list_sum sizes) 0 nzn (XPPM_XZ edges (processors 0 sizes) N (Z.of_nat nzn) J dx dz n f false) = 0.
Proof.
  intros H. rewrite (xppm_total edges nzn J dx dz h n f false sizes N H).
  rewrite (zsum_ext _ _ _ (fun _ => 0)); [apply zsum_zero|]. intros k _.
  destruct (x_line_off edges (Z.of_nat nzn) J h n one_faces f N k) as [-> ->]. ring.
Qed.
Lemma xzg_closed edges nzn J dx dz h n g f sizes N :
  xz_domain nzn J dx dz h sizes N ->
  total2 (fun i _ => J i * dx i) 0 (list_sum sizes) 0 nzn (Div_n_g_bxGrad_f_B_XZ edges (processors 0 sizes) N (Z.of_nat nzn) J dx dz n g f false) = 0.
Proof.
  intros H. rewrite (xzg_total edges nzn J dx dz h n g f false sizes N H).
  rewrite (zsum_ext _ _ _ (fun _ => 0)); [apply zsum_zero|]. intros k _.
  destruct (x_line_off edges (Z.of_nat nzn) J h n (mean_x g) f N k) as [-> ->]. ring.
Qed.

(** ** Splitting *)

Lemma xz_split edges N nz J dx dz n gf f bf sizes :
  Forall (fun s => (0 < s)%nat) sizes -> N = Z.of_nat (list_sum sizes) -> (0 < list_sum sizes)%nat ->
  xz_all edges (processors 0 sizes) N nz J dx dz n gf f bf = xz_all edges [(0%Z, list_sum sizes)] N nz J dx dz n gf f bf.
Proof.
  intros Hs HN Hp. unfold xz_all. f_equal.
  rewrite (split_loops edges N nz J dx dz n gf f bf sizes 0) by (assumption || lia).
  change [(0%Z, list_sum sizes)] with (processors 0 [list_sum sizes]).
  rewrite (split_loops edges N nz J dx dz n gf f bf [list_sum sizes] 0); [|lia| |repeat constructor; exact Hp].
  - change (list_sum [list_sum sizes]) with (list_sum sizes + 0)%nat. rewrite Nat.add_0_r. reflexivity.
  - change (list_sum [list_sum sizes]) with (list_sum sizes + 0)%nat. lia.
Qed.

(** ** Uniform density *)

Lemma upwind_same v a : upwind v a a = v * a.
Proof. unfold upwind. destruct (Rlt_dec 0 v); reflexivity. Qed.

Lemma xppm_uniform edges nzn J dx dz h c f sizes N i k :
  xz_domain nzn J dx dz h sizes N -> (forall x, edges x x x = (x, x)) -> (0 <= i < N)%Z -> (0 <= k < Z.of_nat nzn)%Z ->
  let nz := Z.of_nat nzn in
  XPPM_XZ edges (processors 0 sizes) N nz J dx dz (fun _ _ => c) f true i k
  = c * ((J (i + 1)%Z - J i) / 2 * ((corner nz f (i + 1) (zplus nz k) - corner nz f (i + 1) k) / h)
         + (J i - J (i - 1)%Z) / 2 * ((corner nz f i (zplus nz k) - corner nz f i k) / h)) / (dx i * J i).
Proof.
  intros D HE Hi Hk nz. rewrite (xppm_divergence edges nzn J dx dz h _ f true sizes N i k D Hi Hk). cbv zeta. fold nz.
  assert (X : forall i, x_line edges nz J h (fun _ _ => c) one_faces f true N i k = x_velocity nz J h f i k * c).
  { intros i'. unfold x_line, x_flux, x_flux_low, x_flux_high, below, above, one_faces. rewrite HE. cbn [fst snd].
    replace ((c + c) / 2) with c by lra. rewrite !upwind_same.
    destruct (Z.eqb_spec i' 0) as [->|]; [ring|]. destruct (Z.eqb_spec i' N) as [->|]; ring. }
  assert (Z1 : forall k, z_flux_exb edges nz J dx (fun _ _ => c) one_faces f i k = z_velocity nz J dx f i k * c).
  { intros k'. unfold z_flux_exb, z_below, z_above, one_faces. rewrite HE. cbn [fst snd]. rewrite upwind_same. ring. }
  rewrite !X, !Z1. unfold x_velocity, z_velocity. replace (i + 1 - 1)%Z with i by lia.
  destruct D as (_ & HJ & Hdx & Hh & _). pose proof (HJ i). pose proof (Hdx i). field. lra.
Qed.

(** ** Empty cells *)

Lemma edges_nonneg edges a b c : bounded_by_neighbours edges -> 0 <= a -> 0 <= b -> 0 <= c ->
  0 <= fst (edges a b c) /\ 0 <= snd (edges a b c).
Proof.
  intros B Ha Hb Hc. destruct (B a b c) as ((L1 & _) & (L2 & _)). revert L1 L2. unfold Rmin. destruct (Rle_dec a b), (Rle_dec b c); lra.
Qed.
Lemma edges_empty edges a c : flat_at_extrema edges -> 0 <= a -> 0 <= c -> edges a 0 c = (0, 0).
Proof. intros F Ha Hc. apply F. right. lra. Qed.

Lemma upwind_out v b : 0 <= b -> upwind v 0 b <= 0.
Proof. intros H. unfold upwind. destruct (Rlt_dec 0 v); [lra|]. assert (0 <= (- v) * b) by (apply Rmult_le_pos; lra). lra. Qed.
Lemma upwind_in v a : 0 <= a -> 0 <= upwind v a 0.
Proof. intros H. unfold upwind. destruct (Rlt_dec 0 v); [|lra]. apply Rmult_le_pos; lra. Qed.

Lemma xppm_empty edges nzn J dx dz h n f bf sizes N i k :
  xz_domain nzn J dx dz h sizes N -> bounded_by_neighbours edges -> flat_at_extrema edges ->
  (forall i k, 0 <= n i k) -> n i k = 0 -> (0 <= i < N)%Z -> (0 <= k < Z.of_nat nzn)%Z ->
  XPPM_XZ edges (processors 0 sizes) N (Z.of_nat nzn) J dx dz n f bf i k <= 0.
Proof.
  intros D B F Hn H0 Hi Hk. rewrite (xppm_divergence edges nzn J dx dz h n f bf sizes N i k D Hi Hk). cbv zeta. set (nz := Z.of_nat nzn).
  assert (X1 : x_line edges nz J h n one_faces f bf N (i + 1) k <= 0).
  { unfold x_line, x_flux, x_flux_high, one_faces. replace (Z.eqb (i + 1) 0) with false by (symmetry; apply Z.eqb_neq; lia).
    assert (E : below edges (fun i => n i k) (i + 1) = 0).
    { unfold below. replace (i + 1 - 2)%Z with (i - 1)%Z by lia. replace (i + 1 - 1)%Z with i by lia. rewrite H0, edges_empty by auto. reflexivity. }
    rewrite !Rmult_1_r. destruct (Z.eqb_spec (i + 1) N) as [<-|].
    - destruct bf; [|lra]. rewrite E. apply upwind_out. pose proof (Hn (i + 1 - 1)%Z k). pose proof (Hn (i + 1)%Z k). lra.
    - rewrite E. apply upwind_out. unfold above. apply edges_nonneg; auto. }
  assert (X0 : 0 <= x_line edges nz J h n one_faces f bf N i k).
  { unfold x_line, x_flux, x_flux_low, one_faces. replace (Z.eqb i N) with false by (symmetry; apply Z.eqb_neq; lia).
    assert (E : above edges (fun i => n i k) i = 0) by (unfold above; rewrite H0, edges_empty by auto; reflexivity).
    rewrite !Rmult_1_r. destruct (Z.eqb_spec i 0) as [->|].
    - destruct bf; [|lra]. rewrite E. apply upwind_in. pose proof (Hn (-1)%Z k). pose proof (Hn 0%Z k). lra.
    - rewrite E. apply upwind_in. unfold below. apply edges_nonneg; auto. }
  assert (Z1 : z_flux_exb edges nz J dx n one_faces f i (zplus nz k) <= 0).
  { unfold z_flux_exb, one_faces. rewrite Rmult_1_r.
    assert (E : z_below edges nz n i (zplus nz k) = 0) by (unfold z_below; rewrite !zminus_plus, H0, edges_empty by auto; reflexivity).
    rewrite E. apply upwind_out. unfold z_above. apply edges_nonneg; auto. }
  assert (Z0 : 0 <= z_flux_exb edges nz J dx n one_faces f i k).
  { unfold z_flux_exb, one_faces. rewrite Rmult_1_r.
    assert (E : z_above edges nz n i k = 0) by (unfold z_above; rewrite H0, edges_empty by auto; reflexivity).
    rewrite E. apply upwind_in. unfold z_below. apply edges_nonneg; auto. }
  destruct D as (_ & HJ & Hdx & Hh & _). pose proof (HJ i). pose proof (Hdx i).
  assert (A : 0 < / (dx i * J i)) by (apply Rinv_0_lt_compat, Rmult_lt_0_compat; assumption).
  assert (A' : 0 < / (J i * h)) by (apply Rinv_0_lt_compat, Rmult_lt_0_compat; assumption).
  unfold Rdiv.
  assert (0 <= (x_line edges nz J h n one_faces f bf N i k - x_line edges nz J h n one_faces f bf N (i + 1) k) * / (dx i * J i)) by (apply Rmult_le_pos; lra).
  assert (0 <= (z_flux_exb edges nz J dx n one_faces f i k - z_flux_exb edges nz J dx n one_faces f i (zplus nz k)) * / (J i * h)) by (apply Rmult_le_pos; lra).
  lra.
Qed.

(** ** Loops that move a flux from one cell to the next *)

Lemma move_loop (step : (Z -> R) -> Z -> Z -> R) (a b : Z -> R) lo n :
  (forall r j i, step r j i = r i + (if Z.eqb i j then a j else 0) - (if Z.eqb (i - 1) j then b j else 0)) ->
  forall i, fold_left step (irange lo (lo + Z.of_nat n - 1)) (fun _ => 0) i
    = (if within lo n i then a i else 0) - (if within lo n (i - 1) then b (i - 1)%Z else 0).
Proof.
  intros H i. unfold within. rewrite <- (zsum_indicator lo n i a), <- (zsum_indicator lo n (i - 1) b).
  induction n as [|n IH].
  - rewrite irange_nil. cbn [fold_left zsum]. lra.
  - rewrite irange_snoc, fold_left_app. cbn [fold_left zsum]. rewrite H, IH. ring.
Qed.

Lemma move_step (r : Z -> R) j x y i : 
  upd (upd r j (r j + x)) (j + 1)%Z (upd r j (r j + x) (j + 1)%Z - y) i = r i + (if Z.eqb i j then x else 0) - (if Z.eqb (i - 1) j then y else 0).
Proof.
  unfold upd. replace (Z.eqb (j + 1) j) with false by (symmetry; apply Z.eqb_neq; lia).
  replace (Z.eqb (i - 1) j) with (Z.eqb i (j + 1)) by (destruct (Z.eqb_spec i (j + 1)), (Z.eqb_spec (i - 1) j); auto; lia).
  destruct (Z.eqb_spec i (j + 1)) as [->|]; [|destruct (Z.eqb_spec i j) as [->|]; lra].
  replace (Z.eqb (j + 1) j) with false by (symmetry; apply Z.eqb_neq; lia). lra.
Qed.

(** ** Poloidal parts *)

Lemma fromm_right_below positive n i : fromm_right positive n (i - 1) = fromm_below positive n i.
Proof.
  unfold fromm_right, fromm_below. replace (i - 1 + 1)%Z with i by lia. replace (i - 1 - 1)%Z with (i - 2)%Z by lia.
  replace (n (i - 1)%Z + 0.25 * (n i - n (i - 2)%Z)) with (n (i - 1)%Z + (n i - n (i - 2)%Z) / 4) by lra.
  destruct positive; cbn [andb]; [|reflexivity]. unfold Rltb, Rmax. destruct (Rlt_dec _ _), (Rle_dec _ _); lra.
Qed.
Lemma fromm_left_above positive n i : fromm_left positive n (i - 1) = fromm_above positive n i.
Proof.
  unfold fromm_left, fromm_above. replace (i - 1 + 1)%Z with i by lia. replace (i - 1 + 2)%Z with (i + 1)%Z by lia.
  replace (n i - 0.25 * (n (i + 1)%Z - n (i - 1)%Z)) with (n i - (n (i + 1)%Z - n (i - 1)%Z) / 4) by lra.
  destruct positive; cbn [andb]; [|reflexivity]. unfold Rltb, Rmax. destruct (Rlt_dec _ _), (Rle_dec _ _); lra.
Qed.

Lemma pol_x_flux_face J q d n positive i :
  pol_x_flux J q d n positive (i - 1) = upwind (pol_velocity J q d i) (fromm_below positive n i) (fromm_above positive n i).
Proof.
  unfold pol_x_flux. rewrite fromm_right_below, fromm_left_above.
  assert (E : Vx J q d (i - 1) = pol_velocity J q d i).
  { unfold Vx, pol_velocity, mean. replace (i - 1 + 1)%Z with i by lia. replace 0.5 with (/ 2) by lra. field. }
  rewrite E. unfold upwind, Rltb. destruct (Rlt_dec _ _); reflexivity.
Qed.

Lemma pol_x_cell m c J dx q d n bf positive i :
  xmesh_ok m c -> (forall i, 0 < J i) -> (forall i, 0 < dx i) -> (xstart m <= i < xstart m + Z.of_nat c)%Z ->
  J i * dx i * pol_x m J dx q d n bf positive i = pol_x_line m J q d n bf positive (i + 1) - pol_x_line m J q d n bf positive i.
Proof.
  intros [Hc Hx] HJ Hdx Hi. unfold pol_x.
  set (xs := if (negb bf && firstX m)%bool then xstart m else (xstart m - 1)%Z).
  set (xe := if (negb bf && lastX m)%bool then (xend m - 1)%Z else xend m).
  assert (Hl : exists l, xe = (xs + Z.of_nat l - 1)%Z).
  { exists (Z.to_nat (xe - xs + 1)). unfold xs, xe. destruct (_ && _)%bool, (_ && _)%bool; lia. }
  destruct Hl as [l Hl]. rewrite Hl.
  rewrite (move_loop _ (fun j => pol_x_flux J q d n positive j / (dx j * J j)) (fun j => pol_x_flux J q d n positive j / (dx (j + 1)%Z * J (j + 1)%Z)))
    by (intros; unfold pol_x_step; apply move_step).
  unfold within, pol_x_line. rewrite <- !pol_x_flux_face. replace (i + 1 - 1)%Z with i by lia. replace (i - 1 + 1)%Z with i by lia.
  replace (xs + Z.of_nat l)%Z with (xe + 1)%Z by lia. clear Hl l.
  pose proof (HJ i). pose proof (Hdx i).
  assert (A : (negb bf && (firstX m && Z.eqb (i + 1) (xstart m) || lastX m && Z.eqb (i + 1) (xend m + 1)))%bool = negb (Z.leb xs i && Z.ltb i (xe + 1))).
  { unfold xs, xe. destruct bf, (firstX m), (lastX m); cbn [negb andb orb];
      destruct (Z.eqb_spec (i + 1) (xstart m)), (Z.eqb_spec (i + 1) (xend m + 1)); cbn [orb]; try lia;
      repeat match goal with |- context [Z.leb ?a ?b] => destruct (Z.leb_spec a b) | |- context [Z.ltb ?a ?b] => destruct (Z.ltb_spec a b) end; cbn; auto; lia. }
  assert (B : (negb bf && (firstX m && Z.eqb i (xstart m) || lastX m && Z.eqb i (xend m + 1)))%bool = negb (Z.leb xs (i - 1) && Z.ltb (i - 1) (xe + 1))).
  { unfold xs, xe. destruct bf, (firstX m), (lastX m); cbn [negb andb orb];
      destruct (Z.eqb_spec i (xstart m)), (Z.eqb_spec i (xend m + 1)); cbn [orb]; try lia;
      repeat match goal with |- context [Z.leb ?a ?b] => destruct (Z.leb_spec a b) | |- context [Z.ltb ?a ?b] => destruct (Z.ltb_spec a b) end; cbn; auto; lia. }
  rewrite A, B. destruct (Z.leb xs i && Z.ltb i (xe + 1))%bool, (Z.leb xs (i - 1) && Z.ltb (i - 1) (xe + 1))%bool; cbn [negb]; field; lra.
Qed.

Lemma pol_x_total m c J dx q d n bf positive :
  xmesh_ok m c -> (forall i, 0 < J i) -> (forall i, 0 < dx i) ->
  total (fun i => J i * dx i) (xstart m) c (pol_x m J dx q d n bf positive)
  = pol_x_line m J q d n bf positive (xstart m + Z.of_nat c) - pol_x_line m J q d n bf positive (xstart m).
Proof. intros M HJ Hdx. apply total_flux_form. intros i Hi. now apply (pol_x_cell m c). Qed.

Lemma pol_y_flux_face m c J q d n positive j :
  mesh_ok m c -> (ystart m <= j <= ystart m + Z.of_nat c)%Z ->
  pol_y_flux m J q d n positive (j - 1) = upwind (pol_y_velocity m J q d j) (fromm_below positive n j) (fromm_above positive n j).
Proof.
  intros M Hj. assert (Hc : (0 < c)%nat /\ yend m = (ystart m + Z.of_nat c - 1)%Z) by (unfold mesh_ok in M; tauto). destruct Hc as [Hc Hy].
  unfold pol_y_flux. rewrite fromm_right_below, fromm_left_above.
  assert (E : Vy m J q d (j - 1) = pol_y_velocity m J q d j).
  { unfold Vy, pol_y_velocity, closed_low, closed_high. replace (j - 1 + 1)%Z with j by lia.
    replace (- 0.5 * (J j + J (j - 1)%Z) * (0.5 * (q j * d j + q (j - 1)%Z * d (j - 1)%Z))) with (- pol_velocity J q d j)
      by (unfold pol_velocity, mean; replace (- 0.5) with (- / 2) by lra; replace 0.5 with (/ 2) by lra; field).
    replace (Z.eqb (j - 1) (ystart m - 1)) with (Z.eqb j (ystart m)) by (destruct (Z.eqb_spec j (ystart m)), (Z.eqb_spec (j - 1) (ystart m - 1)); auto; lia).
    replace (Z.eqb (j - 1) (yend m)) with (Z.eqb j (yend m + 1)) by (destruct (Z.eqb_spec j (yend m + 1)), (Z.eqb_spec (j - 1) (yend m)); auto; lia).
    assert (X : Z.eqb j (ystart m) = true -> Z.eqb j (yend m + 1) = false) by (rewrite Z.eqb_eq, Z.eqb_neq; lia).
    unfold Rltb, Rmin, Rmax.
    destruct (firstY m), (lastY m), (periodicY m); cbn [negb andb]; destruct (Z.eqb j (ystart m)); try (rewrite X by reflexivity);
      try destruct (Z.eqb j (yend m + 1)); repeat (destruct (Rlt_dec _ _) || destruct (Rle_dec _ _)); try lra; reflexivity. }
  rewrite E. unfold upwind, Rltb. destruct (Rlt_dec _ _); reflexivity.
Qed.

Lemma pol_y_cell m c J dy q d n bf positive j :
  mesh_ok m c -> (forall i, 0 < J i) -> (forall i, 0 < dy i) -> (ystart m <= j < ystart m + Z.of_nat c)%Z ->
  J j * dy j * pol_y m J dy q d n bf positive j = pol_y_line m J q d n bf positive (j + 1) - pol_y_line m J q d n bf positive j.
Proof.
  intros M HJ Hdy Hj. assert (Hc : (0 < c)%nat /\ yend m = (ystart m + Z.of_nat c - 1)%Z) by (unfold mesh_ok in M; tauto). destruct Hc as [Hc Hy].
  unfold pol_y.
  set (ys := if (negb bf && negb (periodicY m) && firstY m)%bool then ystart m else (ystart m - 1)%Z).
  set (ye := if (negb bf && negb (periodicY m) && lastY m)%bool then (yend m - 1)%Z else yend m).
  assert (Hl : exists l, ye = (ys + Z.of_nat l - 1)%Z).
  { exists (Z.to_nat (ye - ys + 1)). unfold ys, ye. destruct (_ && _)%bool, (_ && _)%bool; lia. }
  destruct Hl as [l Hl]. rewrite Hl.
  rewrite (move_loop _ (fun i => pol_y_flux m J q d n positive i / (dy i * J i)) (fun i => pol_y_flux m J q d n positive i / (dy (i + 1)%Z * J (i + 1)%Z)))
    by (intros; unfold pol_y_step; apply move_step).
  unfold within, pol_y_line, closed_face, closed_low, closed_high. rewrite <- !(pol_y_flux_face m c) by (assumption || lia).
  replace (j + 1 - 1)%Z with j by lia. replace (j - 1 + 1)%Z with j by lia.
  replace (ys + Z.of_nat l)%Z with (ye + 1)%Z by lia. clear Hl l.
  pose proof (HJ j). pose proof (Hdy j).
  assert (A : (negb bf && (firstY m && negb (periodicY m) && Z.eqb (j + 1) (ystart m) || lastY m && negb (periodicY m) && Z.eqb (j + 1) (yend m + 1)))%bool = negb (Z.leb ys j && Z.ltb j (ye + 1))).
  { unfold ys, ye. destruct bf, (firstY m), (lastY m), (periodicY m); cbn [negb andb orb];
      destruct (Z.eqb_spec (j + 1) (ystart m)), (Z.eqb_spec (j + 1) (yend m + 1)); cbn [orb]; try lia;
      repeat match goal with |- context [Z.leb ?a ?b] => destruct (Z.leb_spec a b) | |- context [Z.ltb ?a ?b] => destruct (Z.ltb_spec a b) end; cbn; auto; lia. }
  assert (B : (negb bf && (firstY m && negb (periodicY m) && Z.eqb j (ystart m) || lastY m && negb (periodicY m) && Z.eqb j (yend m + 1)))%bool = negb (Z.leb ys (j - 1) && Z.ltb (j - 1) (ye + 1))).
  { unfold ys, ye. destruct bf, (firstY m), (lastY m), (periodicY m); cbn [negb andb orb];
      destruct (Z.eqb_spec j (ystart m)), (Z.eqb_spec j (yend m + 1)); cbn [orb]; try lia;
      repeat match goal with |- context [Z.leb ?a ?b] => destruct (Z.leb_spec a b) | |- context [Z.ltb ?a ?b] => destruct (Z.ltb_spec a b) end; cbn; auto; lia. }
  rewrite A, B. destruct (Z.leb ys j && Z.ltb j (ye + 1))%bool, (Z.leb ys (j - 1) && Z.ltb (j - 1) (ye + 1))%bool; cbn [negb]; field; lra.
Qed.

Lemma pol_y_total m c J dy q d n bf positive :
  mesh_ok m c -> (forall i, 0 < J i) -> (forall i, 0 < dy i) ->
  total (fun i => J i * dy i) (ystart m) c (pol_y m J dy q d n bf positive)
  = pol_y_line m J q d n bf positive (ystart m + Z.of_nat c) - pol_y_line m J q d n bf positive (ystart m).
Proof. intros M HJ Hdx. apply total_flux_form. intros i Hi. now apply (pol_y_cell m c). Qed.

(** With positive set, nothing enters through closed ends: the outflow through them is not negative. *)
Lemma fromm_nonneg n j : 0 <= fromm_below true n j /\ 0 <= fromm_above true n j.
Proof. unfold fromm_below, fromm_above. split; apply Rmax_l. Qed.

Lemma pol_y_outflow m c J q d n bf :
  mesh_ok m c -> closed_low m = true -> closed_high m = true ->
  pol_y_line m J q d n bf true (ystart m) <= 0 /\ 0 <= pol_y_line m J q d n bf true (ystart m + Z.of_nat c).
Proof.
  intros M CL CH. assert (Hc : (0 < c)%nat /\ yend m = (ystart m + Z.of_nat c - 1)%Z) by (unfold mesh_ok in M; tauto). destruct Hc as [Hc Hy].
  unfold pol_y_line, pol_y_velocity. destruct (fromm_nonneg n (ystart m)) as [A B]. destruct (fromm_nonneg n (ystart m + Z.of_nat c)) as [A' B'].
  rewrite CL, CH. cbn [andb]. rewrite Z.eqb_refl.
  replace (Z.eqb (ystart m + Z.of_nat c) (ystart m)) with false by (symmetry; apply Z.eqb_neq; lia).
  replace (Z.eqb (ystart m + Z.of_nat c) (yend m + 1)) with true by (symmetry; apply Z.eqb_eq; lia).
  unfold upwind. split.
  - destruct (closed_face m bf (ystart m)); [lra|].
    set (v := Rmin _ 0). assert (v <= 0) by apply Rmin_r. destruct (Rlt_dec 0 v); [lra|].
    assert (0 <= (- v) * fromm_above true n (ystart m)) by (apply Rmult_le_pos; lra). lra.
  - destruct (closed_face m bf (ystart m + Z.of_nat c)); [lra|].
    set (v := Rmax _ 0). assert (0 <= v) by apply Rmax_r. destruct (Rlt_dec 0 v); apply Rmult_le_pos; lra.
Qed.

(** The Fromm reconstruction takes from an empty cell even with positive set. *)
Lemma pol_x_drains_empty_cell :
  0 < pol_x (mkXmesh 2 4 7 true true) one one one one (values [0; 0; 0; 0; 4; 4; 4]) false true 3.
Proof.
  pose proof (pol_x_cell (mkXmesh 2 4 7 true true) 3 one one one one (values [0; 0; 0; 0; 4; 4; 4]) false true 3) as E.
  unfold one in *. rewrite !Rmult_1_l in E. rewrite E; [|split; [lia|reflexivity]|intros; lra|intros; lra|cbn [xstart]; lia]. clear E.
  unfold pol_x_line. cbn [negb andb orb firstX lastX xstart xend Z.eqb Pos.eqb Z.add Pos.add Pos.succ].
  unfold upwind, pol_velocity, mean. destruct (Rlt_dec _ _) as [L|L]; [|exfalso; lra].
  unfold fromm_below. zify_idx. vals. unfold Rmax. destruct (Rle_dec _ _), (Rle_dec _ _); lra.
Qed.

Lemma xppm_uniform_J edges nzn J dx dz h c f sizes N i k :
  xz_domain nzn J dx dz h sizes N -> (forall x, edges x x x = (x, x)) -> (0 <= i < N)%Z -> (0 <= k < Z.of_nat nzn)%Z ->
  (forall i, J (i + 1)%Z = J i) ->
  XPPM_XZ edges (processors 0 sizes) N (Z.of_nat nzn) J dx dz (fun _ _ => c) f true i k = 0.
Proof.
  intros D HE Hi Hk HJ. rewrite (xppm_uniform edges nzn J dx dz h c f sizes N i k D HE Hi Hk). cbv zeta.
  pose proof (HJ i) as E1. pose proof (HJ (i - 1)%Z) as E2. replace (i - 1 + 1)%Z with i in E2 by lia. rewrite E1, <- E2. unfold Rdiv. ring.
Qed.

(** ** Witnesses *)

Lemma mc_const x : mc_edges x x x = (x, x). Proof. apply mc_flat. lra. Qed.
Lemma exb_xmesh : xmesh_ok (mkXmesh 2 4 7 true true) 3. Proof. split; cbn; lia. Qed.
Definition varying_J (i : Z) : R := if Z.leb i 0 then 1 else 2.
Lemma exb_domain : xz_domain 4 varying_J one one 1 [2; 1; 3]%nat 6.
Proof.
  unfold xz_domain, varying_J, one. split; [lia|]. split; [intros i; destruct (Z.leb i 0); lra|]. split; [intros; lra|]. split; [lra|].
  split; [reflexivity|]. split; [discriminate|]. split; [repeat constructor|reflexivity].
Qed.
Definition z_ridge (i k : Z) : R := if Z.eqb k 1 then 1 else 0.
Lemma xppm_compressible : exists nzn J dx dz h f sizes N i k,
  xz_domain nzn J dx dz h sizes N /\ (0 <= i < N)%Z /\ (0 <= k < Z.of_nat nzn)%Z /\
  XPPM_XZ mc_edges (processors 0 sizes) N (Z.of_nat nzn) J dx dz (fun _ _ => 1) f true i k <> 0.
Proof.
  exists 4%nat, varying_J, one, one, 1, z_ridge, [2; 1; 3]%nat, 6%Z, 0%Z, 0%Z.
  split; [exact exb_domain|]. split; [lia|]. split; [lia|].
  rewrite (xppm_uniform mc_edges 4 varying_J one one 1 1 z_ridge [2; 1; 3]%nat 6 0 0 exb_domain mc_const) by lia. cbv zeta.
  unfold corner, varying_J, one, z_ridge. change (Z.of_nat 4) with 4%Z.
  change (zplus 4 0) with 1%Z. change (zminus 4 0) with 3%Z. change (zminus 4 1) with 0%Z.
  cbn [Z.add Z.sub Z.opp Pos.add Z.leb Z.compare Pos.compare Pos.compare_cont Z.eqb Pos.eqb]. lra.
Qed.
Lemma values_step_nonneg i : 0 <= values [0; 0; 0; 0; 4; 4; 4] i.
Proof. unfold values. destruct (Z.to_nat i) as [|[|[|[|[|[|[|[|n]]]]]]]]; cbn [nth]; lra. Qed.
