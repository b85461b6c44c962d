(** Operators: lemmas added after trying wrong variants of the model. *)

From Coq Require Import List Bool ZArith Reals Lra Lia.
From Verif Require Import StateMonad StateMonadProofs ParallelModel ParallelSpec ParallelProofs ParallelLaws ParallelHeating LimitersModel DiffusionModel DiffusionSpec PerpModel PerpSpec.
Import ListNotations.
Open Scope R_scope.

(** ** Flow of kinetic energy *)

(** Rate at which kinetic energy is carried through the face between j - 1 and j by the fluxes of particles and momentum, with the
    velocity of cell j. *)
Definition kinetic_flux edges (f v ws : Z -> R) (j : Z) : R := v j * momentum_flux edges f v ws j - v j ^ 2 / 2 * particle_flux edges f v ws j.
Lemma kinetic_flow edges m c n f v ws fixflux : mesh_ok m n -> positive_metric c ->
  exists h wh, Div_par_fvv_heating edges m c f v ws fixflux = Some (h, wh) /\
    forall j, (ystart m <= j <= ystart m + Z.of_nat n)%Z ->
      wh j = flow_through (c_J c) (c_g22 c) (c_dx c) (c_dz c)
               (line_flux (kinetic_flux edges f v ws) (end_kinetic_flux f v) (closed_low m) (closed_high m) (ystart m) n) j.
Proof.
  intros M P. destruct (heating_closed edges m c n f v ws fixflux M P) as (h & w & E & _ & W).
  exists h, w. split; [exact E|]. intros j Hj. rewrite W. unfold flow_through.
  rewrite (total_flux_line m n (ke_right edges m f v ws) (ke_left edges m f v ws) (kinetic_flux edges f v ws) (end_kinetic_flux f v) M); [reflexivity| | | |exact Hj].
  - intros k L F. unfold ke_right, ke_left. rewrite L, F. replace (k - 1 + 1)%Z with k by lia.
    rewrite BOUTMAX4_right, BOUTMAX4_left, !sR_below. change (sL edges) with (above edges). unfold kinetic_flux, momentum_flux, particle_flux, lax_friedrichs, SQ.
    set (a := below edges v k). set (b := below edges f k). set (a' := above edges v k). set (b' := above edges f k). set (s := face_speed v ws k).
    clearbody a b a' b' s. replace 0.5 with (/ 2) by lra. field.
  - intros CL. unfold ke_left. replace (first_point m (ystart m)) with true.
    2: { unfold first_point. unfold closed_low in CL. destruct (firstY m), (periodicY m); cbn [andb negb] in *; try discriminate; now rewrite Z.eqb_refl. }
    unfold end_kinetic_flux, face_value. lra.
  - intros CH. unfold ke_right. replace (last_point m (yend m)) with true.
    2: { unfold last_point. unfold closed_high in CH. destruct (lastY m), (periodicY m); cbn [andb negb] in *; try discriminate; now rewrite Z.eqb_refl. }
    unfold end_kinetic_flux, face_value. replace (yend m + 1 - 1)%Z with (yend m) by lia. lra.
Qed.
(** The heating is an energy: 3/2 of the pressure source per unit of mass. *)
Lemma heating_energy A h : 3 / 2 * Sp_nvh A h = A * h.
Proof. unfold Sp_nvh. lra. Qed.

(** ** Fromm's limiter *)
Lemma fromm_linear a b : fromm_edges (a - b) a (a + b) = (a - b / 2, a + b / 2).
Proof. unfold fromm_edges. f_equal; lra. Qed.

(** ** Hyperdiffusion *)

(** A cubic, by cell index. *)
Definition cubic (a b c d : R) (i : Z) : R := a + b * IZR i + c * IZR i ^ 2 + d * IZR i ^ 3.
Definition cubic_prime3 (d : R) : R := 6 * d.
Lemma d4_interior m a b c d bf i J dx : (lastX m && Z.eqb i (xend m))%bool = false ->
  d4_right m J dx (cubic a b c d) bf i = (dx i + dx (i + 1)%Z) / 2 * ((J i + J (i + 1)%Z) / 2) * cubic_prime3 d.
Proof.
  intros H. unfold d4_right. rewrite H. cbv zeta iota. unfold cubic, cubic_prime3. rewrite !plus_IZR, minus_IZR. replace 0.25 with (/ 4) by lra. field.
Qed.
Lemma d4_interior_left m a b c d bf i J dx : firstX m = false ->
  d4_left m J dx (cubic a b c d) bf (xstart m) i = Some ((dx i + dx (i + 1)%Z) / 2 * ((J i + J (i + 1)%Z) / 2) * cubic_prime3 d).
Proof.
  intros H. unfold d4_left. rewrite H, Z.eqb_refl. cbv zeta iota. f_equal. unfold cubic, cubic_prime3. rewrite !minus_IZR, !plus_IZR. replace 0.25 with (/ 4) by lra. field.
Qed.
(** At the boundaries: guard cells such that the mean of the last two values is the cubic's value at the face. *)
Definition cubic_at (a b c d x : R) : R := a + b * x + c * x ^ 2 + d * x ^ 3.
Lemma d4_wall_right m a b c d i J dx f : lastX m = true -> i = xend m ->
  (forall k, (k <= i)%Z -> f k = cubic a b c d k) -> (f i + f (i + 1)%Z) / 2 = cubic_at a b c d (IZR i + 1 / 2) ->
  d4_right m J dx f true i = (dx i + dx (i + 1)%Z) / 2 * ((J i + J (i + 1)%Z) / 2) * - cubic_prime3 d.
Proof.
  intros L -> F G. unfold d4_right. rewrite L, Z.eqb_refl. cbv zeta iota. cbn [andb].
  rewrite (F (xend m - 1)%Z), (F (xend m - 2)%Z) by lia.
  replace (16 / 5 * 0.5 * (f (xend m + 1)%Z + f (xend m))) with (16 / 5 * ((f (xend m) + f (xend m + 1)%Z) / 2)) by lra. rewrite G.
  rewrite (F (xend m)) by lia. unfold cubic, cubic_at, cubic_prime3. rewrite !minus_IZR. replace 0.25 with (/ 4) by lra. field.
Qed.
Lemma d4_wall_left m a b c d i J dx f : firstX m = true -> i = xstart m ->
  (forall k, (i <= k)%Z -> f k = cubic a b c d k) -> (f (i - 1)%Z + f i) / 2 = cubic_at a b c d (IZR i - 1 / 2) ->
  d4_left m J dx f true (xstart m) i = Some ((dx i + dx (i + 1)%Z) / 2 * ((J i + J (i + 1)%Z) / 2) * - cubic_prime3 d).
Proof.
  intros L -> F G. unfold d4_left. rewrite L, Z.eqb_refl. cbv zeta iota. f_equal.
  rewrite (F (xstart m + 1)%Z), (F (xstart m + 2)%Z) by lia.
  replace (- (16 / 5) * 0.5 * (f (xstart m - 1)%Z + f (xstart m))) with (- (16 / 5) * ((f (xstart m - 1)%Z + f (xstart m)) / 2)) by lra. rewrite G.
  rewrite (F (xstart m)) by lia. unfold cubic, cubic_at, cubic_prime3. rewrite !plus_IZR. replace 0.25 with (/ 4) by lra. field.
Qed.

(** ** The gradient along Z of perpendicular diffusion *)

(** A field linear in the coordinates y = j dy and z = k dz. *)
Definition linear_yz (a sy sz dy dz : R) : field := fun _ j k => a + sy * (IZR j * dy) + sz * (IZR k * dz).
Lemma z_gradient_linear c nz a sy sz i j k : (0 <= k < nz - 1)%Z ->
  (forall j', p_dy c i j' = p_dy c i j) -> p_dy c i j <> 0 -> p_dz c i j <> 0 -> p_J c i j <> 0 -> p_Bxy c i j <> 0 ->
  z_gradient c nz (linear_yz a sy sz (p_dy c i j) (p_dz c i j)) i j k = sz - p_g_23 c i j / (p_J c i j * p_Bxy c i j) ^ 2 * sy.
Proof.
  intros Hk U H1 H2 H3 H4. unfold z_gradient, z_coef, linear_yz, zplus. rewrite Z.mod_small by lia.
  rewrite (U (j + 1)%Z), (U (j - 1)%Z). rewrite !plus_IZR, minus_IZR. field. repeat split; try assumption. intros X. apply H1. lra.
Qed.
(** The limited flux comes from the cell with the larger value. *)
Lemma z_limit_donor c nz a g f i j k :
  (0 < z_gradient c nz f i j k -> g i j (zplus nz k) = 0 -> z_limit c nz a g f i j k = 0) /\
  (z_gradient c nz f i j k <= 0 -> g i j k = 0 -> z_limit c nz a g f i j k = 0).
Proof.
  split; intros H G; unfold z_limit; cbv zeta; pose proof (Rltb_spec 0 (z_gradient c nz f i j k)) as S; destruct (Rltb 0 (z_gradient c nz f i j k)); try (exfalso; lra); rewrite G; ring.
Qed.
Lemma z_limit_uniform c nz D f i j k : z_limit c nz (fun _ _ _ => D) (fun _ _ _ => 1) f i j k = D * z_gradient c nz f i j k.
Proof. unfold z_limit. cbv zeta. destruct (Rltb _ _); lra. Qed.
(** x^3 with guard cells which give the exact values at the faces. *)
Definition cube_with_guards (k : Z) : R := if Z.eqb k 7 then 2 * (13 / 2) ^ 3 - 216 else if Z.eqb k 1 then 2 * (3 / 2) ^ 3 - 8 else IZR k ^ 3.
Lemma boundary_sign : exists m f, lastX m = true /\ firstX m = true /\
  (forall k, (xstart m <= k <= xend m)%Z -> f k = cubic 0 0 0 1 k) /\
  (f (xend m) + f (xend m + 1)%Z) / 2 = cubic_at 0 0 0 1 (IZR (xend m) + 1 / 2) /\
  (f (xstart m - 1)%Z + f (xstart m)) / 2 = cubic_at 0 0 0 1 (IZR (xstart m) - 1 / 2) /\
  d4_right m (fun _ => 1) (fun _ => 1) f true (xend m) = - cubic_prime3 1 /\
  d4_left m (fun _ => 1) (fun _ => 1) f true (xstart m) (xstart m) = Some (- cubic_prime3 1) /\
  d4_right m (fun _ => 1) (fun _ => 1) f true (xstart m + 1) = cubic_prime3 1.
Proof.
  exists (mkXmesh 2 6 9 true true), cube_with_guards. unfold d4_right, d4_left, cubic_prime3. cbn [lastX firstX xstart xend].
  split; [reflexivity|]. split; [reflexivity|]. split.
  { intros k Hk. unfold cube_with_guards, cubic. destruct (Z.eqb_spec k 7); [lia|]. destruct (Z.eqb_spec k 1); [lia|]. ring. }
  unfold cube_with_guards, cubic_at.
  repeat match goal with |- context [Z.add ?a ?b] => let x := eval compute in (Z.add a b) in change (Z.add a b) with x end.
  repeat match goal with |- context [Z.sub ?a ?b] => let x := eval compute in (Z.sub a b) in change (Z.sub a b) with x end.
  repeat match goal with |- context [Z.eqb ?a ?b] => let x := eval compute in (Z.eqb a b) in change (Z.eqb a b) with x end.
  cbn [andb]. cbv iota.
  split; [lra|]. split; [lra|]. split; [lra|]. split; [f_equal; lra|]. lra.
Qed.
