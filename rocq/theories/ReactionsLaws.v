From Coq Require Import List Bool String Reals Lra Lia Arith FunctionalExtensionality.
From Verif Require Import OptionsModel OptionsSpec StateMonad StateSpec StateMonadProofs StateEffects
  LimitersModel LimitersProofs ReactionsModel AmjuelTables ReactionsSpec ReactionsProofs ReactionsAdasProofs
  ReactionsCxProofs ReactionsTableProofs.
Import ListNotations.
Open Scope R_scope.
Open Scope string_scope.

Lemma coef_square k t i j : square k t -> (i < k)%nat -> (j < k)%nat -> coef t i j = Some (entry t i j).
Proof.
  intros [H1 H2] Hi Hj. unfold coef, entry.
  rewrite (nth_error_nth' t [] (n := i)) by lia.
  apply nth_error_nth'. rewrite (H2 (nth i t [])); auto. apply nth_In. lia.
Qed.

Lemma rate_of_fit k t T n : square k t ->
  rate_of k k t T n = amjuel_fit k (entry t) (clamp 0.1 1e4 T) (clamp 1e14 1e22 n).
Proof.
  intros H. unfold rate_of. rewrite (evaluate_fit k t (entry t)); auto.
  intros i j Hi Hj. now apply (coef_square k).
Qed.

Lemma square_reads k t : square k t -> reads_inside k k t = true.
Proof.
  intros H. apply (reads_inside_all k k t 1 1). eexists. apply evaluate_fit.
  intros i j Hi Hj. now apply (coef_square k).
Qed.

Lemma amjuel_rate_source nm c el sp k t mult s : square k t ->
  amjuel_rate nm c el sp k k t mult s = amjuel_source nm c el sp k t (FreqNorm nm) mult s.
Proof.
  intros H. unfold amjuel_rate, amjuel_source. rewrite !val_value. f_equal.
  apply functional_extensionality. intros [|x [|y [|z [|]]]]; auto. now rewrite rate_of_fit.
Qed.
Lemma amjuel_radiation_source nm c el sp k t mult s : square k t ->
  amjuel_radiation nm c el sp k k t mult s = amjuel_source nm c el sp k t (Tnorm nm * FreqNorm nm) mult s.
Proof.
  intros H. unfold amjuel_radiation, amjuel_source. rewrite !val_value. f_equal.
  apply functional_extensionality. intros [|x [|y [|z [|]]]]; auto. now rewrite rate_of_fit.
Qed.

Lemma amjuel_particles nm c el fr to rows cols rt rad heating rmult radmult (s s' : State * unit) out :
  NoDup [el; fr; to] ->
  finishes (electron_reaction nm c el fr to rows cols rt rad heating rmult radmult) s s' out ->
  change s s' fr "density_source" + change s s' to "density_source" = 0 /\
  value s fr "charge" * change s s' fr "density_source"
  + value s to "charge" * change s s' to "density_source"
  + (-1) * change s s' el "density_source" = 0 /\
  only_sources s s' [el; fr; to].
Proof.
  intros ND F. destruct (amjuel_particles_charge _ _ _ _ _ _ _ _ _ _ _ _ _ _ _ ND F) as (H1 & H2 & H3 & H4).
  split; [lra|]. split; auto.
Qed.

Lemma amjuel_rate_is_fit nm c el fr to k rt rad heating rmult radmult (s s' : State * unit) out :
  NoDup [el; fr; to] -> square k rt ->
  finishes (electron_reaction nm c el fr to k k rt rad heating rmult radmult) s s' out ->
  change s s' to "density_source" = amjuel_source nm c el fr k rt (FreqNorm nm) rmult s.
Proof.
  intros ND Sq F. destruct (amjuel_particles_charge _ _ _ _ _ _ _ _ _ _ _ _ _ _ _ ND F) as (H1 & _).
  rewrite H1, (amjuel_rate_eq _ _ _ _ _ _ _ _ _ _ _ _ _ _ _ F). now apply amjuel_rate_source.
Qed.

Lemma amjuel_energy nm c el fr to k rt rad heating rmult radmult (s s' : State * unit) out :
  NoDup [el; fr; to] -> square k rad ->
  finishes (electron_reaction nm c el fr to k k rt rad heating rmult radmult) s s' out ->
  change s s' fr "momentum_source" + change s s' to "momentum_source" = 0 /\
  change s s' to "momentum_source"
  = change s s' to "density_source" * value s fr "AA" * value s fr "velocity" /\
  change s s' el "momentum_source" = 0 /\
  energy_gain s s' fr + energy_gain s s' to = 0 /\
  energy_gain s s' el
  = heating / Tnorm nm * change s s' to "density_source" * radmult
    - amjuel_source nm c el fr k rad (Tnorm nm * FreqNorm nm) radmult s.
Proof.
  intros ND Sq F.
  destruct (amjuel_particles_charge _ _ _ _ _ _ _ _ _ _ _ _ _ _ _ ND F) as (R1 & _).
  destruct (amjuel_momentum_energy _ _ _ _ _ _ _ _ _ _ _ _ _ _ _ ND F) as (H1 & H2 & H3 & H4 & H5).
  rewrite (amjuel_loss _ _ _ _ _ _ _ _ _ _ _ _ _ _ _ F) in H5.
  rewrite <- amjuel_radiation_source by exact Sq. rewrite R1.
  split; [exact H1|]. split; [exact H2|]. split; [exact H3|]. split; [exact H4|]. rewrite H5. lra.
Qed.

(** The tables have nine rows of nine coefficients. *)
Definition squareb (t : table) : bool :=
  (Nat.eqb (List.length t) 9 && forallb (fun row => Nat.eqb (List.length row) 9) t)%bool.
Lemma squareb_square t : squareb t = true -> square 9 t.
Proof.
  unfold squareb. intros H. apply andb_prop in H as [H1 H2]. apply Nat.eqb_eq in H1. split; auto.
  intros row Hr. rewrite forallb_forall in H2. apply Nat.eqb_eq. auto.
Qed.
Lemma tables_square :
  square 9 hyd_ionisation_rate_coefs /\ square 9 hyd_ionisation_radiation_coefs /\
  square 9 hyd_recombination_rate_coefs /\ square 9 hyd_recombination_radiation_coefs /\
  square 9 he01_rate_coefs /\ square 9 he01_radiation_coefs /\
  square 9 he10_rate_coefs /\ square 9 he10_radiation_coefs.
Proof.
  split; [apply squareb_square; lazy; reflexivity|].
  split; [apply squareb_square; lazy; reflexivity|].
  split; [apply squareb_square; lazy; reflexivity|].
  split; [apply squareb_square; lazy; reflexivity|].
  split; [apply squareb_square; lazy; reflexivity|].
  split; [apply squareb_square; lazy; reflexivity|].
  split; [apply squareb_square; lazy; reflexivity|].
  apply squareb_square; lazy; reflexivity.
Qed.

Lemma evaluate_square k t T n : square k t ->
  evaluate k k t T n = Some (amjuel_fit k (entry t) (clamp 0.1 1e4 T) (clamp 1e14 1e22 n)) /\
  0 < amjuel_fit k (entry t) (clamp 0.1 1e4 T) (clamp 1e14 1e22 n).
Proof.
  intros H. assert (E : evaluate k k t T n = Some (amjuel_fit k (entry t) (clamp 0.1 1e4 T) (clamp 1e14 1e22 n))).
  { apply evaluate_fit. intros i j Hi Hj. now apply (coef_square k). }
  split; auto. now apply evaluate_positive in E.
Qed.

(** A uniform neighbourhood. *)
Definition uniform_cell (v : key -> R) : cell := mkCell upwind_edges 1 1 1 v v.
Lemma average_uniform v f l :
  average (uniform_cell v) f l = f (map snd l).
Proof.
  unfold average, uniform_cell, cellAverage. cbn [c_edges c_Jm c_J c_Jp c_nm c_np].
  rewrite !map_map. cbn [t_c t_m t_p]. unfold upwind_edges. cbn [fst snd].
  change (fun x : key * R => snd x) with (@snd key R). lra.
Qed.
