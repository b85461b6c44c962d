(** Cases for the whole line: hydrogen in one cell between two targets. *)

From Coq Require Import List Bool ZArith Reals String Lra Lia.
From Verif Require Import OptionsModel OptionsSpec StateMonad StateSpec StateMonadProofs StateEffects LimitersModel ReactionsModel AmjuelTables ReactionsSpec ReactionsProofs ReactionsTableProofs ReactionsLaws ReactionsExamples.
From Verif Require Import ParallelModel ParallelSpec ParallelProofs ParallelHeating WallsModel WallsSpec WallsProofs WallsLaws EvolveModel SystemModel SystemSpec SystemProofs.
Import ListNotations.
Open Scope R_scope.
Open Scope string_scope.

Definition guard_state (vi va : R) : State * unit :=
  (state_of [(("h+", "density"), 2); (("h+", "velocity"), vi); (("h", "density"), 3); (("h", "velocity"), va)], tt).
Definition ex_line (j : Z) : State * unit := if Z.eqb j 1 then ex_state else if Z.ltb j 1 then guard_state (-15) (-1) else guard_state 5 (-1).
Definition ex_reactions (j : Z) : list reaction :=
  if Z.eqb j 1
  then [Amjuel ex_norms ex_cell "e" "h" "h+" 9 9 hyd_ionisation_rate_coefs hyd_ionisation_radiation_coefs 0 1 1;
        Amjuel ex_norms ex_cell "e" "h+" "h" 9 9 hyd_recombination_rate_coefs hyd_recombination_radiation_coefs 13.6 1 1;
        HydrogenCx ex_norms "h" "h+" "h" "h+" 1 false]
  else [].
Definition nuclei (k : string) : R := if String.eqb k "h" then 1 else if String.eqb k "h+" then 1 else 0.
Definition ehp : list string := ["e"; "h"; "h+"].
Definition targets_on : flags := mkFlags true false false false.

Lemma ex_runs : halts (reactions (ex_reactions 1)) ex_state.
Proof.
  pose proof (ready_of _ : ready W ex_state ex_state) as R0.
  assert (V1 : val ex_state ("h", "AA") = 1) by reflexivity.
  assert (V2 : val ex_state ("h+", "AA") = 1) by reflexivity.
  assert (V3 : val ex_state ("h+", "charge") = 1) by reflexivity.
  pose proof tables_square as (T1 & T2 & T3 & T4 & _).
  unfold reactions, ex_reactions. cbn [Z.eqb Pos.eqb mfor react].
  generalize dependent hyd_ionisation_rate_coefs. intros t1 T1. generalize dependent hyd_ionisation_radiation_coefs. intros t2 T2.
  generalize dependent hyd_recombination_rate_coefs. intros t3 T3. generalize dependent hyd_recombination_radiation_coefs. intros t4 T4.
  unfold electron_reaction, charge_or_0, hydrogen_cx.
  rewrite (square_reads 9 t1 T1), (square_reads 9 t2 T2), (square_reads 9 t3 T3), (square_reads 9 t4 T4). cbn [andb negb].
  run_all ex_state R0 idtac
    ltac:(rewrite ?V1, ?V2, ?V3, ?Reqb_refl, ?(Reqb_false 0 1), ?(Reqb_false 1 0) by lra; cbn [negb orb]).
Qed.
Lemma ex_keeps W q : W "h" = W "h+" + (q "h+" - q "h") * W "e" -> List.Forall (keeps ehp W q) (ex_reactions 1).
Proof.
  intros H. unfold ex_reactions. cbn [Z.eqb Pos.eqb].
  repeat apply List.Forall_cons; [..|apply List.Forall_nil]; cbn [keeps].
  - split; [exact nodup_eh|]. split; [intros x Hx; exact Hx|exact H].
  - split; [exact nodup_hpe|]. split; [intros x Hx; cbn [ehp List.In] in *; tauto|rewrite H; ring].
  - split; [intros x Hx; cbn [ehp List.In] in *; tauto|ring].
Qed.
Lemma ex_charges : charges ex_state "h" = 0 /\ charges ex_state "h+" = 1.
Proof. split; reflexivity. Qed.

Lemma ex_line_runs : exists s', (forall j, finishes (reactions (ex_reactions j)) (ex_line j) (s' j) tt) /\ forall j, List.Forall (keeps ehp nuclei (charges (ex_line j))) (ex_reactions j).
Proof.
  destruct (halts_unit _ _ ex_runs) as [t F]. exists (fun j => if Z.eqb j 1 then t else ex_line j). split; intros j.
  - unfold ex_line at 1. destruct (Z.eqb_spec j 1) as [->|N]; [exact F|]. unfold ex_reactions, ex_line. rewrite !(proj2 (Z.eqb_neq _ _) N). apply ret_finishes. split; reflexivity.
  - unfold ex_line. destruct (Z.eqb_spec j 1) as [->|N].
    + apply ex_keeps. unfold nuclei. cbn [String.eqb Ascii.eqb Bool.eqb]. ring.
    + unfold ex_reactions. rewrite (proj2 (Z.eqb_neq _ _) N). apply List.Forall_nil.
Qed.
Lemma targets_always c m w t f : y_energy_flow (w f) = None -> exists w', recycle_targets targets_on c m [quiet t f] w = Some w'.
Proof.
  intros H. unfold recycle_targets. cbn [fold_left]. unfold recycle_targets1. cbn [targets_on target_recycle quiet from to target_fast_fraction]. rewrite H.
  pose proof (Rltb_spec 0 0) as Q. destruct (Rltb 0 0); [exfalso; lra|].
  destruct (at_lower m), (at_upper m); repeat match goal with |- context [let '(_, _) := ?x in _] => destruct x end; eexists; reflexivity.
Qed.
Lemma ex_line_rhs s' own ws : exists ddt, line_rhs upwind_edges mesh1 unit_coords targets_on [quiet "h" "h+"] (fun _ => None) own ws s' = Some ddt.
Proof.
  unfold line_rhs. destruct (targets_always unit_coords mesh1 (line_world (fun _ => None) s') "h" "h+" eq_refl) as [w ->]. eexists. reflexivity.
Qed.
Lemma ex_flux : end_particle_flux (density_of ex_line "h+") (velocity_of ex_line "h+") 1 = -10 /\ end_particle_flux (density_of ex_line "h+") (velocity_of ex_line "h+") 2 = 10
  /\ end_particle_flux (density_of ex_line "h") (velocity_of ex_line "h") 1 = 0 /\ end_particle_flux (density_of ex_line "h") (velocity_of ex_line "h") 2 = 0
  /\ end_particle_flux (density_of ex_line "e") (velocity_of ex_line "e") 1 = 1 /\ end_particle_flux (density_of ex_line "e") (velocity_of ex_line "e") 2 = 1.
Proof.
  unfold end_particle_flux, face_value, density_of, velocity_of. zify_idx. unfold ex_line. cbn [Z.eqb Pos.eqb Z.ltb Z.compare Pos.compare Pos.compare_cont].
  assert (V : forall sp q, value ex_state sp q = match find (fun p => key_eqb (fst p) (sp, q)) (
     [(("e", "density"), 2); (("e", "temperature"), 1); (("e", "velocity"), 2); (("e", "AA"), 1 / 1836);
      (("h", "density"), 3); (("h", "temperature"), 1); (("h", "velocity"), 1); (("h", "AA"), 1);
      (("h+", "density"), 2); (("h+", "temperature"), 2); (("h+", "velocity"), 5); (("h+", "AA"), 1);
      (("h+", "charge"), 1); (("h+", "density_source"), 7)]) with Some p => snd p | None => 0 end).
  { intros sp q. unfold value, ex_state, state_of. cbn [fst]. destruct (find _ _) as [p|]; reflexivity. }
  assert (G : forall vi va sp q, value (guard_state vi va) sp q = match find (fun p => key_eqb (fst p) (sp, q))
     [(("h+", "density"), 2); (("h+", "velocity"), vi); (("h", "density"), 3); (("h", "velocity"), va)] with Some p => snd p | None => 0 end).
  { intros vi va sp q. unfold value, guard_state, state_of. cbn [fst]. destruct (find _ _) as [p|]; reflexivity. }
  rewrite !V, !G. cbn [find key_eqb fst snd String.eqb Ascii.eqb Bool.eqb andb]. repeat split; lra.
Qed.

(** Ions coming in at a target are not taken from anything. *)
Definition in_line (j : Z) : State * unit := if Z.ltb j 2 then guard_state 1 0 else guard_state (-1) 0.
Lemma in_flux : end_particle_flux (density_of in_line "h+") (velocity_of in_line "h+") 1 = 2 /\ end_particle_flux (density_of in_line "h+") (velocity_of in_line "h+") 2 = 0
  /\ end_particle_flux (density_of in_line "h") (velocity_of in_line "h") 1 = 0 /\ end_particle_flux (density_of in_line "h") (velocity_of in_line "h") 2 = 0.
Proof.
  unfold end_particle_flux, face_value, density_of, velocity_of. zify_idx. unfold in_line. cbn [Z.ltb Z.compare Pos.compare Pos.compare_cont].
  assert (G : forall vi va sp q, value (guard_state vi va) sp q = match find (fun p => key_eqb (fst p) (sp, q))
     [(("h+", "density"), 2); (("h+", "velocity"), vi); (("h", "density"), 3); (("h", "velocity"), va)] with Some p => snd p | None => 0 end).
  { intros vi va sp q. unfold value, guard_state, state_of. cbn [fst]. destruct (find _ _) as [p|]; reflexivity. }
  rewrite !G. cbn [find key_eqb fst snd String.eqb Ascii.eqb Bool.eqb andb]. repeat split; lra.
Qed.
Lemma in_source k j : source_of in_line k j = 0.
Proof.
  unfold source_of, in_line. destruct (Z.ltb j 2); unfold value, guard_state, state_of, key_eqb; cbn [fst find snd];
  change (String.eqb "density" "density_source") with false; change (String.eqb "velocity" "density_source") with false; rewrite !andb_false_r; reflexivity.
Qed.
Lemma inflow_gains own ws : exists ddt d, line_rhs upwind_edges mesh1 unit_coords targets_on [quiet "h" "h+"] (fun _ => None) own ws in_line = Some ddt /\
  (forall k, ddt k = Some (d k)) /\ sumR (fun k => nuclei k * total unit_coords 1 1 (d k)) ["h"; "h+"] = 2.
Proof.
  destruct (ex_line_rhs in_line own ws) as [ddt E]. exists ddt.
  assert (NL : NoDup ["h"; "h+"]) by (repeat constructor; cbn; intuition discriminate).
  destruct (line_balance upwind_edges unit_coords mesh1 1 targets_on [quiet "h" "h+"] (fun _ => None) own ws (fun _ => []) in_line in_line ["h"; "h+"] nuclei 1 1 ddt)
    as (d & D & B); try reflexivity; try exact unit_cells; try exact mesh1_ok; try exact NL; try exact E.
  - intros ch [<-|[]]. left. reflexivity.
  - intros j. split; [apply ret_finishes; split; reflexivity|apply List.Forall_nil].
  - exists d. split; [exact E|]. split; [exact D|]. cbn [mesh1 ystart] in B. rewrite B. clear B.
    destruct in_flux as (F1 & F2 & F3 & F4).
    cbn [sumR quiet from to target_multiplier]. unfold net_outflow, arriving, lower_outflow, upper_outflow. cbn [closed_low closed_high mesh1 firstY lastY periodicY negb andb ystart yend].
    rewrite !unit_full_area. change (1 + 1)%Z with 2%Z. rewrite F1, F2, F3, F4. unfold total. cbn [zsum]. rewrite !in_source.
    rewrite !Rmax_left by lra. unfold nuclei. cbn [String.eqb Ascii.eqb Bool.eqb]. lra.
Qed.
