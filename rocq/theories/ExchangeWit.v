(** Cases for components run one after the other. *)

From Coq Require Import List Bool Reals String Lra.
From Verif Require Import OptionsModel OptionsSpec StateMonad StateSpec StateMonadProofs StateEffects CollisionsModel ThermalForceModel ThermalForceSpec ReactionsModel AmjuelTables ReactionsSpec ReactionsProofs ReactionsTableProofs ReactionsLaws ReactionsExamples.
From Verif Require CollisionsExamples CollisionsProofs2 CollisionsSpec CollisionsExamples ThermalForceProofs.
From Verif Require Import EvolveModel SystemModel SystemSpec SystemProofs SystemWit ExchangeModel ExchangeSpec ExchangeProofs.
Import ListNotations.
Open Scope R_scope.
Open Scope string_scope.

Definition ex_coll : config := CollisionsExamples.ex_config true true true true true true.
Definition ex_parts : list part := (map React (ex_reactions 1) ++ [Coll ex_coll [] ehp])%list.
Lemma coll_halts c r (s : State * unit) : ready W ex_state s -> halts (run_part (Coll c r ehp)) s.
Proof.
  intros [Fr U].
  assert (I : CollisionsSpec.inputs_set (fst s, r) ehp).
  { split.
    - intros sp H. assert (Hh : forall q, ReactionsProofs.W q = false -> present (fst s, r) sp q = has ex_state (sp, q)).
      { intros q Hq. destruct (Fr sp q Hq) as [_ <-]. unfold present, has, is_set. cbn [fst]. destruct (e_val (fst s (sp, q))); reflexivity. }
      rewrite !Hh by reflexivity. cbn [ehp List.In] in H. repeat destruct H as [<-|H]; try contradiction; repeat split; reflexivity.
    - intros sp q Hq. cbn [fst]. apply U. destruct Hq as [ -> | [ -> | -> ]]; reflexivity. }
  destruct (CollisionsProofs2.transform_finishes c ehp (fst s, r) I) as [s1 F]. exists (fst s1, tt), tt.
  unfold finishes in *. cbn [run_part]. rewrite F. reflexivity.
Qed.
Lemma ex_parts_run : exists s', finishes (run_parts ex_parts) ex_state s' tt.
Proof.
  apply halts_unit.
  pose proof (ready_of _ : ready W ex_state ex_state) as R0.
  assert (V1 : val ex_state ("h", "AA") = 1) by reflexivity.
  assert (V2 : val ex_state ("h+", "AA") = 1) by reflexivity.
  assert (V3 : val ex_state ("h+", "charge") = 1) by reflexivity.
  pose proof tables_square as (T1 & T2 & T3 & T4 & _).
  unfold run_parts, ex_parts, ex_reactions. cbn [Z.eqb Pos.eqb map app mfor]. 
  generalize dependent hyd_ionisation_rate_coefs. intros t1 T1. generalize dependent hyd_ionisation_radiation_coefs. intros t2 T2.
  generalize dependent hyd_recombination_rate_coefs. intros t3 T3. generalize dependent hyd_recombination_radiation_coefs. intros t4 T4.
  set (k := run_part (Coll ex_coll [] ehp)) in *. assert (K : forall s, ready W ex_state s -> halts k s) by (intros; apply coll_halts; assumption). clearbody k.
  cbn [run_part react]. unfold electron_reaction, charge_or_0, hydrogen_cx.
  rewrite (square_reads 9 t1 T1), (square_reads 9 t2 T2), (square_reads 9 t3 T3), (square_reads 9 t4 T4). cbn [andb negb].
  run_all ex_state R0 idtac
    ltac:(rewrite ?V1, ?V2, ?V3, ?Reqb_refl, ?(Reqb_false 0 1), ?(Reqb_false 1 0) by lra; cbn [negb orb]).
  destruct (K _ R0) as (z2 & z3 & F). exists z2, tt. unfold finishes in *. unfold bind, ret. rewrite F. reflexivity.
Qed.
Lemma ex_accounts : List.Forall (accounts ehp) ex_parts.
Proof.
  pose proof tables_square as (T1 & T2 & T3 & T4 & _).
  unfold ex_parts, ex_reactions. cbn [Z.eqb Pos.eqb map app]. repeat apply List.Forall_cons; [..|apply List.Forall_nil]; cbn [accounts].
  - split; [exact nodup_eh|]. split; [intros x Hx; exact Hx|]. repeat split; [apply T1|apply T2].
  - split; [exact nodup_hpe|]. split; [intros x Hx; cbn [ehp List.In] in *; tauto|]. repeat split; [apply T3|apply T4].
  - split; [intros x Hx; cbn [ehp List.In] in *; tauto|reflexivity].
  - split; reflexivity.
Qed.
Lemma ex_masses k : List.In k ehp -> 0 < value ex_state k "AA".
Proof. cbn [ehp List.In]. intros [<-|[<-|[<-|[]]]]; [change (0 < 1 / 1836)|change (0 < 1)|change (0 < 1)]; lra. Qed.

(** Sources of energy as EvolveEnergy takes them. *)
Lemma energy_equation_sources s s' L : sumR (fun k => energy_sources 0 (change s s' k "energy_source") (change s s' k "momentum_source") (value s k "velocity")) L
  = sumR (fun k => energy_gain s s' k) L + sumR (fun k => 1 / 2 * value s k "AA" * value s k "velocity" ^ 2 * change s s' k "density_source") L.
Proof. rewrite <- sumR_plus. apply sumR_ext. intros k _. unfold energy_sources, energy_gain. cbv zeta. ring. Qed.
Lemma ionisation_energy : exists s', finishes (run_parts [React (Amjuel ex_norms ex_cell "e" "h" "h+" 9 9 hyd_ionisation_rate_coefs hyd_ionisation_radiation_coefs 0 1 1)]) ex_state s' tt /\
  sumR (fun k => 1 / 2 * value ex_state k "AA" * value ex_state k "velocity" ^ 2 * change ex_state s' k "density_source") ehp > 0.
Proof.
  pose proof tables_square as (T1 & T2 & _).
  destruct (ionisation_runs ex_norms ex_cell _ _ 0 1 1 T1 T2) as (s' & out & F). exists s'. split.
  - unfold run_parts. cbn [mfor run_part react]. apply bind_finishes. exists s', tt. split; [|apply ret_finishes; split; reflexivity].
    apply bind_finishes. exists s', out. split; [exact F|apply ret_finishes; split; reflexivity].
  - destruct (amjuel_particles _ _ _ _ _ _ _ _ _ _ _ _ _ _ _ nodup_eh F) as (H1 & H2 & _).
    pose proof (amjuel_rate_is_fit _ _ _ _ _ _ _ _ _ _ _ _ _ _ nodup_eh T1 F) as H3.
    assert (P : 0 < change ex_state s' "h+" "density_source") by (rewrite H3; apply source_positive; change (0 < 3); lra).
    unfold ehp. cbn [sumR].
    set (b := change ex_state s' "h+" _) in *. set (a := change ex_state s' "h" _) in *. set (d := change ex_state s' "e" _) in *. clearbody a b d.
    change (value ex_state "h" "charge") with 0 in H2. change (value ex_state "h+" "charge") with 1 in H2.
    change (value ex_state "e" "AA") with (1 / 1836). change (value ex_state "e" "velocity") with 2.
    change (value ex_state "h" "AA") with 1. change (value ex_state "h" "velocity") with 1.
    change (value ex_state "h+" "AA") with 1. change (value ex_state "h+" "velocity") with 5. nra.
Qed.

Lemma thermal_runs grad : exists s', finishes (run_part (Thermal true false grad ehp)) ex_state s' tt.
Proof.
  apply halts_unit.
  assert (R0 : ready ThermalForceProofs.W ex_state ex_state) by (apply ready_start; intros; apply CollisionsExamples.state_of_unmarked).
  cbn [run_part]. unfold thermal_force, ehp. change (true && existsb (String.eqb "e") ["e"; "h"; "h+"])%bool with true. cbv iota.
  run_all ex_state R0 ltac:(unfold electron_force, ion_pair, heavy_force; cbn [ion_loop mfor]) ltac:(idtac).
Qed.
Lemma thermal_work : exists s', finishes (run_part (Thermal true false (fun _ => 1) ehp)) ex_state s' tt /\ sumR (fun k => energy_gain ex_state s' k) ehp = 0.71 * 2 * 3.
Proof.
  destruct (thermal_runs (fun _ => 1)) as [s' F]. exists s'. split; [exact F|]. cbn [run_part] in F.
  destruct (ThermalForceProofs.electrons_only (fun _ => 1) ehp ex_state s' nodup_eh (or_introl eq_refl) F) as (H1 & H2).
  destruct (ThermalForceProofs.thermal_force_conserves true false (fun _ => 1) ehp ex_state s' nodup_eh F) as (H3 & H4).
  assert (I : ion ex_state "h+") by (split; [discriminate|reflexivity]).
  specialize (H1 "h+" ltac:(cbn; tauto) I). specialize (H2 "h" ltac:(cbn; tauto) ltac:(discriminate) eq_refl).
  unfold energy_gain, change. cbv zeta. unfold ehp in *. cbn [sumR] in *.
  rewrite !(H4 _ "energy_source"), !(H4 _ "density_source") by (left; discriminate).
  set (a := value s' "h+" "momentum_source") in *. set (b := value s' "h" "momentum_source") in *. set (d := value s' "e" "momentum_source") in *.
  change (value ex_state "h+" "charge") with 1 in H1. change (value ex_state "h+" "density") with 2 in H1.
  set (a0 := value ex_state "h+" "momentum_source") in *. set (b0 := value ex_state "h" "momentum_source") in *. set (d0 := value ex_state "e" "momentum_source") in *.
  clearbody a b d a0 b0 d0.
  change (value ex_state "e" "velocity") with 2. change (value ex_state "h" "velocity") with 1. change (value ex_state "h+" "velocity") with 5. lra.
Qed.
