(** C101: momentum and energy with collisions, thermal force and reactions together. *)

From Coq Require Import List Bool Reals String Lra.
From Verif Require Import OptionsModel OptionsSpec StateMonad StateSpec CollisionsModel ThermalForceModel ReactionsModel AmjuelTables ReactionsSpec ReactionsExamples.
From Verif Require Import EvolveModel SystemModel SystemSpec SystemProofs SystemWit ExchangeModel ExchangeSpec ExchangeProofs ExchangeWit.
Import ListNotations.
Open Scope R_scope.
Open Scope string_scope.

(** Any number of them in any order leave the total momentum source alone, and densities, velocities and temperatures. *)
Theorem C101_momentum : forall L l (s s' : State * unit), NoDup L -> List.Forall (exchanges L) l -> finishes (run_parts l) s s' tt ->
  sumR (fun k => change s s' k "momentum_source") L = 0 /\
  (forall k q, ~ List.In q ["density_source"; "momentum_source"; "energy_source"; "collision_frequency"] -> value s' k q = value s k q).
Proof. intros L l s s' NL. exact (parts_momentum L NL l s s'). Qed.
Print Assumptions C101_momentum.
(** Thermal and kinetic energy together change by what the AMJUEL reactions take and release, each as if it were alone.  (Partial: with
    frictional heating, and not for the thermal force and OpenADAS, see below and C16, C18.) *)
Theorem C101_energy_partial : forall L l (s s' : State * unit), NoDup L -> List.Forall (accounts L) l -> (forall k, List.In k L -> 0 < value s k "AA") ->
  finishes (run_parts l) s s' tt -> sumR (fun k => energy_gain s s' k) L = sumR (fun p => heat p s) l.
Proof. intros L l s s' NL. exact (parts_energy L NL l s s'). Qed.
Print Assumptions C101_energy_partial.
(** Ionisation, recombination, charge exchange and collisions of hydrogen. *)
Example C101_case : (exists s', finishes (run_parts ex_parts) ex_state s' tt) /\ NoDup ehp /\ List.Forall (accounts ehp) ex_parts /\
  List.Forall (exchanges ehp) ex_parts /\ (forall k, List.In k ehp -> 0 < value ex_state k "AA").
Proof.
  split; [exact ex_parts_run|]. split; [exact nodup_eh|]. split; [exact ex_accounts|]. split; [|exact ex_masses].
  eapply List.Forall_impl; [|exact ex_accounts]. intros p. apply accounts_exchanges.
Qed.
(** The thermal force works on species with different velocities, and nothing takes the energy for it: electrons at 2 and ions at 5, with
    density 2 and a gradient 1 of the electron temperature, gain 0.71 * 2 * 3. *)
Theorem C101_thermal_force_refuted : exists grad (s s' : State * unit), NoDup ehp /\ finishes (run_part (Thermal true false grad ehp)) s s' tt /\
  sumR (fun k => energy_gain s s' k) ehp > 0.
Proof.
  destruct thermal_work as (s' & F & E). exists (fun _ => 1), ex_state, s'. split; [exact nodup_eh|]. split; [exact F|]. rewrite E. lra.
Qed.
Print Assumptions C101_thermal_force_refuted.

(** The sources as EvolveEnergy adds them up are these and, on top, the kinetic energy of the particles which change species. *)
Theorem C101_energy_equation : forall L l (s s' : State * unit), NoDup L -> List.Forall (accounts L) l -> (forall k, List.In k L -> 0 < value s k "AA") ->
  finishes (run_parts l) s s' tt ->
  sumR (fun k => energy_sources 0 (change s s' k "energy_source") (change s s' k "momentum_source") (value s k "velocity")) L
  = sumR (fun p => heat p s) l + sumR (fun k => 1 / 2 * value s k "AA" * value s k "velocity" ^ 2 * change s s' k "density_source") L.
Proof. intros L l s s' NL X PA F. rewrite energy_equation_sources, (parts_energy L NL l s s' X PA F). reflexivity. Qed.
Print Assumptions C101_energy_equation.
(** So with EvolveEnergy ionisation of slow atoms among fast ions makes energy out of nothing: its equation has S_E + V S_NV where that of
    the energy evolved, 3/2 P + A N V^2 / 2, needs a further - A V^2 / 2 S_N. *)
Theorem C101_energy_equation_refuted : exists l (s s' : State * unit), NoDup ehp /\ List.Forall (accounts ehp) l /\ (forall k, List.In k ehp -> 0 < value s k "AA") /\
  finishes (run_parts l) s s' tt /\
  sumR (fun k => energy_sources 0 (change s s' k "energy_source") (change s s' k "momentum_source") (value s k "velocity")) ehp > sumR (fun p => heat p s) l.
Proof.
  destruct ionisation_energy as (s' & F & P).
  set (l := [React (Amjuel ex_norms ex_cell "e" "h" "h+" 9 9 hyd_ionisation_rate_coefs hyd_ionisation_radiation_coefs 0 1 1)]) in *.
  assert (A : List.Forall (accounts ehp) l) by (pose proof ex_accounts as H; inversion H; subst; apply List.Forall_cons; [assumption|apply List.Forall_nil]).
  exists l, ex_state, s'. split; [exact nodup_eh|]. split; [exact A|]. split; [exact ex_masses|]. split; [exact F|].
  rewrite energy_equation_sources, (parts_energy ehp nodup_eh l ex_state s' A ex_masses F). lra.
Qed.
Print Assumptions C101_energy_equation_refuted.
