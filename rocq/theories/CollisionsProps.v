(** Properties C09-C12: the collisions component. *)

From Coq Require Import List Bool String Reals Lra.
From Verif Require Import OptionsModel StateMonad StateSpec CollisionsModel CollisionsSpec
  CollisionsProofs2 CollisionsExamples.
Import ListNotations.
Open Scope R_scope.
Open Scope string_scope.

(** ** C09 *)

Theorem C09_collisions_conserve_momentum :
  forall (c : config) (species : list string) (s s' : State * rates),
    NoDup species ->
    finishes (transform c species) s s' tt ->
    sumR (fun sp => value s' sp "momentum_source") species
    = sumR (fun sp => value s sp "momentum_source") species.
Proof. exact momentum_conserved. Qed.
Print Assumptions C09_collisions_conserve_momentum.

(** The hypothesis is met whenever the inputs are set and the sources unread. *)
Theorem C09_collisions_finish :
  forall (c : config) (species : list string) (s : State * rates),
    inputs_set s species -> exists s', finishes (transform c species) s s' tt.
Proof. exact transform_finishes. Qed.
Print Assumptions C09_collisions_finish.

Example C09_case : NoDup ex_species /\ inputs_set ex_state ex_species /\
  (forall c, exists s', finishes (transform c ex_species) ex_state s' tt).
Proof. exact (conj ex_nodup (conj ex_inputs_set ex_finishes)). Qed.

(** ** C10 *)

Theorem C10_collisions_conserve_energy :
  forall (c : config) (species : list string) (s s' : State * rates),
    NoDup species ->
    frictional_heating c = true ->
    (forall sp, In sp species -> 0 < value s sp "AA") ->
    finishes (transform c species) s s' tt ->
    sumR (fun sp => value s' sp "energy_source"
                    + value s sp "velocity" * value s' sp "momentum_source") species
    = sumR (fun sp => value s sp "energy_source"
                      + value s sp "velocity" * value s sp "momentum_source") species.
Proof. exact energy_conserved. Qed.
Print Assumptions C10_collisions_conserve_energy.

Theorem C10_exchange_without_friction_heating :
  forall (c : config) (species : list string) (s s' : State * rates),
    NoDup species ->
    frictional_heating c = false ->
    finishes (transform c species) s s' tt ->
    sumR (fun sp => value s' sp "energy_source") species
    = sumR (fun sp => value s sp "energy_source") species.
Proof. exact energy_exchange_conserved. Qed.
Print Assumptions C10_exchange_without_friction_heating.

Theorem C10_friction_never_cools :
  forall (c : config) (species : list string) (s s' : State * rates),
    physical c -> physical_state s species ->
    frictional_heating c = true ->
    (forall a b, In a species -> In b species ->
       value s a "temperature" = value s b "temperature") ->
    finishes (transform c species) s s' tt ->
    forall sp, value s sp "energy_source" <= value s' sp "energy_source".
Proof. exact friction_never_cools. Qed.
Print Assumptions C10_friction_never_cools.

Theorem C10_heat_flows_from_hot_to_cold :
  forall (c : config) (species : list string) (s s' : State * rates),
    physical c -> physical_state s species ->
    (forall a b, In a species -> In b species -> value s a "velocity" = value s b "velocity") ->
    finishes (transform c species) s s' tt ->
    forall sp, In sp species ->
    ((forall b, In b species -> value s b "temperature" <= value s sp "temperature") ->
       value s' sp "energy_source" <= value s sp "energy_source") /\
    ((forall b, In b species -> value s sp "temperature" <= value s b "temperature") ->
       value s sp "energy_source" <= value s' sp "energy_source").
Proof. exact heat_flows_to_cold. Qed.
Print Assumptions C10_heat_flows_from_hot_to_cold.

Example C10_case :
  physical (ex_config true true true true true true) /\ physical_state ex_state ex_species /\
  frictional_heating (ex_config true true true true true true) = true.
Proof. exact (conj (ex_physical _ _ _ _ _ _) (conj ex_physical_state eq_refl)). Qed.

(** ** C11 *)

Theorem C11_momentum_balance_of_rates :
  forall (c : config) (species : list string) (s s' : State * rates),
    snd s = [] ->
    finishes (transform c species) s s' tt ->
    (forall sp, In sp species -> 0 < value s sp "AA" /\ 1e-5 <= value s sp "density") ->
    forall a b nu, In (a, b, nu) (snd s') ->
    exists nu', In (b, a, nu') (snd s') /\
      value s a "AA" * value s a "density" * nu = value s b "AA" * value s b "density" * nu'.
Proof. exact rates_balance. Qed.
Print Assumptions C11_momentum_balance_of_rates.

Theorem C11_rates_non_negative :
  forall (c : config) (species : list string) (s s' : State * rates),
    physical c -> physical_state s species ->
    snd s = [] ->
    finishes (transform c species) s s' tt ->
    forall a b nu, In (a, b, nu) (snd s') -> 0 <= nu.
Proof. exact rates_nonneg. Qed.
Print Assumptions C11_rates_non_negative.

Theorem C11_frequencies_add_up :
  forall (c : config) (species : list string) (s s' : State * rates),
    snd s = [] ->
    finishes (transform c species) s s' tt ->
    forall sp, value s' sp "collision_frequency"
               = value s sp "collision_frequency" + total_rate (snd s') sp.
Proof. exact frequencies_add_up. Qed.
Print Assumptions C11_frequencies_add_up.

(** Every ordered pair of names has at most one rate... *)
Theorem C11_each_pair_at_most_once :
  forall (c : config) (species : list string) (s s' : State * rates),
    NoDup species -> snd s = [] ->
    finishes (transform c species) s s' tt -> NoDup (map fst (snd s')).
Proof. exact rates_unique. Qed.
Print Assumptions C11_each_pair_at_most_once.

(** ... and with all switches on, exactly one (electron beams are skipped, and so
    are electron collisions with negative ions, about which the code warns). *)
Theorem C11_each_pair_at_least_once :
  forall (c : config) (species : list string) (s s' : State * rates),
    snd s = [] ->
    finishes (transform c species) s s' tt ->
    electron_electron c = true -> electron_ion c = true -> electron_neutral c = true ->
    ion_ion c = true -> ion_neutral c = true -> neutral_neutral c = true ->
    forall a b, In a species -> In b species ->
    a <> "ebeam" -> b <> "ebeam" ->
    (a = "e" -> b <> "e" -> 0 <= value s b "charge") ->
    (b = "e" -> a <> "e" -> 0 <= value s a "charge") ->
    collided (snd s') a b.
Proof. exact all_pairs_collide. Qed.
Print Assumptions C11_each_pair_at_least_once.

Example C11_case : snd ex_state = [] /\
  (forall sp, In sp ex_species -> 0 < value ex_state sp "AA" /\ 1e-5 <= value ex_state sp "density").
Proof.
  split; [reflexivity|]. intros sp [<-|[<-|[<-|[<-|[]]]]];
    unfold value, ex_state, state_of, value_or_0;
    cbn [fst find key_eqb snd String.eqb Ascii.eqb Bool.eqb andb e_val]; split; lra.
Qed.

(** ** C12 *)

(** All switches but [ion_neutral] work; [neutral_neutral] for species without a
    charge entry; [ion_neutral] when no neutral comes after the ion in the
    (alphabetical) order of the species.  Missing from the full statement: the two
    cases refuted below. *)
Theorem C12_switches_honoured_partial :
  forall (c : config) (species : list string) (s s' : State * rates),
    snd s = [] ->
    finishes (transform c species) s s' tt ->
    (electron_electron c = false -> ~ collided (snd s') "e" "e") /\
    (electron_ion c = false -> forall sp, is_ion s sp ->
       ~ collided (snd s') "e" sp /\ ~ collided (snd s') sp "e") /\
    (electron_neutral c = false -> forall sp, is_neutral s sp ->
       ~ collided (snd s') "e" sp /\ ~ collided (snd s') sp "e") /\
    (ion_ion c = false -> forall a b, is_ion s a -> is_ion s b -> ~ collided (snd s') a b) /\
    (neutral_neutral c = false -> forall a b, a <> "e" -> b <> "e" ->
       present s a "charge" = false -> present s b "charge" = false ->
       ~ collided (snd s') a b) /\
    (ion_neutral c = false -> forall a b, is_ion s a -> is_neutral s b ->
       (forall l1 l2, species = (l1 ++ a :: l2)%list -> ~ In b l2) ->
       ~ collided (snd s') a b /\ ~ collided (snd s') b a).
Proof.
  exact (fun c species s s' E F =>
    conj (ee_off c species s s' E F) (conj (ei_off c species s s' E F)
    (conj (en_off c species s s' E F) (conj (ii_off c species s s' E F)
    (conj (nn_off c species s s' E F) (in_off c species s s' E F)))))).
Qed.
Print Assumptions C12_switches_honoured_partial.

(** A species without a recorded rate with another species receives nothing. *)
Theorem C12_no_rate_no_source :
  forall (c : config) (species : list string) (s s' : State * rates),
    snd s = [] ->
    finishes (transform c species) s s' tt ->
    forall a, (forall b, b <> a -> ~ collided (snd s') a b) ->
    value s' a "momentum_source" = value s a "momentum_source" /\
    value s' a "energy_source" = value s a "energy_source".
Proof. exact no_rate_no_source. Qed.
Print Assumptions C12_no_rate_no_source.

(** The ion-neutral switch is ignored when the ion's name sorts first. *)
Theorem C12_ion_neutral_switch_refuted :
  exists (c : config) (species : list string) (s s' : State * rates) (a b : string),
    NoDup species /\ snd s = [] /\ finishes (transform c species) s s' tt /\
    ion_neutral c = false /\ is_ion s a /\ is_neutral s b /\ collided (snd s') a b.
Proof. exact ion_neutral_counterexample. Qed.
Print Assumptions C12_ion_neutral_switch_refuted.

(** A neutral whose charge entry is set to zero is taken for an ion. *)
Theorem C12_neutral_neutral_switch_refuted :
  exists (c : config) (species : list string) (s s' : State * rates) (a b : string),
    NoDup species /\ snd s = [] /\ finishes (transform c species) s s' tt /\
    neutral_neutral c = false /\ is_neutral s a /\ is_neutral s b /\ collided (snd s') a b.
Proof. exact neutral_neutral_counterexample. Qed.
Print Assumptions C12_neutral_neutral_switch_refuted.

Example C12_case : is_ion ex_state "d+" /\ is_neutral ex_state "d" /\ is_neutral ex_state "he".
Proof.
  split; [split; [discriminate|vm_compute; lra]|].
  split; (split; [discriminate|reflexivity]).
Qed.
