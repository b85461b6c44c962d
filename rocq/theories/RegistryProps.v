(** C87: the registered reactions do what their names say. *)

From Coq Require Import List Bool Ascii String ZArith Reals Lra Lia.
From Verif Require Import OptionsModel OptionsSpec StateMonad StateSpec LimitersModel
  RadiationModel ReactionsModel ReactionsSpec ReactionsTableProofs ReactionsLaws CollisionsExamples ReactionsExamples
  RegistryModel RegistrySpec RegistryProofs RegistryLaws RegistryWit.
Import ListNotations.
Open Scope R_scope.
Open Scope string_scope.

(** Each registered name parses as a formula which conserves charge and nuclei. *)
Theorem C87_formulas_balance : forall name r, List.In (name, r) registry ->
  exists lhs rhs, formula name = Some (lhs, rhs) /\ total_charge lhs = total_charge rhs /\
    (forall k, k <> "e" -> nuclei k lhs = nuclei k rhs).
Proof. exact formulas_balance. Qed.
Print Assumptions C87_formulas_balance.

(** No name is registered twice: which class a name stands for does not depend on the order of registration. *)
Theorem C87_names_distinct : NoDup (map fst registry).
Proof. exact names_distinct. Qed.
Print Assumptions C87_names_distinct.

(** The class run for a name changes the particle source of each species in the proportions of the formula, at one rate, which is not negative. *)
Theorem C87_sources_follow_formula : forall su name r (s s' : State * unit) f,
  List.In (name, r) registry -> formula name = Some f -> charges_as_named s (fst f ++ snd f)%list ->
  finishes (perform su r) s s' tt ->
  exists rate, (forall sp, change s s' sp "density_source" = IZR (made f sp) * rate) /\ (physical su s -> 0 <= rate).
Proof. exact follows. Qed.
Print Assumptions C87_sources_follow_formula.

Example C87_hypotheses_met :
  List.In ("c + e -> c+ + 2e", Adas_ionisation Carbon 0) registry /\
  (exists f, formula "c + e -> c+ + 2e" = Some f /\ charges_as_named cx_state (fst f ++ snd f)%list /\ made f "e" = 1%Z) /\
  physical ex_setup cx_state /\
  exists s', finishes (perform ex_setup (Adas_ionisation Carbon 0)) cx_state s' tt /\ change cx_state s' "e" "density_source" = 2.
Proof. exact carbon_case. Qed.

Theorem C87_species_names : forall el k, (k <= List.length (ionisation_energy el))%nat ->
  charge (species_name el k) = Z.of_nat k /\ nucleus (species_name el k) = symbol el.
Proof. exact species_names. Qed.
Print Assumptions C87_species_names.

(** Every charge state can be ionised, and recombine with electrons and with each hydrogen isotope. *)
Theorem C87_all_levels : forall el k, (k < List.length (ionisation_energy el))%nat ->
  registered (Adas_ionisation el k) /\ registered (Adas_recombination el k) /\
  (forall iso, List.In iso ["h"; "d"; "t"] -> registered (Adas_cx el k iso)).
Proof. exact all_levels. Qed.
Print Assumptions C87_all_levels.

(** The ionisation energies are positive and increase with charge. *)
Theorem C87_energies : forall el, increasing (ionisation_energy el) /\ Forall (fun e => 0 < e) (ionisation_energy el).
Proof. exact energies_increase. Qed.
Print Assumptions C87_energies.

(** Recombination gives back to the electrons the energy which the ionisation it reverses takes. *)
Theorem C87_reverse_heating : forall n1 r1 n2 r2 f1 f2,
  List.In (n1, r1) registry -> List.In (n2, r2) registry -> is_impact r1 = true -> is_impact r2 = true ->
  formula n1 = Some f1 -> formula n2 = Some f2 ->
  (forall sp, made f1 sp = (- made f2 sp)%Z) -> adas_heating r1 = - adas_heating r2.
Proof. exact reverse_heating. Qed.
Print Assumptions C87_reverse_heating.

Example C87_reverse_met :
  List.In ("c+ + e -> c+2 + 2e", Adas_ionisation Carbon 1) registry /\ List.In ("c+2 + e -> c+", Adas_recombination Carbon 1) registry /\
  exists f1 f2, formula "c+ + e -> c+2 + 2e" = Some f1 /\ formula "c+2 + e -> c+" = Some f2 /\ made f1 "c+" = (-1)%Z /\
    forall sp, made f1 sp = (- made f2 sp)%Z.
Proof. exact carbon_reverse. Qed.

(** Each table a reaction reads is shipped, has the level, and has axes on which the lookup is defined and positive for all arguments. *)
Theorem C87_shipped_tables : forall name r file level,
  List.In (name, r) registry -> List.In (file, level) (tables_read r) ->
  exists f, find_file file = Some f /\ (level < List.length (f_shape f))%nat /\
    forall coeff, map (@List.length R) coeff = nth level (f_shape f) [] ->
    forall T n, exists v, adas_evaluate (table_of f coeff) T n = Some v /\ 0 < v.
Proof. exact shipped_tables. Qed.
Print Assumptions C87_shipped_tables.

Example C87_tables_met : List.In ("c + e -> c+ + 2e", Adas_ionisation Carbon 0) registry /\
  List.In ("scd96_c.json", 0%nat) (tables_read (Adas_ionisation Carbon 0)).
Proof. exact carbon_tables. Qed.
