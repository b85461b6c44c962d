(** Property C13: the thermal force. *)

From Coq Require Import List Bool String Reals Lra.
From Verif Require Import OptionsModel StateMonad StateSpec StateMonadProofs StateEffects
  ThermalForceModel ThermalForceSpec ThermalForceProofs CollisionsExamples.
Import ListNotations.
Open Scope R_scope.
Open Scope string_scope.

Theorem C13_thermal_force_conserves_momentum :
  forall (electron_ion ion_ion : bool) (grad : string -> R) species (s s' : State * unit),
    NoDup species ->
    finishes (thermal_force electron_ion ion_ion grad species) s s' tt ->
    sumR (fun sp => value s' sp "momentum_source") species
    = sumR (fun sp => value s sp "momentum_source") species /\
    (forall sp q, q <> "momentum_source" \/ ~ In sp species -> value s' sp q = value s sp q).
Proof. exact thermal_force_conserves. Qed.
Print Assumptions C13_thermal_force_conserves_momentum.

(** The force of the electrons on each ion; with the conservation law the electrons get
    the opposite of the sum. *)
Theorem C13_electron_force :
  forall (grad : string -> R) species (s s' : State * unit),
    NoDup species -> In "e" species ->
    finishes (thermal_force true false grad species) s s' tt ->
    (forall sp, In sp species -> ion s sp ->
       value s' sp "momentum_source" - value s sp "momentum_source"
       = 0.71 * value s sp "charge" ^ 2 * value s sp "density" * grad "e") /\
    (forall sp, In sp species -> sp <> "e" -> present s sp "charge" = false ->
       value s' sp "momentum_source" = value s sp "momentum_source").
Proof. exact electrons_only. Qed.
Print Assumptions C13_electron_force.

(** Each pair of a light and a heavy ion exchanges momentum once, whatever the order of the names;
    other pairs do not. *)
Theorem C13_ion_forces :
  forall (grad : string -> R) species (s s' : State * unit),
    NoDup species ->
    finishes (thermal_force false true grad species) s s' tt ->
    exists F : string -> string -> R,
      (forall a b, F a b = - F b a) /\
      (forall sp, In sp species ->
         value s' sp "momentum_source" - value s sp "momentum_source" = sumR (F sp) species) /\
      (forall a b, light s a -> heavy s b ->
         F b a = if Req_EM_T (value s b "charge") 0 then 0
                 else value s b "density" * stangeby_beta (value s a "AA") (value s b "AA") (value s b "charge") * grad a) /\
      (forall a b, ~ (light s a /\ heavy s b) -> ~ (light s b /\ heavy s a) -> F a b = 0).
Proof. exact ions_only. Qed.
Print Assumptions C13_ion_forces.

Definition C13_state : State * unit :=
  (state_of
     [(("ar+", "AA"), 40); (("ar+", "density"), 1); (("ar+", "charge"), 1);
      (("d+", "AA"), 2); (("d+", "density"), 3); (("d+", "temperature"), 2); (("d+", "charge"), 1);
      (("d", "AA"), 2); (("d", "density"), 3);
      (("e", "AA"), 1 / 1836); (("e", "density"), 3); (("e", "temperature"), 4); (("e", "charge"), -1);
      (("d+", "momentum_source"), 7)], tt).

Example C13_case :
  NoDup ["ar+"; "d"; "d+"; "e"] /\ light C13_state "d+" /\ heavy C13_state "ar+" /\
  exists s', finishes (thermal_force true true (fun _ => 2) ["ar+"; "d"; "d+"; "e"]) C13_state s' tt.
Proof.
  split; [repeat constructor; cbn; intuition discriminate|].
  split; [split; [split; [discriminate|reflexivity]|vm_compute; lra]|].
  split; [split; [split; [discriminate|reflexivity]|vm_compute; lra]|].
  apply halts_unit.
  assert (R0 : ready W C13_state C13_state) by (apply ready_start; intros; apply state_of_unmarked).
  assert (V1 : val C13_state ("ar+", "AA") = 40) by reflexivity.
  assert (V2 : val C13_state ("d+", "AA") = 2) by reflexivity.
  assert (V3 : val C13_state ("ar+", "charge") = 1) by reflexivity.
  unfold thermal_force.
  change (true && existsb (String.eqb "e") ["ar+"; "d"; "d+"; "e"])%bool with true. cbv iota.
  run_all C13_state R0 ltac:(unfold electron_force, ion_pair, heavy_force; cbn [ion_loop mfor])
    ltac:(rewrite ?V1, ?V2, ?V3, ?(Rltb_false 40 4), ?(Rltb_true 10 40), ?(Rltb_true 2 4), ?(Rltb_false 10 2), ?(Reqb_false 1 0) by lra).
Qed.
