(** C108: settings which are left out. *)

From Coq Require Import List Bool String QArith.
From Verif Require Import AccessModel AccessComponents AccessDefaultsSpec AccessDefaults.
Import ListNotations.
Open Scope string_scope.
Open Scope list_scope.

(** Leaving out an optional setting is the same as giving its default ([s] is any species
    which takes part in recycling). *)
Theorem C108_defaults : forall ty n c s sec key v,
  In (sec, key, v) (defaults ty n s) -> opt c sec key = None ->
  create ty n (with_setting c sec key v) = create ty n c.
Proof. exact defaults_given. Qed.
Print Assumptions C108_defaults.

Definition reads_first (x : option comp) : option aop :=
  match x with
  | Some y => match c_transform y with Op o _ => Some o | _ => None end
  | None => None
  end.

(** The setting added is the one found, the others stay, and a value other than the default
    makes a difference. *)
Example C108_defaults_case :
  In ("thermal_force", "electron_ion", on) (defaults "thermal_force" "thermal_force" "") /\
  opt (with_setting [("d+", [("AA", CQ 2)])] "d+" "charge" (CQ 1)) "d+" "charge" = Some (CQ 1) /\
  opt (with_setting [("d+", [("AA", CQ 2)])] "d+" "charge" (CQ 1)) "d+" "AA" = Some (CQ 2) /\
  reads_first (create "thermal_force" "thermal_force" []) = Some (AHasSpecies "e") /\
  reads_first (create "thermal_force" "thermal_force"
                 (with_setting [] "thermal_force" "electron_ion" on)) = Some (AHasSpecies "e") /\
  reads_first (create "thermal_force" "thermal_force"
                 (with_setting [] "thermal_force" "electron_ion" off)) = Some (AKids false).
Proof. repeat split; vm_compute; tauto. Qed.

(** Without a required setting there is no component. *)
Theorem C108_required : forall ty n c sec key,
  In (sec, key) (required ty n) -> opt c sec key = None -> create ty n c = None.
Proof. exact required_missing. Qed.
Print Assumptions C108_required.

Example C108_required_case :
  In ("d+", "AA") (required "evolve_density" "d+") /\
  create "evolve_density" "d+" [("d+", [("charge", CQ 1)])] = None /\
  create "evolve_density" "d+" [("d+", [("charge", CQ 1); ("AA", CQ 2)])] <> None.
Proof. split; [vm_compute; tauto|]. split; [reflexivity|vm_compute; discriminate]. Qed.
