(** Specification vocabulary for the collisions component (C09-C12). *)

From Coq Require Import List Bool String Reals.
From Verif Require Import OptionsModel StateMonad StateSpec CollisionsModel.
Import ListNotations.
Open Scope R_scope.
Open Scope string_scope.

(** Kinds of species, by name and charge (an unset charge counts as zero). *)
Definition is_electron (sp : string) : Prop := sp = "e".
Definition is_ion {P} (s : State * P) (sp : string) : Prop := sp <> "e" /\ value s sp "charge" <> 0.
Definition is_neutral {P} (s : State * P) (sp : string) : Prop := sp <> "e" /\ value s sp "charge" = 0.

(** The recorded rates contain a collision of [a] with [b]. *)
Definition collided (l : rates) (a b : string) : Prop := exists nu, In (a, b, nu) l.

(** Total rate recorded for species [a]. *)
Definition total_rate (l : rates) (a : string) : R :=
  sumR (fun r => if String.eqb a (fst (fst r)) then snd r else 0) l.

(** Units and constants are positive. *)
Definition physical (c : config) : Prop :=
  0 < Tnorm c /\ 0 < Nnorm c /\ 0 < rho_s0 c /\ 0 < Omega_ci c /\
  0 < qe c /\ 0 < Me c /\ 0 < Mp c /\ 0 < e0 c /\ 0 <= ei_multiplier c.

(** Masses are positive, densities and temperatures non-negative. *)
Definition physical_state {P} (s : State * P) (species : list string) : Prop :=
  forall sp, In sp species ->
    0 < value s sp "AA" /\ 0 <= value s sp "density" /\ 0 <= value s sp "temperature".

(** Every species has the inputs set, and no component has read a source yet. *)
Definition inputs_set {P} (s : State * P) (species : list string) : Prop :=
  (forall sp, In sp species ->
     present s sp "AA" = true /\ present s sp "density" = true /\ present s sp "temperature" = true) /\
  (forall sp q, q = "collision_frequency" \/ q = "momentum_source" \/ q = "energy_source" ->
     e_final (fst s (sp, q)) = false /\ e_final_dom (fst s (sp, q)) = false).
