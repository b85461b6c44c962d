(** Specification for the whole line: what a reaction keeps, and what passes the targets. *)

From Coq Require Import List Bool ZArith Reals String.
From Verif Require Import OptionsModel StateMonad StateSpec ReactionsModel ParallelModel ParallelSpec WallsModel WallsSpec SystemModel.
Import ListNotations.
Open Scope R_scope.
Open Scope string_scope.

(** A weight [W] per particle of each species (nuclei of an element, charge, ...) which the reaction keeps, with charges q: as
    reaction equation, fr -> to + (q to - q fr) electrons, fA + fB -> tA + tB, a1 + i1 -> i2 + a2.  The species are in [L]. *)
Definition keeps (L : list string) (W q : string -> R) (r : reaction) : Prop :=
  match r with
  | Amjuel _ _ el fr to _ _ _ _ _ _ _ | Adas _ _ _ _ _ el fr to =>
      NoDup [el; fr; to] /\ incl [el; fr; to] L /\ W fr = W to + (q to - q fr) * W el
  | AdasCx _ _ _ _ fA fB tA tB => NoDup [fA; fB; tA; tB] /\ incl [fA; fB; tA; tB] L /\ W fA + W fB = W tA + W tB
  | HydrogenCx _ a1 i1 a2 i2 _ _ => incl [a1; i1; a2; i2] L /\ W a1 + W i1 = W a2 + W i2
  end.
Definition charges (s : State * unit) (k : string) : R := value s k "charge".

(** What leaves the line through its ends, counted negative where it enters, and the part of it which arrives at a target. *)
Definition net_outflow (c : coords) (m : mesh) (N V : Z -> R) : R :=
  full_area c (yend m) (yend m + 1) * end_particle_flux N V (yend m + 1)
  - full_area c (ystart m) (ystart m - 1) * end_particle_flux N V (ystart m).
Definition arriving (c : coords) (m : mesh) (N V : Z -> R) : R := lower_outflow c m N V + upper_outflow c m N V.
(** Density and velocity of a species along the line. *)
Definition density_of (s : Z -> State * unit) (k : string) (j : Z) : R := value (s j) k "density".
Definition velocity_of (s : Z -> State * unit) (k : string) (j : Z) : R := value (s j) k "velocity".
Definition source_of (s : Z -> State * unit) (k : string) (j : Z) : R := value (s j) k "density_source".
Definition flows_out (s : Z -> State * unit) (m : mesh) (k : string) : Prop :=
  end_particle_flux (density_of s k) (velocity_of s k) (ystart m) <= 0 <= end_particle_flux (density_of s k) (velocity_of s k) (yend m + 1).
