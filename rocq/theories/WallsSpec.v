(** Specification of walls: what passes through the end faces of a line, and what comes back. *)

From Coq Require Import List Bool ZArith Reals String.
From Verif Require Import ParallelModel ParallelSpec.
Open Scope R_scope.

(** Face between cells i and g, and volume of cell i, in full (with dx and dz; those of a face are the means). *)
Definition full_area (c : coords) (i g : Z) : R :=
  (c_J c i + c_J c g) / (sqrt (c_g22 c i) + sqrt (c_g22 c g)) * ((c_dx c i + c_dx c g) / 2) * ((c_dz c i + c_dz c g) / 2).
Definition full_volume (c : coords) (i : Z) : R := c_J c i * c_dx c i * c_dy c i * c_dz c i.
Definition positive_cells (c : coords) : Prop := positive_metric c /\ forall j, 0 < c_dx c j /\ 0 < c_dz c j.
(** Content of a line. *)
Definition total (c : coords) (lo : Z) (n : nat) (r : Z -> R) : R := zsum lo n (fun j => full_volume c j * r j).

(** Particles hitting a wall per area and time, from a Maxwellian of density n and temperature T (mass A), and the energy they carry. *)
Definition one_way_flux (A n T : R) : R := n * sqrt (T / (2 * PI * A)).
Definition one_way_heat (A n T : R) : R := 2 * T * one_way_flux A n T.
(** A fraction [fast] returns with the part [kept] of its energy, the rest each with energy [cold]. *)
Definition heat_to_wall (A kept fast cold n T : R) : R :=
  one_way_heat A n T - (fast * kept * one_way_heat A n T + (1 - fast) * cold * one_way_flux A n T).

(** Flow of particles out of a line through each closed end; nothing if they flow in. *)
Definition lower_outflow (c : coords) (m : mesh) (N V : Z -> R) : R :=
  if closed_low m then Rmax 0 (- (full_area c (ystart m) (ystart m - 1) * end_particle_flux N V (ystart m))) else 0.
Definition upper_outflow (c : coords) (m : mesh) (N V : Z -> R) : R :=
  if closed_high m then Rmax 0 (full_area c (yend m) (yend m + 1) * end_particle_flux N V (yend m + 1)) else 0.

(** The settings of a section are accepted when all multipliers are within [0, 1]. *)
Definition unit_interval (x : R) : Prop := 0 <= x <= 1.
