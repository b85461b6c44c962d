(** Specification of the sheath boundaries. *)

From Coq Require Import List Reals.
From Verif Require Import SheathModel.
Import ListNotations.
Open Scope R_scope.

(** The boundary face is halfway between the last cell and the guard cell. *)
Definition face (c g : R) : R := (c + g) / 2.
(** Particle flux through the face, from the momentum, and from density and velocity. *)
Definition flux_of_momentum (s : spec) (b : bdry) : R := face (mom_c s) (mom_g b) / mass s.
Definition flux_of_velocity (s : spec) (b : bdry) : R := face (at_c (dens s)) (dens_g b) * face (vel_c s) (vel_g b).
(** Electric current through the face carried by the ions. *)
Fixpoint ion_current (flux : spec -> bdry -> R) (ions : list spec) (bs : list bdry) : R :=
  match ions, bs with
  | i :: ions', b :: bs' => charge i * flux i b + ion_current flux ions' bs'
  | _, _ => 0
  end.
Definition no_current (flux : spec -> bdry -> R) (e : spec) (ions : list spec) (r : bdry * list bdry) : Prop :=
  ion_current flux ions (snd r) = flux e (fst r).

(** Area of the face and volume of the last cell, for unit dx and dz. *)
Definition face_area (g : geom) : R := (J_c g + J_g g) / (sqrt (g22_c g) + sqrt (g22_g g)).
Definition cell_volume (g : geom) : R := J_c g * dy_c g.
Definition geom_ok (g : geom) : Prop := 0 < J_c g /\ 0 < J_g g /\ 0 < g22_c g /\ 0 < g22_g g /\ 0 < dy_c g.
(** Energy carried by a flow of density n, temperature T and speed v: enthalpy and kinetic energy. *)
Definition convected (m n T v : R) : R := (5 / 2 * T + m * (v * v) / 2) * n * v.

(** The mirrored plasma. *)
Definition mirror_spec (s : spec) : spec :=
  mkSpec (charge s) (mass s) (adiabatic s) (dens s) (temp s) (pres s) (- vel_c s) (- mom_c s).
Definition mirror_bdry (b : bdry) : bdry := mkBdry (dens_g b) (temp_g b) (pres_g b) (- vel_g b) (- mom_g b) (added_energy b).
Definition mirror_result (r : bdry * list bdry) : bdry * list bdry := (mirror_bdry (fst r), map mirror_bdry (snd r)).

(** A species whose density, temperature and pressure are not negative, with positive mass. *)
Definition prof_nonneg (p : prof) : Prop := 0 <= at_c p /\ 0 <= at_n p.
Definition spec_ok (s : spec) : Prop := 0 < mass s /\ prof_nonneg (dens s) /\ prof_nonneg (temp s).
