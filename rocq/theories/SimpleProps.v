(** C86: components which prescribe part of the state of a species. *)

From Coq Require Import List Bool String Reals Lra.
From Verif Require Import OptionsModel OptionsSpec StateMonad StateSpec StateMonadProofs SimpleModel SimpleSpec SimpleProofs.
Import ListNotations.
Open Scope R_scope.
Open Scope string_scope.

(** isothermal and fixed_temperature: the temperature is the given one; the pressure follows if there is a density and is left alone otherwise;
    the density cannot be changed afterwards, and nothing else changes. *)
Theorem C86_pressure : forall name T s s',
  finishes (isothermal name T) s s' tt \/ finishes (fixed_temperature name T) s s' tt ->
  value s' name "temperature" = T /\ present s' name "temperature" = true /\
  value s' name "density" = value s name "density" /\ present s' name "density" = present s name "density" /\
  (present s name "density" = true -> value s' name "pressure" = value s name "density" * T /\ present s' name "pressure" = true) /\
  (present s name "density" = false ->
   value s' name "pressure" = value s name "pressure" /\ present s' name "pressure" = present s name "pressure") /\
  fixed s' name "density" /\ keeps s s' name ["temperature"; "pressure"].
Proof. exact pressure_both. Qed.
Print Assumptions C86_pressure.

(** set_temperature: both temperatures are equal, and the other's can no longer be set; a species cannot take its own temperature. *)
Theorem C86_same_temperature : forall name other s s', finishes (set_temperature name other) s s' tt ->
  name <> other /\ present s other "temperature" = true /\
  value s' name "temperature" = value s' other "temperature" /\ value s' other "temperature" = value s other "temperature" /\
  fixed s' other "temperature" /\
  (present s name "density" = true -> value s' name "pressure" = value s name "density" * value s other "temperature").
Proof. exact same_temperature. Qed.
Print Assumptions C86_same_temperature.

(** Refuted: that the temperatures stay equal.  set_temperature reads without boundaries, so that a later boundary condition (setBoundary) on the
    other species changes its temperature and not the copy. *)
Theorem C86_stays_equal_refuted : exists name other s s1 s2 v,
  finishes (set_temperature name other) s s1 tt /\ finishes (mset_boundary (other, "temperature") v) s1 s2 tt /\
  value s2 name "temperature" <> value s2 other "temperature".
Proof. exact guard_differs. Qed.
Print Assumptions C86_stays_equal_refuted.

(** fixed_velocity: momentum is mass times density times velocity. *)
Theorem C86_momentum : forall name V s s', finishes (fixed_velocity name V) s s' tt ->
  value s' name "velocity" = V /\ present s' name "velocity" = true /\
  (present s name "density" = true ->
   present s name "AA" = true /\ value s' name "momentum" = value s name "AA" * value s name "density" * V /\ present s' name "momentum" = true /\
   fixed s' name "AA") /\
  (present s name "density" = false ->
   value s' name "momentum" = value s name "momentum" /\ present s' name "momentum" = present s name "momentum") /\
  fixed s' name "density" /\ keeps s s' name ["velocity"; "momentum"].
Proof. exact fixed_velocity_law. Qed.
Print Assumptions C86_momentum.

(** A density which comes after one of the other components is refused: no pressure or momentum of an older density is left behind. *)
Theorem C86_order : forall name other T V N q A s s',
  ~ finishes (isothermal name T ;; fixed_density name N q A) s s' tt /\
  ~ finishes (fixed_temperature name T ;; fixed_density name N q A) s s' tt /\
  ~ finishes (set_temperature name other ;; fixed_density name N q A) s s' tt /\
  ~ finishes (fixed_velocity name V ;; fixed_density name N q A) s s' tt.
Proof. exact order_refused. Qed.
Print Assumptions C86_order.

(** In the right order, from values in SI units and eV: the normalised state has the given density, temperature and velocity in SI units, and
    pressure and momentum are consistent with them. *)
Theorem C86_together : forall u name N q A T V s,
  u_eV u <> 0 -> u_inv_meters_cubed u <> 0 -> u_meters u <> 0 -> u_seconds u <> 0 -> untouched s name ->
  exists s', finishes (fixed_density name (normalised_density u N) q A ;; isothermal name (normalised_temperature u T) ;;
                       fixed_velocity name (normalised_velocity u V)) s s' tt /\
    value s' name "density" * u_inv_meters_cubed u = N /\ value s' name "temperature" * u_eV u = T /\
    value s' name "velocity" * (u_meters u / u_seconds u) = V /\
    value s' name "pressure" * (u_inv_meters_cubed u * u_eV u) = N * T /\
    value s' name "momentum" * (u_inv_meters_cubed u * (u_meters u / u_seconds u)) = A * N * V /\
    value s' name "AA" = A /\ value s' name "charge" = q /\ (present s' name "charge" = true <-> q <> 0).
Proof. exact together_si. Qed.
Print Assumptions C86_together.

(** A concrete case for each: with density 2, temperature 3 and velocity 5 of a species of mass 4. *)
Example C86_hypotheses_met :
  (exists s', finishes (isothermal "d" 3) (state_of [(("d", "density"), 2)], tt) s' tt /\ value s' "d" "pressure" = 6) /\
  (exists s', finishes (set_temperature "d" "e") (state_of [(("d", "density"), 2); (("e", "temperature"), 3)], tt) s' tt /\ value s' "d" "pressure" = 6) /\
  (exists s', finishes (fixed_velocity "d" 5) (state_of [(("d", "density"), 2); (("d", "AA"), 4)], tt) s' tt /\ value s' "d" "momentum" = 40) /\
  untouched (state_of [(("e", "temperature"), 3)], tt) "d".
Proof. exact simple_cases. Qed.
