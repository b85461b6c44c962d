(** Components which prescribe part of the state of a species: isothermal, fixed_density, fixed_temperature, fixed_velocity and
    set_temperature, as calls on the state at one grid point. *)

From Coq Require Import List Bool String Reals.
From Verif Require Import OptionsModel StateMonad.
Import ListNotations.
Open Scope R_scope.
Open Scope string_scope.

Definition SM := M unit.

(** The normalisations, alloptions["units"]. *)
Record units := mkUnits { u_eV : R; u_inv_meters_cubed : R; u_meters : R; u_seconds : R }.

(** Isothermal::Isothermal, src/isothermal.cxx 6-19: the option "temperature" is in eV.  FixedTemperature::FixedTemperature,
    include/fixed_temperature.hxx 13-29, the same with a field. *)
Definition normalised_temperature (u : units) (temperature : R) : R := temperature / u_eV u.
(** FixedDensity::FixedDensity, include/fixed_density.hxx 15-30: the option "density" is in m^-3. *)
Definition normalised_density (u : units) (density : R) : R := density / u_inv_meters_cubed u.
(** FixedVelocity::FixedVelocity, include/fixed_velocity.hxx 11-23: the option "velocity" is in m/s. *)
Definition normalised_velocity (u : units) (velocity : R) : R := velocity / (u_meters u / u_seconds u).

(** The end of each transform: if the density is set, the pressure is set (src/isothermal.cxx 28-34, include/fixed_temperature.hxx 50-57,
    include/set_temperature.hxx 62-66). *)
Definition pressure_from (name : string) (T : R) : SM unit :=
  b <- mis_set_final_nb (name, "density") ;;
  if b : bool then
    N <- mget_nb (name, "density") ;;
    mset (name, "pressure") (N * T)
  else ret tt.

(** Isothermal::transform, src/isothermal.cxx 21-35. *)
Definition isothermal (name : string) (T : R) : SM unit :=
  mset (name, "temperature") T ;; pressure_from name T.
(** FixedTemperature::transform, include/fixed_temperature.hxx 44-58. *)
Definition fixed_temperature (name : string) (T : R) : SM unit :=
  mset (name, "temperature") T ;; pressure_from name T.
(** SetTemperature::transform, include/set_temperature.hxx 52-67: [other] is the species given by the option "temperature_from". *)
Definition set_temperature (name other : string) : SM unit :=
  T <- mget_nb (other, "temperature") ;;
  mset (name, "temperature") T ;; pressure_from name T.
(** FixedDensity::transform, include/fixed_density.hxx 39-47. *)
Definition fixed_density (name : string) (N charge AA : R) : SM unit :=
  (if negb (Reqb charge 0) then mset (name, "charge") charge else ret tt) ;;
  mset (name, "AA") AA ;;
  mset (name, "density") N.
(** FixedVelocity::transform, include/fixed_velocity.hxx 30-42. *)
Definition fixed_velocity (name : string) (V : R) : SM unit :=
  mset (name, "velocity") V ;;
  b <- mis_set_final_nb (name, "density") ;;
  if b : bool then
    N <- mget_nb (name, "density") ;;
    AA <- mget (name, "AA") ;;
    mset (name, "momentum") (AA * N * V)
  else ret tt.
