(** What a conversion factor has to be: the normalised equations use one coherent system of units, whose unit of length is rho_s0, of time
    1/Omega_ci, of particles those in a unit volume at the reference density, of mass that of as many protons, of charge that of as many
    elementary charges.  The factor for a quantity with given SI units is the product of these units to the quantity's exponents. *)

From Coq Require Import List Bool ZArith Reals String.
From Verif Require Import UnitsModel.
Import ListNotations.
Open Scope R_scope.

(** Exponents of metre, kilogram, second, coulomb, and number of particles. *)
Record dims := mkDims { d_m : Z; d_kg : Z; d_s : Z; d_C : Z; d_n : Z }.
Definition dmul (a b : dims) : dims :=
  mkDims (d_m a + d_m b) (d_kg a + d_kg b) (d_s a + d_s b) (d_C a + d_C b) (d_n a + d_n b).
Definition dinv (a : dims) : dims := mkDims (- d_m a) (- d_kg a) (- d_s a) (- d_C a) (- d_n a).
Definition ddiv (a b : dims) : dims := dmul a (dinv b).
Fixpoint dpow (a : dims) (n : nat) : dims := match n with O => mkDims 0 0 0 0 0 | S n => dmul a (dpow a n) end.

Definition none : dims := mkDims 0 0 0 0 0.
Definition metre : dims := mkDims 1 0 0 0 0.
Definition kilogram : dims := mkDims 0 1 0 0 0.
Definition second : dims := mkDims 0 0 1 0 0.
Definition coulomb : dims := mkDims 0 0 0 1 0.
Definition particle : dims := mkDims 0 0 0 0 1.
Definition newton : dims := ddiv (dmul kilogram metre) (dpow second 2).
Definition pascal : dims := ddiv newton (dpow metre 2).
Definition joule : dims := dmul newton metre.
Definition watt : dims := ddiv joule second.
Definition ampere : dims := ddiv coulomb second.
Definition volt : dims := ddiv joule coulomb.
Definition tesla : dims := ddiv (dmul volt second) (dpow metre 2).
(** A temperature in eV is, numerically, an energy in joules divided by the elementary charge in coulombs. *)
Definition electronvolt : dims := volt.

(** The unit strings which occur. *)
Definition dims_of (u : string) : option dims :=
  (if String.eqb u "m^-3" then Some (dinv (dpow metre 3)) else
   if String.eqb u "m^-3 s^-1" then Some (dinv (dmul (dpow metre 3) second)) else
   if String.eqb u "m^-3 / s" then Some (dinv (dmul (dpow metre 3) second)) else
   if String.eqb u "m^-3/s" then Some (dinv (dmul (dpow metre 3) second)) else
   if String.eqb u "s^-1" then Some (dinv second) else
   if String.eqb u "s-1" then Some (dinv second) else
   if String.eqb u "seconds" then Some second else
   if String.eqb u "meters" then Some metre else
   if String.eqb u "m / s" then Some (ddiv metre second) else
   if String.eqb u "m/s" then Some (ddiv metre second) else
   if String.eqb u "m^2 s^-1" then Some (ddiv (dpow metre 2) second) else
   if String.eqb u "m^2/s" then Some (ddiv (dpow metre 2) second) else
   if String.eqb u "eV" then Some electronvolt else
   if String.eqb u "V" then Some volt else
   if String.eqb u "Volts" then Some volt else
   if String.eqb u "V / m" then Some (ddiv volt metre) else
   if String.eqb u "V / s" then Some (ddiv volt second) else
   if String.eqb u "T m" then Some (dmul tesla metre) else
   if String.eqb u "Pa" then Some pascal else
   if String.eqb u "Pa / s" then Some (ddiv pascal second) else
   if String.eqb u "Pa/s" then Some (ddiv pascal second) else
   if String.eqb u "Pa s^-1" then Some (ddiv pascal second) else
   if String.eqb u "N/m^2/s" then Some (ddiv (ddiv newton (dpow metre 2)) second) else
   if String.eqb u "J/m^3" then Some (ddiv joule (dpow metre 3)) else
   if String.eqb u "J/m^3/s" then Some (ddiv (ddiv joule (dpow metre 3)) second) else
   if String.eqb u "W" then Some watt else
   if String.eqb u "W / m^3" then Some (ddiv watt (dpow metre 3)) else
   if String.eqb u "W m^-3" then Some (ddiv watt (dpow metre 3)) else
   if String.eqb u "W/m^3" then Some (ddiv watt (dpow metre 3)) else
   if String.eqb u "W / m / eV" then Some (ddiv (ddiv watt metre) electronvolt) else
   if String.eqb u "N" then Some newton else
   if String.eqb u "kg / m^2 / s" then Some (ddiv kilogram (dmul (dpow metre 2) second)) else
   if String.eqb u "kg m^-2 s^-2" then Some (ddiv kilogram (dmul (dpow metre 2) (dpow second 2))) else
   if String.eqb u "A m^-3" then Some (ddiv ampere (dpow metre 3)) else
   if String.eqb u "C m^-3" then Some (ddiv coulomb (dpow metre 3)) else None)%string.

(** A choice of normalisation: all positive. *)
Definition positive_norms (n : norms) : Prop := 0 < qe n /\ 0 < Mp n /\ 0 < Nnorm n /\ 0 < Tnorm n /\ 0 < Bnorm n.

(** The five units. *)
Definition length_unit (n : norms) : R := sqrt (qe n * Tnorm n * Mp n) / (qe n * Bnorm n).
Definition time_unit (n : norms) : R := Mp n / (qe n * Bnorm n).
Definition count_unit (n : norms) : R := Nnorm n * (length_unit n * length_unit n * length_unit n).
Definition mass_unit (n : norms) : R := Mp n * count_unit n.
Definition charge_unit (n : norms) : R := qe n * count_unit n.
Definition in_SI (n : norms) (d : dims) : R :=
  powerRZ (length_unit n) (d_m d) * powerRZ (mass_unit n) (d_kg d) * powerRZ (time_unit n) (d_s d) * powerRZ (charge_unit n) (d_C d)
  * powerRZ (count_unit n) (d_n d).

(** The dimension of an entry. *)
Definition entry_dims (e : entry) : option dims :=
  match dims_of (e_units e) with
  | Some d => Some (if e_particles e then dmul d particle else d)
  | None => None
  end.
(** An entry is right if its factor is the unit of its dimension, whatever the normalisation. *)
Definition right_entry (e : entry) : Prop :=
  exists d, entry_dims e = Some d /\ forall n, positive_norms n -> ceval n (e_factor e) = in_SI n d.
