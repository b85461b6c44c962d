(** Reference formulas for collision frequencies in SI units, and the Coulomb logarithms of the NRL formulary (densities in cm^-3, temperatures in
    eV, masses in units of the proton mass). *)

From Coq Require Import Reals.
Open Scope R_scope.

(** Frequency of collisions of species 1 (charge q1, mass m1, temperature T1 in J) with species 2 of density n2: Maxwellians with
    <v^2> = 2 T / m each. *)
Definition coulomb_frequency (eps q1 m1 T1 q2 m2 T2 n2 lambda : R) : R :=
  let w := 2 * T1 / m1 + 2 * T2 / m2 in
  (q1 * q2 / (eps * m1)) ^ 2 * n2 * lambda * ((m1 + m2) / m2) / (3 * (PI * w) * sqrt (PI * w)).

(** Frequency of collisions with hard spheres of cross section sigma, relative speed^2 = T1 / m1 + T2 / m2. *)
Definition sphere_frequency (m1 T1 m2 T2 n2 sigma : R) : R := n2 * sigma * sqrt (T1 / m1 + T2 / m2).

(** NRL formulary, page 34. *)
Definition nrl_ee (n_cm T : R) : R := 23.5 - ln (sqrt n_cm / Rpower T 1.25) - sqrt (1e-5 + (ln T - 2) ^ 2 / 16).
Definition nrl_ei_cold (n_cm T Z : R) : R := 23 - ln (sqrt n_cm * Z / Rpower T 1.5).
Definition nrl_ei_hot (n_cm T : R) : R := 24 - ln (sqrt n_cm / T).
Definition nrl_ei_ions (n_cm Ti Z mu : R) : R := 16 - ln (sqrt n_cm / Rpower Ti 1.5 * Z ^ 2 * mu).
Definition nrl_ii (Z1 mu1 T1 n1 Z2 mu2 T2 n2 : R) : R :=
  23 - ln (Z1 * Z2 * (mu1 + mu2) / (mu1 * T2 + mu2 * T1) * sqrt (n1 * Z1 ^ 2 / T1 + n2 * Z2 ^ 2 / T2)).

(** Density in cm^-3 of a density in m^-3. *)
Definition per_cm3 (n : R) : R := n / 1e6.

(** Braginskii's friction coefficient for ion charges 1, 2, 3, 4. *)
Definition braginskii_friction (Z : nat) : R :=
  match Z with 1%nat => 0.51 | 2%nat => 0.44 | 3%nat => 0.40 | _ => 0.38 end.
