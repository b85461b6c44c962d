(** Model of src/collisions.cxx (component "collisions"), at one arbitrary grid point.

    Simplifications: fields are their values at one grid point (all operations of
    this component are pointwise); values are exact reals, so the finiteness
    assertions (191, 236-241, 378) never fire; Coq's [ln], [sqrt] and division are total (the
    code produces NaN for negative arguments of log and sqrt; the theorems on signs
    and momentum balance state the ranges they need); the warning text of 259-263 is dropped.
    The private data is the sequence of [set(collision_rates[a][b], nu)] calls
    (75, 92), each recorded as [(a, b, nu)]. *)

From Coq Require Import List Bool String Reals.
From Verif Require Import OptionsModel StateMonad.
Import ListNotations.
Open Scope R_scope.
Open Scope string_scope.

(** The settings read by the constructor (16-57) and the physical constants used
    (bout/constants.hxx of BOUT++: SI::qe, SI::Me, SI::Mp, SI::e0; arbitrary here). *)
Record config := mkConfig {
  Tnorm : R; Nnorm : R; rho_s0 : R; Omega_ci : R;
  electron_electron : bool; electron_ion : bool; electron_neutral : bool;
  ion_ion : bool; ion_neutral : bool; neutral_neutral : bool;
  frictional_heating : bool; ei_multiplier : R;
  qe : R; Me : R; Mp : R; e0 : R
}.

(** collision_rates (include/collisions.hxx, private member). *)
Definition rates := list (string * string * R).
Definition CM := M rates.

Definition record_rate (a b : string) (nu : R) : CM unit :=
  mpriv (fun l => (l ++ [(a, b, nu)])%list).

(** [species.isSet("q") ? GET_NOBOUNDARY(Field3D, species["q"]) : 0.0]
    (98-103). *)
Definition get_or_0 (s q : string) : CM R :=
  b <- mis_set (s, q) ;; if b then mget_nb (s, q) else ret 0.

(** Collisions::collide, 71-152.  [&species1 != &species2] (77) holds exactly for
    different names, as the children of a section are distinct objects.  Note the
    short-circuit of 95-96. *)
Definition collide (c : config) (s1 s2 : string) (nu_12 momentum_coefficient : R) : CM unit :=
  madd (s1, "collision_frequency") nu_12 ;;
  record_rate s1 s2 nu_12 ;;
  if String.eqb s1 s2 then ret tt else
  A1 <- mget (s1, "AA") ;;
  A2 <- mget (s2, "AA") ;;
  density1 <- mget_nb (s1, "density") ;;
  density2 <- mget_nb (s2, "density") ;;
  let nu := nu_12 * (A1 / A2) * density1 / rfloor density2 1e-5 in
  madd (s2, "collision_frequency") nu ;;
  record_rate s2 s1 nu ;;
  moving1 <- mis_set_final_nb (s1, "velocity") ;;
  moving <- (if moving1 then ret true else mis_set_final_nb (s2, "velocity")) ;;
  (if moving : bool then
     velocity1 <- get_or_0 s1 "velocity" ;;
     velocity2 <- get_or_0 s2 "velocity" ;;
     let F12 := momentum_coefficient * nu_12 * A1 * density1 * (velocity2 - velocity1) in
     madd (s1, "momentum_source") F12 ;;
     msub (s2, "momentum_source") F12 ;;
     if frictional_heating c then
       madd (s1, "energy_source") ((A2 / (A1 + A2)) * (velocity2 - velocity1) * F12) ;;
       madd (s2, "energy_source") ((A1 / (A1 + A2)) * (velocity2 - velocity1) * F12)
     else ret tt
   else ret tt) ;;
  warm1 <- mis_set (s1, "temperature") ;;
  warm2 <- mis_set (s2, "temperature") ;;
  if orb warm1 warm2 then
    temperature1 <- mget_nb (s1, "temperature") ;;
    temperature2 <- mget_nb (s2, "temperature") ;;
    let Q12 := nu_12 * 3 * density1 * (A1 / (A1 + A2)) * (temperature2 - temperature1) in
    madd (s1, "energy_source") Q12 ;;
    msub (s2, "energy_source") Q12
  else ret tt.

(** nu_ee, 175-193 (before the division by Omega_ci). *)
Definition nu_ee (c : config) (Te Ne : R) : R :=
  let Telim := rfloor Te 0.1 in
  let Nelim := rfloor Ne 1e10 in
  let logTe := ln Telim in
  let coulomb_log := 30.4 - 0.5 * ln Nelim + (5 / 4) * logTe
                     - sqrt (1e-5 + SQ (logTe - 2) / 16) in
  let v1sq := 2 * Telim * qe c / Me c in
  SQ (SQ (qe c)) * rfloor Ne 0 * rfloor coulomb_log 1 * 2
  / (3 * Rpower (PI * 2 * v1sq) 1.5 * SQ (e0 c * Me c)).

(** coulomb_log of electrons and ions, 214-225. *)
Definition ei_coulomb_log (c : config) (Te Ne Ti Ni Zi Ai : R) : R :=
  let me_mi := Me c / (Mp c * Ai) in
  if (Rltb Te 0.1 || Rltb Ni 1e10 || Rltb Ne 1e10)%bool then 10
  else if Rltb Te (Ti * me_mi)
       then 23 - 0.5 * ln Ni + 1.5 * ln Ti - ln (SQ Zi * Ai)
  else if Rltb Te (exp 2 * SQ Zi)
       then 30 - 0.5 * ln Ne - ln Zi + 1.5 * ln Te
  else 31 - 0.5 * ln Ne + ln Te.

(** nu_ei, 213-243 (before the division by Omega_ci). *)
Definition nu_ei (c : config) (Te Ne Ti Ni Zi Ai : R) : R :=
  let me_mi := Me c / (Mp c * Ai) in
  let coulomb_log := ei_coulomb_log c Te Ne Ti Ni Zi Ai in
  let vesq := 2 * rfloor Te 0.1 * qe c / Me c in
  let visq := 2 * rfloor Ti 0.1 * qe c / (Mp c * Ai) in
  SQ (SQ (qe c) * Zi) * rfloor Ni 0 * rfloor coulomb_log 1 * (1 + me_mi)
  / (3 * Rpower (PI * (vesq + visq)) 1.5 * SQ (e0 c * Me c)) * ei_multiplier c.

(** mom_coeff, 247-251. *)
Definition mom_coeff (Zi : R) : R :=
  if Reqb Zi 1 then 0.51 else if Reqb Zi 2 then 0.44 else if Reqb Zi 3 then 0.40 else 0.38.

(** nu_en, 274-282.  Te in eV, Nn normalised. *)
Definition nu_en (c : config) (Te Nn : R) : R :=
  sqrt ((Mp c / Me c) * Te / Tnorm c) * Nnorm c * Nn * 5e-19 * rho_s0 c.

(** The argument of log in the Coulomb logarithm of two ions, 367-368. *)
Definition ii_log_argument (Tlim1 Nlim1 AA1 Z1 Tlim2 Nlim2 AA2 Z2 : R) : R :=
  (Z1 * Z2 * (AA1 + AA2)) / (AA1 * Tlim2 + AA2 * Tlim1) * sqrt (Nlim1 * SQ Z1 / Tlim1 + Nlim2 * SQ Z2 / Tlim2).

(** Ion-ion nu_12, 357-380 (before the division by Omega_ci). *)
Definition nu_ii (c : config) (temperature1 density1 AA1 Z1 temperature2 density2 AA2 Z2 : R) : R :=
  let mass1 := AA1 * Mp c in
  let mass2 := AA2 * Mp c in
  let charge1 := Z1 * qe c in
  let charge2 := Z2 * qe c in
  let Tlim1 := rfloor temperature1 0.1 in
  let Tlim2 := rfloor temperature2 0.1 in
  let Nlim1 := rfloor density1 1e10 in
  let Nlim2 := rfloor density2 1e10 in
  let coulomb_log :=
    29.91 - ln (ii_log_argument Tlim1 Nlim1 AA1 Z1 Tlim2 Nlim2 AA2 Z2) in
  let v1sq := 2 * Tlim1 * qe c / mass1 in
  let v2sq := 2 * Tlim2 * qe c / mass2 in
  SQ (charge1 * charge2) * Nlim2 * rfloor coulomb_log 1 * (1 + mass1 / mass2)
  / (3 * Rpower (PI * (v1sq + v2sq)) 1.5 * SQ (e0 c * mass1)).

(** Collision rate with a neutral, 392-402, 438-448 (a0 = 5e-19) and 466-476
    (a0 = PI*SQ(2.8e-10)). *)
Definition nu_neutral (c : config) (a0 temperature1 AA1 temperature2 density2 AA2 : R) : R :=
  sqrt (temperature1 / (Tnorm c * AA1) + temperature2 / (Tnorm c * AA2))
  * density2 * a0 * rho_s0 c.

(** [species.isSet("charge") and test(get<BoutReal>(species["charge"]))]
    (201, 255, 319, 346). *)
Definition charge_test (s : string) (test : R -> bool) : CM bool :=
  b <- mis_set (s, "charge") ;;
  if b then (z <- mget (s, "charge") ;; ret (test z)) else ret false.

(** Temperature in eV, or zero (309-312, 335-339, 421-425). *)
Definition temperature_eV (c : config) (s : string) : CM R :=
  b <- mis_set (s, "temperature") ;;
  if b then (t <- mget_nb (s, "temperature") ;; ret (t * Tnorm c)) else ret 0.

(** Body of the electron loop, 167-286. *)
Definition electron_body (c : config) (Te Ne : R) (s : string) : CM unit :=
  if String.eqb s "e" then
    if electron_electron c then collide c "e" "e" (nu_ee c Te Ne / Omega_ci c) 1 else ret tt
  else
  positive <- charge_test s (fun z => Rltb 0 z) ;;
  if positive : bool then
    if electron_ion c then
      Ti <- mget_nb (s, "temperature") ;;
      Ni <- mget_nb (s, "density") ;;
      Zi <- mget (s, "charge") ;;
      Ai <- mget (s, "AA") ;;
      collide c "e" s (nu_ei c Te Ne (Ti * Tnorm c) (Ni * Nnorm c) Zi Ai / Omega_ci c) (mom_coeff Zi)
    else ret tt
  else
  negative <- charge_test s (fun z => Rltb z 0) ;;
  if negative : bool then ret tt
  else if electron_neutral c then
    Nn <- mget_nb (s, "density") ;;
    collide c "e" s (nu_en c Te Nn) 1
  else ret tt.

(** 162-287.  [allspecies.isSection("e")]: "e" is one of the species. *)
Definition electron_part (c : config) (species : list string) : CM unit :=
  if existsb (String.eqb "e") species then
    Te <- mget_nb ("e", "temperature") ;;
    Ne <- mget_nb ("e", "density") ;;
    mfor species (electron_body c (Te * Tnorm c) (Ne * Nnorm c))
  else ret tt.

(** Body of the inner loop when species1 is charged, 326-406. *)
Definition charged_body (c : config) (s1 : string) (temperature1 density1 AA1 Z1 : R)
    (s2 : string) : CM unit :=
  if (String.eqb s2 "e" || String.eqb s2 "ebeam")%bool then ret tt else
  temperature2 <- temperature_eV c s2 ;;
  n2 <- mget_nb (s2, "density") ;;
  let density2 := n2 * Nnorm c in
  AA2 <- mget (s2, "AA") ;;
  charged2 <- charge_test s2 (fun z => negb (Reqb z 0)) ;;
  if charged2 : bool then
    if ion_ion c then
      Z2 <- mget (s2, "charge") ;;
      collide c s1 s2
        (nu_ii c temperature1 density1 AA1 Z1 temperature2 density2 AA2 Z2 / Omega_ci c) 1
    else ret tt
  else
    Nn <- mget_nb (s2, "density") ;;
    collide c s1 s2 (nu_neutral c 5e-19 temperature1 AA1 temperature2 density2 AA2) 1.

(** Body of the inner loop when species1 is neutral, 412-480. *)
Definition neutral_body (c : config) (s1 : string) (temperature1 density1 AA1 : R)
    (s2 : string) : CM unit :=
  if String.eqb s2 "e" then ret tt else
  temperature2 <- temperature_eV c s2 ;;
  AA2 <- mget (s2, "AA") ;;
  n2 <- mget_nb (s2, "density") ;;
  let density2 := n2 * Nnorm c in
  charge_set <- mis_set (s2, "charge") ;;
  if charge_set : bool then
    if ion_neutral c then
      collide c s1 s2 (nu_neutral c 5e-19 temperature1 AA1 temperature2 density2 AA2) 1
    else ret tt
  else
    if neutral_neutral c then
      collide c s1 s2
        (nu_neutral c (PI * SQ 2.8e-10) temperature1 AA1 temperature2 density2 AA2) 1
    else ret tt.

(** Body of the outer loop, 303-481; [from1] are the children from kv1 on. *)
Definition pair_body (c : config) (s1 : string) (from1 : list string) : CM unit :=
  if (String.eqb s1 "e" || String.eqb s1 "ebeam")%bool then ret tt else
  temperature1 <- temperature_eV c s1 ;;
  n1 <- mget_nb (s1, "density") ;;
  let density1 := n1 * Nnorm c in
  AA1 <- mget (s1, "AA") ;;
  charged1 <- charge_test s1 (fun z => negb (Reqb z 0)) ;;
  if charged1 : bool then
    Z1 <- mget (s1, "charge") ;;
    mfor from1 (charged_body c s1 temperature1 density1 AA1 Z1)
  else
    mfor from1 (neutral_body c s1 temperature1 density1 AA1).

(** The outer loop, 302-482. *)
Fixpoint pair_part (c : config) (children : list string) : CM unit :=
  match children with
  | [] => ret tt
  | s1 :: later => pair_body c s1 (s1 :: later) ;; pair_part c later
  end.

(** Collisions::transform, 154-483.  [species]: names of the sections in
    state["species"], in the order of the std::map. *)
Definition transform (c : config) (species : list string) : CM unit :=
  electron_part c species ;; pair_part c species.
