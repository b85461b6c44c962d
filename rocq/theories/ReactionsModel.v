(** Atomic reactions: include/amjuel_reaction.hxx, src/amjuel_hyd_ionisation.cxx,
    src/amjuel_hyd_recombination.cxx, src/amjuel_helium.cxx, src/adas_reaction.cxx and
    src/hydrogen_charge_exchange.cxx.

    Simplifications: the state holds the values of the fields in one cell; the values
    in the two neighbouring cells along the field, which the cell average needs, are given
    by [c_nm] and [c_np]; exact reals; [log], [exp] and [pow] are Coq's functions.  The
    fields returned through reference parameters are the result of the function. *)

From Coq Require Import List Bool String Reals.
From Verif Require Import OptionsModel StateMonad LimitersModel.
Import ListNotations.
Open Scope R_scope.
Open Scope string_scope.

Definition RM := M unit.

(** The surroundings of a cell: reconstruction used by hermes::Limiter, Jacobians, and the
    values of the fields in the previous and the next cell. *)
Record cell := mkCell {
  c_edges : R -> R -> R -> R * R; c_Jm : R; c_J : R; c_Jp : R; c_nm : key -> R; c_np : key -> R
}.

(** The normalisations read by the constructors (amjuel_reaction.hxx 10-14). *)
Record norms := mkNorms { Tnorm : R; Nnorm : R; FreqNorm : R }.

(** [cellAverage(f, region)(fields...)] (include/integrate.hxx 61-86): the field called [k] has
    value [v] in this cell. *)
Definition average (c : cell) (f : list R -> R) (fields : list (key * R)) : R :=
  cellAverage (c_edges c) (c_Jm c) (c_J c) (c_Jp c) f
    (map (fun kv => mkTriple (c_nm c (fst kv)) (snd kv) (c_np c (fst kv))) fields).

(** clip, include/amjuel_reaction.hxx 20-26 and src/adas_reaction.cxx 62-68. *)
Definition clip (value min max : R) : R :=
  if Rltb value min then min else if Rltb max value then max else value.

(** A two-dimensional array. *)
Definition table := list (list R).
Definition coef (t : table) (n m : nat) : option R :=
  match nth_error t n with Some row => nth_error row m | None => None end.

(** The loops of AmjuelReaction::evaluate, include/amjuel_reaction.hxx 46-56; [k] iterations remain.
    [None]: read outside the array. *)
Fixpoint loop_m (t : table) (n : nat) (logT_n logntilde : R) (k m : nat) (logn_m result : R) : option R :=
  match k with
  | O => Some result
  | S k => match coef t n m with
           | None => None
           | Some v => loop_m t n logT_n logntilde k (S m) (logn_m * logntilde)
                         (result + v * logn_m * logT_n)
           end
  end.
Fixpoint loop_n (t : table) (rows : nat) (logT logntilde : R) (k n : nat) (logT_n result : R) : option R :=
  match k with
  | O => Some result
  | S k => match loop_m t n logT_n logntilde rows 0 1 result with
           | None => None
           | Some result => loop_n t rows logT logntilde k (S n) (logT_n * logT) result
           end
  end.

(** AmjuelReaction::evaluate, include/amjuel_reaction.hxx 37-58, for an array of [rows]
    rows of [cols] coefficients. *)
Definition evaluate (rows cols : nat) (coefs : table) (T n : R) : option R :=
  let n := clip n 1e14 1e22 in
  let T := clip T 0.1 1e4 in
  let logntilde := ln (n / 1e14) in
  let logT := ln T in
  match loop_n coefs rows logT logntilde cols 0 1 0 with
  | None => None
  | Some result => Some (exp result * 1e-6)
  end.

(** The value of [evaluate] where it is defined. *)
Definition rate_of (rows cols : nat) (t : table) (T n : R) : R :=
  match evaluate rows cols t T n with Some r => r | None => 0 end.
(** Whether all reads are inside the array (they do not depend on T and n). *)
Definition reads_inside (rows cols : nat) (t : table) : bool :=
  match evaluate rows cols t 1 1e14 with Some _ => true | None => false end.

(** [species.isSet("charge") ? get<BoutReal>(species["charge"]) : 0.0], 91-94. *)
Definition charge_or_0 (sp : string) : RM R :=
  b <- mis_set (sp, "charge") ;; if b : bool then mget (sp, "charge") else ret 0.

Record amjuel_out := mkOut { o_rate : R; o_momentum : R; o_energy : R; o_loss : R }.

(** AmjuelReaction::electron_reaction, include/amjuel_reaction.hxx 67-170. *)
Definition electron_reaction (nm : norms) (c : cell) (electron from_ion to_ion : string)
    (rows cols : nat) (rate_coefs radiation_coefs : table)
    (electron_heating rate_multiplier radiation_multiplier : R) : RM amjuel_out :=
  Ne <- mget (electron, "density") ;;
  Te <- mget (electron, "temperature") ;;
  N1 <- mget (from_ion, "density") ;;
  T1 <- mget (from_ion, "temperature") ;;
  V1 <- mget (from_ion, "velocity") ;;
  AA <- mget (from_ion, "AA") ;;
  A2 <- mget (to_ion, "AA") ;;
  if negb (Reqb AA A2) then throw else
  V2 <- mget (to_ion, "velocity") ;;
  from_charge <- charge_or_0 from_ion ;;
  to_charge <- charge_or_0 to_ion ;;
  if negb (reads_inside rows cols rate_coefs && reads_inside rows cols radiation_coefs) then undefined else
  let fields := [((electron, "density"), Ne); ((from_ion, "density"), N1); ((electron, "temperature"), Te)] in
  let reaction_rate := average c (fun a => match a with
      | [ne; n1; te] => ne * n1 * rate_of rows cols rate_coefs (te * Tnorm nm) (ne * Nnorm nm) * Nnorm nm
                        / FreqNorm nm * rate_multiplier
      | _ => 0 end) fields in
  msub (from_ion, "density_source") reaction_rate ;;
  madd (to_ion, "density_source") reaction_rate ;;
  (if negb (Reqb from_charge to_charge) then
     madd (electron, "density_source") ((to_charge - from_charge) * reaction_rate) ;;
     moving <- mis_set (electron, "velocity") ;;
     if moving : bool then
       Ve <- mget (electron, "velocity") ;;
       Ae <- mget (electron, "AA") ;;
       madd (electron, "energy_source") (0.5 * Ae * (to_charge - from_charge) * reaction_rate * SQ Ve)
     else ret tt
   else ret tt) ;;
  let momentum_exchange := reaction_rate * AA * V1 in
  msub (from_ion, "momentum_source") momentum_exchange ;;
  madd (to_ion, "momentum_source") momentum_exchange ;;
  madd (to_ion, "energy_source") (0.5 * AA * reaction_rate * SQ (V1 - V2)) ;;
  let energy_exchange := reaction_rate * (3 / 2) * T1 in
  msub (from_ion, "energy_source") energy_exchange ;;
  madd (to_ion, "energy_source") energy_exchange ;;
  let energy_loss := average c (fun a => match a with
      | [ne; n1; te] => ne * n1 * rate_of rows cols radiation_coefs (te * Tnorm nm) (ne * Nnorm nm) * Nnorm nm
                        / (Tnorm nm * FreqNorm nm) * radiation_multiplier
      | _ => 0 end) fields
    - (electron_heating / Tnorm nm) * reaction_rate * radiation_multiplier in
  msub (electron, "energy_source") energy_loss ;;
  ret (mkOut reaction_rate momentum_exchange energy_exchange energy_loss).

(** AmjuelHydIonisationIsotope::transform (include/amjuel_hyd_ionisation.hxx 39-47) with
    AmjuelHydIonisation::calculate_rates (src/amjuel_hyd_ionisation.cxx 67-76); the tables are
    9 by 9 arrays. *)
Definition hyd_ionisation (nm : norms) (c : cell) (isotope : string) (rate radiation : table)
    (rate_multiplier radiation_multiplier : R) : RM amjuel_out :=
  electron_reaction nm c "e" isotope (isotope ++ "+") 9 9 rate radiation 0
    rate_multiplier radiation_multiplier.

(** AmjuelHydRecombinationIsotope::transform (include/amjuel_hyd_recombination.hxx 41-49) with
    AmjuelHydRecombination::calculate_rates (src/amjuel_hyd_recombination.cxx 67-76). *)
Definition hyd_recombination (nm : norms) (c : cell) (isotope : string) (rate radiation : table)
    (rate_multiplier radiation_multiplier : R) : RM amjuel_out :=
  electron_reaction nm c "e" (isotope ++ "+") isotope 9 9 rate radiation 13.6
    rate_multiplier radiation_multiplier.

(** AmjuelHeIonisation01, src/amjuel_helium.cxx 69-80. *)
Definition he_ionisation (nm : norms) (c : cell) (rate radiation : table)
    (rate_multiplier radiation_multiplier : R) : RM amjuel_out :=
  electron_reaction nm c "e" "he" "he+" 9 9 rate radiation 0 rate_multiplier radiation_multiplier.
(** AmjuelHeRecombination10, src/amjuel_helium.cxx 148-158. *)
Definition he_recombination (nm : norms) (c : cell) (rate radiation : table)
    (rate_multiplier radiation_multiplier : R) : RM amjuel_out :=
  electron_reaction nm c "e" "he+" "he" 9 9 rate radiation 24.586 rate_multiplier radiation_multiplier.

(** ** OpenADAS *)

(** OpenADASRateCoefficient, include/adas_reaction.hxx 9-31; Tmin, Tmax, nmin, nmax are computed
    from the axes (src/adas_reaction.cxx 54-58). *)
Record adas := mkAdas { log_coeff : table; log_temperature : list R; log_density : list R }.

Definition log10 (x : R) : R := ln x / ln 10.

(** std::lower_bound (src/adas_reaction.cxx 74): index of the first element which is
    not less than [value].  The library function does a binary search; on a sorted vector, its
    precondition, the result is this index. *)
Fixpoint lower_bound (vec : list R) (value : R) : nat :=
  match vec with
  | [] => 0
  | x :: rest => if Rltb x value then S (lower_bound rest value) else 0
  end.

(** get_high_index, src/adas_reaction.cxx 70-84.  [None]: the vector has fewer than two
    elements, so that an iterator leaves the vector (the assertion of 71 is only
    compiled at CHECK level 2 and above). *)
Definition get_high_index (vec : list R) (value : R) : option nat :=
  let size := List.length vec in
  if Nat.ltb size 2 then None else
  let high := lower_bound vec value in
  Some (if Nat.eqb high size then (high - 1)%nat
        else if Nat.eqb high 0 then 1%nat else high).

(** OpenADASRateCoefficient::evaluate, src/adas_reaction.cxx 88-124.  [None]: read outside a
    vector (operator[] is not checked). *)
Definition adas_evaluate (a : adas) (T n : R) : option R :=
  match log_temperature a, log_density a with
  | T0 :: _, n0 :: _ =>
      let Tmin := Rpower 10 T0 in
      let Tmax := Rpower 10 (last (log_temperature a) 0) in
      let nmin := Rpower 10 n0 in
      let nmax := Rpower 10 (last (log_density a) 0) in
      let log10T := log10 (clip T Tmin Tmax) in
      let log10n := log10 (clip n nmin nmax) in
      match get_high_index (log_temperature a) log10T, get_high_index (log_density a) log10n with
      | Some hT, Some hn =>
          let lT := (hT - 1)%nat in
          let ln := (hn - 1)%nat in
          match nth_error (log_temperature a) lT, nth_error (log_temperature a) hT,
                nth_error (log_density a) ln, nth_error (log_density a) hn,
                coef (log_coeff a) lT ln, coef (log_coeff a) lT hn,
                coef (log_coeff a) hT ln, coef (log_coeff a) hT hn with
          | Some tl, Some th, Some nl, Some nh, Some c00, Some c01, Some c10, Some c11 =>
              let x := (log10T - tl) / (th - tl) in
              let y := (log10n - nl) / (nh - nl) in
              Some (Rpower 10 ((c00 * (1 - y) + c01 * y) * (1 - x) + (c10 * (1 - y) + c11 * y) * x))
          | _, _, _, _, _, _, _, _ => None
          end
      | _, _ => None
      end
  | _, _ => None
  end.

(** OpenADAS::calculate_rates, src/adas_reaction.cxx 126-185.  [rate_coef] and
    [radiation_coef] are the evaluation functions of the two tables (their definedness is
    the subject of C19).  floor: 24-28. *)
Definition adas_rates (nm : norms) (c : cell) (rate_coef radiation_coef : R -> R -> R)
    (electron_heating : R) (electron from_ion to_ion : string) : RM unit :=
  Ne <- mget (electron, "density") ;;
  Te <- mget (electron, "temperature") ;;
  N1 <- mget (from_ion, "density") ;;
  T1 <- mget (from_ion, "temperature") ;;
  V1 <- mget (from_ion, "velocity") ;;
  AA <- mget (from_ion, "AA") ;;
  A2 <- mget (to_ion, "AA") ;;
  if negb (Reqb AA A2) then throw else
  from_charge <- charge_or_0 from_ion ;;
  to_charge <- charge_or_0 to_ion ;;
  let fields := [((electron, "density"), Ne); ((from_ion, "density"), N1); ((electron, "temperature"), Te)] in
  let reaction_rate := average c (fun a => match a with
      | [ne; n1; te] => rfloor ne 0 * rfloor n1 0 * rate_coef (te * Tnorm nm) (ne * Nnorm nm) * Nnorm nm
                        / FreqNorm nm
      | _ => 0 end) fields in
  msub (from_ion, "density_source") reaction_rate ;;
  madd (to_ion, "density_source") reaction_rate ;;
  (if negb (Reqb from_charge to_charge) then
     madd (electron, "density_source") ((to_charge - from_charge) * reaction_rate)
   else ret tt) ;;
  let momentum_exchange := reaction_rate * AA * V1 in
  msub (from_ion, "momentum_source") momentum_exchange ;;
  madd (to_ion, "momentum_source") momentum_exchange ;;
  let energy_exchange := reaction_rate * (3 / 2) * T1 in
  msub (from_ion, "energy_source") energy_exchange ;;
  madd (to_ion, "energy_source") energy_exchange ;;
  let energy_loss := average c (fun a => match a with
      | [ne; n1; te] => rfloor ne 0 * rfloor n1 0 * radiation_coef (te * Tnorm nm) (ne * Nnorm nm) * Nnorm nm
                        / (Tnorm nm * FreqNorm nm)
      | _ => 0 end) fields
    - (electron_heating / Tnorm nm) * reaction_rate in
  msub (electron, "energy_source") energy_loss.

(** OpenADASChargeExchange::calculate_rates, src/adas_reaction.cxx 187-250. *)
Definition adas_cx (nm : norms) (c : cell) (rate_coef : R -> R -> R)
    (electron from_A from_B to_A to_B : string) : RM unit :=
  AA1 <- mget (from_A, "AA") ;;
  AA2 <- mget (to_A, "AA") ;;
  if negb (Reqb AA1 AA2) then throw else
  AB1 <- mget (from_B, "AA") ;;
  AB2 <- mget (to_B, "AA") ;;
  if negb (Reqb AB1 AB2) then throw else
  Te <- mget (electron, "temperature") ;;
  Ne <- mget (electron, "density") ;;
  Na <- mget (from_A, "density") ;;
  Nb <- mget (from_B, "density") ;;
  let reaction_rate := average c (fun a => match a with
      | [na; nb; ne; te] => rfloor na 0 * rfloor nb 0 * rate_coef (te * Tnorm nm) (ne * Nnorm nm) * Nnorm nm / FreqNorm nm
      | _ => 0 end)
    [((from_A, "density"), Na); ((from_B, "density"), Nb); ((electron, "density"), Ne); ((electron, "temperature"), Te)] in
  let transfer := fun (from to : string) =>
    msub (from, "density_source") reaction_rate ;;
    madd (to, "density_source") reaction_rate ;;
    A <- mget (from, "AA") ;;
    V <- mget (from, "velocity") ;;
    let momentum_exchange := reaction_rate * A * V in
    msub (from, "momentum_source") momentum_exchange ;;
    madd (to, "momentum_source") momentum_exchange ;;
    T <- mget (from, "temperature") ;;
    let energy_exchange := reaction_rate * (3 / 2) * T in
    msub (from, "energy_source") energy_exchange ;;
    madd (to, "energy_source") energy_exchange in
  transfer from_A to_A ;;
  transfer from_B to_B.

(** ** Hydrogen charge exchange *)

(** Teff, src/hydrogen_charge_exchange.cxx 22-29. *)
Definition cx_Teff (nm : norms) (Tatom Aatom Tion Aion : R) : R :=
  let Teff := (Tatom / Aatom + Tion / Aion) * Tnorm nm in
  if Rltb Teff 0.01 then 0.01 else if Rltb 10000 Teff then 10000 else Teff.

(** ln_sigmav, 32-41. *)
Fixpoint cx_poly (bs : list R) (lnT lnT_n acc : R) : R :=
  match bs with
  | [] => acc
  | b :: rest => cx_poly rest lnT (lnT_n * lnT) (acc + b * lnT_n)
  end.
Definition cx_coefs : list R :=
  [0.3708409; 7.949876e-3; -6.143769e-4; -4.698969e-4; -4.096807e-4; 1.440382e-4; -1.514243e-5; 5.122435e-7].
(** sigmav, 45. *)
Definition cx_sigmav (nm : norms) (Teff rate_multiplier : R) : R :=
  exp (cx_poly cx_coefs (ln Teff) (ln Teff) (-18.5028)) * (1e-6 * Nnorm nm / FreqNorm nm) * rate_multiplier.

(** HydrogenChargeExchange::calculate_rates, src/hydrogen_charge_exchange.cxx 3-102.  Two
    references to the same section ([&atom1 != &atom2], 52) have the same name. *)
Definition hydrogen_cx (nm : norms) (atom1 ion1 atom2 ion2 : string)
    (rate_multiplier : R) (no_neutral_cx_mom_gain : bool) : RM unit :=
  Tatom <- mget (atom1, "temperature") ;;
  Aatom <- mget (atom1, "AA") ;;
  A2 <- mget (ion2, "AA") ;;
  if negb (Reqb A2 Aatom) then throw else
  Tion <- mget (ion1, "temperature") ;;
  Aion <- mget (ion1, "AA") ;;
  A3 <- mget (atom2, "AA") ;;
  if negb (Reqb A3 Aion) then throw else
  let sigmav := cx_sigmav nm (cx_Teff nm Tatom Aatom Tion Aion) rate_multiplier in
  Na <- mget (atom1, "density") ;;
  let Natom := rfloor Na 1e-5 in
  Ni <- mget (ion1, "density") ;;
  let Nion := rfloor Ni 1e-5 in
  let Rate := Natom * Nion * sigmav in
  (if (negb (String.eqb atom1 atom2) || negb (String.eqb ion1 ion2))%bool then
     msub (atom1, "density_source") Rate ;;
     madd (ion2, "density_source") Rate ;;
     msub (ion1, "density_source") Rate ;;
     madd (atom2, "density_source") Rate
   else ret tt) ;;
  atom1_velocity <- mget (atom1, "velocity") ;;
  ion1_velocity <- mget (ion1, "velocity") ;;
  let atom_mom := Rate * Aatom * atom1_velocity in
  msub (atom1, "momentum_source") atom_mom ;;
  (if negb no_neutral_cx_mom_gain then madd (ion2, "momentum_source") atom_mom else ret tt) ;;
  let ion_mom := Rate * Aion * ion1_velocity in
  msub (ion1, "momentum_source") ion_mom ;;
  madd (atom2, "momentum_source") ion_mom ;;
  ion2_velocity <- mget (ion2, "velocity") ;;
  madd (ion2, "energy_source") (0.5 * Aatom * Rate * SQ (ion2_velocity - atom1_velocity)) ;;
  atom2_velocity <- mget (atom2, "velocity") ;;
  madd (atom2, "energy_source") (0.5 * Aion * Rate * SQ (atom2_velocity - ion1_velocity)) ;;
  let atom_energy := (3 / 2) * Rate * Tatom in
  msub (atom1, "energy_source") atom_energy ;;
  madd (ion2, "energy_source") atom_energy ;;
  let ion_energy := (3 / 2) * Rate * Tion in
  msub (ion1, "energy_source") ion_energy ;;
  madd (atom2, "energy_source") ion_energy ;;
  let atom_rate := Nion * sigmav in
  let ion_rate := Natom * sigmav in
  madd (atom1, "collision_frequency") atom_rate ;;
  madd (ion1, "collision_frequency") ion_rate.

(** HydrogenChargeExchangeIsotope::transform, include/hydrogen_charge_exchange.hxx 143-153. *)
Definition hydrogen_cx_isotopes (nm : norms) (isotope1 isotope2 : string)
    (rate_multiplier : R) (no_neutral_cx_mom_gain : bool) : RM unit :=
  hydrogen_cx nm isotope1 (isotope2 ++ "+") isotope2 (isotope1 ++ "+") rate_multiplier no_neutral_cx_mom_gain.
