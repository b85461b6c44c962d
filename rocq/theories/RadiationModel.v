(** Radiation with fixed impurity fractions (include/fixed_fraction_radiation.hxx), the legacy atomic rates (include/radiation.hxx,
    src/radiation.cxx), the legacy ionisation component (src/ionisation.cxx) and SOL-KiT charge exchange (src/solkit_hydrogen_charge_exchange.cxx).
    Exact reals; log, exp are Coq's ln, exp (log of a non-positive number, which is NaN or -inf in C++, only appears where noted). *)

From Coq Require Import List Bool String Reals.
From Verif Require Import StateMonad LimitersModel.
Import ListNotations.
Open Scope R_scope.

(** pow(x, y) of a non-negative x, with y > 0. *)
Definition cpow (x y : R) : R := if Reqb x 0 then 0 else Rpower x y.

(** c0 * pow(logT, 0) + c1 * pow(logT, 1) + ..., added from left to right. *)
Fixpoint poly_from (i : nat) (cs : list R) (x acc : R) : R :=
  match cs with [] => acc | c :: cs => poly_from (S i) cs x (acc + c * x ^ i) end.
Definition poly (cs : list R) (x : R) : R := poly_from 0 cs x 0.

(** The shape of all the *_adas structures: a fit between lo and hi, constants outside. *)
Record fit := mkFit { fit_lo : R; fit_hi : R; coefs : list R; below : R; above : R }.
(** Argon_adas::curve and the others: where log of a negative Te is taken first (argon, neon, nitrogen, carbon) its value is not used. *)
Definition fit_curve (f : fit) (Te : R) : R :=
  if (Rleb (fit_lo f) Te && Rleb Te (fit_hi f))%bool then exp (poly (coefs f) (ln Te))
  else if Rltb Te (fit_lo f) then below f else above f.

(** HutchinsonCarbon::curve, include/fixed_fraction_radiation.hxx 17-22. *)
Definition HutchinsonCarbon (Te : R) : R :=
  if Rltb Te 0 then 0 else 2e-31 * (Te / 10) ^ 3 / (1 + cpow (Te / 10) 4.5).

(** Argon_adas, include/fixed_fraction_radiation.hxx 33-59. *)
Definition Argon_adas : fit := mkFit 1.5 1500
  [- (8.45410692e1); 1.57727040e1; - (1.54264860e1); 1.49409902e1; - (1.04815113e1); 5.00924595; - (1.60029106); 3.29455609e-1; - (4.14036827e-2); 2.87063206e-3; - (8.38888002e-5)]
  1.95353412e-35 1.22649600e-32.
(** Neon_adas, include/fixed_fraction_radiation.hxx 62-88. *)
Definition Neon_adas : fit := mkFit 2 1000
  [- (8.21475117e1); 1.28929854e1; - (4.74266289e1); 7.45222324e1; - (5.75710722e1); 2.57375965e1; - (7.12758563); 1.24287546; - (1.32943407e-1); 7.97368445e-3; - (2.05487897e-4)]
  6.35304113e-36 1.17894628e-32.
(** Nitrogen_adas, include/fixed_fraction_radiation.hxx 92-118. *)
Definition Nitrogen_adas : fit := mkFit 2 500
  [- (5.01649969e1); - (1.35749724e2); 2.73509608e2; - (2.92109992e2); 1.90120639e2; - (7.95164871e1); 2.17762218e1; - (3.88334992); 4.34730098e-1; - (2.77683605e-2); 7.72720422e-4]
  4.34835380e-34 8.11096182e-33.
(** Carbon_adas, include/fixed_fraction_radiation.hxx 122-148. *)
Definition Carbon_adas : fit := mkFit 1 500
  [- (7.87837896e1); 1.55326376; 1.65898194e1; - (3.23804546e1); 3.12784663e1; - (1.74826039e1); 5.91393245; - (1.22974105); 1.54004499e-1; - (1.06797106e-2); 3.15657594e-4]
  6.00623928e-35 4.53057707e-33.
(** Krypton_adas, include/fixed_fraction_radiation.hxx 236-260. *)
Definition Krypton_adas : fit := mkFit 2 1500
  [- (2.97405917e1); - (2.25443986e2); 4.08713640e2; - (3.86540549e2); 2.19566710e2; - (7.93264990e1); 1.86185949e1; - (2.82487288); 2.67070863e-1; - (1.43001273e-2); 3.31179737e-4]
  8.01651285e-35 6.17035971e-32.
(** Xenon_adas, include/fixed_fraction_radiation.hxx 269-298. *)
Definition Xenon_adas : fit := mkFit 2 1300
  [3.80572137e2; - (3.05839745e3); 9.01104594e3; - (1.55327244e4); 1.75819719e4; - (1.38754866e4); 7.90608220e3; - (3.32041900e3); 1.03912363e3; - (2.42980719e2); 4.22211209e1; - (5.36813849); 4.84652106e-1; - (2.94023979e-2); 1.07416308e-3; - (1.78510623e-5)]
  1.87187135e-33 1.29785519e-31.
(** Tungsten_adas, include/fixed_fraction_radiation.hxx 304-338. *)
Definition Tungsten_adas : fit := mkFit 1.25 1500
  [- (7.24602210e1); - (2.17524363e1); 1.90745408e2; - (7.57571067e2); 1.84119395e3; - (2.99842204e3); 3.40395125e3; - (2.76328977e3); 1.63368844e3; - (7.11076320e2); 2.28027010e2; - (5.30145974e1); 8.46066686; - (7.54960450e-1); - (1.61054010e-2); 1.65520152e-2; - (2.70054697e-3); 2.50286873e-4; - (1.43319310e-5); 4.75258630e-7; - (7.03012454e-9)]
  2.09814651e-32 1.85078767e-31.

(** Argon_simplified1, include/fixed_fraction_radiation.hxx 155-177. *)
Definition Argon_simplified1 (Te : R) : R :=
  if Rltb Te 0.52 then 0
  else if Rltb Te 2.50 then (1.953534e-35 * (2.50 - Te) + 6.053680e-34 * (Te - 0.52)) / (2.50 - 0.52)
  else if Rltb Te 19.72 then (6.053680e-34 * (19.72 - Te) + 2.175237e-31 * (Te - 2.50)) / (19.72 - 2.50)
  else if Rltb Te 59.98 then (2.175237e-31 * (59.98 - Te) + 4.190918e-32 * (Te - 19.72)) / (59.98 - 19.72)
  else if Rltb Te 3000 then (4.190918e-32 * (3000 - Te) + 1.226496e-32 * (Te - 59.98)) / (3000 - 59.98)
  else 1.226496e-32.
(** Argon_simplified2, 184-203. *)
Definition Argon_simplified2 (Te : R) : R :=
  if Rltb Te 0.52 then 0
  else if Rltb Te 2.50 then (1.953534e-35 * (2.50 - Te) + 6.053680e-34 * (Te - 0.52)) / (2.50 - 0.52)
  else if Rltb Te 19.72 then (6.053680e-34 * (19.72 - Te) + 2.175237e-31 * (Te - 2.50)) / (19.72 - 2.50)
  else if Rltb Te 59.98 then (2.175237e-31 * (59.98 - Te) + 0 * (Te - 19.72)) / (59.98 - 19.72)
  else 0.
(** Argon_simplified3, 211-230. *)
Definition Argon_simplified3 (Te : R) : R :=
  if Rltb Te 0.52 then 0
  else if Rltb Te 2.50 then (1.953534e-35 * (2.50 - Te) + 6.053680e-34 * (Te - 0.52)) / (2.50 - 0.52)
  else if Rltb Te 19.72 then (6.053680e-34 * (19.72 - Te) + 2.175237e-31 * (Te - 2.50)) / (19.72 - 2.50)
  else if Rltb Te 38.02 then (2.175237e-31 * (38.02 - Te) + 0 * (Te - 19.72)) / (38.02 - 19.72)
  else 0.

(** The registered components and their curves, include/fixed_fraction_radiation.hxx 452-485. *)
Definition curves : list (string * (R -> R)) :=
  [("fixed_fraction_hutchinson_carbon", HutchinsonCarbon); ("fixed_fraction_carbon", fit_curve Carbon_adas);
   ("fixed_fraction_nitrogen", fit_curve Nitrogen_adas); ("fixed_fraction_neon", fit_curve Neon_adas);
   ("fixed_fraction_argon", fit_curve Argon_adas); ("fixed_fraction_argon_simplified1", Argon_simplified1);
   ("fixed_fraction_argon_simplified2", Argon_simplified2); ("fixed_fraction_argon_simplified3", Argon_simplified3);
   ("fixed_fraction_krypton", fit_curve Krypton_adas); ("fixed_fraction_xenon", fit_curve Xenon_adas);
   ("fixed_fraction_tungsten", fit_curve Tungsten_adas)]%string.

(** FixedFractionRadiation: settings read by the constructor, 348-372. *)
Record ffr := mkFfr { fraction : R; no_core_radiation : bool; R_multiplier : R; Tnorm : R; Nnorm : R; FreqNorm : R }.
(** The lambda in transform, 394-404; qe is SI::qe. *)
Definition radiated (qe : R) (curve : R -> R) (o : ffr) (args : list R) : R :=
  match args with
  | [ne; te] =>
      if (Rltb ne 0 || Rltb te 0)%bool then 0
      else let ni := fraction o * ne in
           ne * ni * curve (te * Tnorm o) * R_multiplier o * Nnorm o / (qe * Tnorm o * FreqNorm o)
  | _ => 0
  end.
(** transform, 387-423, in one cell in the domain: radiation and the new energy source.  periodicY: mesh->periodicY(x) of this cell. *)
Definition radiation (qe : R) (curve : R -> R) (o : ffr) (periodicY : bool) (edges : R -> R -> R -> R * R) (Jm J Jp : R) (Ne Te : triple) : R :=
  let r := cellAverage edges Jm J Jp (radiated qe curve o) [Ne; Te] in
  if (no_core_radiation o && periodicY)%bool then 0 else r.
(** subtract, include/component.hxx 301-316; add, 281-295. *)
Definition subtract (old : option R) (x : R) : R := match old with None => - x | Some y => y - x end.
Definition add (old : option R) (x : R) : R := match old with None => x | Some y => y + x end.
Definition radiation_transform (qe : R) (curve : R -> R) (o : ffr) periodicY edges Jm J Jp Ne Te (energy_source : option R) : R :=
  subtract energy_source (radiation qe curve o periodicY edges Jm J Jp Ne Te).
(** outputVars, 425-436: the value and its conversion factor. *)
Definition radiation_output (qe : R) (o : ffr) (r : R) : R * R := (- r, qe * Tnorm o * Nnorm o * FreqNorm o).

(** HutchinsonCarbonRadiation::power, include/radiation.hxx 79-83. *)
Definition HutchinsonCarbonRadiation (Te ne ni : R) : R :=
  if (Rltb Te 0 || Rltb ne 0 || Rltb ni 0)%bool then 0 else ne * ni * 2e-31 * (Te / 10) ^ 3 / (1 + cpow (Te / 10) 4.5).

(** log10 *)
Definition log10 (x : R) : R := ln x / ln 10.
(** HydrogenRadiatedPower::ionisation, src/radiation.cxx 67-85. *)
Definition hydrogen_ionisation (T : R) : R :=
  let TT := if Rltb T 1 then 1 else T in
  let X := log10 TT in
  let S := if Rleb 20 TT then - (0.5151) * X - 2.563 / X - 5.231 else - (3.054) * X - 15.72 * exp (- X) + 1.603 * exp (- X * X) in
  Rpower 10 (S - 6).
(** HydrogenRadiatedPower::chargeExchange, src/radiation.cxx 178-191. *)
Definition hydrogen_charge_exchange (Te : R) : R :=
  let TT := if Rltb Te 1 then 1 else Te in Rpower 10 (- (14) + log10 TT / 3).
(** HydrogenRadiatedPower::excitation and UpdatedRadiatedPower::excitation, src/radiation.cxx 194-207, 397-410. *)
Definition hydrogen_excitation (Te : R) : R :=
  let TT := if Rltb Te 1 then 1 else Te in
  let Y := 10.2 / TT in
  49e-14 / (0.28 + Y) * exp (- Y) * sqrt (Y * (1 + Y)).
(** UpdatedRadiatedPower::ionisation, src/radiation.cxx 212-230; for T > 0 only. *)
Definition updated_ionisation (T : R) : R :=
  exp (poly [- (3.271397e1); 1.353656e1; - (5.739329); 1.563155; - (2.877056e-1); 3.482560e-2; - (2.631976e-3); 1.119544e-4; - (2.039150e-6)] (ln T)) * 1e-6.

(** Ionisation::transform, src/ionisation.cxx 22-68, in one cell.  The sources of hydrogen, ion and electron after it. *)
Record sources := mkSources { density_source : option R; momentum_source : option R; energy_source : option R }.
Definition ionisation_rate (Tn Nn Freq : R) (args : list R) : R :=
  match args with [ne; nn; te] => ne * nn * updated_ionisation (te * Tn) * Nn / Freq | _ => 0 end.
Definition ionisation_transform (Tn Nn Freq Eionize : R) edges Jm J Jp (Ne Nh Te : triple) (AA Vn Th : R)
    (hydrogen ion electron : sources) : sources * sources * sources :=
  let reaction_rate := cellAverage edges Jm J Jp (ionisation_rate Tn Nn Freq) [Ne; Nh; Te] in
  let momentum_exchange := reaction_rate * AA * Vn in
  let energy_exchange := reaction_rate * (3 / 2) * Th in
  (mkSources (Some (subtract (density_source hydrogen) reaction_rate)) (Some (subtract (momentum_source hydrogen) momentum_exchange))
             (Some (subtract (energy_source hydrogen) energy_exchange)),
   mkSources (Some (add (density_source ion) reaction_rate)) (Some (add (momentum_source ion) momentum_exchange))
             (Some (add (energy_source ion) energy_exchange)),
   mkSources (density_source electron) (momentum_source electron) (Some (subtract (energy_source electron) (Eionize * reaction_rate)))).

(** SOLKITHydrogenChargeExchange::calculate_rates, src/solkit_hydrogen_charge_exchange.cxx 5-29, in one cell.  Natom, Nion: densities after
    floor(., 1e-5); the velocities are zero if not set. *)
Definition solkit_friction (AA Nn rho_s0 : R) (args : list R) : R :=
  match args with
  | [natom; nion; vatom; vion] => let r := natom * nion * 3e-19 * Rabs vion * (Nn * rho_s0) in AA * (vion - vatom) * r
  | _ => 0
  end.
Definition floor_triple (t : triple) (f : R) : triple := mkTriple (rfloor (t_m t) f) (rfloor (t_c t) f) (rfloor (t_p t) f).
Definition solkit_transform (AA Nn rho_s0 : R) edges Jm J Jp (Natom Nion Vatom Vion : triple) (atom ion : sources) : sources * sources :=
  let friction := cellAverage edges Jm J Jp (solkit_friction AA Nn rho_s0) [floor_triple Natom 1e-5; floor_triple Nion 1e-5; Vatom; Vion] in
  (mkSources (density_source atom) (Some (add (momentum_source atom) friction)) (energy_source atom),
   mkSources (density_source ion) (Some (subtract (momentum_source ion) friction)) (energy_source ion)).
