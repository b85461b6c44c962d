(** Properties C14 to C20: atomic reactions. *)

From Coq Require Import List Bool String Reals Lra.
From Verif Require Import OptionsModel OptionsSpec StateMonad StateSpec StateMonadProofs StateEffects
  LimitersModel ReactionsModel AmjuelTables ReactionsSpec ReactionsProofs ReactionsAdasProofs ReactionsCxProofs
  ReactionsTableProofs ReactionsLaws ReactionsExamples.
Import ListNotations.
Open Scope R_scope.
Open Scope string_scope.

(** ** C14: particles and charge *)

Theorem C14_particles_and_charge :
  forall nm c el fr to rows cols rt rad heating rmult radmult (s s' : State * unit) out,
    NoDup [el; fr; to] ->
    finishes (electron_reaction nm c el fr to rows cols rt rad heating rmult radmult) s s' out ->
    change s s' fr "density_source" + change s s' to "density_source" = 0 /\
    value s fr "charge" * change s s' fr "density_source"
    + value s to "charge" * change s s' to "density_source"
    + (-1) * change s s' el "density_source" = 0 /\
    only_sources s s' [el; fr; to].
Proof. exact amjuel_particles. Qed.
Print Assumptions C14_particles_and_charge.

(** The rate is the cell average of the densities times the fitted coefficient. *)
Theorem C14_rate :
  forall nm c el fr to k rt rad heating rmult radmult (s s' : State * unit) out,
    NoDup [el; fr; to] -> square k rt ->
    finishes (electron_reaction nm c el fr to k k rt rad heating rmult radmult) s s' out ->
    change s s' to "density_source" = amjuel_source nm c el fr k rt (FreqNorm nm) rmult s.
Proof. exact amjuel_rate_is_fit. Qed.
Print Assumptions C14_rate.

(** The reactions of the code, with their tables, finish on this state, so that the theorems apply to them. *)
Example C14_case :
  NoDup ["e"; "h"; "h+"] /\ NoDup ["e"; "h+"; "h"] /\
  square 9 hyd_ionisation_rate_coefs /\ square 9 hyd_recombination_rate_coefs /\
  (exists s' out, finishes (hyd_ionisation ex_norms ex_cell "h" hyd_ionisation_rate_coefs
                              hyd_ionisation_radiation_coefs 1 1) ex_state s' out) /\
  (exists s' out, finishes (hyd_recombination ex_norms ex_cell "h" hyd_recombination_rate_coefs
                              hyd_recombination_radiation_coefs 1 1) ex_state s' out).
Proof. exact amjuel_case. Qed.

(** ** C15: momentum and energy *)

Theorem C15_momentum_and_energy :
  forall nm c el fr to k rt rad heating rmult radmult (s s' : State * unit) out,
    NoDup [el; fr; to] -> square k rad ->
    finishes (electron_reaction nm c el fr to k k rt rad heating rmult radmult) s s' out ->
    change s s' fr "momentum_source" + change s s' to "momentum_source" = 0 /\
    change s s' to "momentum_source"
    = change s s' to "density_source" * value s fr "AA" * value s fr "velocity" /\
    change s s' el "momentum_source" = 0 /\
    energy_gain s s' fr + energy_gain s s' to = 0 /\
    energy_gain s s' el
    = heating / Tnorm nm * change s s' to "density_source" * radmult
      - amjuel_source nm c el fr k rad (Tnorm nm * FreqNorm nm) radmult s.
Proof. exact amjuel_energy. Qed.
Print Assumptions C15_momentum_and_energy.

(** The electrons should get the potential energy of each recombination, less the radiation, which
    radiation_multiplier scales.  The code scales the potential energy too. *)
Theorem C15_potential_energy_refuted :
  exists nm c el fr to k rt rad heating rmult radmult (s s' : State * unit) out,
    NoDup [el; fr; to] /\ square k rt /\ square k rad /\
    finishes (electron_reaction nm c el fr to k k rt rad heating rmult radmult) s s' out /\
    energy_gain s s' el
    <> heating / Tnorm nm * change s s' to "density_source"
       - amjuel_source nm c el fr k rad (Tnorm nm * FreqNorm nm) radmult s.
Proof. exact potential_energy_refuted. Qed.
Print Assumptions C15_potential_energy_refuted.

Example C15_case :
  exists (s' : State * unit) out,
    finishes (hyd_recombination ex_norms ex_cell "h" hyd_recombination_rate_coefs
                hyd_recombination_radiation_coefs 1 1) ex_state s' out /\
    square 9 hyd_recombination_radiation_coefs /\
    change ex_state s' "h" "density_source" <> 0 /\
    value ex_state "h+" "velocity" <> value ex_state "h" "velocity".
Proof. exact recombination_case. Qed.

(** ** C16: OpenADAS reactions *)

Theorem C16_particles_charge_momentum :
  forall nm c rc radc heating el fr to (s s' : State * unit),
    NoDup [el; fr; to] ->
    finishes (adas_rates nm c rc radc heating el fr to) s s' tt ->
    change s s' fr "density_source" + change s s' to "density_source" = 0 /\
    value s fr "charge" * change s s' fr "density_source"
    + value s to "charge" * change s s' to "density_source"
    + (-1) * change s s' el "density_source" = 0 /\
    change s s' fr "momentum_source" + change s s' to "momentum_source" = 0 /\
    change s s' el "momentum_source" = 0 /\
    change s s' fr "energy_source" + change s s' to "energy_source" = 0 /\
    only_sources s s' [el; fr; to].
Proof. exact adas_laws. Qed.
Print Assumptions C16_particles_charge_momentum.

(** The thermal energy sources balance, but the total energy decreases when the velocities differ: the
    frictional heating, which the AMJUEL reactions include, is missing. *)
Theorem C16_energy_defect :
  forall nm c rc radc heating el fr to (s s' : State * unit),
    NoDup [el; fr; to] ->
    finishes (adas_rates nm c rc radc heating el fr to) s s' tt ->
    energy_gain s s' fr + energy_gain s s' to
    = - (1 / 2) * value s fr "AA" * change s s' to "density_source"
      * (value s fr "velocity" - value s to "velocity") ^ 2.
Proof. exact adas_energy_defect. Qed.
Print Assumptions C16_energy_defect.

Theorem C16_energy_refuted :
  exists nm c rc radc heating el fr to (s s' : State * unit),
    NoDup [el; fr; to] /\
    finishes (adas_rates nm c rc radc heating el fr to) s s' tt /\
    energy_gain s s' fr + energy_gain s s' to <> 0.
Proof. exact adas_energy_refuted. Qed.
Print Assumptions C16_energy_refuted.

Example C16_case :
  NoDup ["e"; "h"; "h+"] /\
  exists s', finishes (adas_rates ex_norms ex_cell (fun _ _ => 1) (fun _ _ => 2) 3 "e" "h" "h+") ex_state s' tt.
Proof. exact adas_case. Qed.

(** ** C17: hydrogen charge exchange *)

(** [L] lists the species which take part, each once; the four may coincide (the same isotope). *)
Theorem C17_momentum_and_energy :
  forall nm a1 i1 a2 i2 mult (s s' : State * unit) L,
    NoDup L -> In a1 L -> In i1 L -> In a2 L -> In i2 L ->
    finishes (hydrogen_cx nm a1 i1 a2 i2 mult false) s s' tt ->
    sumR (fun sp => change s s' sp "momentum_source") L = 0 /\
    sumR (fun sp => energy_gain s s' sp) L = 0 /\
    sumR (fun sp => change s s' sp "density_source") L = 0 /\
    only_sources s s' [a1; i1; a2; i2].
Proof. exact hcx_conserves. Qed.
Print Assumptions C17_momentum_and_energy.

(** Atoms plus ions of each isotope. *)
Theorem C17_particles :
  forall nm iso1 iso2 mult no_gain (s s' : State * unit),
    In iso1 ["h"; "d"; "t"] -> In iso2 ["h"; "d"; "t"] ->
    finishes (hydrogen_cx_isotopes nm iso1 iso2 mult no_gain) s s' tt ->
    (forall iso, In iso ["h"; "d"; "t"] ->
       change s s' iso "density_source" + change s s' (iso ++ "+") "density_source" = 0) /\
    change s s' "h" "density_source" + change s s' "d" "density_source" + change s s' "t" "density_source" = 0 /\
    (iso1 = iso2 -> forall sp, change s s' sp "density_source" = 0).
Proof. exact hcx_isotopes. Qed.
Print Assumptions C17_particles.

Theorem C17_isotopes_momentum_and_energy :
  forall nm iso1 iso2 mult (s s' : State * unit),
    In iso1 ["h"; "d"; "t"] -> In iso2 ["h"; "d"; "t"] ->
    finishes (hydrogen_cx_isotopes nm iso1 iso2 mult false) s s' tt ->
    let species := ["h"; "d"; "t"; "h+"; "d+"; "t+"] in
    sumR (fun sp => change s s' sp "momentum_source") species = 0 /\
    sumR (fun sp => energy_gain s s' sp) species = 0.
Proof. exact hcx_isotopes_energy. Qed.
Print Assumptions C17_isotopes_momentum_and_energy.

(** With no_neutral_cx_mom_gain "ion momentum in CX is still lost but not given to the neutrals"
    (include/hydrogen_charge_exchange.hxx 131-133), so the product atoms should not gain momentum; they
    do, and instead the product ions do not get the momentum of the atoms. *)
Theorem C17_option_refuted :
  exists nm a1 i1 a2 i2 mult (s s' : State * unit),
    NoDup [a1; i1; a2; i2] /\
    finishes (hydrogen_cx nm a1 i1 a2 i2 mult true) s s' tt /\
    change s s' a2 "momentum_source" <> 0 /\
    change s s' a1 "momentum_source" + change s s' i2 "momentum_source" <> 0.
Proof. exact option_refuted. Qed.
Print Assumptions C17_option_refuted.

Example C17_case :
  (exists s', finishes (hydrogen_cx_isotopes ex_norms "h" "d" 1 false) cx_state s' tt /\
              change cx_state s' "d" "density_source" <> 0) /\
  (exists s', finishes (hydrogen_cx_isotopes ex_norms "h" "h" 1 false) cx_state s' tt /\
              change cx_state s' "h" "momentum_source" <> 0).
Proof. exact cx_case. Qed.

(** ** C18: OpenADAS charge exchange *)

Theorem C18_charge_exchange :
  forall nm c rc el fA fB tA tB (s s' : State * unit),
    NoDup [fA; fB; tA; tB] ->
    finishes (adas_cx nm c rc el fA fB tA tB) s s' tt ->
    change s s' fA "density_source" + change s s' tA "density_source" = 0 /\
    change s s' fB "density_source" + change s s' tB "density_source" = 0 /\
    change s s' fA "density_source" = change s s' fB "density_source" /\
    change s s' fA "momentum_source" + change s s' fB "momentum_source"
    + change s s' tA "momentum_source" + change s s' tB "momentum_source" = 0 /\
    change s s' fA "energy_source" + change s s' fB "energy_source"
    + change s s' tA "energy_source" + change s s' tB "energy_source" = 0 /\
    value s fA "charge" * change s s' fA "density_source" + value s fB "charge" * change s s' fB "density_source"
    + value s tA "charge" * change s s' tA "density_source" + value s tB "charge" * change s s' tB "density_source"
    = change s s' tA "density_source"
      * (value s tA "charge" + value s tB "charge" - (value s fA "charge" + value s fB "charge")) /\
    only_sources s s' [fA; fB; tA; tB].
Proof. exact adas_cx_laws. Qed.
Print Assumptions C18_charge_exchange.

(** The kinetic energy lost in making the velocities equal is not returned as heat. *)
Theorem C18_energy_defect :
  forall nm c rc el fA fB tA tB (s s' : State * unit),
    NoDup [fA; fB; tA; tB] ->
    finishes (adas_cx nm c rc el fA fB tA tB) s s' tt ->
    energy_gain s s' fA + energy_gain s s' fB + energy_gain s s' tA + energy_gain s s' tB
    = - (1 / 2) * change s s' tA "density_source"
      * (value s fA "AA" * (value s fA "velocity" - value s tA "velocity") ^ 2
         + value s fB "AA" * (value s fB "velocity" - value s tB "velocity") ^ 2).
Proof. exact adas_cx_energy_defect. Qed.
Print Assumptions C18_energy_defect.

Example C18_case :
  NoDup ["c+"; "d"; "c"; "d+"] /\
  exists s', finishes (adas_cx ex_norms ex_cell (fun _ _ => 1) "e" "c+" "d" "c" "d+") cx_state s' tt /\
             change cx_state s' "c" "density_source" <> 0 /\
             value cx_state "c" "charge" + value cx_state "d+" "charge"
             - (value cx_state "c+" "charge" + value cx_state "d" "charge") = 0.
Proof. exact adas_cx_case. Qed.

(** ** C19: OpenADAS tables *)

Theorem C19_lookup_is_total :
  forall a, table_ok a -> forall T n, exists r, adas_evaluate a T n = Some r /\ 0 < r.
Proof. exact adas_total. Qed.
Print Assumptions C19_lookup_is_total.

Theorem C19_between_surrounding_values :
  forall a, table_ok a -> forall T n r,
    adas_evaluate a T n = Some r ->
    exists i j tl th nl nh c00 c01 c10 c11,
      nth_error (log_temperature a) i = Some tl /\ nth_error (log_temperature a) (S i) = Some th /\
      nth_error (log_density a) j = Some nl /\ nth_error (log_density a) (S j) = Some nh /\
      tl <= clamped (log_temperature a) T <= th /\ nl <= clamped (log_density a) n <= nh /\
      coef (log_coeff a) i j = Some c00 /\ coef (log_coeff a) i (S j) = Some c01 /\
      coef (log_coeff a) (S i) j = Some c10 /\ coef (log_coeff a) (S i) (S j) = Some c11 /\
      Rpower 10 (Rmin (Rmin c00 c01) (Rmin c10 c11)) <= r <= Rpower 10 (Rmax (Rmax c00 c01) (Rmax c10 c11)).
Proof. exact adas_between. Qed.
Print Assumptions C19_between_surrounding_values.

Theorem C19_nodes_reproduced :
  forall a, table_ok a -> forall i j t d c,
    nth_error (log_temperature a) i = Some t -> nth_error (log_density a) j = Some d ->
    coef (log_coeff a) i j = Some c ->
    adas_evaluate a (Rpower 10 t) (Rpower 10 d) = Some (Rpower 10 c).
Proof. exact adas_nodes. Qed.
Print Assumptions C19_nodes_reproduced.

(** The interpolation is bilinear in the logarithms: data of this form are reproduced everywhere. *)
Theorem C19_bilinear_data_reproduced :
  forall a, table_ok a -> forall f0 fT fn fTn T n,
    (forall i j t d, nth_error (log_temperature a) i = Some t -> nth_error (log_density a) j = Some d ->
       coef (log_coeff a) i j = Some (f0 + fT * t + fn * d + fTn * t * d)) ->
    adas_evaluate a T n
    = Some (let t := clamped (log_temperature a) T in let d := clamped (log_density a) n in
            Rpower 10 (f0 + fT * t + fn * d + fTn * t * d)).
Proof. exact adas_bilinear. Qed.
Print Assumptions C19_bilinear_data_reproduced.

(** Outside the range the value at the edge is used. *)
Theorem C19_edge_values :
  forall a, table_ok a -> forall T n T' n',
    clamped (log_temperature a) T = clamped (log_temperature a) T' ->
    clamped (log_density a) n = clamped (log_density a) n' ->
    adas_evaluate a T n = adas_evaluate a T' n'.
Proof. exact adas_edge. Qed.
Print Assumptions C19_edge_values.

Example C19_case :
  table_ok ex_table /\
  clamped (log_temperature ex_table) (-5) = clamped (log_temperature ex_table) 0 /\
  (forall i j t d, nth_error (log_temperature ex_table) i = Some t -> nth_error (log_density ex_table) j = Some d ->
     coef (log_coeff ex_table) i j = Some (1 + 2 * t + 3 * d + 4 * t * d)).
Proof. exact ex_table_case. Qed.

(** ** C20: AMJUEL fits *)

Theorem C20_evaluates_the_fit :
  forall k t T n, square k t ->
    evaluate k k t T n = Some (amjuel_fit k (entry t) (clamp 0.1 1e4 T) (clamp 1e14 1e22 n)) /\
    0 < amjuel_fit k (entry t) (clamp 0.1 1e4 T) (clamp 1e14 1e22 n).
Proof. exact evaluate_square. Qed.
Print Assumptions C20_evaluates_the_fit.

Theorem C20_edge_values :
  forall rows cols t T n T' n',
    clamp 0.1 1e4 T = clamp 0.1 1e4 T' -> clamp 1e14 1e22 n = clamp 1e14 1e22 n' ->
    evaluate rows cols t T n = evaluate rows cols t T' n'.
Proof. exact evaluate_clamped. Qed.
Print Assumptions C20_edge_values.

Theorem C20_tables_of_the_code :
  square 9 hyd_ionisation_rate_coefs /\ square 9 hyd_ionisation_radiation_coefs /\
  square 9 hyd_recombination_rate_coefs /\ square 9 hyd_recombination_radiation_coefs /\
  square 9 he01_rate_coefs /\ square 9 he01_radiation_coefs /\
  square 9 he10_rate_coefs /\ square 9 he10_radiation_coefs.
Proof. exact tables_square. Qed.
Print Assumptions C20_tables_of_the_code.

(** The loop bounds are exchanged: a table of [rows] temperatures by fewer [cols] densities, as the
    type of the argument allows, is read outside a row. *)
Theorem C20_rectangular_refuted :
  exists rows cols t,
    (0 < cols < rows)%nat /\ List.length t = rows /\ (forall row, In row t -> List.length row = cols) /\
    forall T n, evaluate rows cols t T n = None.
Proof. exact rectangular_refuted. Qed.
Print Assumptions C20_rectangular_refuted.

Example C20_case :
  square 9 he10_rate_coefs /\ clamp 0.1 1e4 (-3) = clamp 0.1 1e4 0.05 /\ clamp 1e14 1e22 1e30 = clamp 1e14 1e22 1e22.
Proof.
  split; [apply tables_square|].
  unfold clamp. split.
  - rewrite !Rmin_right, !Rmax_left by lra. reflexivity.
  - rewrite !Rmin_left by lra. reflexivity.
Qed.
