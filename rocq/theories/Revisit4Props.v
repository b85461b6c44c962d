(** More about neutrals, evolution, diagnostics, charge exchange and the sheath: C17, C39, C46, C61, C63, C64. *)

From Coq Require Import List Bool ZArith Reals Lra Lia String.
From Verif Require Import StateMonad StateMonadProofs ParallelModel ReactionsModel NeutralModel EvolveModel UnitsModel SheathModel SheathSpec SheathLaws Revisit4Proofs.
Import ListNotations.
Open Scope R_scope.

(** ** C61: the speed of neutral waves, where used, is the adiabatic sound speed. *)
Theorem C61_sound_speed : forall s T, lax_flux s = true -> 0 < NeutralModel.AA s -> 0 <= T -> NeutralModel.AA s * NeutralModel.sound_speed s T ^ 2 = 5 / 3 * T.
Proof. exact neutral_sound_speed. Qed.
Print Assumptions C61_sound_speed.
Example C61_sound_speed_case : exists s, lax_flux s = true /\ NeutralModel.AA s = 2.
Proof. exists (mkNset 2 1e-8 1e-8 true true true (1 / 5) (-1) 1 true true). split; reflexivity. Qed.

(** ** C46: conductivity in the guard cells: a copy of the last cell at the ends of the domain, otherwise its own. *)
Theorem C46_guard_cells : forall m alpha A kappa gradT N T, (ystart m <= yend m)%Z ->
  let k := kappa_line m alpha A kappa gradT N T in
  let k0 j := kappa_limited alpha (kappa j) (gradT j) (N j) (T j) A in
  (forall j, (ystart m <= j <= yend m)%Z -> k j = k0 j) /\
  k (ystart m - 1)%Z = (if (firstY m && negb (periodicY m))%bool then k (ystart m) else k0 (ystart m - 1)%Z) /\
  k (yend m + 1)%Z = (if (lastY m && negb (periodicY m))%bool then k (yend m) else k0 (yend m + 1)%Z).
Proof. exact kappa_guards. Qed.
Print Assumptions C46_guard_cells.
Example C46_guard_case : let m := mkMesh 2 5 8 true false false in (ystart m <= yend m)%Z /\ (firstY m && negb (periodicY m))%bool = true /\ (lastY m && negb (periodicY m))%bool = false.
Proof. cbn. repeat split; lia. Qed.

(** ** C63: Braginskii's coefficients, 0.96 and 0.73. *)
Theorem C63_braginskii_coefficients : forall P nu, nu <> 0 -> eta_ion P nu * nu = 4 / 3 * 0.96 * P /\ eta_electron P nu * nu = 4 / 3 * 0.73 * P.
Proof. exact braginskii_viscosities. Qed.
Print Assumptions C63_braginskii_coefficients.
Example C63_braginskii_case : eta_ion 1 2 = 0.64. Proof. unfold eta_ion. lra. Qed.

(** ** C64: flow diagnostics of momentum: each is what the species holds, or what it was. *)
Theorem C64_momentum_flows : forall species old,
  (forall x y f, species "momentum_flow_xlow"%string = Some x -> species "momentum_flux_ylow"%string = Some f -> species "momentum_flow_ylow"%string = Some y ->
     momentum_flows species old = Some (Some x, Some y)) /\
  (forall x, species "momentum_flow_xlow"%string = Some x -> species "momentum_flux_ylow"%string = None -> momentum_flows species old = Some (Some x, snd old)) /\
  (forall y f, species "momentum_flow_xlow"%string = None -> species "momentum_flux_ylow"%string = Some f -> species "momentum_flow_ylow"%string = Some y ->
     momentum_flows species old = Some (fst old, Some y)).
Proof. exact momentum_flows_law. Qed.
Print Assumptions C64_momentum_flows.
Example C64_momentum_flows_case : momentum_flows (fun k => if String.eqb k "momentum_flux_ylow" then None else Some 1) (None, Some 2) = Some (Some 1, Some 2).
Proof. reflexivity. Qed.
(** Powers do not count particles. *)
Theorem C64_powers : forall e, List.In e outputs -> String.prefix "W" (e_units e) = true -> e_particles e = false.
Proof. exact power_entries. Qed.
Print Assumptions C64_powers.
Example C64_powers_case : exists e, List.In e outputs /\ e_units e = "W"%string.
Proof. exact power_entry. Qed.

(** ** C17: the effective temperature of charge exchange, symmetric in the species and within the fit. *)
Theorem C17_effective_temperature : forall nm T1 A1 T2 A2, cx_Teff nm T1 A1 T2 A2 = cx_Teff nm T2 A2 T1 A1 /\ 0.01 <= cx_Teff nm T1 A1 T2 A2 <= 10000 /\
  (0.01 <= (T1 / A1 + T2 / A2) * ReactionsModel.Tnorm nm <= 10000 -> cx_Teff nm T1 A1 T2 A2 = (T1 / A1 + T2 / A2) * ReactionsModel.Tnorm nm).
Proof. exact cx_Teff_law. Qed.
Print Assumptions C17_effective_temperature.
Example C17_effective_case : 0.01 <= (1 / 2 + 1 / 2) * 100 <= 10000. Proof. lra. Qed.

(** ** C39: ions at the upper end of the insulating sheath are never heated by it; at 5/3 nothing is added. *)
Theorem C39_insulating_ion_heat_upper : forall g e i, geom_ok g ->
  (adiabatic i = 5 / 3 -> added_energy (insulating_ion_upper g e i) = 0) /\ added_energy (insulating_ion_upper g e i) <= 0.
Proof. exact insulating_ion_heat_upper. Qed.
Print Assumptions C39_insulating_ion_heat_upper.
(** The ion speed at the sheath squared: (gamma T_i + Z s T_e r) / A, where r is the ratio of the density gradients, or 1 where that of the ion is
    below 1e-3. *)
Theorem C39_speed_at_the_sheath : forall e i, let ne := sheath_value (dens e) in let ni := sheath_value (dens i) in
  let ti := rfloor (sheath_value (temp i)) 1e-5 in let te := rfloor (sheath_value (temp e)) 1e-5 in
  let r := gradient_factor (at_c (dens e) - ne) (at_c (dens i) - ni) in
  full_C_i_sq e i = clip ((adiabatic i * ti + charge i * clip (ni / rfloor ne 1e-10) 0 1 * te * r) / mass i) 0 100 /\
  (1e-5 < ne -> insulating_C_i_sq_upper e i = clip ((adiabatic i * ti + charge i * (ni / ne) * te * r) / mass i) 0 100) /\
  (ne <= 1e-5 -> insulating_C_i_sq_upper e i = clip (adiabatic i * ti / mass i) 0 100).
Proof. exact bohm_speeds. Qed.
Print Assumptions C39_speed_at_the_sheath.
Example C39_speed_case : gradient_factor 1 0 = 1 /\ gradient_factor 1 2 = 1 / 2.
Proof. unfold gradient_factor. rewrite Rabs_R0. rewrite (Rabs_right 2) by lra. destruct (Rlt_dec 0 1e-3); [|lra]. destruct (Rlt_dec 2 1e-3); [lra|]. split; reflexivity. Qed.
