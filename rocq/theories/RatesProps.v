(** C91 and C92: the rate coefficients behave as their physics demands. *)

From Coq Require Import List Bool String Reals Lra.
From Verif Require Import OptionsModel StateMonad StateSpec StateMonadProofs LimitersModel ReactionsModel ReactionsSpec ReactionsExamples AmjuelTables RatesSpec
  RatesFits RatesOther RatesWit.
From Verif Require RadiationModel.
Import ListNotations.
Open Scope R_scope.
Open Scope string_scope.

(** ** Hydrogen *)

(** The electrons lose at least the ionisation potential with each ionisation of hydrogen: at every temperature and density. *)
Theorem C91_hydrogen_ionisation_energy :
  forall T n, exists r e, coefficient hyd_ionisation_rate_coefs T n r /\ coefficient hyd_ionisation_radiation_coefs T n e /\ 13.6 * r < e.
Proof. exact ion_energy. Qed.
Print Assumptions C91_hydrogen_ionisation_energy.

(** The same of the reaction: the electrons are cooled by at least 13.6 eV times the number of ions made (energies in units of Tnorm). *)
Theorem C91_hydrogen_ionisation_cools :
  forall nm c iso m (s s' : State * unit) out,
    0 < c_Jm c -> 0 < c_J c -> 0 < c_Jp c -> 0 < Tnorm nm -> 0 < Nnorm nm -> 0 < FreqNorm nm -> 0 <= m ->
    densities_not_negative c "e" iso s -> NoDup ["e"; iso; iso ++ "+"] ->
    finishes (hyd_ionisation nm c iso hyd_ionisation_rate_coefs hyd_ionisation_radiation_coefs m m) s s' out ->
    energy_gain s s' "e" <= - (13.6 / Tnorm nm * change s s' (iso ++ "+") "density_source").
Proof. exact ionisation_cools. Qed.
Print Assumptions C91_hydrogen_ionisation_cools.

(** Ionisation becomes faster with temperature up to 90 eV, slower beyond 115 eV. *)
Theorem C91_hydrogen_ionisation_rises :
  forall T1 T2 n, 0.1 <= T1 -> T1 < T2 -> T2 <= 90 ->
    exists r1 r2, coefficient hyd_ionisation_rate_coefs T1 n r1 /\ coefficient hyd_ionisation_rate_coefs T2 n r2 /\ r1 < r2.
Proof. exact ion_rises. Qed.
Print Assumptions C91_hydrogen_ionisation_rises.
Theorem C91_hydrogen_ionisation_falls :
  forall T1 T2 n, 115 <= T1 -> T1 < T2 -> T2 <= 1e4 ->
    exists r1 r2, coefficient hyd_ionisation_rate_coefs T1 n r1 /\ coefficient hyd_ionisation_rate_coefs T2 n r2 /\ r2 < r1.
Proof. exact ion_falls. Qed.
Print Assumptions C91_hydrogen_ionisation_falls.

(** Recombination becomes slower with temperature; below 7.4 eV it becomes faster with density, as three-body recombination sets in. *)
Theorem C91_hydrogen_recombination_falls :
  forall T1 T2 n, 0.1 <= T1 -> T1 < T2 -> T2 <= 1e4 ->
    exists r1 r2, coefficient hyd_recombination_rate_coefs T1 n r1 /\ coefficient hyd_recombination_rate_coefs T2 n r2 /\ r2 < r1.
Proof. exact rec_falls. Qed.
Print Assumptions C91_hydrogen_recombination_falls.
Theorem C91_hydrogen_recombination_density :
  forall T n1 n2, T <= 7.4 -> 1e14 <= n1 -> n1 < n2 -> n2 <= 1e22 ->
    exists r1 r2, coefficient hyd_recombination_rate_coefs T n1 r1 /\ coefficient hyd_recombination_rate_coefs T n2 r2 /\ r1 < r2.
Proof. exact rec_density. Qed.
Print Assumptions C91_hydrogen_recombination_density.

Example C91_hydrogen_case :
  (exists s' out, finishes (hyd_ionisation ex_norms ex_cell "h" hyd_ionisation_rate_coefs hyd_ionisation_radiation_coefs 1 1) ex_state s' out) /\
  NoDup ["e"; "h"; "h" ++ "+"] /\ 0 < c_Jm ex_cell /\ 0 < c_J ex_cell /\ 0 < c_Jp ex_cell /\ 0 < Tnorm ex_norms /\ 0 < Nnorm ex_norms /\ 0 < FreqNorm ex_norms /\
  densities_not_negative ex_cell "e" "h" ex_state.
Proof. exact hydrogen_case. Qed.

(** ** Helium *)

Theorem C92_helium_ionisation_energy_partial :
  forall T n, 0.3 <= T -> exists r e, coefficient he01_rate_coefs T n r /\ coefficient he01_radiation_coefs T n e /\ 24.586 * r < e.
Proof. exact he_energy. Qed.
Print Assumptions C92_helium_ionisation_energy_partial.

(** Not at every temperature: at 0.1 eV and the highest density the electrons lose less than 4 eV with an ionisation of helium, whose potential is 24.586 eV. *)
Theorem C92_helium_ionisation_energy_refuted :
  exists T n r e, 0.1 <= T <= 1e4 /\ 1e14 <= n <= 1e22 /\ coefficient he01_rate_coefs T n r /\ coefficient he01_radiation_coefs T n e /\ e < 4 * r.
Proof. exact he_energy_cold. Qed.
Print Assumptions C92_helium_ionisation_energy_refuted.

Theorem C92_helium_ionisation_rises :
  forall T1 T2 n, 0.1 <= T1 -> T1 < T2 -> T2 <= 239 ->
    exists r1 r2, coefficient he01_rate_coefs T1 n r1 /\ coefficient he01_rate_coefs T2 n r2 /\ r1 < r2.
Proof. exact he_rises. Qed.
Print Assumptions C92_helium_ionisation_rises.
Theorem C92_helium_ionisation_falls :
  forall T1 T2 n, 271 <= T1 -> T1 < T2 -> T2 <= 1e4 ->
    exists r1 r2, coefficient he01_rate_coefs T1 n r1 /\ coefficient he01_rate_coefs T2 n r2 /\ r2 < r1.
Proof. exact he_falls. Qed.
Print Assumptions C92_helium_ionisation_falls.

(** Recombination of helium becomes slower with temperature from 1.25 to 4 eV and from 31 eV (between them dielectronic recombination adds to it). *)
Theorem C92_helium_recombination_falls_partial :
  forall T1 T2 n, (1.25 <= T1 /\ T2 <= 4) \/ (31 <= T1 /\ T2 <= 1e4) -> T1 < T2 ->
    exists r1 r2, coefficient he10_rate_coefs T1 n r1 /\ coefficient he10_rate_coefs T2 n r2 /\ r2 < r1.
Proof. exact herec_falls. Qed.
Print Assumptions C92_helium_recombination_falls_partial.

(** In cold helium the fit collapses: at 0.1 eV and the lowest density recombination is more than 10^60 times slower than at 1 eV, where it should be faster. *)
Theorem C92_helium_recombination_cold_refuted :
  exists T1 T2 n r1 r2, 0.1 <= T1 < T2 /\ T2 <= 1e4 /\ 1e14 <= n <= 1e22 /\ coefficient he10_rate_coefs T1 n r1 /\ coefficient he10_rate_coefs T2 n r2 /\ 1e60 * r1 < r2.
Proof. exact herec_cold. Qed.
Print Assumptions C92_helium_recombination_cold_refuted.

(** ** Charge exchange of hydrogen *)

Theorem C92_charge_exchange_rises_partial :
  forall nm m T1 T2, 0 < Nnorm nm -> 0 < FreqNorm nm -> 0 < m -> 0.07 <= T1 -> T1 < T2 -> T2 <= 5000 -> cx_sigmav nm T1 m < cx_sigmav nm T2 m.
Proof. exact cx_rises. Qed.
Print Assumptions C92_charge_exchange_rises_partial.

(** The rate of charge exchange should rise with temperature, but the fit is clipped at 0.01 eV, outside its range: there the rate is over three times that at 1 eV. *)
Theorem C92_charge_exchange_cold_refuted :
  forall nm m, 0 < Nnorm nm -> 0 < FreqNorm nm -> 0 < m -> exists T1 T2, 0.01 <= T1 < T2 /\ T2 <= 10000 /\ 3 * cx_sigmav nm T2 m < cx_sigmav nm T1 m.
Proof. exact cx_cold_pair. Qed.
Print Assumptions C92_charge_exchange_cold_refuted.

(** Effective temperatures of both theorems arise: the clip reaches 0.01 eV and leaves 1 eV as it is. *)
Example C92_charge_exchange_case :
  cx_Teff (mkNorms 100 1e19 1e8) 0 1 0 1 = 0.01 /\ cx_Teff (mkNorms 100 1e19 1e8) (1 / 200) 1 (1 / 200) 1 = 1.
Proof. exact cx_case. Qed.

(** ** The legacy ionisation component *)

Theorem C92_legacy_ionisation_rises :
  forall T1 T2, 0.1 <= T1 -> T1 < T2 -> T2 <= 130 -> RadiationModel.updated_ionisation T1 < RadiationModel.updated_ionisation T2.
Proof. exact up_rises. Qed.
Print Assumptions C92_legacy_ionisation_rises.

(** From 1 eV the rate of the ionisation component is between 60 and 100 per cent of the low density limit of the AMJUEL reaction. *)
Theorem C92_legacy_ionisation_agrees_partial :
  forall T n, 1 <= T <= 1e4 -> n <= 1e14 ->
    exists r, coefficient hyd_ionisation_rate_coefs T n r /\ 0.6 * r < RadiationModel.updated_ionisation T < r.
Proof. exact up_agrees. Qed.
Print Assumptions C92_legacy_ionisation_agrees_partial.

(** In cold gas the two rates of ionisation of hydrogen differ by a factor of more than 10^8. *)
Theorem C92_legacy_ionisation_cold_refuted :
  exists T n r, 0 < T /\ n <= 1e14 /\ coefficient hyd_ionisation_rate_coefs T n r /\ 1e8 * r < RadiationModel.updated_ionisation T.
Proof. exact up_cold. Qed.
Print Assumptions C92_legacy_ionisation_cold_refuted.
