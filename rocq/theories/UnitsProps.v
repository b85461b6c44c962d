(** C64: normalisation constants, conversion factors and flow diagnostics. *)

From Coq Require Import List Bool ZArith Reals Lra String.
From Verif Require Import UnitsModel UnitsSpec UnitsProofs.
Import ListNotations.
Open Scope R_scope.

(** The derived constants are those of a proton gyrating at the sound speed. *)
Theorem C64_derived_constants : forall n, positive_norms n ->
  Cs0 n = rho_s0 n * Omega_ci n /\ Mp n * (Cs0 n * Cs0 n) = qe n * Tnorm n /\ qe n * Bnorm n = Mp n * Omega_ci n
  /\ ceval n u_meters / ceval n u_seconds = Cs0 n.
Proof. exact derived_norms. Qed.
Print Assumptions C64_derived_constants.
Example C64_derived_constants_case : positive_norms norms4 /\ Cs0 norms4 = 2 /\ Omega_ci norms4 = 1.
Proof. split; [ exact norms4_pos | split; [ exact norms4_Cs | exact norms4_Omega ] ]. Qed.

(** Every output's conversion factor, except three, is the unit of its stated dimension in one coherent system of units, for every choice of
    Nnorm, Tnorm and Bnorm. *)
Theorem C64_conversion_factors : forall e, List.In e outputs -> ~ List.In (e_file e, e_line e) wrong_places -> right_entry e.
Proof. exact outputs_right. Qed.
Print Assumptions C64_conversion_factors.
Example C64_conversion_factors_case :
  let e := Out "src/evolve_momentum.cxx" 303 "N" false (CMul (CMul (CMul (CMul (CMul CRho (CSQ CRho)) CMp) CN) CCs) COmega) in
  List.In e outputs /\ ~ List.In (e_file e, e_line e) wrong_places /\ (List.length outputs > 100)%nat.
Proof.
  split; [ | split ].
  - unfold outputs. repeat (first [ left; reflexivity | right ]).
  - intros [H | [H | [H | []]]]; inversion H.
  - vm_compute. repeat constructor.
Qed.

(** The three which are not: the conductivity of evolve_energy lacks / Tnorm, the numerical viscous heating of evolve_pressure is per volume but
    declared in W, the particle source of neutral_parallel_diffusion is per volume but declared in s^-1. *)
Theorem C64_conversion_factors_refuted : exists l, List.length l = 3%nat /\ NoDup (map (fun e => (e_file e, e_line e)) l)
  /\ (forall e, List.In e l -> List.In e outputs /\ ~ right_entry e).
Proof. exact three_wrong. Qed.
Print Assumptions C64_conversion_factors_refuted.

(** Every setting with stated units is divided by the unit of that dimension. *)
Theorem C64_settings_normalised : forall e, List.In e inputs -> right_entry e.
Proof. exact inputs_right. Qed.
Print Assumptions C64_settings_normalised.
Example C64_settings_normalised_case : List.In (Inp "src/anomalous_diffusion.cxx" 26 "m^2/s" false (CMul (CMul u_meters u_meters) (CDiv C1 u_seconds))) inputs.
Proof. unfold inputs. repeat (first [ left; reflexivity | right ]). Qed.

(** beta_em is the coefficient of Ampere's law in normalised quantities. *)
Theorem C64_ampere_coefficient : forall mu0 n lapA j, positive_norms n ->
  (lapA * (Bnorm n * rho_s0 n / (rho_s0 n * rho_s0 n)) = - mu0 * (j * (qe n * Nnorm n * Cs0 n)) <-> lapA = - beta_em mu0 n * j).
Proof. exact beta_em_ampere. Qed.
Print Assumptions C64_ampere_coefficient.

(** The Alfven speed of sound_speed is B / sqrt(mu0 n m). *)
Theorem C64_alfven_speed : forall mu0 n B N, positive_norms n -> 0 < mu0 -> 0 < N ->
  beta_norm mu0 n * B / sqrt N * Cs0 n = (B * Bnorm n) / sqrt (mu0 * (N * Nnorm n) * Mp n).
Proof. exact beta_norm_alfven. Qed.
Print Assumptions C64_alfven_speed.

(** Cross-sections in m^2 give collision frequencies n sigma v. *)
Theorem C64_cross_section : forall n sigma v N, positive_norms n ->
  (v * (sigma / area_norm n) * N) * Omega_ci n = (v * Cs0 n) * sigma * (N * Nnorm n).
Proof. exact area_norm_frequency. Qed.
Print Assumptions C64_cross_section.

(** Energy flow diagnostics of neutral_mixed do not carry the factors 5/2 and 3/2: the quotients are of ints. *)
Theorem C64_energy_flow_factors_refuted : exists flow,
  advection_flow flow <> 5 / 2 * flow /\ conduction_flow flow <> 3 / 2 * flow /\ advection_flow flow = 2 * flow /\ conduction_flow flow = flow.
Proof. exact flow_factors. Qed.
Print Assumptions C64_energy_flow_factors_refuted.

(** A momentum flow in Y which other components have set is not saved by evolve_momentum: it looks for another name. *)
Theorem C64_momentum_flow_saved_refuted : exists species x y old,
  species "momentum_flow_xlow"%string = Some x /\ species "momentum_flow_ylow"%string = Some y
  /\ momentum_flows species old = Some (Some x, None).
Proof. exact flow_y_lost. Qed.
Print Assumptions C64_momentum_flow_saved_refuted.
