(** C98: what is fixed before the first step. *)

From Coq Require Import List Bool ZArith Reals String Lra Lia.
From Verif Require Import ParallelModel UnitsModel InitModel InitSpec InitProofs.
Import ListNotations.
Open Scope R_scope.

(** The run stops exactly if the old option is given, or if the grid file has no component of the metric and none is to be calculated. *)
Theorem C98_metric_throws : forall l r nm g, choose_metric l r nm g = MThrow <-> l = true \/ (r <> Some true /\ forall v, metric_name v -> g v = None).
Proof. exact metric_throws. Qed.
Print Assumptions C98_metric_throws.
Theorem C98_metric_choice : forall l r nm g, choose_metric l r nm g <> MThrow ->
  (choose_metric l r nm g = MRecalculate <-> r = Some true) /\ (choose_metric l r nm g = MGrid false <-> r <> Some true /\ nm = Some false).
Proof. exact metric_chosen. Qed.
Print Assumptions C98_metric_choice.
Example C98_metric_case : choose_metric false None None (fun v => if String.eqb v "g_23" then Some zero_fld else None) = MGrid true
  /\ choose_metric false None None (fun v => if String.eqb v "g_32" then Some zero_fld else None) = MThrow.
Proof. split; reflexivity. Qed.

(** source_only_in_core clears exactly the cells inside the domain which are not on closed field lines. *)
Theorem C98_core : forall b f x y z, inside b x y z -> core_only b f x y z = masked true (periodic b x) (f x y z).
Proof. exact (fun b f x y z I => core_inside b f x y z (proj1 I) (proj1 (proj2 I)) (proj2 (proj2 I))). Qed.
Print Assumptions C98_core.
Theorem C98_core_exact : forall b f x y z, core_only b f x y z = if (in_box b x y z && negb (periodic b x))%bool then 0 else f x y z.
Proof. exact core_exact. Qed.
Print Assumptions C98_core_exact.
Example C98_core_case : inside b1 3%Z 0%Z 0%Z /\ core_only b1 (fun _ _ _ => 5) 3%Z 0%Z 0%Z = 0 /\ core_only b1 (fun _ _ _ => 5) 2%Z 0%Z 0%Z = 5.
Proof. split; [unfold inside, b1; cbn [xs xe ys ye zs ze]; lia | split; reflexivity]. Qed.

(** In SI units the density source is what the input file asks for, else what the grid file holds, times the given function of the time in
    seconds, and zero outside of the core if so wished. *)
Theorem C98_density : forall n b g o name s x y z t, pos n -> density_src n b g o name = Some s -> inside b x y z ->
  normalised (Nnorm n * Omega_ci n)
    (masked (withDefault (o_core o) false) (periodic b x) (chosen (o_source o) (g ("N" ++ name ++ "_src")%string) (fun _ _ _ => 0) x y z)
      * (if withDefault (o_time o) false then match o_prefactor o with Some f => f (t / Omega_ci n) | None => 1 end else 1))
    (final_src n s t x y z).
Proof. exact density_value. Qed.
Print Assumptions C98_density.
Theorem C98_pressure : forall n b g o name s x y z t, pos n -> pressure_src n b g o name = Some s -> inside b x y z ->
  normalised (qe n * Nnorm n * Tnorm n * Omega_ci n)
    (masked (withDefault (o_core o) false) (periodic b x) (chosen (o_source o) (g ("P" ++ name ++ "_src")%string) (fun _ _ _ => 0) x y z)
      * (if withDefault (o_time o) false then match o_prefactor o with Some f => f (t / Omega_ci n) | None => 1 end else 1))
    (final_src n s t x y z).
Proof. exact pressure_value. Qed.
Print Assumptions C98_pressure.
Theorem C98_energy_partial : forall n b g o gamma name s x y z t, pos n -> gamma <> 1 -> energy_src n b g o gamma name = Some s -> inside b x y z ->
  normalised (qe n * Nnorm n * Tnorm n * Omega_ci n)
    (masked (withDefault (o_core o) false) (periodic b x) (match o_source o with Some f => f x y z
      | None => chosen None (g ("P" ++ name ++ "_src")%string) (fun _ _ _ => 0) x y z / (gamma - 1) end))
    (final_src n s t x y z).
Proof. exact energy_value. Qed.
Print Assumptions C98_energy_partial.
Theorem C98_neutral_partial : forall n g o name s x y z t, pos n ->
  (neutral_density_src n g o name = Some s ->
    normalised (Nnorm n * Omega_ci n) (chosen (o_source o) (g ("N" ++ name ++ "_src")%string) (fun _ _ _ => 0) x y z) (final_src n s t x y z))
  /\ (neutral_pressure_src n g o name = Some s ->
    normalised (qe n * Nnorm n * Tnorm n * Omega_ci n) (chosen (o_source o) (g ("P" ++ name ++ "_src")%string) (fun _ _ _ => 0) x y z) (final_src n s t x y z)).
Proof. exact neutral_value. Qed.
Print Assumptions C98_neutral_partial.
Example C98_source_case : pos n1 /\ inside b1 2%Z 0%Z 0%Z /\ density_src n1 b1 g0 o1 "d" <> None /\ pressure_src n1 b1 g0 o1 "d" <> None
  /\ energy_src n1 b1 g0 o1 (5 / 3) "d" <> None /\ 5 / 3 <> 1.
Proof. split; [exact n1_pos|]. split; [unfold inside, b1; cbn [xs xe ys ye zs ze]; lia|]. repeat split; try discriminate. lra. Qed.
(** Construction fails exactly if a dependence on time is asked for and no function given. *)
Theorem C98_throws : forall n b g o gamma name,
  (density_src n b g o name = None <-> o_time o = Some true /\ o_prefactor o = None)
  /\ (pressure_src n b g o name = None <-> o_time o = Some true /\ o_prefactor o = None)
  /\ energy_src n b g o gamma name <> None /\ neutral_density_src n g o name <> None /\ neutral_pressure_src n g o name <> None.
Proof. exact throws_iff. Qed.
Print Assumptions C98_throws.
(** The same grid file heats a species at the same rate whether its pressure or its energy is evolved. *)
Theorem C98_same_heating : forall n b g c gamma name x y z t sp se, pos n -> gamma <> 1 -> inside b x y z ->
  pressure_src n b g (mkSrc None None None c) name = Some sp -> energy_src n b g (mkSrc None None None c) gamma name = Some se ->
  final_src n sp t x y z = (gamma - 1) * final_src n se t x y z.
Proof. exact same_heating. Qed.
Print Assumptions C98_same_heating.
Example C98_same_case : pressure_src n1 b1 g0 (mkSrc None None None (Some true)) "e" <> None /\ energy_src n1 b1 g0 (mkSrc None None None (Some true)) (5 / 3) "e" <> None.
Proof. split; discriminate. Qed.
(** The manual lets any source depend on time: evolve_energy ignores the setting. *)
Theorem C98_energy_time_refuted : exists n b g o gamma name s f x y z t1 t2, pos n /\ gamma <> 1 /\ inside b x y z /\ o_time o = Some true /\ o_prefactor o = Some f
  /\ energy_src n b g o gamma name = Some s /\ final_src n s t1 x y z * f t2 <> final_src n s t2 x y z * f t1.
Proof. exact energy_time. Qed.
Print Assumptions C98_energy_time_refuted.
(** The same settings of a species evolved by neutral_mixed are ignored: the source does not follow the function and is not zero outside of the core. *)
Theorem C98_neutral_refuted : exists n b g o name s f x y z t1 t2, pos n /\ inside b x y z /\ o_time o = Some true /\ o_prefactor o = Some f /\ o_core o = Some true
  /\ periodic b x = false /\ neutral_density_src n g o name = Some s /\ final_src n s t1 x y z <> 0 /\ final_src n s t1 x y z * f t2 <> final_src n s t2 x y z * f t1.
Proof. exact neutral_ignores. Qed.
Print Assumptions C98_neutral_refuted.
(** The manual names the field of the grid file S<name>_src: such a field has no effect. *)
Theorem C98_mesh_name_refuted : exists n b g o name s f x y z, pos n /\ inside b x y z /\ o_source o = None /\ g ("S" ++ name ++ "_src")%string = Some f /\ f x y z <> 0
  /\ density_src n b g o name = Some s /\ forall t, final_src n s t x y z = 0.
Proof. exact mesh_name. Qed.
Print Assumptions C98_mesh_name_refuted.

(** Evolving the logarithm starts from the same positive profile, from the input file or from a restart file. *)
Theorem C98_log_start : forall p r x y z, 0 < p x y z ->
  first_value true (initial true false (Some p) r x y z) = Some (p x y z) /\ first_value false (initial false false (Some p) r x y z) = Some (p x y z).
Proof. exact log_round. Qed.
Print Assumptions C98_log_start.
Theorem C98_log_defined : forall p r x y z, initial true false (Some p) r x y z = None <-> p x y z <= 0.
Proof. exact log_defined. Qed.
Print Assumptions C98_log_defined.
Theorem C98_log_restart : forall r x y z p p', 0 < r x y z ->
  first_value true (initial true true p (fun a b c => ln (r a b c)) x y z) = first_value false (initial false true p' r x y z).
Proof. exact restart_same. Qed.
Print Assumptions C98_log_restart.
Example C98_log_case : 0 < (fun _ _ _ : Z => 2) 0%Z 0%Z 0%Z. Proof. cbv beta. lra. Qed.
(** Without a profile the logarithm starts at minus infinity, while the variable itself would start at zero. *)
Theorem C98_log_default_refuted : exists r x y z, initial true false None r x y z = None /\ initial false false None r x y z = Some 0.
Proof. exact (ex_intro _ zero_fld (ex_intro _ 0%Z (ex_intro _ 0%Z (ex_intro _ 0%Z (log_default zero_fld 0%Z 0%Z 0%Z))))). Qed.
Print Assumptions C98_log_default_refuted.

(** The pressure floor is that of the floor density at 1 eV; the temperature floor is 0.1 eV unless set. *)
Theorem C98_floors : forall n df o, pos n -> normalised (qe n * Nnorm n * Tnorm n) (qe n * 1 * (df * Nnorm n)) (pressure_floor n df)
  /\ normalised (Tnorm n) (match o with Some t => t | None => 1 / 10 end) (temperature_floor n o).
Proof. exact floors. Qed.
Print Assumptions C98_floors.
Example C98_floors_case : pos n1. Proof. exact n1_pos. Qed.
