(** C30 to C35: the feedback controllers. *)

From Coq Require Import List Bool ZArith Reals Lra Lia String.
From Coquelicot Require Import Coquelicot.
From Verif Require Import StateMonad StateMonadProofs ParallelModel ParallelSpec ParallelHeating ControlModel ControlSpec ControlProofs ControlLaws.
Import ListNotations.
Open Scope R_scope.

(** ** C30: limits of the control signal *)

(** Full statement: for every history, the control signal is within its limits.  Proved after the first update ... *)
Theorem C30_limits_after_update_partial : forall s l st, limits_ok s -> ignore_restart s = false ->
  events s (dinit s) l = Some st -> updated s (dinit s) l = true -> within_limits s (control st).
Proof. intros s l st L I. exact (events_limited s l L I (dinit s) st). Qed.
Print Assumptions C30_limits_after_update_partial.

(** ... and always, if the initial value is. *)
Theorem C30_limits_always_partial : forall s l st, limits_ok s -> within_limits s (initial_control s) ->
  events s (dinit s) l = Some st -> within_limits s (control st).
Proof. intros s l st L W. exact (events_always s l L W st). Qed.
Print Assumptions C30_limits_always_partial.

(** The initial value of the option is applied without a check (until the settling time is over and the error has changed). *)
Theorem C30_initial_value_refuted : exists s, limits_ok s /\ ~ within_limits s (control (dinit s)) /\
  (forall t x, t <= settling_time s -> evaluate s (dinit s) (t, x) = Some (dinit s)).
Proof.
  exists (mkDsettings 0 true 0 0 (Some 0) (Some 1) 1 1 None 0 10 0 100 false true 2). split; [|split].
  - cbn. lra.
  - intros [_ H]. specialize (H 1 eq_refl). cbn in H. lra.
  - intros t x H. unfold evaluate, respond, reevaluate. cbn [settling_time fst snd] in *. rewrite Rltb_false by lra. reflexivity.
Qed.
Print Assumptions C30_initial_value_refuted.

(** New limits in the settings of a restart are not applied to the control signal restored. *)
Theorem C30_changed_limits_refuted : exists s1 s2 st, limits_ok s1 /\ limits_ok s2 /\ within_limits s1 (control st) /\
  ignore_restart s2 = false /\ ~ within_limits s2 (control (fst (restartVars s2 (dinit s2) (snd (restartVars s1 st no_dfile))))).
Proof.
  exists (mkDsettings 0 true 0 0 (Some 0) (Some 3) 1 1 None 0 10 0 0 false true 2), (mkDsettings 0 true 0 0 (Some 0) (Some 1) 1 1 None 0 10 0 0 false true 1).
  exists (dinit (mkDsettings 0 true 0 0 (Some 0) (Some 3) 1 1 None 0 10 0 0 false true 2)).
  split; [cbn; lra|]. split; [cbn; lra|]. split; [split; intros ? [= <-]; cbn; lra|]. split; [reflexivity|].
  intros [_ H]. specialize (H 1 eq_refl). cbn in H. lra.
Qed.
Print Assumptions C30_changed_limits_refuted.

(** A controller that updates, with a gain large enough to reach the limits. *)
Example C30_case : let s := mkDsettings 0 true 0 0 (Some 0) (Some 3) 1 1000 None 0 10 0 (-1) false true 2 in
  limits_ok s /\ within_limits s (initial_control s) /\ updated s (dinit s) [Evaluate 1 5; StopAndRestart; Evaluate 2 6] = true /\
  exists st, events s (dinit s) [Evaluate 1 5; StopAndRestart; Evaluate 2 6] = Some st.
Proof.
  cbv zeta. set (s := mkDsettings 0 true 0 0 (Some 0) (Some 3) 1 1000 None 0 10 0 (-1) false true 2).
  split; [cbn; lra|]. split; [split; intros ? [= <-]; cbn; lra|]. split.
  - cbn [updated updates]. apply orb_true_iff. left. unfold reevaluate. cbn [s settling_time min_time min_error dinit previous_time previous_error setpoint].
    pose proof (Rabs_pos (0 - 5 - 0)). rewrite Rltb_true, !Rleb_true by lra. reflexivity.
  - assert (Hs : size_ok s) by (split; cbn; lia). assert (Hi : integral_time s <> Some 0) by discriminate.
    destruct (events_buffers s [Evaluate 1 5; StopAndRestart; Evaluate 2 6] Hs Hi) as (st & E & _). now exists st.
Qed.

(** ** C31: buffers *)

(** For every size between 1 and the largest int, no access out of range, and the buffers hold the most recent samples. *)
Theorem C31_buffers : forall s l, (1 <= buffer_size s < 2 ^ 31)%Z -> integral_time s <> Some 0 ->
  exists st, events s (dinit s) l = Some st /\
    (let recent := lastn (Z.to_nat (buffer_size s)) (samples s (dinit s) [] l) in
     time_buffer st = map fst recent /\ error_buffer st = map snd recent) /\
    List.length (time_buffer st) = List.length (error_buffer st) /\ (Z.of_nat (List.length (time_buffer st)) <= buffer_size s)%Z.
Proof. intros s l. exact (events_buffers s l). Qed.
Print Assumptions C31_buffers.

(** A size of zero: the first update erases an element of an empty vector. *)
Theorem C31_size_zero_refuted : exists s t x, buffer_size s = 0%Z /\ integral_time s <> Some 0 /\ evaluate s (dinit s) (t, x) = None.
Proof. exists (eager 0 None 0 true), 1, 0. split; [reflexivity|]. split; [discriminate|exact empty_buffer_erased]. Qed.
Print Assumptions C31_size_zero_refuted.

(** A negative size is a very large one. *)
Theorem C31_negative_size_refuted : exists s, (buffer_size s < 0)%Z /\
  forall n, (Z.of_nat n < 2 ^ 64 - 1)%Z -> exists l st, events s (dinit s) l = Some st /\ List.length (time_buffer st) = n.
Proof.
  exists (eager (-1) None 0 true). split; [cbn; lia|]. intros n H. destruct (negative_size_grows n H) as (st & E & L). now exists (repeat (Evaluate 0 0) n), st.
Qed.
Print Assumptions C31_negative_size_refuted.

(** Three samples in a buffer of two. *)
Example C31_case : (1 <= buffer_size (eager 2 None 0 true) < 2 ^ 31)%Z /\
  lastn 2 [(1, 1); (2, 2); (3, 3)] = [(2, 2); (3, 3)].
Proof. split; [cbn; lia|reflexivity]. Qed.

(** ** C32: the derivative *)

Theorem C32_least_squares : forall h, h <> [] -> exists b, calculateGradient (map fst h) (map snd h) = Some b /\
  exists a, forall a' b', squared_error a b h <= squared_error a' b' h.
Proof. exact least_squares. Qed.
Print Assumptions C32_least_squares.
Theorem C32_exact_on_a_line : forall h a b, h <> [] -> ~ same_times h -> (forall p, In p h -> snd p = a + b * fst p) ->
  calculateGradient (map fst h) (map snd h) = Some b.
Proof. exact exact_on_line. Qed.
Print Assumptions C32_exact_on_a_line.
Theorem C32_zero_when_times_coincide : forall h, h <> [] -> same_times h -> calculateGradient (map fst h) (map snd h) = Some 0.
Proof. exact zero_when_times_coincide. Qed.
Print Assumptions C32_zero_when_times_coincide.
Example C32_case : calculateGradient [1; 2; 3] [1; 2; 3] = Some 1 /\ calculateGradient [4] [7] = Some 0.
Proof. exact (conj three_samples (single_sample 4 7)). Qed.

(** ** C33: the front *)

Theorem C33_on_the_field_line : forall m L dy neutral electron, 0 <= L -> (forall j, 0 < dy j) ->
  exists x, detachment_front_location m L dy neutral electron = Fin x /\ 0 <= x <= L.
Proof. exact front_on_line. Qed.
Print Assumptions C33_on_the_field_line.

(** A crossing between two cells: the front, measured from the target, is where the interpolated densities are equal. *)
Theorem C33_between_the_cells : forall m L dy a b n,
  (forall j, 0 < dy j) -> dy (ystart m - 1)%Z = dy (ystart m) -> (ystart m + Z.of_nat n + 1 <= yend m)%Z ->
  (forall j, (ystart m <= j <= ystart m + Z.of_nat n)%Z -> a j <= b j) ->
  b (ystart m + Z.of_nat n + 1)%Z < a (ystart m + Z.of_nat n + 1)%Z -> centre dy (ystart m) (S n) <= L ->
  exists t, 0 <= t < 1 /\
    detachment_front_location m L dy a b = Fin (L - between_values (centre dy (ystart m) n) (centre dy (ystart m) (S n)) t) /\
    between_values (a (ystart m + Z.of_nat n)%Z) (a (ystart m + Z.of_nat n + 1)%Z) t
    = between_values (b (ystart m + Z.of_nat n)%Z) (b (ystart m + Z.of_nat n + 1)%Z) t.
Proof. exact front_between. Qed.
Print Assumptions C33_between_the_cells.

(** Without a crossing the comment (src/detachment_controller.cxx 42-43) says the front is at the target; it is half a cell away. *)
Theorem C33_no_crossing_refuted : exists m L dy a b, (forall j, 0 < dy j) /\ zsum (ystart m) (Z.to_nat (yend m - ystart m + 1)) dy = L /\
  (forall j, a j < b j) /\ detachment_front_location m L dy a b = Fin (/ 2).
Proof.
  exists (mkMesh 1 3 5 true true false), 3, (fun _ => 1), (fun _ => 1), (fun _ => 2). split; [intros; lra|]. split; [change (zsum 1 3 (fun _ => 1) = 3); cbn [zsum]; lra|].
  split; [intros; lra|]. rewrite (front_absent _ 3 (fun _ => 1) _ _ 2%nat); try reflexivity; try (intros; lra).
  - f_equal. unfold centre. cbn [zsum]. lra.
  - unfold centre. cbn [zsum]. lra.
Qed.
Print Assumptions C33_no_crossing_refuted.

(** A plasma with more neutrals than electrons everywhere, by the same amount in the guard cell: front at the target, not upstream. *)
Theorem C33_fully_detached_refuted : exists m L dy a b, 0 < L /\ (forall j, 0 < dy j) /\ (ystart m <= yend m)%Z /\ (forall j, b j < a j) /\
  detachment_front_location m L dy a b = Fin 0.
Proof.
  exists (mkMesh 1 3 5 true true false), 3, (fun _ => 1), (fun _ => 2), (fun _ => 1). split; [lra|]. split; [intros; lra|]. split; [cbn; lia|]. split; [intros; lra|].
  unfold detachment_front_location, distance_from_upstream.
  change (irange (ystart (mkMesh 1 3 5 true true false)) (yend (mkMesh 1 3 5 true true false))) with [1%Z; 2%Z; 3%Z]. cbn [front_loop].
  destruct (Rlt_dec 1 2) as [_|n]; [|exfalso; lra]. unfold intersection, ext_div. destruct (Req_EM_T _ 0) as [_|n]; [|exfalso; lra].
  destruct (Rlt_dec 0 _) as [_|n]; [|exfalso; lra]. cbn [ext_max0 ext_min]. f_equal. lra.
Qed.
Print Assumptions C33_fully_detached_refuted.

Example C33_case : exists t, 0 <= t < 1 /\
  detachment_front_location (mkMesh 1 3 5 true true false) 3 (fun _ => 1) (values [0; 0; 0; 4; 4]) (fun _ => 2)
  = Fin (3 - between_values (centre (fun _ => 1) 1%Z 1) (centre (fun _ => 1) 1%Z 2) t).
Proof.
  destruct (front_between (mkMesh 1 3 5 true true false) 3 (fun _ => 1) (values [0; 0; 0; 4; 4]) (fun _ => 2) 1%nat) as (t & H1 & H2 & _).
  - intros; lra.
  - reflexivity.
  - cbn; lia.
  - cbn [ystart]. intros j Hj. assert (C : (j = 1 \/ j = 2)%Z) by lia. destruct C as [->| ->]; vals; lra.
  - cbn [ystart]. vals. lra.
  - unfold centre. cbn [zsum]. lra.
  - exists t. split; [exact H1|exact H2].
Qed.

(** ** C34: PI controllers *)

(** The integral, from the value I0 at the start or restart. *)
Theorem C34_trapezium : forall s I0 h, integral_positive s = false -> times_increase h -> (forall t e r, h = (t, e) :: r -> 0 <= t) ->
  p_integral (pi_run s (mkPstate I0 (-1) 0 None) h) = I0 + trapezium h.
Proof. exact pi_trapezium. Qed.
Print Assumptions C34_trapezium.

Theorem C34_repeated_evaluation : forall s st t e1 e2, 0 <= t ->
  p_integral (pi_step s (pi_step s st t e1) t e2) = p_integral (pi_step s st t e1).
Proof. exact pi_repeat. Qed.
Print Assumptions C34_repeated_evaluation.

Theorem C34_positive : forall s st t e,
  (integral_positive s = true -> 0 <= p_integral (pi_step s st t e)) /\
  (source_positive s = true -> exists x, p_multiplier (pi_step s st t e) = Some x /\ 0 <= x).
Proof. exact pi_positive. Qed.
Print Assumptions C34_positive.

(** Back and forth in time: an error of 1 from time 0 to 1, with one step back, integrates to 3/2. *)
Theorem C34_back_and_forth_refuted : exists s h, integral_positive s = false /\ (forall p, In p h -> 0 <= fst p <= 1 /\ snd p = 1) /\
  p_integral (pi_run s pinit h) = 3 / 2.
Proof.
  exists (mkPsettings 1 1 false false), [(0, 1); (1, 1); (/ 2, 1); (1, 1)]. split; [reflexivity|]. split; [|exact step_back_counts_twice].
  intros p [<-|[<-|[<-|[<-|[]]]]]; cbn [fst snd]; lra.
Qed.
Print Assumptions C34_back_and_forth_refuted.

(** Every processor uses the multiplier calculated on the root, if that holds the lower end of the field line. *)
Theorem C34_same_on_all_processors : forall s root time procs lower error st,
  nth_error procs root = Some (lower, error, st) -> lower = true ->
  exists x, p_multiplier (pi_step s st time error) = Some x /\ List.Forall (fun st' => p_multiplier st' = Some x) (pi_all s root time procs) /\
    List.length (pi_all s root time procs) = List.length procs.
Proof. exact broadcast_agrees. Qed.
Print Assumptions C34_same_on_all_processors.

(** With control_target_temperature the root is the last processor, but the calculation is still on the first: with two processors the
    source multiplier used by all is never set. *)
Theorem C34_target_temperature_refuted : exists s time e1 e2,
  List.Forall (fun st => p_multiplier st = None) (pi_all s (temperature_root true 2) time [(true, e1, pinit); (false, e2, pinit)]).
Proof. exists (mkPsettings 1 1 true true), 1, 1, 1. exact (target_temperature_unset _ _ _ _). Qed.
Print Assumptions C34_target_temperature_refuted.

(** The particles added by the density controller are at rest; total energy is not changed by them. *)
Theorem C34_density_source_energy : forall multiplier shape Mi n V e, 0 < n -> 0 < Mi ->
  let (Sn, Se) := feedback_sources multiplier shape (Some (V, Mi)) in
  is_derive (fun t => total_energy Mi (n + t * Sn) (Mi * n * V) (e + t * Se)) 0 0.
Proof. exact feedback_energy. Qed.
Print Assumptions C34_density_source_energy.

Example C34_case : let h := [(0, 1); (1, 1); (1, 1); (3, 2)] in times_increase h /\ (forall t e r, h = (t, e) :: r -> 0 <= t) /\ trapezium h = 4.
Proof. cbv zeta. split; [cbn; lra|]. split; [intros t e r [= <- <- <-]; lra|]. cbn [trapezium]. lra. Qed.
Example C34_processors_case : nth_error [(true, 1, pinit); (false, 0, pinit)] (density_root 2) = Some (true, 1, pinit).
Proof. reflexivity. Qed.

(** ** C35: restart *)

(** Without a derivative term: any start, any history before the stop and after it. *)
Theorem C35_detachment_partial : forall s file0 file l1 st l2 st1,
  derivative_time s = 0 -> ignore_restart s = false -> (1 <= buffer_size s < 2 ^ 31)%Z ->
  evaluations s (fst (restartVars s (dinit s) file0)) l1 = Some st ->
  evaluations s (fst (restartVars s st file)) l2 = Some st1 ->
  exists st2, evaluations s (fst (restartVars s (dinit s) (snd (restartVars s st file)))) l2 = Some st2 /\ control st2 = control st1.
Proof. exact restart_continues. Qed.
Print Assumptions C35_detachment_partial.

(** With one, the buffers are needed, and are not saved. *)
Theorem C35_derivative_refuted : exists s l1 st l2 st1 st2,
  ignore_restart s = false /\ (1 <= buffer_size s < 2 ^ 31)%Z /\
  evaluations s (fst (restartVars s (dinit s) no_dfile)) l1 = Some st /\
  evaluations s (fst (restartVars s st no_dfile)) l2 = Some st1 /\
  evaluations s (fst (restartVars s (dinit s) (snd (restartVars s st no_dfile)))) l2 = Some st2 /\ control st2 <> control st1.
Proof. exact restart_loses_derivative. Qed.
Print Assumptions C35_derivative_refuted.

(** The call of restartVars on a run that is not a restart: the first update is no longer treated as the first. *)
Theorem C35_fresh_run_refuted : exists s t x st1 st2,
  evaluate s (dinit s) (t, x) = Some st1 /\ evaluate s (fst (restartVars s (dinit s) no_dfile)) (t, x) = Some st2 /\
  control st1 = initial_control s /\ control st2 <> initial_control s.
Proof. exact fresh_run_kick. Qed.
Print Assumptions C35_fresh_run_refuted.

(** One PI controller: the integral is restored ... *)
Theorem C35_one_pi_controller_partial : forall name I st,
  let '(_, l, _) := restart_all true [(name, I)] [(name, st)] in map (fun x => p_integral (snd x)) l = [I].
Proof. intros name I st. rewrite one_instance. reflexivity. Qed.
Print Assumptions C35_one_pi_controller_partial.

(** ... and of two controllers only that of the first. *)
Theorem C35_two_pi_controllers_refuted : exists n1 n2 I1 I2, n1 <> n2 /\ I2 <> 0 /\
  let '(_, l, _) := restart_all true [(n1, I1); (n2, I2)] [(n1, pinit); (n2, pinit)] in
  map (fun x => p_integral (snd x)) l = [I1; 0].
Proof.
  exists "d+"%string, "t+"%string, 1, 1. split; [intros H; discriminate H|]. split; [lra|]. exact (second_instance_lost "d+"%string "t+"%string 1 1 eq_refl).
Qed.
Print Assumptions C35_two_pi_controllers_refuted.

(** The hypotheses of the continuation: a controller without derivative term, before and after a stop. *)
Example C35_case : let s := eager 10 None 0 true in derivative_time s = 0 /\ ignore_restart s = false /\ (1 <= buffer_size s < 2 ^ 31)%Z /\
  exists st st1, evaluations s (fst (restartVars s (dinit s) no_dfile)) [(1, 1)] = Some st /\ evaluations s (fst (restartVars s st no_dfile)) [(2, 3)] = Some st1.
Proof.
  cbv zeta. set (s := eager 10 None 0 true). assert (Hs : size_ok s) by (split; cbn; lia). assert (HI : integral_time s <> Some 0) by discriminate.
  split; [reflexivity|]. split; [reflexivity|]. split; [exact Hs|].
  destruct (respond_in_step s (fst (restartVars s (dinit s) no_dfile)) [] 1 (setpoint s - 1) Hs (conj eq_refl eq_refl) HI) as (st & E & S).
  destruct (evaluations_flags s [(1, 1)] (fst (restartVars s (dinit s) no_dfile)) st) as [F1 F2]; [cbn [evaluations]; unfold evaluate; cbn [fst snd]; rewrite E; reflexivity|reflexivity|reflexivity|].
  destruct (respond_in_step s st _ 2 (setpoint s - 3) Hs S HI) as (st1 & E1 & _).
  exists st, st1. split; [cbn [evaluations]; unfold evaluate; cbn [fst snd]; rewrite E; reflexivity|].
  assert (E' : fst (restartVars s st no_dfile) = st) by (unfold restartVars; rewrite F1; reflexivity). rewrite E'.
  cbn [evaluations]; unfold evaluate; cbn [fst snd]; rewrite E1; reflexivity.
Qed.
