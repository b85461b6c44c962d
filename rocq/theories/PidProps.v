(** C89: the detachment controller is a PID controller with a dead band; the upstream controllers answer a deficit with more source. *)

From Coq Require Import List Reals Lra ZArith.
From Verif Require Import ParallelModel ControlModel ControlSpec ControlLaws PidSpec PidProofs.
Import ListNotations.
Open Scope R_scope.

(** Over every history of a fresh run: the integral is the trapezium rule over the samples used, taken from the first change of sign if
    the reset is wanted; the crossings are the changes of sign among them; what is remembered is the last of them. *)
Theorem C89_integral_and_crossings s h st : evaluations s (dinit s) h = Some st ->
  let l := accepted s 0 0 h in
  error_integral st = integral_of (reset_on_crossing s) l /\
  number_of_crossings st = sign_changes 0 l /\
  previous_time st = last_time 0 l /\ previous_error st = last_error 0 l.
Proof. exact (from_start s h st). Qed.
Print Assumptions C89_integral_and_crossings.

(** errors 1, 3, -1 at the times 1, 2, 3: one crossing, at which the integral starts again; without the reset it would be 3 *)
Example C89_integral_case : exists st, evaluations watch (dinit watch) [(1, -1); (2, -3); (3, 1)] = Some st /\
  number_of_crossings st = 1 /\ error_integral st = 0 /\ integral_of false (accepted watch 0 0 [(1, -1); (2, -3); (3, 1)]) = 3.
Proof. exact crossing_case. Qed.

(** Position form: offset + K (e + I / Ti + Td de/dt), kept within the limits; I is the trapezium rule. *)
Theorem C89_position_form s st t e st' Ti : respond s st t e = Some st' -> reevaluate s st t e = true -> velocity_form s = false ->
  integral_time s = Some Ti ->
  exists I, (I = error_integral st' \/ (error_integral st' = 0 /\ previous_error st * e < 0)) /\
  (first_step st = true -> I = 0) /\ (first_step st = false -> I = error_integral st + (t - previous_time st) / 2 * (previous_error st + e)) /\
  control st' = limited (minval s) (maxval s)
    (control_offset s + response_sign s * gain s * (e + I / Ti + derivative_time s * previous_derivative st')).
Proof. exact (position_form s st t e st' Ti). Qed.
Print Assumptions C89_position_form.

(** Velocity form: the previous control plus K (change of e + dt/Ti e + Td change of de/dt), kept within the limits. *)
Theorem C89_velocity_form s st t e st' Ti : respond s st t e = Some st' -> reevaluate s st t e = true -> velocity_form s = true ->
  integral_time s = Some Ti ->
  control st' = limited (minval s) (maxval s)
    (previous_control st + response_sign s * gain s *
       ((if first_step st then 0 else e - previous_error st) + (t - previous_time st) / Ti * e
        + derivative_time s * (if first_step st then 0 else previous_derivative st' - previous_derivative st))) /\
  previous_control st' = control st'.
Proof. exact (velocity_form_law s st t e st' Ti). Qed.
Print Assumptions C89_velocity_form.

(** Started from the same state the two forms differ by the difference between rectangle and trapezium rule, and by nothing else. *)
Theorem C89_forms_differ s1 st t e st1 st2 Ti : respond s1 st t e = Some st1 -> respond (in_position_form s1) st t e = Some st2 ->
  reevaluate s1 st t e = true -> velocity_form s1 = true ->
  integral_time s1 = Some Ti -> minval s1 = None -> maxval s1 = None -> first_step st = false ->
  previous_control st = control_offset s1 + response_sign s1 * gain s1 * (previous_error st + error_integral st / Ti + derivative_time s1 * previous_derivative st) ->
  control st1 = control st2 + response_sign s1 * gain s1 * ((t - previous_time st) / (2 * Ti)) * (e - previous_error st).
Proof. exact (forms_differ s1 st t e st1 st2 Ti). Qed.
Print Assumptions C89_forms_differ.

(** both forms with an integral time of 2, after a sample 1 at time 1 *)
Example C89_forms_case :
  let s := eager 10 (Some 2) 0 true in let st := mkDstate 1 1 0 1 1 0 0 true false [1] [1] in
  (exists st1, respond s st 2 3 = Some st1) /\ (exists st2, respond (in_position_form s) st 2 3 = Some st2) /\
  reevaluate s st 2 3 = true /\ velocity_form s = true /\ integral_time s = Some 2 /\ minval s = None /\ maxval s = None /\ first_step st = false /\
  previous_control st = control_offset s + response_sign s * gain s * (previous_error st + error_integral st / 2 + derivative_time s * previous_derivative st).
Proof. exact both_forms_case. Qed.

(** A front which passes through the set point by way of an error of exactly zero has crossed it, but no crossing is counted (the test
    asks for two successive errors of opposite sign), so that the integral is not reset either. *)
Theorem C89_crossing_through_zero_refuted : exists s h st, evaluations s (dinit s) h = Some st /\
  accepted s 0 0 h = [(1, 1); (2, 0); (3, -1)] /\ number_of_crossings st = 0.
Proof. exact (ex_intro _ watch (ex_intro _ [(1, -1); (2, 0); (3, 1)] zero_hides_crossing)). Qed.
Print Assumptions C89_crossing_through_zero_refuted.

(** The upstream controllers: a lower density, or temperature, in the controlled cell never gives less source, whatever the rest of the
    profile; on target at the start there is none. *)
Theorem C89_density_answer s st time m goal N1 N2 x1 x2 : 0 <= p_gain s -> 0 <= i_gain s -> (p_lasttime st < 0 \/ p_lasttime st <= time) ->
  N1 (ystart m) <= N2 (ystart m) ->
  p_multiplier (pi_step s st time (density_error m goal N1)) = Some x1 ->
  p_multiplier (pi_step s st time (density_error m goal N2)) = Some x2 -> x2 <= x1.
Proof. exact (density_answer s st time m goal N1 N2 x1 x2). Qed.
Print Assumptions C89_density_answer.

Theorem C89_temperature_answer s st time m (target : bool) goal T1 T2 x1 x2 : 0 <= p_gain s -> 0 <= i_gain s -> (p_lasttime st < 0 \/ p_lasttime st <= time) ->
  (let y := if target then yend m else ystart m in T1 y <= T2 y) ->
  p_multiplier (pi_step s st time (temperature_error m target goal T1)) = Some x1 ->
  p_multiplier (pi_step s st time (temperature_error m target goal T2)) = Some x2 -> x2 <= x1.
Proof. exact (temperature_answer s st time m target goal T1 T2 x1 x2). Qed.
Print Assumptions C89_temperature_answer.

Theorem C89_on_target s time m (target : bool) goal N T : N (ystart m) = goal -> T (if target then yend m else ystart m) = goal ->
  p_multiplier (pi_step s pinit time (density_error m goal N)) = Some 0 /\
  p_multiplier (pi_step s pinit time (temperature_error m target goal T)) = Some 0.
Proof. exact (on_target s time m target goal N T). Qed.
Print Assumptions C89_on_target.

(** a deficit of 1 against one of 2 in the controlled cell *)
Example C89_answer_case (m : mesh) : let s := mkPsettings 1 1 true true in
  (fun _ : Z => 1) (ystart m) <= (fun _ : Z => 2) (ystart m) /\
  p_multiplier (pi_step s pinit 1 (density_error m 3 (fun _ => 1))) = Some 2 /\
  p_multiplier (pi_step s pinit 1 (density_error m 3 (fun _ => 2))) = Some 1.
Proof. exact (answer_case m). Qed.
