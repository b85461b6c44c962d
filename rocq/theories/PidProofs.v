(** The detachment controller is a PID controller. *)

From Coq Require Import List Bool ZArith Reals Lra Lia.
From Verif Require Import StateMonad StateMonadProofs ParallelModel ControlModel ControlSpec ControlProofs ControlLaws PidSpec.
Import ListNotations.
Open Scope R_scope.

Lemma limit_limited s c : limit_control s c = limited (minval s) (maxval s) c.
Proof.
  unfold limit_control, limited, Rmax, Rmin. destruct (minval s) as [a|], (maxval s) as [b|];
    repeat (destruct (Rlt_dec _ _) || destruct (Rle_dec _ _)); lra.
Qed.

Lemma crossed_iff ep e : ((Rltb e 0 && Rltb 0 ep) || (Rltb 0 e && Rltb ep 0))%bool = if Rlt_dec (ep * e) 0 then true else false.
Proof.
  unfold Rltb. destruct (Rlt_dec e 0), (Rlt_dec 0 ep), (Rlt_dec 0 e), (Rlt_dec ep 0), (Rlt_dec (ep * e) 0); cbn [andb orb]; try reflexivity; exfalso; try lra; try nra.
Qed.

(** One sample. *)
Lemma one_sample s st t e st' : respond s st t e = Some st' ->
  if reevaluate s st t e then
    previous_time st' = t /\ previous_error st' = e /\ first_step st' = false /\
    number_of_crossings st' = number_of_crossings st + (if Rlt_dec (previous_error st * e) 0 then 1 else 0) /\
    let I := if first_step st then 0 else error_integral st + (t - previous_time st) / 2 * (previous_error st + e) in
    error_integral st' = (if Rlt_dec (previous_error st * e) 0 then
                            if Rltb (number_of_crossings st) 1 then if reset_on_crossing s then 0 else I else I
                          else I)
  else st' = st.
Proof.
  unfold respond. destruct (reevaluate s st t e); [|intros [= <-]; reflexivity].
  destruct (push _ _ (time_buffer st) t) as [tb|]; [|discriminate]. destruct (push _ _ (error_buffer st) e) as [eb|]; [|discriminate].
  destruct (calculateGradient tb eb) as [d|]; [|discriminate].
  destruct (new_control _ _ _ _ _ _) as [c|]; [|discriminate]. intros [= <-].
  cbn [previous_time previous_error first_step number_of_crossings error_integral].
  split; [reflexivity|]. split; [reflexivity|]. split; [reflexivity|]. rewrite crossed_iff.
  split; [destruct (Rlt_dec _ _); lra|]. cbv zeta.
  replace ((t - previous_time st) * 0.5 * (e + previous_error st)) with ((t - previous_time st) / 2 * (previous_error st + e)) by lra.
  destruct (Rlt_dec _ _), (Rltb (number_of_crossings st) 1), (reset_on_crossing s); reflexivity.
Qed.

Lemma reevaluate_accepts s st t x rest :
  accepted s (previous_time st) (previous_error st) ((t, x) :: rest)
  = if reevaluate s st t (setpoint s - x) then (t, setpoint s - x) :: accepted s t (setpoint s - x) rest
    else accepted s (previous_time st) (previous_error st) rest.
Proof.
  cbn [accepted]. cbv zeta. unfold reevaluate.
  destruct (Rlt_dec (settling_time s) t); [rewrite Rltb_true by assumption|rewrite Rltb_false by lra; reflexivity].
  destruct (Rle_dec (previous_time st + min_time s) t); [rewrite Rleb_true by lra|rewrite Rleb_false by lra; reflexivity]. cbn [andb].
  destruct (Rle_dec (min_error s) (Rabs (setpoint s - x - previous_error st))); [rewrite Rleb_true by assumption|rewrite Rleb_false by lra]; reflexivity.
Qed.

Lemma sign_changes_nonneg ep l : 0 <= sign_changes ep l.
Proof. revert ep. induction l as [|[t e] l IH]; intros ep; cbn [sign_changes]; [lra|]. specialize (IH e). destruct (Rlt_dec _ _); lra. Qed.

(** After the first sample. *)
Lemma running s h : forall st st', evaluations s st h = Some st' -> first_step st = false -> 0 <= number_of_crossings st ->
  let l := accepted s (previous_time st) (previous_error st) h in
  first_step st' = false /\
  previous_time st' = last_time (previous_time st) l /\ previous_error st' = last_error (previous_error st) l /\
  number_of_crossings st' = number_of_crossings st + sign_changes (previous_error st) l /\
  error_integral st' = match (if (reset_on_crossing s && Rltb (number_of_crossings st) 1)%bool then from_first_change (previous_error st) l else None) with
                       | Some l' => trapezium l'
                       | None => error_integral st + trapezium ((previous_time st, previous_error st) :: l)
                       end.
Proof.
  induction h as [|[t x] h IH]; intros st st' H F N; cbv zeta.
  - cbn [evaluations] in H. injection H as <-. cbn [accepted from_first_change trapezium sign_changes]. unfold last_time, last_error. cbn [last fst snd].
    split; [assumption|]. split; [reflexivity|]. split; [reflexivity|]. split; [lra|]. destruct (reset_on_crossing s && _)%bool; lra.
  - cbn [evaluations] in H. unfold evaluate in H. cbn [fst snd] in H.
    destruct (respond s st t (setpoint s - x)) as [st1|] eqn:E; [|discriminate].
    apply one_sample in E. rewrite reevaluate_accepts. destruct (reevaluate s st t (setpoint s - x)).
    + set (e := setpoint s - x) in *. clearbody e. destruct E as (E1 & E2 & E3 & E4 & E5). cbv zeta in E5. rewrite F in E5.
      assert (N1 : 0 <= number_of_crossings st1) by (rewrite E4; destruct (Rlt_dec _ _); lra).
      specialize (IH st1 st' H E3 N1). cbv zeta in IH. rewrite E1, E2 in IH. destruct IH as (I1 & I2 & I3 & I4 & I5).
      split; [assumption|]. set (l := accepted s t e h) in *. clearbody l.
      split; [rewrite I2; unfold last_time; destruct l as [|p l]; [reflexivity|]; cbn [last]; destruct l; [reflexivity|]; f_equal; clear; revert p0; induction l as [|q l IHl]; intros; [reflexivity|]; cbn [last]; apply IHl|].
      split; [rewrite I3; unfold last_error; destruct l as [|p l]; [reflexivity|]; cbn [last]; destruct l; [reflexivity|]; f_equal; clear; revert p0; induction l as [|q l IHl]; intros; [reflexivity|]; cbn [last]; apply IHl|].
      split; [rewrite I4, E4; cbn [sign_changes]; lra|].
      rewrite I5, E5. cbn [from_first_change]. change (trapezium ((previous_time st, previous_error st) :: (t, e) :: l))
        with ((t - previous_time st) / 2 * (previous_error st + e) + trapezium ((t, e) :: l)).
      rewrite E4. destruct (reset_on_crossing s); cbn [andb]; cbv iota.
      2:{ destruct (Rlt_dec _ _); destruct (Rltb _ _); try destruct (Rltb _ _); lra. }
      destruct (Rlt_dec (previous_error st * e) 0) as [C|C].
      * rewrite (Rltb_false (number_of_crossings st + 1)) by lra. cbv iota. destruct (Rltb (number_of_crossings st) 1); lra.
      * rewrite Rplus_0_r. destruct (Rltb (number_of_crossings st) 1); cbv iota; [|lra]. destruct (from_first_change e l); lra.
    + subst st1. exact (IH st st' H F N).
Qed.

(** From the start. *)
Lemma from_start s h st : evaluations s (dinit s) h = Some st ->
  let l := accepted s 0 0 h in
  error_integral st = integral_of (reset_on_crossing s) l /\
  number_of_crossings st = sign_changes 0 l /\
  previous_time st = last_time 0 l /\ previous_error st = last_error 0 l.
Proof.
  enough (G : forall h st0 st, first_step st0 = true -> previous_time st0 = 0 -> previous_error st0 = 0 -> error_integral st0 = 0 ->
              number_of_crossings st0 = 0 -> evaluations s st0 h = Some st ->
              let l := accepted s 0 0 h in
              error_integral st = integral_of (reset_on_crossing s) l /\ number_of_crossings st = sign_changes 0 l /\
              previous_time st = last_time 0 l /\ previous_error st = last_error 0 l).
  { intros H. apply (G h (dinit s) st); auto; reflexivity. }
  clear h st. induction h as [|[t x] h IH]; intros st0 st F T E I N H; cbv zeta.
  - injection H as <-. cbn [accepted integral_of sign_changes]. unfold last_time, last_error. cbn [last fst snd]. auto.
  - cbn [evaluations] in H. unfold evaluate in H. cbn [fst snd] in H.
    destruct (respond s st0 t (setpoint s - x)) as [st1|] eqn:R; [|discriminate].
    apply one_sample in R. pose proof (reevaluate_accepts s st0 t x h) as A. rewrite T, E in A. rewrite A. clear A.
    destruct (reevaluate s st0 t (setpoint s - x)).
    + set (e := setpoint s - x) in *. clearbody e. destruct R as (E1 & E2 & E3 & E4 & E5). cbv zeta in E5. rewrite F, E in E5. rewrite E, N in E4.
      destruct (Rlt_dec (0 * e) 0) as [C|C]; [exfalso; lra|].
      assert (N1 : 0 <= number_of_crossings st1) by (rewrite E4; lra).
      destruct (running s h st1 st H E3 N1) as (_ & I2 & I3 & I4 & I5). rewrite E1, E2, E4, E5 in *.
      set (l := accepted s t e h) in *. clearbody l. rewrite I5, I4, I2, I3. cbn [integral_of sign_changes].
      destruct (Rlt_dec (0 * e) 0) as [C'|_]; [exfalso; lra|].
      rewrite (Rltb_true (0 + 0) 1) by lra. rewrite andb_true_r.
      split; [destruct (if reset_on_crossing s then _ else _); lra|]. split; [lra|].
      split.
      * unfold last_time; destruct l as [|p l]; [reflexivity|]; cbn [last]; destruct l; [reflexivity|]; f_equal; clear; revert p0; induction l as [|q l IHl]; intros; [reflexivity|]; cbn [last]; apply IHl.
      * unfold last_error; destruct l as [|p l]; [reflexivity|]; cbn [last]; destruct l; [reflexivity|]; f_equal; clear; revert p0; induction l as [|q l IHl]; intros; [reflexivity|]; cbn [last]; apply IHl.
    + subst st1. exact (IH st0 st F T E I N H).
Qed.

(** The control signal. *)
Lemma position_form s st t e st' Ti : respond s st t e = Some st' -> reevaluate s st t e = true -> velocity_form s = false ->
  integral_time s = Some Ti ->
  exists I, (I = error_integral st' \/ (error_integral st' = 0 /\ previous_error st * e < 0)) /\
  (first_step st = true -> I = 0) /\ (first_step st = false -> I = error_integral st + (t - previous_time st) / 2 * (previous_error st + e)) /\
  control st' = limited (minval s) (maxval s)
    (control_offset s + response_sign s * gain s * (e + I / Ti + derivative_time s * previous_derivative st')).
Proof.
  intros H RE V TI. unfold respond in H. rewrite RE in H.
  destruct (push _ _ (time_buffer st) t) as [tb|]; [|discriminate]. destruct (push _ _ (error_buffer st) e) as [eb|]; [|discriminate].
  destruct (calculateGradient tb eb) as [d|]; [|discriminate].
  destruct (new_control _ _ _ _ _ _) as [c|] eqn:C; [|discriminate]. injection H as <-.
  unfold new_control in C. rewrite V, TI in C. unfold over_time in C. destruct (Req_EM_T Ti 0) as [|Z]; [discriminate|]. injection C as <-.
  cbn [error_integral control previous_derivative]. rewrite limit_limited, crossed_iff.
  set (I := if first_step st then 0 else _). exists I. split.
  { destruct (Rlt_dec _ _) as [Hc|Hc]; cbn [andb]; [|left; reflexivity].
    destruct (Rltb _ _), (reset_on_crossing s); cbn [andb]; auto. }
  split; [intros F; unfold I; now rewrite F|]. split; [intros F; unfold I; rewrite F; lra|].
  f_equal. field. assumption.
Qed.
Lemma velocity_form_law s st t e st' Ti : respond s st t e = Some st' -> reevaluate s st t e = true -> velocity_form s = true ->
  integral_time s = Some Ti ->
  control st' = limited (minval s) (maxval s)
    (previous_control st + response_sign s * gain s *
       ((if first_step st then 0 else e - previous_error st) + (t - previous_time st) / Ti * e
        + derivative_time s * (if first_step st then 0 else previous_derivative st' - previous_derivative st))) /\
  previous_control st' = control st'.
Proof.
  intros H RE V TI. unfold respond in H. rewrite RE in H.
  destruct (push _ _ (time_buffer st) t) as [tb|]; [|discriminate]. destruct (push _ _ (error_buffer st) e) as [eb|]; [|discriminate].
  destruct (calculateGradient tb eb) as [d|]; [|discriminate].
  destruct (new_control _ _ _ _ _ _) as [c|] eqn:C; [|discriminate]. injection H as <-.
  unfold new_control in C. rewrite V, TI in C. unfold over_time in C. destruct (Req_EM_T Ti 0) as [|Z]; [discriminate|]. injection C as <-.
  cbn [control previous_derivative previous_control]. rewrite limit_limited. split; [|reflexivity].
  f_equal. destruct (first_step st); field; assumption.
Qed.

(** Both forms from the same state: rectangle against trapezium rule. *)
Definition in_position_form (s1 : dsettings) : dsettings :=
  mkDsettings (setpoint s1) false (min_time s1) (min_error s1) (minval s1) (maxval s1) (response_sign s1) (gain s1) (integral_time s1)
                    (derivative_time s1) (buffer_size s1) (control_offset s1) (settling_time s1) (ignore_restart s1) (reset_on_crossing s1) (initial_control s1).
Lemma forms_differ s1 st t e st1 st2 Ti : respond s1 st t e = Some st1 -> respond (in_position_form s1) st t e = Some st2 ->
  reevaluate s1 st t e = true -> velocity_form s1 = true ->
  integral_time s1 = Some Ti -> minval s1 = None -> maxval s1 = None -> first_step st = false ->
  previous_control st = control_offset s1 + response_sign s1 * gain s1 * (previous_error st + error_integral st / Ti + derivative_time s1 * previous_derivative st) ->
  control st1 = control st2 + response_sign s1 * gain s1 * ((t - previous_time st) / (2 * Ti)) * (e - previous_error st).
Proof.
  intros H1 H2 RE V1 TI LO HI F P.
  destruct (velocity_form_law _ _ _ _ _ Ti H1 RE V1 TI) as [C1 _]. rewrite F in C1.
  assert (RE2 : reevaluate (in_position_form s1) st t e = true) by exact RE.
  destruct (position_form _ _ _ _ _ Ti H2 RE2 eq_refl TI) as (I & _ & _ & HI2 & C2). specialize (HI2 F).
  unfold in_position_form in C2. cbn [minval maxval control_offset response_sign gain derivative_time] in C2. rewrite LO, HI in *. unfold limited in C1, C2.
  assert (D : previous_derivative st1 = previous_derivative st2).
  { unfold respond in H1, H2. rewrite RE in H1. rewrite RE2 in H2. cbn [buffer_size] in H2.
    destruct (push _ _ (time_buffer st) t) as [tb|]; [|discriminate]. destruct (push _ _ (error_buffer st) e) as [eb|]; [|discriminate].
    destruct (calculateGradient tb eb) as [d|]; [|discriminate].
    destruct (new_control s1 _ _ _ _ _) as [c|]; [|discriminate]. destruct (new_control _ _ _ _ _ _) as [c'|]; [|discriminate].
    injection H1 as <-. injection H2 as <-. reflexivity. }
  assert (Z : Ti <> 0).
  { intros ->. unfold respond in H1. rewrite RE in H1.
    destruct (push _ _ (time_buffer st) t) as [tb|]; [|discriminate]. destruct (push _ _ (error_buffer st) e) as [eb|]; [|discriminate].
    destruct (calculateGradient tb eb) as [d|]; [|discriminate].
    unfold new_control in H1. rewrite V1, TI in H1. unfold over_time in H1. destruct (Req_EM_T 0 0); [discriminate H1|congruence]. }
  rewrite C1, C2, P, D, HI2. field. assumption.
Qed.

Definition watch : dsettings := eager 10 None 0 false.
Lemma zero_hides_crossing : exists st, evaluations watch (dinit watch) [(1, -1); (2, 0); (3, 1)] = Some st /\
  accepted watch 0 0 [(1, -1); (2, 0); (3, 1)] = [(1, 1); (2, 0); (3, -1)] /\ number_of_crossings st = 0.
Proof.
  destruct (events_in_step watch [Evaluate 1 (-1); Evaluate 2 0; Evaluate 3 1]) with (st := dinit watch) (h := @nil (R * R)) as (st & E & _);
    [unfold size_ok, watch, eager; cbn [buffer_size]; lia|discriminate|split; reflexivity|].
  assert (A : accepted watch 0 0 [(1, -1); (2, 0); (3, 1)] = [(1, 1); (2, 0); (3, -1)]).
  { unfold watch, eager. cbn [accepted settling_time min_time min_error setpoint].
    repeat (destruct (Rlt_dec _ _); [|exfalso; lra]). repeat (destruct (Rle_dec _ _) as [|N0]; [|exfalso; apply N0; first [lra|apply Rabs_pos]]).
    repeat f_equal; lra. }
  exists st. assert (E2 : evaluations watch (dinit watch) [(1, -1); (2, 0); (3, 1)] = Some st).
  { cbn [events happen] in E. cbn [evaluations]. exact E. }
  split; [exact E2|]. split; [exact A|]. destruct (from_start _ _ _ E2) as (_ & N & _). rewrite N, A. cbn [sign_changes].
  repeat (destruct (Rlt_dec _ _); [exfalso; lra|]). lra.
Qed.
(** A case with a change of sign. *)
Lemma crossing_case : exists st, evaluations watch (dinit watch) [(1, -1); (2, -3); (3, 1)] = Some st /\
  number_of_crossings st = 1 /\ error_integral st = 0 /\ integral_of false (accepted watch 0 0 [(1, -1); (2, -3); (3, 1)]) = 3.
Proof.
  destruct (events_in_step watch [Evaluate 1 (-1); Evaluate 2 (-3); Evaluate 3 1]) with (st := dinit watch) (h := @nil (R * R)) as (st & E & _);
    [unfold size_ok, watch, eager; cbn [buffer_size]; lia|discriminate|split; reflexivity|].
  assert (A : accepted watch 0 0 [(1, -1); (2, -3); (3, 1)] = [(1, 1); (2, 3); (3, -1)]).
  { unfold watch, eager. cbn [accepted settling_time min_time min_error setpoint].
    repeat (destruct (Rlt_dec _ _); [|exfalso; lra]). repeat (destruct (Rle_dec _ _) as [|N0]; [|exfalso; apply N0; first [lra|apply Rabs_pos]]).
    repeat f_equal; lra. }
  exists st. assert (E2 : evaluations watch (dinit watch) [(1, -1); (2, -3); (3, 1)] = Some st).
  { cbn [events happen] in E. cbn [evaluations]. exact E. }
  split; [exact E2|]. destruct (from_start _ _ _ E2) as (I & N & _). rewrite N, I, A. cbn [sign_changes].
  change (reset_on_crossing watch) with true. cbn [integral_of from_first_change].
  destruct (Rlt_dec (0 * 1) 0); [exfalso; lra|]. destruct (Rlt_dec (1 * 3) 0); [exfalso; lra|]. destruct (Rlt_dec (3 * -1) 0); [|exfalso; lra].
  cbn [trapezium]. lra.
Qed.

(** The PI controllers: error and response. *)
Lemma multiplier_monotone s st time e1 e2 x1 x2 : 0 <= p_gain s -> 0 <= i_gain s -> e1 <= e2 -> (p_lasttime st < 0 \/ p_lasttime st <= time) ->
  p_multiplier (pi_step s st time e1) = Some x1 -> p_multiplier (pi_step s st time e2) = Some x2 -> x1 <= x2.
Proof.
  intros GP GI He Ht H1 H2. unfold pi_step in *.
  destruct (Rltb (p_lasttime st) 0) eqn:L; cbn [p_multiplier] in *.
  - rewrite (Rltb_false time time) in H1, H2 by lra. injection H1 as <-. injection H2 as <-.
    set (I := if (Rltb (p_integral st) 0 && _)%bool then 0 else _).
    pose proof (Rmult_le_compat_l _ _ _ GP He).
    pose proof (Rltb_spec (p_gain s * e1 + i_gain s * I) 0). pose proof (Rltb_spec (p_gain s * e2 + i_gain s * I) 0).
    destruct (Rltb (p_gain s * e1 + i_gain s * I) 0), (Rltb (p_gain s * e2 + i_gain s * I) 0), (source_positive s); cbn [andb] in *; lra.
  - assert (L2 : p_lasttime st <= time) by (destruct Ht; [rewrite Rltb_true in L by assumption; discriminate|assumption]).
    injection H1 as <-. injection H2 as <-.
    set (I1 := if Rltb (p_lasttime st) time then _ + _ * (e1 + _) else _). set (I2 := if Rltb (p_lasttime st) time then _ + _ * (e2 + _) else _).
    assert (LI : I1 <= I2).
    { unfold I1, I2. pose proof (Rltb_spec (p_lasttime st) time). destruct (Rltb (p_lasttime st) time); [|apply Rle_refl].
      assert ((time - p_lasttime st) * 0.5 * (e1 + p_last st) <= (time - p_lasttime st) * 0.5 * (e2 + p_last st)) by (apply Rmult_le_compat_l; lra). lra. }
    set (J1 := if (Rltb I1 0 && _)%bool then 0 else I1). set (J2 := if (Rltb I2 0 && _)%bool then 0 else I2).
    assert (LJ : J1 <= J2).
    { unfold J1, J2. pose proof (Rltb_spec I1 0). pose proof (Rltb_spec I2 0). destruct (Rltb I1 0), (Rltb I2 0), (integral_positive s); cbn [andb]; lra. }
    pose proof (Rmult_le_compat_l _ _ _ GP He). pose proof (Rmult_le_compat_l _ _ _ GI LJ).
    pose proof (Rltb_spec (p_gain s * e1 + i_gain s * J1) 0). pose proof (Rltb_spec (p_gain s * e2 + i_gain s * J2) 0).
    destruct (Rltb (p_gain s * e1 + i_gain s * J1) 0), (Rltb (p_gain s * e2 + i_gain s * J2) 0), (source_positive s); cbn [andb] in *; lra.
Qed.

(** The upstream density and temperature controllers look at one cell and answer a deficit there with more source. *)
Lemma density_answer s st time m goal N1 N2 x1 x2 : 0 <= p_gain s -> 0 <= i_gain s -> (p_lasttime st < 0 \/ p_lasttime st <= time) ->
  N1 (ystart m) <= N2 (ystart m) ->
  p_multiplier (pi_step s st time (density_error m goal N1)) = Some x1 ->
  p_multiplier (pi_step s st time (density_error m goal N2)) = Some x2 -> x2 <= x1.
Proof. intros GP GI L Hn H1 H2. unfold density_error in *. eapply (multiplier_monotone s st time); [eassumption|eassumption| |eassumption|exact H2|exact H1]. lra. Qed.
Lemma temperature_answer s st time m (target : bool) goal T1 T2 x1 x2 : 0 <= p_gain s -> 0 <= i_gain s -> (p_lasttime st < 0 \/ p_lasttime st <= time) ->
  (let y := if target then yend m else ystart m in T1 y <= T2 y) ->
  p_multiplier (pi_step s st time (temperature_error m target goal T1)) = Some x1 ->
  p_multiplier (pi_step s st time (temperature_error m target goal T2)) = Some x2 -> x2 <= x1.
Proof.
  intros GP GI L Hn H1 H2. unfold temperature_error in *. cbv zeta in Hn.
  destruct target; (eapply (multiplier_monotone s st time); [eassumption|eassumption| |eassumption|exact H2|exact H1]; lra).
Qed.
Lemma on_target s time m (target : bool) goal N T : N (ystart m) = goal -> T (if target then yend m else ystart m) = goal ->
  p_multiplier (pi_step s pinit time (density_error m goal N)) = Some 0 /\
  p_multiplier (pi_step s pinit time (temperature_error m target goal T)) = Some 0.
Proof.
  intros HN HT. assert (E : forall e, e = 0 -> p_multiplier (pi_step s pinit time e) = Some 0).
  { intros e ->. unfold pi_step, pinit. cbn [p_lasttime p_last p_integral]. rewrite (Rltb_true (-1) 0) by lra.
    rewrite (Rltb_false time time) by lra. rewrite (Rltb_false 0 0) by lra. cbn [andb p_multiplier].
    rewrite !Rmult_0_r, Rplus_0_r. rewrite (Rltb_false 0 0) by lra. reflexivity. }
  split; apply E; unfold density_error, temperature_error; [lra|]. destruct target; lra.
Qed.

Lemma both_forms_case :
  let s := eager 10 (Some 2) 0 true in let st := mkDstate 1 1 0 1 1 0 0 true false [1] [1] in
  (exists st1, respond s st 2 3 = Some st1) /\ (exists st2, respond (in_position_form s) st 2 3 = Some st2) /\
  reevaluate s st 2 3 = true /\ velocity_form s = true /\ integral_time s = Some 2 /\ minval s = None /\ maxval s = None /\ first_step st = false /\
  previous_control st = control_offset s + response_sign s * gain s * (previous_error st + error_integral st / 2 + derivative_time s * previous_derivative st).
Proof.
  cbv zeta. repeat split.
  - destruct (respond_in_step (eager 10 (Some 2) 0 true) (mkDstate 1 1 0 1 1 0 0 true false [1] [1]) [(1, 1)] 2 3) as (st1 & E & _);
      [unfold size_ok, eager; cbn [buffer_size]; lia|split; reflexivity|cbn [integral_time eager]; intros H; injection H; lra|exists st1; exact E].
  - destruct (respond_in_step (in_position_form (eager 10 (Some 2) 0 true)) (mkDstate 1 1 0 1 1 0 0 true false [1] [1]) [(1, 1)] 2 3) as (st1 & E & _);
      [unfold size_ok, in_position_form, eager; cbn [buffer_size]; lia|split; reflexivity|cbn [integral_time eager in_position_form]; intros H; injection H; lra|exists st1; exact E].
  - apply eager_reevaluate; cbn [previous_time]; lra.
  - unfold eager. cbn [previous_control control_offset response_sign gain previous_error error_integral derivative_time previous_derivative]. lra.
Qed.
Lemma answer_case (m : mesh) : let s := mkPsettings 1 1 true true in
  (fun _ : Z => 1) (ystart m) <= (fun _ : Z => 2) (ystart m) /\
  p_multiplier (pi_step s pinit 1 (density_error m 3 (fun _ => 1))) = Some 2 /\
  p_multiplier (pi_step s pinit 1 (density_error m 3 (fun _ => 2))) = Some 1.
Proof.
  cbv zeta. split; [lra|]. unfold pi_step, pinit, density_error. cbn [p_lasttime p_last p_integral p_gain i_gain integral_positive source_positive].
  rewrite (Rltb_true (-1) 0) by lra. rewrite (Rltb_false 1 1) by lra. rewrite (Rltb_false 0 0) by lra. cbn [andb p_multiplier].
  split; rewrite Rltb_false by lra; cbn [andb p_multiplier]; f_equal; lra.
Qed.
