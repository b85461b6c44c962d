(** Feedback controllers: DetachmentController (include/detachment_controller.hxx, src/detachment_controller.cxx),
    UpstreamDensityFeedback and TemperatureFeedback (include and src files of these names).

    Simplifications: exact reals.  Infinite settings (defaults of three options) are [None].  Outcomes that are not numbers, and
    undefined behaviour, are [None] or [NaN]. *)

From Coq Require Import List Bool ZArith Reals String.
From Verif Require Import StateMonad ParallelModel.
Import ListNotations.
Open Scope R_scope.

(** ** DetachmentController: derivative *)

(** Loop of calculateGradient, src/detachment_controller.cxx 17-20: x[i] and y[i] for i < x.size(); None: y is read past its end. *)
Fixpoint gradient_sums (x y : list R) : option (R * R) :=
  match x, y with
  | [], _ => Some (0, 0)
  | _ :: _, [] => None
  | a :: x', b :: y' =>
      match gradient_sums x' y' with
      | Some (sum_xy, sum_x_squared) => Some (a * b + sum_xy, a * a + sum_x_squared)
      | None => None
      end
  end.
(** std::accumulate, 12-13. *)
Definition accumulate (l : list R) : R := fold_left Rplus l 0.
(** calculateGradient, src/detachment_controller.cxx 10-30. *)
Definition calculateGradient (x y : list R) : option R :=
  match gradient_sums x y with
  | None => None
  | Some (sum_xy, sum_x_squared) =>
      let N := INR (List.length x) in
      let numerator := N * sum_xy - accumulate x * accumulate y in
      let denominator := N * sum_x_squared - accumulate x * accumulate x in
      if Req_EM_T denominator 0 then Some 0 else Some (numerator / denominator)
  end.

(** ** DetachmentController: position of the front *)

(** Results of floating-point operations that need not be numbers. *)
Inductive ext := Fin (r : R) | PosInf | NegInf | NaN.
(** Division; a denominator of the form u - u is + 0. *)
Definition ext_div (p q : R) : ext :=
  if Req_EM_T q 0 then (if Rlt_dec 0 p then PosInf else if Rlt_dec p 0 then NegInf else NaN) else Fin (p / q).
(** std::max(x, 0.0) = (x < 0 ? 0 : x) and std::min(x, y) = (y < x ? y : x). *)
Definition ext_max0 (x : ext) : ext :=
  match x with Fin r => Fin (if Rlt_dec r 0 then 0 else r) | NegInf => Fin 0 | PosInf => PosInf | NaN => NaN end.
Definition ext_min (x : ext) (y : R) : ext :=
  match x with Fin r => Fin (if Rlt_dec y r then y else r) | PosInf => Fin y | NegInf => NegInf | NaN => NaN end.

(** Line 67. *)
Definition intersection (x1 x2 a1 a2 b1 b2 : R) : ext :=
  ext_div ((x1 * b2 - b1 * x2) - (x1 * a2 - a1 * x2)) ((a1 - a2) - (b1 - b2)).
(** The loop, 48-90: dy, neutral_density and electron_density as functions of j; the argument is distance_from_upstream before. *)
Fixpoint front_loop (dy neutral electron : Z -> R) (js : list Z) (distance : R) : ext :=
  match js with
  | [] => Fin distance
  | j :: rest =>
      let x1 := distance in
      let x2 := distance + 0.5 * dy (j - 1)%Z + 0.5 * dy j in
      if Rlt_dec (electron j) (neutral j)
      then intersection x1 x2 (neutral (j - 1)%Z) (neutral j) (electron (j - 1)%Z) (electron j)
      else front_loop dy neutral electron rest x2
  end.
(** 45 and 92-93. *)
Definition distance_from_upstream (m : mesh) (connection_length : R) (dy neutral electron : Z -> R) : ext :=
  let d := front_loop dy neutral electron (irange (ystart m) (yend m)) (- (dy (ystart m - 1)%Z + dy (ystart m)) / 4) in
  ext_min (ext_max0 d) connection_length.
(** 95. *)
Definition detachment_front_location (m : mesh) (connection_length : R) (dy neutral electron : Z -> R) : ext :=
  match distance_from_upstream m connection_length dy neutral electron with
  | Fin d => Fin (connection_length - d)
  | PosInf => NegInf
  | NegInf => PosInf
  | NaN => NaN
  end.

(** ** DetachmentController: response *)

(** Options, include/detachment_controller.hxx 10-150; response_sign is -1 or 1 (68-77). *)
Record dsettings := mkDsettings {
  setpoint : R; velocity_form : bool; min_time : R; min_error : R; minval : option R; maxval : option R;
  response_sign : R; gain : R; integral_time : option R; derivative_time : R; buffer_size : Z;
  control_offset : R; settling_time : R; ignore_restart : bool; reset_on_crossing : bool; initial_control : R
}.
(** Members that the response depends on, 287-315. *)
Record dstate := mkDstate {
  control : R; previous_control : R; error_integral : R; previous_time : R; previous_error : R; previous_derivative : R;
  number_of_crossings : R; initialise : bool; first_step : bool; time_buffer : list R; error_buffer : list R
}.
(** After the constructor. *)
Definition dinit (s : dsettings) : dstate :=
  mkDstate (initial_control s) (initial_control s) 0 0 0 0 0 true true [] [].

(** [time_buffer.size() >= buffer_size], 121: the int is converted to an unsigned 64-bit number. *)
Definition buffer_full (n : nat) (size : Z) : bool := Z.leb (size mod 2 ^ 64) (Z.of_nat n).
(** [erase(begin())], 122-123: None on an empty vector. *)
Definition erase_first (l : list R) : option (list R) := match l with [] => None | _ :: r => Some r end.
(** 121-126, for either buffer. *)
Definition push (size : Z) (full : bool) (l : list R) (x : R) : option (list R) :=
  match (if full then erase_first l else Some l) with Some l' => Some (l' ++ [x]) | None => None end.

(** Division by integral_time: None in case of 0 (infinite or not a number). *)
Definition over_time (x : R) (t : option R) : option R :=
  match t with None => Some 0 | Some t => if Req_EM_T t 0 then None else Some (x / t) end.
(** 151-152. *)
Definition limit_control (s : dsettings) (c : R) : R :=
  let c := match minval s with None => c | Some lo => if Rlt_dec c lo then lo else c end in
  match maxval s with None => c | Some hi => if Rlt_dec hi c then hi else c end.

(** The condition of line 118. *)
Definition reevaluate (s : dsettings) (st : dstate) (time error : R) : bool :=
  (Rltb (settling_time s) time && Rleb (min_time s) (time - previous_time st) && Rleb (min_error s) (Rabs (error - previous_error st)))%bool.

(** 119-152: the new control, with the change of the error integral. *)
Definition new_control (s : dsettings) (st : dstate) (time error derivative error_integral' : R) : option R :=
  let change_in_time := time - previous_time st in
  let change_in_error := if first_step st then 0 else error - previous_error st in
  let change_in_derivative := if first_step st then 0 else derivative - previous_derivative st in
  if velocity_form s then
    match over_time change_in_time (integral_time s) with
    | None => None
    | Some ratio =>
        let proportional_term := response_sign s * gain s * change_in_error in
        let integral_term := response_sign s * gain s * ratio * error in
        let derivative_term := response_sign s * gain s * derivative_time s * change_in_derivative in
        Some (previous_control st + (proportional_term + integral_term + derivative_term))
    end
  else
    match over_time (response_sign s * gain s * error_integral') (integral_time s) with
    | None => None
    | Some integral_term =>
        let proportional_term := response_sign s * gain s * error in
        let derivative_term := response_sign s * gain s * derivative_time s * derivative in
        Some (control_offset s + proportional_term + integral_term + derivative_term)
    end.

(** 118-198. *)
Definition respond (s : dsettings) (st : dstate) (time error : R) : option dstate :=
  if reevaluate s st time error then
    let full := buffer_full (List.length (time_buffer st)) (buffer_size s) in
    match push (buffer_size s) full (time_buffer st) time, push (buffer_size s) full (error_buffer st) error with
    | Some tb, Some eb =>
        match calculateGradient tb eb with
        | None => None
        | Some derivative =>
            let change_in_time := time - previous_time st in
            let error_integral' := if first_step st then 0 else error_integral st + change_in_time * 0.5 * (error + previous_error st) in
            match new_control s st time error derivative error_integral' with
            | None => None
            | Some c =>
                let control' := limit_control s c in
                let crossed := ((Rltb error 0 && Rltb 0 (previous_error st)) || (Rltb 0 error && Rltb (previous_error st) 0))%bool in
                let reset := (crossed && Rltb (number_of_crossings st) 1 && reset_on_crossing s)%bool in
                Some (mkDstate control' control' (if reset then 0 else error_integral') time error derivative
                        (if crossed then number_of_crossings st + 1 else number_of_crossings st)
                        (initialise st) false tb eb)
            end
        end
    | _, _ => None
    end
  else Some st.
(** One call of transform (32-199), given the front location: error = setpoint - location (102); returns the state. *)
Definition evaluate (s : dsettings) (st : dstate) (sample : R * R) : option dstate :=
  respond s st (fst sample) (setpoint s - snd sample).
Fixpoint evaluations (s : dsettings) (st : dstate) (h : list (R * R)) : option dstate :=
  match h with
  | [] => Some st
  | x :: rest => match evaluate s st x with Some st' => evaluations s st' rest | None => None end
  end.

(** ** DetachmentController: restart *)

(** The restart variables: values in the Options tree, if set. *)
Record dfile := mkDfile {
  f_control : option R; f_previous_control : option R; f_error_integral : option R; f_previous_time : option R;
  f_previous_error : option R; f_previous_derivative : option R; f_crossings : option R
}.
Definition no_dfile : dfile := mkDfile None None None None None None None.
Definition or_else (o : option R) (x : R) : R := match o with Some r => r | None => x end.
(** restartVars, include/detachment_controller.hxx 212-255. *)
Definition restartVars (s : dsettings) (st : dstate) (file : dfile) : dstate * dfile :=
  let st' :=
    if (initialise st && negb (ignore_restart s))%bool then
      mkDstate (or_else (f_control file) (control st)) (or_else (f_previous_control file) (previous_control st))
        (or_else (f_error_integral file) (error_integral st)) (or_else (f_previous_time file) (previous_time st))
        (or_else (f_previous_error file) (previous_error st)) (or_else (f_previous_derivative file) (previous_derivative st))
        (or_else (f_crossings file) (number_of_crossings st)) false false (time_buffer st) (error_buffer st)
    else st in
  (st', mkDfile (Some (control st')) (Some (previous_control st')) (Some (error_integral st')) (Some (previous_time st'))
          (Some (previous_error st')) (Some (previous_derivative st')) (Some (number_of_crossings st'))).

(** ** UpstreamDensityFeedback and TemperatureFeedback *)

(** Options of the PI controllers. *)
Record psettings := mkPsettings { p_gain : R; i_gain : R; integral_positive : bool; source_positive : bool }.
(** Members, include/upstream_density_feedback.hxx 147-159: integral, last time, last error, and source_multiplier (not initialised). *)
Record pstate := mkPstate { p_integral : R; p_lasttime : R; p_last : R; p_multiplier : option R }.
Definition pinit : pstate := mkPstate 0 (-1) 0 None.
(** src/upstream_density_feedback.cxx 16-46 and src/temperature_feedback.cxx 17-51, given the error. *)
Definition pi_step (s : psettings) (st : pstate) (time error : R) : pstate :=
  let '(lasttime, last) := if Rltb (p_lasttime st) 0 then (time, error) else (p_lasttime st, p_last st) in
  let integral := if Rltb lasttime time then p_integral st + (time - lasttime) * 0.5 * (error + last) else p_integral st in
  let integral := if (Rltb integral 0 && integral_positive s)%bool then 0 else integral in
  let multiplier := p_gain s * error + i_gain s * integral in
  let multiplier := if (Rltb multiplier 0 && source_positive s)%bool then 0 else multiplier in
  mkPstate integral time error (Some multiplier).
Definition pi_run (s : psettings) (st : pstate) (h : list (R * R)) : pstate :=
  fold_left (fun st x => pi_step s st (fst x) (snd x)) h st.

(** The error: density_upstream - N at ystart (16); temperature_setpoint - T at ystart or, for control_target_temperature, at the
    processor's yend (17-21). *)
Definition density_error (m : mesh) (upstream : R) (N : Z -> R) : R := upstream - N (ystart m).
Definition temperature_error (m : mesh) (target : bool) (goal : R) (T : Z -> R) : R :=
  if target then goal - T (yend m) else goal - T (ystart m).

(** All processors: only those at the lower Y boundary execute the loop; then the multiplier is broadcast from [root] (49-55;
    58-66).  What a processor has measured: its error. *)
Definition pi_local (s : psettings) (time : R) (p : bool * R * pstate) : pstate :=
  let '(lower, error, st) := p in if lower then pi_step s st time error else st.
Definition broadcast (root : nat) (l : list pstate) : list pstate :=
  let x := match nth_error l root with Some st => p_multiplier st | None => None end in
  map (fun st => mkPstate (p_integral st) (p_lasttime st) (p_last st) x) l.
Definition pi_all (s : psettings) (root : nat) (time : R) (procs : list (bool * R * pstate)) : list pstate :=
  broadcast root (map (pi_local s time) procs).
(** The roots: rank 0 (53, 63), or the last rank for control_target_temperature (59). *)
Definition density_root (nprocs : nat) : nat := 0.
Definition temperature_root (target : bool) (nprocs : nat) : nat := if target then nprocs - 1 else 0.

(** Sources, src/upstream_density_feedback.cxx 59-68, at one point: density and energy; velocity and mass if both are set. *)
Definition feedback_sources (multiplier shape : R) (flow : option (R * R)) : R * R :=
  (multiplier * shape,
   match flow with Some (V, Mi) => 0.5 * Mi * (V * V) * multiplier * shape | None => 0 end).

(** restartVars, include/upstream_density_feedback.hxx 124-140 and include/temperature_feedback.hxx 150-166, for the instances of
    the component one after another: they share the static variable [first]; the restart variables by name of the species. *)
Definition pfile := list (string * R).
Fixpoint lookup (f : pfile) (name : string) : option R :=
  match f with [] => None | (n, x) :: r => if String.eqb n name then Some x else lookup r name end.
Definition restart_one (first : bool) (file : pfile) (name : string) (st : pstate) : bool * pstate * pfile :=
  let '(first, integral) :=
    match (if first then lookup file name else None) with Some x => (false, x) | None => (first, p_integral st) end in
  (first, mkPstate integral (p_lasttime st) (p_last st) (p_multiplier st), (name, integral) :: file).
Fixpoint restart_all (first : bool) (file : pfile) (l : list (string * pstate)) : bool * list (string * pstate) * pfile :=
  match l with
  | [] => (first, [], file)
  | (name, st) :: rest =>
      let '(first, st, file) := restart_one first file name st in
      let '(first, rest, file) := restart_all first file rest in
      (first, (name, st) :: rest, file)
  end.
