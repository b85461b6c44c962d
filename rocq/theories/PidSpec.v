(** What a PID controller with a dead band does with a list of samples (time, location of the front). *)

From Coq Require Import List Reals.
From Verif Require Import ControlModel ControlSpec.
Import ListNotations.
Open Scope R_scope.

(** The samples (time, error) which are used: after the settling time, at least min_time and min_error away from the last one used. *)
Fixpoint accepted (s : dsettings) (tp ep : R) (h : list (R * R)) : list (R * R) :=
  match h with
  | [] => []
  | (t, x) :: rest =>
      let e := setpoint s - x in
      if Rlt_dec (settling_time s) t then
        if Rle_dec (tp + min_time s) t then
          if Rle_dec (min_error s) (Rabs (e - ep)) then (t, e) :: accepted s t e rest else accepted s tp ep rest
        else accepted s tp ep rest
      else accepted s tp ep rest
  end.

(** Number of changes of sign, the error before the list being ep. *)
Fixpoint sign_changes (ep : R) (l : list (R * R)) : R :=
  match l with [] => 0 | (_, e) :: rest => (if Rlt_dec (ep * e) 0 then 1 else 0) + sign_changes e rest end.
(** The list from the first change of sign on. *)
Fixpoint from_first_change (ep : R) (l : list (R * R)) : option (list (R * R)) :=
  match l with [] => None | (_, e) :: rest => if Rlt_dec (ep * e) 0 then Some l else from_first_change e rest end.

(** The integral of the error over the samples used: from the first one, or, if wanted, from the first change of sign. *)
Definition integral_of (reset : bool) (l : list (R * R)) : R :=
  match l with
  | [] => 0
  | (_, e) :: rest => match (if reset then from_first_change e rest else None) with Some l' => trapezium l' | None => trapezium l end
  end.

(** The last sample. *)
Definition last_time (d : R) (l : list (R * R)) : R := fst (last l (d, 0)).
Definition last_error (d : R) (l : list (R * R)) : R := snd (last l (0, d)).

(** Keep within optional limits. *)
Definition limited (lo hi : option R) (c : R) : R :=
  let c := match lo with Some a => Rmax a c | None => c end in match hi with Some b => Rmin b c | None => c end.
