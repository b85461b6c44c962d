(** Specification of the controllers. *)

From Coq Require Import List Bool ZArith Reals.
From Verif Require Import ParallelModel ParallelSpec ControlModel.
Import ListNotations.
Open Scope R_scope.

(** Squared distance of the samples (x, y) from the line a + b x. *)
Definition rsum (l : list R) : R := fold_right Rplus 0 l.
Definition squared_error (a b : R) (samples : list (R * R)) : R :=
  rsum (map (fun p => (snd p - (a + b * fst p)) * (snd p - (a + b * fst p))) samples).

(** The limits on the control signal. *)
Definition limits_ok (s : dsettings) : Prop :=
  match minval s, maxval s with Some lo, Some hi => lo <= hi | _, _ => True end.
Definition within_limits (s : dsettings) (c : R) : Prop :=
  (forall lo, minval s = Some lo -> lo <= c) /\ (forall hi, maxval s = Some hi -> c <= hi).

(** Things that happen to a controller: an evaluation, or writing the restart file and starting again from it. *)
Inductive event := Evaluate (time location : R) | StopAndRestart.
Definition happen (s : dsettings) (st : dstate) (e : event) : option dstate :=
  match e with
  | Evaluate t x => evaluate s st (t, x)
  | StopAndRestart => Some (fst (restartVars s (dinit s) (snd (restartVars s st no_dfile))))
  end.
Fixpoint events (s : dsettings) (st : dstate) (l : list event) : option dstate :=
  match l with
  | [] => Some st
  | e :: rest => match happen s st e with Some st' => events s st' rest | None => None end
  end.
(** An event at which the controller changes its control signal. *)
Definition updates (s : dsettings) (st : dstate) (e : event) : bool :=
  match e with Evaluate t x => reevaluate s st t (setpoint s - x) | StopAndRestart => false end.
(** At least one event of the history did. *)
Fixpoint updated (s : dsettings) (st : dstate) (l : list event) : bool :=
  match l with
  | [] => false
  | e :: rest => orb (updates s st e) (match happen s st e with Some st' => updated s st' rest | None => false end)
  end.
(** The samples (time, error) used since the last start. *)
Fixpoint samples (s : dsettings) (st : dstate) (acc : list (R * R)) (l : list event) : list (R * R) :=
  match l with
  | [] => acc
  | e :: rest =>
      let acc' := match e with
                  | Evaluate t x => if reevaluate s st t (setpoint s - x) then acc ++ [(t, setpoint s - x)] else acc
                  | StopAndRestart => []
                  end in
      match happen s st e with Some st' => samples s st' acc' rest | None => acc' end
  end.
Definition lastn {A} (n : nat) (l : list A) : list A := skipn (length l - n) l.

(** Position of the centre of cell j: the widths of the cells before it and half its own. *)
Definition centre (dy : Z -> R) (first : Z) (n : nat) : R :=
  zsum first n dy + dy (first + Z.of_nat n)%Z / 2.
(** The value at a fraction t between u and v. *)
Definition between_values (u v t : R) : R := (1 - t) * u + t * v.

(** The integral of the error by the trapezium rule. *)
Fixpoint trapezium (h : list (R * R)) : R :=
  match h with
  | (t1, e1) :: (((t2, e2) :: _) as rest) => (t2 - t1) / 2 * (e1 + e2) + trapezium rest
  | _ => 0
  end.
Fixpoint times_increase (h : list (R * R)) : Prop :=
  match h with
  | (t1, _) :: (((t2, _) :: _) as rest) => t1 <= t2 /\ times_increase rest
  | _ => True
  end.

(** Energy of a fluid of mass m per particle, density n and momentum density p, with internal energy e. *)
Definition total_energy (m n p e : R) : R := p * p / (2 * m * n) + e.
