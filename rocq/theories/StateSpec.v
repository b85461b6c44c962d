(** Specification vocabulary for components acting on the shared state: values of
    entries before and after a call, and totals over species. *)

From Coq Require Import List Bool String Reals.
From Verif Require Import OptionsModel StateMonad.
Import ListNotations.

(** Value of an entry; an unset entry counts as zero (no contribution yet). *)
Definition value_or_0 (o : option R) : R := match o with Some v => v | None => 0%R end.
Definition value {P} (s : State * P) (species quantity : string) : R :=
  value_or_0 (e_val (fst s (species, quantity))).

(** Whether an entry has a value. *)
Definition present {P} (s : State * P) (species quantity : string) : bool :=
  match e_val (fst s (species, quantity)) with Some _ => true | None => false end.

(** [m] run from [s] finishes normally in state [s'] with result [a]. *)
Definition finishes {P A} (m : M P A) (s s' : State * P) (a : A) : Prop := m s = (s', Ok a).

(** Sum of [f] over a list. *)
Fixpoint sumR {A} (f : A -> R) (l : list A) : R :=
  match l with [] => 0%R | x :: l' => (f x + sumR f l')%R end.

(** A state holding the given values, none of which has been read yet. *)
Definition state_of (l : list (key * R)) : State :=
  fun k => match find (fun p => key_eqb (fst p) k) l with
           | Some p => mkEntry (Some (snd p)) false false
           | None => fresh
           end.
