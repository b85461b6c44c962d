(** Specification vocabulary for the state-protocol properties C01-C04.
    Nothing here depends on how the protocol is implemented: it only classifies
    the calls and describes sums of contributions. *)

From Coq Require Import List ZArith Reals.
From Verif Require Import OptionsModel.
Import ListNotations.

Section Spec.
  Context {V ty : Type}.

  (** Calls which try to change a value. *)
  Definition is_write (o : op V ty) : Prop :=
    match o with
    | OSet _ | OSetBoundary _ | OAdd _ _ | OSubtract _ _ => True
    | _ => False
    end.

  (** Calls which try to change a value including the interior of the domain. *)
  Definition is_domain_write (o : op V ty) : Prop :=
    match o with
    | OSet _ | OAdd _ _ | OSubtract _ _ => True
    | _ => False
    end.

  (** Calls which read a value as type [t]. *)
  Definition reads_as (t : ty) (o : op V ty) : Prop :=
    match o with
    | OGet t' | OGetNonFinal t' | OGetNoBoundary t' => t' = t
    | _ => False
    end.

  (** Presence queries. *)
  Definition asks_presence (o : op V ty) : Prop :=
    match o with OIsSet | OIsSetNoBoundary => True | _ => False end.

  (** What the component which made the [i]-th call of history [h] saw. *)
  Definition observed {key} (h : list (key * op V ty)) (rs : list (result V))
      (i : nat) (k : key) (o : op V ty) (r : result V) : Prop :=
    nth_error h i = Some (k, o) /\ nth_error rs i = Some r.
End Spec.

(** A contribution to a source term: [Plus x] is [add(option, x)], [Minus x] is
    [subtract(option, x)]. *)
Inductive contribution := Plus (x : R) | Minus (x : R).

Definition signed (c : contribution) : R :=
  match c with Plus x => x | Minus x => Ropp x end.

(** The mathematical total of a list of contributions. *)
Fixpoint total (cs : list contribution) : R :=
  match cs with [] => 0%R | c :: cs' => (signed c + total cs')%R end.

(** The protocol calls of a contribution (values at one grid point). *)
Definition contrib_op (c : contribution) : op R unit :=
  match c with Plus x => OAdd tt x | Minus x => OSubtract tt x end.

(** Contributions made to entry [k] in a history, in order. *)
Fixpoint contributions {key} (key_eqb : key -> key -> bool) (k : key)
    (h : list (key * op R unit)) : list contribution :=
  match h with
  | [] => []
  | (k', o) :: h' =>
      let rest := contributions key_eqb k h' in
      if key_eqb k k' then
        match o with
        | OAdd _ x => Plus x :: rest
        | OSubtract _ x => Minus x :: rest
        | _ => rest
        end
      else rest
  end.

(** A history in which entry [k] is only contributed to (calls on other entries
    are unrestricted). *)
Definition only_contributes {key} (k : key) (h : list (key * op R unit)) : Prop :=
  forall o, In (k, o) h -> exists c, o = contrib_op c.

(** Values at one grid point: every stored value can be read, none is invalid. *)
Definition castR (_ : unit) (x : R) : option R := Some x.
Definition finiteR (_ : R) : bool := false.
