(** Specification vocabulary for components which prescribe part of the state of a species. *)

From Coq Require Import List Bool String Reals.
From Verif Require Import OptionsModel StateMonad StateSpec.
Import ListNotations.
Open Scope R_scope.
Open Scope string_scope.

(** The entry can no longer be changed, neither by set nor by adding to or subtracting from it: each attempt throws and changes nothing. *)
Definition fixed (s : State * unit) (sp q : string) : Prop :=
  forall v,
    (snd (mset (sp, q) v s) = Exc /\ value (fst (mset (sp, q) v s)) sp q = value s sp q) /\
    (snd (madd (sp, q) v s) = Exc /\ value (fst (madd (sp, q) v s)) sp q = value s sp q) /\
    (snd (msub (sp, q) v s) = Exc /\ value (fst (msub (sp, q) v s)) sp q = value s sp q).

(** Nothing about the species has been set or read yet. *)
Definition untouched (s : State * unit) (sp : string) : Prop := forall q, fst s (sp, q) = fresh.

(** All entries but those listed keep their value. *)
Definition keeps (s s' : State * unit) (sp : string) (qs : list string) : Prop :=
  forall sp' q, sp' <> sp \/ ~ List.In q qs -> value s' sp' q = value s sp' q /\ present s' sp' q = present s sp' q.
