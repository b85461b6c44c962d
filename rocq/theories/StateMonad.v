(** A component method run on the shared state, at one arbitrary grid point.

    Field values are real numbers (the value of the field at the chosen grid
    point); scalars such as "AA" and "charge" are real numbers as well.  All
    accesses go through the protocol of [OptionsModel] (include/component.hxx), so
    read marks, unset entries and exceptions are taken into account.  Values are finite
    (real numbers), so the finiteness test in [set] always passes.

    [P] is private data of the component.  [Undef] is undefined behaviour of the C++
    program. *)

From Coq Require Import List Bool String Reals.
From Verif Require Import OptionsModel OptionsSpec.
Import ListNotations.

Inductive res (A : Type) := Ok (a : A) | Exc | Undef.
Arguments Ok {A}.
Arguments Exc {A}.
Arguments Undef {A}.

(** Path state["species"][name][quantity]; other sections (e.g. "fields") are
    addressed by a section name in the first component. *)
Definition key := (string * string)%type.
Definition key_eqb (a b : key) : bool :=
  (String.eqb (fst a) (fst b) && String.eqb (snd a) (snd b))%bool.

Definition State := store R key.

Definition M (P A : Type) := State * P -> (State * P) * res A.

Definition ret {P A} (a : A) : M P A := fun s => (s, Ok a).
Definition throw {P A} : M P A := fun s => (s, Exc).
Definition undefined {P A} : M P A := fun s => (s, Undef).
Definition bind {P A B} (m : M P A) (f : A -> M P B) : M P B :=
  fun s => match m s with
           | (s1, Ok a) => f a s1
           | (s1, Exc) => (s1, Exc)
           | (s1, Undef) => (s1, Undef)
           end.

Declare Scope monad_scope.
Delimit Scope monad_scope with monad.
Notation "x <- m ;; f" := (bind m (fun x => f))
  (at level 61, m at next level, right associativity) : monad_scope.
Notation "m ;; f" := (bind m (fun _ => f))
  (at level 61, right associativity) : monad_scope.
Open Scope monad_scope.

(** Lift a protocol call which returns a value. *)
Definition call_val {P} (k : key) (f : entry R -> entry R * result R) : M P R :=
  fun s => let (e, r) := f (fst s k) in
           ((upd key_eqb (fst s) k e, snd s),
            match r with RVal v => Ok v | _ => Exc end).

(** Lift a protocol call which returns a truth value. *)
Definition call_bool {P} (k : key) (f : entry R -> entry R * result R) : M P bool :=
  fun s => let (e, r) := f (fst s k) in
           ((upd key_eqb (fst s) k e, snd s),
            match r with RBool b => Ok b | _ => Exc end).

(** Lift a protocol call which returns nothing. *)
Definition call_unit {P} (k : key) (f : entry R -> entry R * result R) : M P unit :=
  fun s => let (e, r) := f (fst s k) in
           ((upd key_eqb (fst s) k e, snd s),
            match r with RUnit => Ok tt | _ => Exc end).

(** get<T>(state...), include/component.hxx 114. *)
Definition mget {P} (k : key) : M P R := call_val k (get castR tt).
(** getNonFinal<T>(state...), include/component.hxx 86. *)
Definition mget_nonfinal {P} (k : key) : M P R := call_val k (getNonFinal castR tt).
(** GET_NOBOUNDARY(T, state...), include/component.hxx 182. *)
Definition mget_nb {P} (k : key) : M P R := call_val k (getNoBoundary castR tt).
(** IS_SET(state...), src/component.cxx 18. *)
Definition mis_set_final {P} (k : key) : M P bool := call_bool k isSetFinal.
(** IS_SET_NOBOUNDARY(state...), src/component.cxx 27. *)
Definition mis_set_final_nb {P} (k : key) : M P bool := call_bool k isSetFinalNoBoundary.
(** [option.isSet(...)] of BOUT++: no mark. *)
Definition mis_set {P} (k : key) : M P bool := fun s => (s, Ok (is_set (fst s k))).
(** set(state..., v), include/component.hxx 229. *)
Definition mset {P} (k : key) (v : R) : M P unit := call_unit k (set finiteR v).
(** setBoundary(state..., v), include/component.hxx 260. *)
Definition mset_boundary {P} (k : key) (v : R) : M P unit := call_unit k (setBoundary v).
(** add(state..., v), include/component.hxx 281. *)
Definition madd {P} (k : key) (v : R) : M P unit :=
  call_unit k (add castR Rplus finiteR tt v).
(** subtract(state..., v), include/component.hxx 301. *)
Definition msub {P} (k : key) (v : R) : M P unit :=
  call_unit k (subtract castR Rminus Ropp finiteR tt v).

(** Change of private data. *)
Definition mpriv {P} (f : P -> P) : M P unit := fun s => ((fst s, f (snd s)), Ok tt).
Definition mpriv_get {P} : M P P := fun s => (s, Ok (snd s)).

(** [for (auto& x : l) body]. *)
Fixpoint mfor {P A} (l : list A) (body : A -> M P unit) : M P unit :=
  match l with
  | [] => ret tt
  | x :: l' => body x ;; mfor l' body
  end.

(** Boolean comparison of reals (the C++ operator <). *)
Definition Rltb (x y : R) : bool := if Rlt_dec x y then true else false.
Definition Rleb (x y : R) : bool := if Rle_dec x y then true else false.
Definition Reqb (x y : R) : bool := if Req_EM_T x y then true else false.

(** floor(value, min), include/hermes_utils.hxx 5-9 (also src/collisions.cxx 9-13). *)
Definition rfloor (value min : R) : R := if Rltb value min then min else value.

(** Square, BOUT++ SQ(x). *)
Definition SQ (x : R) : R := (x * x)%R.
