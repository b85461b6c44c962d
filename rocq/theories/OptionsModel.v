(** Model of the shared-state access protocol of hermes-3
    (include/component.hxx lines 77-314, src/component.cxx lines 18-33).

    Build configuration modelled: CHECKLEVEL >= 1, the read marks are kept.

    A state entry is an [Options] leaf.  Of it we keep the value (if any) and the
    presence of the two attributes "final" and "final-domain"; the text stored
    in the attributes (the source location of the reader) is only used in
    error messages and is dropped.  [Options::force] (BOUT++, not in /repo) is
    assumed to replace the value and keep the attributes. *)

From Coq Require Import List Bool.
Import ListNotations.

Section Protocol.
  (** [V]: values which can be stored (the variant [Options::ValueType]).
      [ty]: requested C++ types [T]; [cast T v] is
      [variantStaticCastOrThrow<ValueType,T>(v)]: [None] stands for [std::bad_cast].
      [vadd], [vsub], [vneg]: the overloaded [operator+], [operator-] of the values.
      [invalid]: [hermesDataInvalid] (component.hxx 203-220), i.e. a Field3D with a non-finite
      value in RGN_NOBNDRY; [false] for all other types. *)
  Variables (V ty : Type).
  Variable cast : ty -> V -> option V.
  Variables (vadd vsub : V -> V -> V) (vneg : V -> V).
  Variable invalid : V -> bool.

  (** An [Options] leaf: value and the attributes "final" and "final-domain". *)
  Record entry := mkEntry {
    e_val : option V;
    e_final : bool;
    e_final_dom : bool
  }.

  (** A freshly created leaf ([state = Options()], hermes-3.cxx 294). *)
  Definition fresh : entry := mkEntry None false false.

  (** Result of a call: a value, a truth value, nothing, or a thrown
      BoutException. *)
  Inductive result :=
  | RVal (v : V)
  | RBool (b : bool)
  | RUnit
  | RThrow.

  (** getNonFinal, component.hxx 86-98. *)
  Definition getNonFinal (t : ty) (e : entry) : entry * result :=
    match e_val e with
    | None => (e, RThrow)
    | Some v => match cast t v with
                | Some w => (e, RVal w)
                | None => (e, RThrow)
                end
    end.

  (** The attribute assignments of get/isSetFinal, component.hxx 118-119. *)
  Definition mark_final (e : entry) : entry := mkEntry (e_val e) true true.

  (** The attribute assignment of getNoBoundary/isSetFinalNoBoundary,
      component.hxx 186. *)
  Definition mark_final_dom (e : entry) : entry :=
    mkEntry (e_val e) (e_final e) true.

  (** get, component.hxx 114-122: the marks are set before the value is looked up. *)
  Definition get (t : ty) (e : entry) : entry * result :=
    getNonFinal t (mark_final e).

  (** getNoBoundary, component.hxx 182-189. *)
  Definition getNoBoundary (t : ty) (e : entry) : entry * result :=
    getNonFinal t (mark_final_dom e).

  (** [Options::isSet] for a leaf. *)
  Definition is_set (e : entry) : bool :=
    match e_val e with Some _ => true | None => false end.

  (** isSetFinal, component.cxx 18-25. *)
  Definition isSetFinal (e : entry) : entry * result :=
    (mark_final e, RBool (is_set e)).

  (** isSetFinalNoBoundary, component.cxx 27-33. *)
  Definition isSetFinalNoBoundary (e : entry) : entry * result :=
    (mark_final_dom e, RBool (is_set e)).

  (** [Options::force] (BOUT++): replace the value, keep the attributes. *)
  Definition force (v : V) (e : entry) : entry :=
    mkEntry (Some v) (e_final e) (e_final_dom e).

  (** set, component.hxx 229-250. *)
  Definition set (v : V) (e : entry) : entry * result :=
    if e_final e then (e, RThrow)
    else if e_final_dom e then (e, RThrow)
    else if invalid v then (e, RThrow)
    else (force v e, RUnit).

  (** setBoundary, component.hxx 260-271: only the "final" mark is checked, and the
      value is not checked. *)
  Definition setBoundary (v : V) (e : entry) : entry * result :=
    if e_final e then (e, RThrow) else (force v e, RUnit).

  (** add, component.hxx 281-294. *)
  Definition add (t : ty) (v : V) (e : entry) : entry * result :=
    match e_val e with
    | None => set v e
    | Some old => match cast t old with
                  | Some w => set (vadd v w) e
                  | None => (e, RThrow)
                  end
    end.

  (** subtract, component.hxx 301-314. *)
  Definition subtract (t : ty) (v : V) (e : entry) : entry * result :=
    match e_val e with
    | None => set (vneg v) e
    | Some old => match cast t old with
                  | Some w => set (vsub w v) e
                  | None => (e, RThrow)
                  end
    end.

  (** The calls a component can make on one entry. *)
  Inductive op :=
  | OGetNonFinal (t : ty)
  | OGet (t : ty)
  | OGetNoBoundary (t : ty)
  | OIsSet
  | OIsSetNoBoundary
  | OSet (v : V)
  | OSetBoundary (v : V)
  | OAdd (t : ty) (v : V)
  | OSubtract (t : ty) (v : V).

  (** Dispatch of a call (no code of its own). *)
  Definition step (e : entry) (o : op) : entry * result :=
    match o with
    | OGetNonFinal t => getNonFinal t e
    | OGet t => get t e
    | OGetNoBoundary t => getNoBoundary t e
    | OIsSet => isSetFinal e
    | OIsSetNoBoundary => isSetFinalNoBoundary e
    | OSet v => set v e
    | OSetBoundary v => setBoundary v e
    | OAdd t v => add t v e
    | OSubtract t v => subtract t v e
    end.

  (** ** The whole state: entries addressed by a key (the path in the Options tree;
      a component calls the functions above on [state[path]]). *)
  Variable key : Type.
  Variable key_eqb : key -> key -> bool.

  Definition store := key -> entry.

  (** [Options()] (hermes-3.cxx 294): every entry is fresh. *)
  Definition empty_store : store := fun _ => fresh.

  (** Update of one entry; entries at other paths are separate objects. *)
  Definition upd (s : store) (k : key) (e : entry) : store :=
    fun k' => if key_eqb k k' then e else s k'.

  (** A call on the entry at path [k]. *)
  Definition step_at (s : store) (ko : key * op) : store * result :=
    let (e, r) := step (s (fst ko)) (snd ko) in (upd s (fst ko) e, r).

  (** A history: calls made by all components in turn (each possibly catching the
      exceptions thrown), with the results they obtained. *)
  Fixpoint run (s : store) (h : list (key * op)) : store * list result :=
    match h with
    | [] => (s, [])
    | ko :: h' =>
        let (s1, r) := step_at s ko in
        let (s2, rs) := run s1 h' in
        (s2, r :: rs)
    end.
End Protocol.

Arguments mkEntry {V}.
Arguments e_val {V}.
Arguments e_final {V}.
Arguments e_final_dom {V}.
Arguments fresh {V}.
Arguments RVal {V}.
Arguments RBool {V}.
Arguments RUnit {V}.
Arguments RThrow {V}.
Arguments OGetNonFinal {V ty}.
Arguments OGet {V ty}.
Arguments OGetNoBoundary {V ty}.
Arguments OIsSet {V ty}.
Arguments OIsSetNoBoundary {V ty}.
Arguments OSet {V ty}.
Arguments OSetBoundary {V ty}.
Arguments OAdd {V ty}.
Arguments OSubtract {V ty}.
Arguments getNonFinal {V ty}.
Arguments get {V ty}.
Arguments getNoBoundary {V ty}.
Arguments is_set {V}.
Arguments isSetFinal {V}.
Arguments isSetFinalNoBoundary {V}.
Arguments mark_final {V}.
Arguments mark_final_dom {V}.
Arguments force {V}.
Arguments set {V}.
Arguments setBoundary {V}.
Arguments add {V ty}.
Arguments subtract {V ty}.
Arguments step {V ty}.
Arguments empty_store {V key}.
Arguments upd {V key}.
Arguments step_at {V ty} cast vadd vsub vneg invalid {key}.
Arguments run {V ty} cast vadd vsub vneg invalid {key}.
