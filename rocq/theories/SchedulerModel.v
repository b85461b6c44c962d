(** Model of the component scheduler (src/component_scheduler.cxx) and of
    Hermes::rhs (hermes-3.cxx 292-303). *)

From Coq Require Import List Bool Ascii.
From Verif Require Import OptionsModel StrModel.
Import ListNotations.

(** ** Construction of the component list *)

(** component_scheduler.cxx 14-22 (and 29-33 with the same characters): split at
    commas, trim, skip empty items. *)
Definition list_items (s : str) : list str :=
  filter (fun n => negb (is_empty n)) (map (trim trim_chars) (strsplit comma s)).

(** component_scheduler.cxx 25-27: the "type" option of the component if set,
    otherwise its name.  [type_opt] looks up options[name]["type"]. *)
Definition types_string (type_opt : str -> option str) (name : str) : str :=
  match type_opt name with Some t => t | None => name end.

(** component_scheduler.cxx 14-40: the (type, name) pairs for which
    Component::create is called, in order.  [known] says whether the factory
    has the type (otherwise [create] throws, modelled by [None]); component constructors
    which throw for other reasons are not modelled. *)
Fixpoint create_types (known : str -> bool) (name : str) (types : list str)
  : option (list (str * str)) :=
  match types with
  | [] => Some []
  | t :: ts =>
      if known t then
        match create_types known name ts with
        | Some cs => Some ((t, name) :: cs)
        | None => None
        end
      else None
  end.

(** component_scheduler.cxx 14-40, the outer loop. *)
Fixpoint create_all (known : str -> bool) (type_opt : str -> option str)
    (names : list str) : option (list (str * str)) :=
  match names with
  | [] => Some []
  | n :: ns =>
      match create_types known n (list_items (types_string type_opt n)) with
      | Some cs => match create_all known type_opt ns with
                   | Some cs' => Some (cs ++ cs')
                   | None => None
                   end
      | None => None
      end
  end.

(** ComponentScheduler::ComponentScheduler, component_scheduler.cxx 5-41. *)
Definition construct (known : str -> bool) (type_opt : str -> option str)
    (components : str) : option (list (str * str)) :=
  create_all known type_opt (list_items components).

(** ** Running the components *)
Section Run.
  Variables (V ty : Type) (cast : ty -> V -> option V)
            (vadd vsub : V -> V -> V) (vneg : V -> V) (invalid : V -> bool)
            (key : Type) (key_eqb : key -> key -> bool).

  (** What a component method does to the shared state: a sequence of protocol
      calls, each depending on the results of the earlier ones, ending with new
      private data of the component or with an exception. *)
  Inductive prog (A : Type) :=
  | Ret (a : A)
  | Raise
  | Call (k : key) (o : op V ty) (cont : result V -> prog A).

  (** Execution: final state, the calls made with their results, and the new private data
      ([None]: an exception left the method). *)
  Fixpoint exec {A} (s : store V key) (p : prog A)
    : store V key * list (key * op V ty * result V) * option A :=
    match p with
    | Ret _ a => (s, [], Some a)
    | Raise _ => (s, [], None)
    | Call _ k o cont =>
        let (s1, r) := step_at cast vadd vsub vneg invalid key_eqb s (k, o) in
        let '(s2, tr, a) := exec s1 (cont r) in
        (s2, (k, o, r) :: tr, a)
    end.

  (** A component (include/component.hxx 20-36): [transform(state)] and
      [finally(const state)], with private data [I]. *)
  Variable I : Type.
  Record component := {
    transform : I -> prog I;
    finally : I -> prog I
  }.

  (** Which method of which component (position in the list) was entered. *)
  Inductive event := ETransform (n : nat) | EFinally (n : nat).

  (** One entered method: which one, the state at entry, and the protocol calls it made. *)
  Record visit := {
    v_event : event;
    v_entry : store V key;
    v_calls : list (key * op V ty * result V)
  }.

  (** component_scheduler.cxx 53-55 and 57-59: one loop over the components from
      position [n] on.  Returns the state, the components with their new private
      data, the visits, and whether the loop completed without exception. *)
  Fixpoint loop (meth : component -> I -> prog I) (ev : nat -> event) (n : nat)
      (cs : list (component * I)) (s : store V key)
    : store V key * list (component * I) * list visit * bool :=
    match cs with
    | [] => (s, [], [], true)
    | (c, d) :: cs' =>
        let '(s1, calls, r) := exec s (meth c d) in
        let v := {| v_event := ev n; v_entry := s; v_calls := calls |} in
        match r with
        | None => (s1, (c, d) :: cs', [v], false)
        | Some d1 =>
            let '(s2, ds, vs, ok) := loop meth ev (S n) cs' s1 in
            (s2, (c, d1) :: ds, v :: vs, ok)
        end
    end.

  (** ComponentScheduler::transform, component_scheduler.cxx 51-60. *)
  Definition scheduler_transform (cs : list (component * I)) (s : store V key)
    : store V key * list (component * I) * list visit * bool :=
    let '(s1, cs1, vs1, ok1) := loop transform ETransform 0 cs s in
    if ok1 then
      let '(s2, cs2, vs2, ok2) := loop finally EFinally 0 cs1 s1 in
      (s2, cs2, vs1 ++ vs2, ok2)
    else (s1, cs1, vs1, false).

  (** Paths of the time and of the units in the state, and the units' values. *)
  Variables (k_time : key) (units : list (key * V)).

  (** [state["units"] = units.copy()] (hermes-3.cxx 297): assignment of leaves, which carry
      no read marks. *)
  Definition put_units (s : store V key) : store V key :=
    fold_left (fun s kv => upd key_eqb s (fst kv) (mkEntry (Some (snd kv)) false false)) units s.

  (** The machine between evaluations: the state object left by the previous
      evaluation, and the components with their private data. *)
  Record hermes := { h_state : store V key; h_components : list (component * I) }.

  (** Hermes::rhs, hermes-3.cxx 292-303. *)
  Definition rhs (h : hermes) (time : V) : hermes * list visit * bool :=
    let h := {| h_state := empty_store; h_components := h_components h |} in  (* line 294 *)
    let (e, r) := set invalid time (h_state h k_time) in                      (* line 296 *)
    let state := upd key_eqb (h_state h) k_time e in
    match r with
    | RThrow => ({| h_state := state; h_components := h_components h |}, [], false)
    | _ =>
        let state := put_units state in                                       (* line 297 *)
        let '(s, cs, vs, ok) := scheduler_transform (h_components h) state in (* line 300 *)
        ({| h_state := s; h_components := cs |}, vs, ok)
    end.

  (** A sequence of evaluations (the solver may carry on after an exception). *)
  Fixpoint rhs_sequence (h : hermes) (times : list V) : hermes :=
    match times with
    | [] => h
    | t :: ts => let '(h1, _, _) := rhs h t in rhs_sequence h1 ts
    end.
End Run.

Arguments Ret {V ty key A}.
Arguments Raise {V ty key A}.
Arguments Call {V ty key A}.
Arguments exec {V ty} cast vadd vsub vneg invalid {key} key_eqb {A}.
Arguments transform {V ty key I}.
Arguments finally {V ty key I}.
Arguments v_event {V ty key}.
Arguments v_entry {V ty key}.
Arguments v_calls {V ty key}.
Arguments loop {V ty} cast vadd vsub vneg invalid {key} key_eqb {I}.
Arguments scheduler_transform {V ty} cast vadd vsub vneg invalid {key} key_eqb {I}.
Arguments put_units {V key}.
Arguments h_state {V ty key I}.
Arguments h_components {V ty key I}.
Arguments rhs {V ty} cast vadd vsub vneg invalid {key} key_eqb {I}.
Arguments rhs_sequence {V ty} cast vadd vsub vneg invalid {key} key_eqb {I}.
