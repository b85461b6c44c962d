(** Properties C05-C07: scheduling, the component list, independence of evaluations. *)

From Coq Require Import List Bool Ascii String ZArith.
From Verif Require Import OptionsModel OptionsSpec OptionsProps StrModel SchedulerModel
  SchedulerSpec SchedulerProofs.
Import ListNotations.

(** *** C05 *)
Theorem C05_order_of_calls :
  forall (V ty : Type) (cast : ty -> V -> option V) (vadd vsub : V -> V -> V)
         (vneg : V -> V) (invalid : V -> bool)
         (key : Type) (key_eqb : key -> key -> bool) (I : Type)
         (cs : list (component V ty key I * I)) (s s' : store V key)
         (cs' : list (component V ty key I * I)) vs ok,
    scheduler_transform cast vadd vsub vneg invalid key_eqb cs s = (s', cs', vs, ok) ->
    (ok = true -> map v_event vs = expected_order (List.length cs)) /\
    (ok = false -> exists m, 0 < m /\ m <= 2 * List.length cs /\
                     map v_event vs = firstn m (expected_order (List.length cs))).
Proof. exact C05_order_lemma. Qed.
Print Assumptions C05_order_of_calls.

(** Every [finally] sees the values which the state has at the end of the
    evaluation (they read the state through [const Options&]). *)
Theorem C05_finally_sees_final_state :
  forall (V ty : Type) (cast : ty -> V -> option V) (vadd vsub : V -> V -> V)
         (vneg : V -> V) (invalid : V -> bool)
         (key : Type) (key_eqb : key -> key -> bool)
         (key_eqb_spec : forall a b, key_eqb a b = true <-> a = b) (I : Type)
         (cs : list (component V ty key I * I)) (s s' : store V key)
         (cs' : list (component V ty key I * I)) vs ok,
    (forall (c : component V ty key I) d, In c (map fst cs) -> read_only (finally c d)) ->
    scheduler_transform cast vadd vsub vneg invalid key_eqb cs s = (s', cs', vs, ok) ->
    forall v n, In v vs -> v_event v = EFinally n ->
    forall k, e_val (v_entry v k) = e_val (s' k).
Proof. exact C05_final_state_lemma. Qed.
Print Assumptions C05_finally_sees_final_state.

(** Two components: the first sets a density in [transform]; both read it in
    [finally]; the second one adds a source and remembers what it read. *)
Definition compA : component Z unit string Z :=
  {| transform := fun d => Call "N"%string (OSet 5%Z) (fun _ => Ret d);
     finally := fun d => Call "S"%string (OGet tt)
                  (fun r => match r with RVal v => Ret v | _ => Raise end) |}.
Definition compB : component Z unit string Z :=
  {| transform := fun d => Call "S"%string (OAdd tt 2%Z) (fun _ => Ret d);
     finally := fun d => Call "N"%string (OGet tt)
                  (fun r => match r with RVal v => Ret v | _ => Raise end) |}.
Notation schedZ := (scheduler_transform castZ Z.add Z.sub Z.opp (fun x => Z.ltb x 0) String.eqb).

Example C05_example :
  (forall c d, In c [compA; compB] -> read_only (finally c d)) /\
  let '(s', cs', vs, ok) := schedZ [(compA, 0%Z); (compB, 0%Z)] empty_store in
  ok = true /\ map snd cs' = [2%Z; 5%Z] /\
  map v_event vs = [ETransform 0; ETransform 1; EFinally 0; EFinally 1].
Proof.
  split.
  - intros c d [<-|[<-|[]]]; cbn; constructor; auto; intros [v| | |]; constructor.
  - vm_compute. auto.
Qed.

(** A component which throws: nothing after it runs. *)
Example C05_example_throw :
  let bad : component Z unit string Z :=
    {| transform := fun _ => Raise; finally := fun d => Ret d |} in
  let '(s', cs', vs, ok) := schedZ [(compA, 0%Z); (bad, 0%Z); (compB, 0%Z)] empty_store in
  ok = false /\ map v_event vs = [ETransform 0; ETransform 1].
Proof. vm_compute. auto. Qed.

(** *** C06 *)
Theorem C06_components_created_are_those_listed :
  forall (known : str -> bool) (type_opt : str -> option str) (text : str),
  exists names comps,
    names_listed text names /\
    components_requested type_opt names comps /\
    (construct known type_opt text = Some comps \/
     construct known type_opt text = None /\ exists t n, In (t, n) comps /\ known t = false) /\
    (forall t n, In (t, n) comps -> t <> [] /\ n <> []).
Proof. exact C06_lemma. Qed.
Print Assumptions C06_components_created_are_those_listed.

(** The specification determines the lists. *)
Theorem C06_listed_names_are_unique :
  forall text names names', names_listed text names -> names_listed text names' -> names = names'.
Proof.
  intros text a b Ha Hb.
  exact (eq_trans (names_listed_unique text a Ha) (eq_sym (names_listed_unique text b Hb))).
Qed.
Print Assumptions C06_listed_names_are_unique.

Theorem C06_requested_components_are_unique :
  forall type_opt names a b,
    components_requested type_opt names a -> components_requested type_opt names b -> a = b.
Proof. exact requested_unique. Qed.
Print Assumptions C06_requested_components_are_unique.

(** Printing a list of names with any padding and reading it back. *)
Theorem C06_padded_list_round_trip :
  forall names pads,
    names <> [] ->
    Forall2 (fun n p => n <> [] /\ stripped trim_chars p n /\ ~ In comma p) names pads ->
    list_items (join comma pads) = names.
Proof. exact C06_roundtrip. Qed.
Print Assumptions C06_padded_list_round_trip.

Example C06_example :
  let opts := fun n => if str_eqb n (lit "d+")
                       then Some (lit "(evolve_density, evolve_pressure,, )") else None in
  construct (fun _ => true) opts (lit "(d+ , collisions ,,(sound_speed))") =
  Some [(lit "evolve_density", lit "d+"); (lit "evolve_pressure", lit "d+");
        (lit "collisions", lit "collisions"); (lit "sound_speed", lit "sound_speed")].
Proof. vm_compute. reflexivity. Qed.

Example C06_round_trip_example :
  Forall2 (fun n p => n <> [] /\ stripped trim_chars p n /\ ~ In comma p)
    [lit "d+"; lit "e"] [lit " ( d+"; lit "e )"].
Proof.
  constructor; [|constructor; [|constructor]].
  - split; [discriminate|]. split; [exact (trim_stripped trim_chars (lit " ( d+"))|].
    vm_compute. intuition discriminate.
  - split; [discriminate|]. split; [exact (trim_stripped trim_chars (lit "e )"))|].
    vm_compute. intuition discriminate.
Qed.

(** *** C07: an evaluation after any sequence of earlier ones (including ones
    which threw) is the same as on a machine with a new state and the same
    private data of the components. *)
Theorem C07_evaluations_are_independent :
  forall (V ty : Type) (cast : ty -> V -> option V) (vadd vsub : V -> V -> V)
         (vneg : V -> V) (invalid : V -> bool)
         (key : Type) (key_eqb : key -> key -> bool) (I : Type)
         (k_time : key) (units : list (key * V))
         (h0 h' : hermes V ty key I) (earlier : list V) (t : V),
    let h := rhs_sequence cast vadd vsub vneg invalid key_eqb k_time units h0 earlier in
    h_components h' = h_components h ->
    rhs cast vadd vsub vneg invalid key_eqb k_time units h t =
    rhs cast vadd vsub vneg invalid key_eqb k_time units h' t.
Proof.
  intros V ty cast vadd vsub vneg invalid key key_eqb I kt units h0 h' earlier t h E.
  exact (rhs_indep V ty cast vadd vsub vneg invalid key key_eqb I kt units h h' t (eq_sym E)).
Qed.
Print Assumptions C07_evaluations_are_independent.

(** The first component of an evaluation sees no read marks at all. *)
Theorem C07_no_read_marks_at_start :
  forall (V ty : Type) (cast : ty -> V -> option V) (vadd vsub : V -> V -> V)
         (vneg : V -> V) (invalid : V -> bool)
         (key : Type) (key_eqb : key -> key -> bool) (I : Type)
         (k_time : key) (units : list (key * V))
         (h : hermes V ty key I) t h' vs ok v k,
    rhs cast vadd vsub vneg invalid key_eqb k_time units h t = (h', vs, ok) ->
    nth_error vs 0 = Some v ->
    e_final (v_entry v k) = false /\ e_final_dom (v_entry v k) = false.
Proof. exact rhs_start_marks. Qed.
Print Assumptions C07_no_read_marks_at_start.

(** Evaluating twice does not throw although every quantity was read, and so
    marked, in the first evaluation. *)
Example C07_example :
  let cs := [(compA, 0%Z); (compB, 0%Z)] in
  let h0 := {| h_state := @empty_store Z string; h_components := cs |} in
  let r := rhs castZ Z.add Z.sub Z.opp (fun x => Z.ltb x 0) String.eqb
             "time"%string [("units:eV"%string, 100%Z)] in
  let '(h1, vs1, ok1) := r h0 1%Z in
  let '(h2, vs2, ok2) := r h1 2%Z in
  ok1 = true /\ ok2 = true /\ e_final (h_state h1 "N"%string) = true /\
  map snd (h_components h2) = [2%Z; 5%Z] /\
  match nth_error vs2 0 with
  | Some v => e_val (v_entry v "N"%string) = None /\ e_val (v_entry v "time"%string) = Some 2%Z
              /\ e_val (v_entry v "units:eV"%string) = Some 100%Z
  | None => False
  end.
Proof. vm_compute. repeat split; reflexivity. Qed.
