(** Properties C102-C104: which components provide and use what.  Vocabulary in
    AccessSpec.v; the shipped inputs are in AccessInputs.v. *)

From Coq Require Import List Bool String QArith Permutation.
From Verif Require Import OptionsModel AccessModel AccessComponents AccessInputs AccessSpec
  AccessProofs AccessTables AccessCompose AccessOrderSpec AccessOrder.
Import ListNotations.
Open Scope string_scope.
Open Scope list_scope.

(** ** C102: the shipped inputs *)

(** Every input file in /repo can be constructed, and its right hand side evaluated: no component
    asks for something which has not been provided, writes something which has been read as
    final, or reads a field as a number; whatever the fields are, as long as they are
    finite, at all times and for all units. *)
Theorem C102_shipped : forall F (A : farith F) num t u name c,
  all_finite A -> In (name, c) shipped_inputs ->
  exists cs s trs, construct c = Some cs /\ rhs A num t u cs = (s, trs, true).
Proof. exact @shipped_evaluate. Qed.
Print Assumptions C102_shipped.

Example C102_shipped_case :
  List.length shipped_inputs = 64%nat /\ all_finite q_arith /\
  In ("examples/1D-recycling/BOUT.inp", inp_examples_1D_recycling) shipped_inputs /\
  listed inp_examples_1D_recycling <> None.
Proof.
  split; [reflexivity|]. split; [intros f; reflexivity|]. split; [|discriminate].
  unfold shipped_inputs. repeat (first [left; reflexivity|right]).
Qed.

(** Values which one component sets and another sets again: only in three inputs, twice
    because the electromagnetic component corrects velocities (by design). *)
Theorem C102_set_once_partial : forall F (A : farith F) num t u,
  all_finite A ->
  map fst (records (fun c => @set_twice c F) A num t u shipped_inputs) =
  ["examples/linear/annulus-isothermal-he-emag/BOUT.inp";
   "examples/stellarator-2pt-model/BOUT.inp";
   "tests/integrated/alfven-wave/data/BOUT.inp"].
Proof. exact @set_twice_inputs. Qed.
Print Assumptions C102_set_once_partial.

(** In the other one, the electron velocity found from zero current is thrown away by
    evolve_momentum (component 7); nobody has read it by then, and nothing is reported. *)
Theorem C102_set_once_refuted : exists name c,
  In (name, c) shipped_inputs /\
  forall F (A : farith F) num t u, all_finite A ->
  exists trs, record_of A num t u c = Some trs /\
    set_twice c trs = [(("zero_current", "e"), ("evolve_momentum", "e"), PSp "e" "velocity")] /\
    forall tr e, In tr (firstn 8 trs) -> In e tr ->
      match e with EvRead _ p _ => p <> PSp "e" "velocity" | _ => True end.
Proof. exact velocity_thrown_away. Qed.
Print Assumptions C102_set_once_refuted.

(** Profiles which a component leaves out because they are not set, although a later component
    provides them: only in two inputs. *)
Theorem C102_overlooked_partial : forall F (A : farith F) num t u,
  all_finite A ->
  map fst (records (fun c => @overlooked c F) A num t u shipped_inputs) =
  ["examples/1D-hydrogen-equalT/BOUT.inp";
   "examples/solkit-comparison/single-temperature/BOUT.inp"].
Proof. exact @overlooked_inputs. Qed.
Print Assumptions C102_overlooked_partial.

(** There, noflow_boundary comes before the component which copies the temperature of the
    electrons to the ions, and does nothing to the ion temperature. *)
Theorem C102_overlooked_refuted : forall F (A : farith F) num t u,
  all_finite A ->
  exists trs, record_of A num t u inp_examples_1D_hydrogen_equalT = Some trs /\
    In (("noflow_boundary", "d+"), ("transform", "equilibriate"), PSp "d+" "temperature")
       (overlooked inp_examples_1D_hydrogen_equalT trs).
Proof. exact @temperature_overlooked. Qed.
Print Assumptions C102_overlooked_refuted.

(** ** C103: what is read has been provided *)

(** Every value a component gets, and every answer to isSet, is that of the last write
    before; at the end every entry holds what was written to it last. *)
Theorem C103_record : forall F (A : farith F) num t u cs s' trs ok,
  rhs A num t u cs = (s', trs, ok) ->
  (forall pre e post, List.concat trs = pre ++ e :: post ->
     truthful (latest (initially t u) pre) e) /\
  (ok = true -> forall p, value s' p = latest (initially t u) (List.concat trs) p).
Proof. exact @record_and_values. Qed.
Print Assumptions C103_record.

(** A component changes only what the table of AccessSpec.v lists for its type, in the way
    listed there, on every state, and also if it throws. *)
Theorem C103_effects : forall F (A : farith F) num ty n c x s s' tr a,
  create ty n c = Some x ->
  run_method A num s (c_transform x) = (s', tr, a) ->
  forall e k p, In e tr -> change e = Some (k, p) -> may ty n k p = true.
Proof. exact @changes_listed. Qed.
Print Assumptions C103_effects.

Example C103_effects_case :
  (exists x, create "evolve_density" "d+" [("d+", [("AA", CQ 2); ("charge", CQ 1)])] = Some x) /\
  may "evolve_density" "d+" KSet (PSp "d+" "density") = true /\
  may "evolve_density" "d+" KSet (PSp "d" "density") = false /\
  may "collisions" "collisions" KSet (PSp "d" "energy_source") = false /\
  may "collisions" "collisions" KAdd (PSp "d" "energy_source") = true /\
  may "d + e -> d+ + 2e" "reactions" KAdd (PSp "d+" "density") = false.
Proof. split; [eexists; reflexivity|]. repeat split. Qed.

(** finally changes nothing. *)
Theorem C103_finally : forall F (A : farith F) num ty n c x s s' tr a,
  create ty n c = Some x ->
  run_method A num s (c_finally x) = (s', tr, a) ->
  (forall e, In e tr -> change e = None) /\ (forall p, value s' p = value s p).
Proof. exact @finally_changes_nothing. Qed.
Print Assumptions C103_finally.

(** If an evaluation completes, then everything which the table of needs lists for a
    component comes from the start of the evaluation or from a component listed
    earlier; for finally, from any component of the list. *)
Theorem C103_provided : forall F (A : farith F) c l cs num t u s' trs,
  listed c = Some l -> construct c = Some cs ->
  rhs A num t u cs = (s', trs, true) ->
  forall i ty n p, nth_error l i = Some (ty, n) ->
    (In p (transform_needs ty n c) -> provided (F := F) (initially t u) (firstn i l) p) /\
    (In p (finally_needs ty n c) -> provided (F := F) (initially t u) l p).
Proof. exact @needs_provided. Qed.
Print Assumptions C103_provided.

(** Hence, for instance: evolve_pressure needs a component which sets the density, before it. *)
Theorem C103_pressure_needs_density : forall F (A : farith F) c l cs num t u s' trs i n,
  listed c = Some l -> construct c = Some cs ->
  rhs A num t u cs = (s', trs, true) ->
  nth_error l i = Some ("evolve_pressure", n) ->
  exists ty m, In (ty, m) (firstn i l) /\ may_change ty m (PSp n "density") = true.
Proof. exact @pressure_needs_density. Qed.
Print Assumptions C103_pressure_needs_density.

(** ... and an input with both in the wrong order can be constructed, but not evaluated. *)
Example C103_wrong_order :
  present (construct pressure_first) = true /\
  record_of q_arith q_num 0 (fun _ => 1) pressure_first = None.
Proof. split; vm_compute; reflexivity. Qed.

(** The electromagnetic component throws whenever some species has no charge, however
    many charged species there are ... *)
Theorem C103_electromagnetic_partial : forall F (A : farith F) name c x num s n,
  create "electromagnetic" name c = Some x ->
  In n (s_names s) -> lookup s (PSp n "charge") = None ->
  snd (run_method A num s (c_transform x)) = None.
Proof. exact @electromagnetic_needs_charge. Qed.
Print Assumptions C103_electromagnetic_partial.

(** ... although a species without charge is meant to be left out: a plasma which evaluates no
    longer does when a neutral gas is added. *)
Theorem C103_electromagnetic_refuted :
  (exists trs, record_of q_arith q_num 0 (fun _ => 1) charged_only = Some trs) /\
  (exists cs, construct with_neutrals = Some cs) /\
  record_of q_arith q_num 0 (fun _ => 1) with_neutrals = None.
Proof. exact neutrals_stop_electromagnetic. Qed.
Print Assumptions C103_electromagnetic_refuted.

(** ** C104: order *)

(** finally does not depend on the order of components: each reads what it would read if it were
    called first, and the loop completes if and only if each of them returns when called
    first. *)
Theorem C104_finally : forall F (A : farith F) c cs num s,
  construct c = Some cs ->
  let '(s', trs, ok) := run_loop A num c_finally 0 cs s in
  (forall p, value s' p = value s p) /\
  (ok = true <-> forall i x, nth_error cs i = Some x -> snd (alone A num s i x) = true) /\
  (ok = true -> forall i x, nth_error cs i = Some x ->
     nth_error trs i = Some (fst (alone A num s i x))).
Proof. exact @finally_order. Qed.
Print Assumptions C104_finally.

(** After an entry has been read as final, or asked for with IS_SET, set, add, subtract and
    setBoundary no longer change it; after a read without boundaries only setBoundary does. *)
Theorem C104_no_write_partial : forall F (A : farith F) num t u cs s' trs ok pre e mid w p v post,
  rhs A num t u cs = (s', trs, ok) ->
  List.concat trs = pre ++ e :: mid ++ EvWrite w p v :: post ->
  (marks_all e p = true -> existsb (copies_to p) mid = true) /\
  (marks_interior e p = true -> w = WBoundary \/ existsb (copies_to p) mid = true).
Proof. exact @writes_after_marks. Qed.
Print Assumptions C104_no_write_partial.

(** What a component reads with get is what the entry holds at the end, unless a plain
    assignment or the transform component replaces it. *)
Theorem C104_final_read_partial : forall F (A : farith F) num t u cs s' trs pre p v post,
  rhs A num t u cs = (s', trs, true) ->
  List.concat trs = pre ++ EvRead RFinal p v :: post ->
  existsb (forces_or_copies p) post = false ->
  value s' p = Some v.
Proof. exact @final_read_is_final. Qed.
Print Assumptions C104_final_read_partial.

(** transform does replace what has been read as final. *)
Theorem C104_final_read_refuted : exists c cs s' trs v w,
  construct c = Some cs /\ rhs q_arith q_num 0 (fun _ => 1) cs = (s', trs, true) /\
  In (EvRead RFinal (PSp "e" "pressure") v) (List.concat trs) /\
  value s' (PSp "e" "pressure") = Some w /\ v <> w.
Proof. exact copy_after_final_read. Qed.
Print Assumptions C104_final_read_refuted.

(** A wrong order is not always reported: electrons by quasineutrality, listed before the ions,
    are evaluated without them, because quasineutral asks with plain isSet. *)
Theorem C104_silent_order_refuted :
  (exists trs, record_of q_arith q_num 0 (fun _ => 1) electrons_last = Some trs /\
     exists v, In (EvRead RNoBoundary (PSp "i" "density") v) (List.concat trs)) /\
  (exists trs, record_of q_arith q_num 0 (fun _ => 1) electrons_first = Some trs /\
     forall m v, ~ In (EvRead m (PSp "i" "density") v) (List.concat trs)).
Proof. exact electrons_without_ions. Qed.
Print Assumptions C104_silent_order_refuted.

(** Species can be listed in any order, as far as their components only use their own species
    ([own_types]): the same components throw or not, every entry ends with the same value, and
    every component makes the same calls with the same results. *)
Theorem C104_species_order : forall F (A : farith F) c l l' cs comp_num t u s trs ok,
  reordered l l' -> create_list c l = Some cs ->
  rhs A (placed comp_num l) t u cs = (s, trs, ok) ->
  exists cs' s' trs', create_list c l' = Some cs' /\
    rhs A (placed comp_num l') t u cs' = (s', trs', ok) /\
    (ok = true -> (forall p, value s p = value s' p) /\
                  Permutation (combine (l ++ l) trs) (combine (l' ++ l') trs')).
Proof. exact @reordered_same_result. Qed.
Print Assumptions C104_species_order.

Theorem C104_species_exchanged :
  forall F (A : farith F) c pre al bl post n m cs comp_num t u s trs ok,
  n <> m ->
  (forall a, In a al -> snd a = n /\ In (fst a) own_types) ->
  (forall b, In b bl -> snd b = m /\ In (fst b) own_types) ->
  create_list c (pre ++ al ++ bl ++ post) = Some cs ->
  rhs A (placed comp_num (pre ++ al ++ bl ++ post)) t u cs = (s, trs, ok) ->
  exists cs' s' trs', create_list c (pre ++ bl ++ al ++ post) = Some cs' /\
    rhs A (placed comp_num (pre ++ bl ++ al ++ post)) t u cs' = (s', trs', ok) /\
    (ok = true -> forall p, value s p = value s' p).
Proof. exact @species_exchanged. Qed.
Print Assumptions C104_species_exchanged.

Definition ion_part : list (string * string) :=
  map (fun t => (t, "d+")) ["evolve_density"; "evolve_pressure"; "evolve_momentum"; "noflow_boundary";
                            "upstream_density_feedback"].
Definition atom_part : list (string * string) :=
  map (fun t => (t, "d")) ["evolve_density"; "evolve_pressure"; "evolve_momentum"; "noflow_boundary"].

Example C104_species_exchanged_case : exists post,
  listed inp_examples_1D_recycling = Some ([] ++ ion_part ++ atom_part ++ post) /\
  List.length post = 12%nat /\
  (forall a, In a ion_part -> snd a = "d+" /\ In (fst a) own_types) /\
  (forall b, In b atom_part -> snd b = "d" /\ In (fst b) own_types) /\
  present (create_list inp_examples_1D_recycling ([] ++ ion_part ++ atom_part ++ post)) = true.
Proof.
  exists (match listed inp_examples_1D_recycling with Some l => skipn 9 l | None => [] end).
  split; [vm_compute; reflexivity|]. split; [vm_compute; reflexivity|].
  split; [|split; [|vm_compute; reflexivity]];
    intros a Ha; unfold ion_part, atom_part in Ha; simpl in Ha;
    repeat (destruct Ha as [<-|Ha]; [split; [reflexivity|simpl; tauto]|]); contradiction.
Qed.
