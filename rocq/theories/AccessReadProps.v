(** C105: what components look at, what they always do, and which orders are refused. *)

From Coq Require Import List Bool String QArith.
From Verif Require Import OptionsModel AccessModel AccessComponents AccessInputs AccessSpec
  AccessCompose AccessReadSpec AccessReads AccessRefuse.
Import ListNotations.
Open Scope string_scope.
Open Scope list_scope.

(** A component looks only at the entries which AccessReadSpec.v lists for its type, in the
    way listed there; in finally it only reads final values and asks with isSet. *)
Theorem C105_looks : forall F (A : farith F) num ty n c x s s' tr a,
  create ty n c = Some x ->
  (run_method A num s (c_transform x) = (s', tr, a) ->
   forall e l p, In e tr -> looks_at e = Some (l, p) -> may_look ty n l p = true) /\
  (run_method A num s (c_finally x) = (s', tr, a) ->
   forall e l p, In e tr -> looks_at e = Some (l, p) -> may_look_finally ty n l p = true).
Proof. exact @looks_listed. Qed.
Print Assumptions C105_looks.

(** The tables do exclude things. *)
Example C105_looks_case :
  may_look "evolve_pressure" "d+" Interior (PSp "d+" "density") = true /\
  may_look "evolve_pressure" "d+" Whole (PSp "d+" "density") = false /\
  may_look "evolve_pressure" "d+" Interior (PSp "d" "density") = false /\
  may_look_finally "evolve_pressure" "d+" Whole (PSp "d+" "energy_source") = true /\
  may_look_finally "evolve_pressure" "d+" Current (PSp "d+" "energy_source") = false /\
  may_look_finally "collisions" "collisions" Whole (PSp "e" "density") = false.
Proof. repeat split. Qed.

(** A transform which returns has looked at everything, and changed everything, which is
    listed as always looked at and always changed. *)
Theorem C105_always : forall F (A : farith F) num ty n c x s s' tr,
  create ty n c = Some x ->
  run_method A num s (c_transform x) = (s', tr, Some tt) ->
  (forall y, In y (always_looks ty n c) -> exists e, In e tr /\ looks_at e = Some y) /\
  (forall y, In y (always_changes ty n c) -> exists e, In e tr /\ change e = Some y).
Proof. exact @always_done. Qed.
Print Assumptions C105_always.

Definition one_species : cfg := [("d+", [("AA", CQ 2); ("charge", CQ 1)])].

Example C105_always_case :
  (exists x s' tr, create "evolve_density" "d+" one_species = Some x /\
     run_method q_arith (q_num false 0%nat) (initial 0 (fun _ => 1)) (c_transform x)
       = (s', tr, Some tt)) /\
  In (KSet, PSp "d+" "charge") (always_changes "evolve_density" "d+" one_species).
Proof.
  split.
  - vm_compute. eexists _, _, _. split; reflexivity.
  - vm_compute. tauto.
Qed.

(** In an evaluation which completes, no component which always changes an entry comes after
    one which always looks at it as final; the only exceptions are inputs with transform,
    whose copies remove the marks, and the plain assignment of scale_timederivs. *)
Theorem C105_order_partial : forall F (A : farith F) c l cs num t u s' trs,
  listed c = Some l -> construct c = Some cs ->
  rhs A num t u cs = (s', trs, true) ->
  (forall tn, In tn l -> fst tn <> "transform") ->
  forall i j ti ni tj nj lk k p, (i < j)%nat ->
    nth_error l i = Some (ti, ni) -> nth_error l j = Some (tj, nj) ->
    In (lk, p) (always_looks ti ni c) -> In (k, p) (always_changes tj nj c) ->
    tj <> "scale_timederivs" -> blocks lk k = false.
Proof. exact @refused_order. Qed.
Print Assumptions C105_order_partial.

(** For instance: the electron pressure equation comes before the sheath and before the
    ionisation of deuterium. *)
Theorem C105_sheath_last : forall F (A : farith F) c l cs num t u s' trs i j n m q,
  listed c = Some l -> construct c = Some cs ->
  (forall tn, In tn l -> fst tn <> "transform") ->
  nth_error l i = Some ("sheath_boundary", n) -> nth_error l j = Some ("evolve_pressure", "e") ->
  nth_error l q = Some ("d + e -> d+ + 2e", m) ->
  rhs A num t u cs = (s', trs, true) -> (j < i)%nat /\ (j < q)%nat.
Proof. exact sheath_after_pressure. Qed.
Print Assumptions C105_sheath_last.

Definition sheath_case (comps : string) : cfg :=
  [("hermes", [("components", CS comps)]);
   ("d+", [("type", CS "evolve_density, evolve_pressure, evolve_momentum");
           ("AA", CQ 2); ("charge", CQ 1); ("thermal_conduction", CB false)]);
   ("d", [("type", CS "evolve_density, evolve_pressure, evolve_momentum");
          ("AA", CQ 2); ("charge", CQ 0); ("thermal_conduction", CB false)]);
   ("e", [("type", CS "quasineutral, evolve_pressure, zero_current");
          ("AA", CQ (1 # 1836)); ("charge", CQ (-1)); ("thermal_conduction", CB false)]);
   ("iz", [("type", CS "d + e -> d+ + 2e")])].

Example C105_sheath_last_case :
  present (record_of q_arith q_num 0 (fun _ => 1)
             (sheath_case "d+, d, e, sheath_boundary, iz")) = true /\
  listed (sheath_case "d+, sheath_boundary, e") =
    Some [("evolve_density", "d+"); ("evolve_pressure", "d+"); ("evolve_momentum", "d+");
          ("sheath_boundary", "sheath_boundary"); ("quasineutral", "e");
          ("evolve_pressure", "e"); ("zero_current", "e")] /\
  present (construct (sheath_case "d+, d, sheath_boundary, e, iz")) = true /\
  record_of q_arith q_num 0 (fun _ => 1) (sheath_case "d+, d, sheath_boundary, e, iz") = None.
Proof. repeat split; vm_compute; reflexivity. Qed.
