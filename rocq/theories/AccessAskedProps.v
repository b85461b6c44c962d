(** C107: optional entries are asked for before they are read. *)

From Coq Require Import List Bool String QArith.
From Verif Require Import OptionsModel AccessModel AccessComponents AccessInputs AccessSpec
  AccessCompose AccessAskedSpec AccessAsked.
Import ListNotations.
Open Scope string_scope.
Open Scope list_scope.

(** Whenever a component reads one of the entries listed as optional for its type, it has
    seen before that the entry is set: by a query, by an earlier read, or by having written
    it.  This includes calls which end in an exception. *)
Theorem C107_asked_before_read : forall F (A : farith F) num ty n c x s s' tr a,
  create ty n c = Some x ->
  (run_method A num s (c_transform x) = (s', tr, a) ->
   asked (groups_of optional_table ty) n tr) /\
  (run_method A num s (c_finally x) = (s', tr, a) ->
   asked (groups_of optional_finally_table ty) n tr).
Proof. exact @optional_asked. Qed.
Print Assumptions C107_asked_before_read.

Definition some_profile (q : Q) : entry (val Q) := mkEntry (Some (VF q)) false false.

Definition neutrals (more : list (path * entry (val Q))) : st Q :=
  mkSt ([(PSp "d" "temperature", some_profile 2)] ++ more) ["d"] true true.

(** The density is read when it is there, and then it is optional; without it the call
    returns all the same, and does not read it. *)
Example C107_case :
  match create "isothermal" "d" [("d", [("temperature", CQ 1)])] with
  | Some x =>
      let run s := run_method q_arith (q_num false 0%nat) s (c_transform x) in
      snd (run (neutrals [(PSp "d" "density", some_profile 3)])) = Some tt /\
      existsb (fun e => match e with EvRead _ p _ => path_eqb p (PSp "d" "density") | _ => false end)
        (snd (fst (run (neutrals [(PSp "d" "density", some_profile 3)])))) = true /\
      snd (run (neutrals [])) = Some tt
  | None => False
  end /\
  optional (groups_of optional_table "isothermal") "d" (PSp "d" "density") = true.
Proof. vm_compute. repeat split. Qed.

(** A read without a query is not allowed by the definition. *)
Example C107_case_wrong :
  ~ asked (groups_of optional_table "isothermal") "d"
      [EvRead RNoBoundary (PSp "d" "density") (VF (1 : Q))].
Proof.
  intros H. destruct (H [] _ _ _ [] eq_refl eq_refl) as (e & [] & _).
Qed.

(** evolve_momentum.cxx 242-243 asks for "momentum_flux_ylow" and then reads
    "momentum_flow_ylow".  With diagnose on, the entry is read without having been asked for,
    and if only the first of the two is set, then the evaluation ends in an exception. *)
Definition flows_of (q : list string) : st Q :=
  mkSt ([(PSp "d" "AA", mkEntry (Some (VN 2)) false false); (PSp "d" "momentum", some_profile 1);
         (PSp "d" "density", some_profile 1); (PSp "d" "temperature", some_profile 1);
         (PSp "d" "velocity", some_profile 1)]
        ++ map (fun q => (PSp "d" q, some_profile 1)) q) ["d"] true true.

Definition diagnosed : cfg := [("d", [("diagnose", CB true)])].

Theorem C107_momentum_flow_refuted :
  ~ (forall num x s s' tr a, create "evolve_momentum" "d" diagnosed = Some x ->
       run_method q_arith num s (c_finally x) = (s', tr, a) ->
       asked [Own "momentum_flow_ylow"] "d" tr) /\
  match create "evolve_momentum" "d" diagnosed with
  | Some x =>
      let run s := snd (run_method q_arith (q_num false 0%nat) s (c_finally x)) in
      run (flows_of []) = Some tt /\
      run (flows_of ["momentum_flux_ylow"; "momentum_flow_ylow"]) = Some tt /\
      run (flows_of ["momentum_flux_ylow"]) = None
  | None => False
  end.
Proof.
  split; [|vm_compute; repeat split].
  intros H.
  destruct (create "evolve_momentum" "d" diagnosed) as [x|] eqn:Ex; [|vm_compute in Ex; discriminate].
  pose (s := flows_of ["momentum_flux_ylow"; "momentum_flow_ylow"]).
  destruct (run_method q_arith (q_num false 0%nat) s (c_finally x)) as [[s' tr] a] eqn:Er.
  specialize (H _ x s s' tr a eq_refl Er).
  vm_compute in Ex. injection Ex as <-. vm_compute in Er. injection Er as <- <- <-.
  match type of H with asked _ _ ?l =>
    specialize (H (removelast l)) end.
  simpl removelast in H.
  specialize (H _ _ _ [] eq_refl eq_refl).
  destruct H as (e & He & Hs). simpl in He.
  repeat destruct He as [<-|He]; try destruct He; simpl in Hs; try discriminate Hs; try destruct Hs.
Qed.
Print Assumptions C107_momentum_flow_refuted.
