(** Properties C01-C04: the shared-state protocol.  Only property theorems,
    examples meeting their hypotheses, and their assumptions. *)

From Coq Require Import List Bool Reals Lra Permutation String ZArith.
From Verif Require Import OptionsModel OptionsSpec OptionsProofs.
Import ListNotations.
Local Open Scope string_scope.

(** Concrete instance used by the examples: integer values, string paths,
    every cast succeeds, negative values play the role of "non-finite". *)
Definition castZ (_ : unit) (x : Z) : option Z := Some x.
Notation stepZ := (step_at castZ Z.add Z.sub Z.opp (fun x => Z.ltb x 0) String.eqb).
Notation runZ := (run castZ Z.add Z.sub Z.opp (fun x => Z.ltb x 0) String.eqb).

(** *** C01 *)
Theorem C01_read_freezes_value :
  forall (V ty : Type) (cast : ty -> V -> option V) (vadd vsub : V -> V -> V)
         (vneg : V -> V) (invalid : V -> bool)
         (key : Type) (key_eqb : key -> key -> bool)
         (key_eqb_spec : forall a b, key_eqb a b = true <-> a = b)
         (s s1 : store V key) (k : key) (t : ty) (v : V),
    step_at cast vadd vsub vneg invalid key_eqb s (k, OGet t) = (s1, RVal v) ->
    forall h s2 rs,
      run cast vadd vsub vneg invalid key_eqb s1 h = (s2, rs) ->
      forall i o r, observed h rs i k o r ->
        (is_write o -> r = RThrow) /\ (reads_as t o -> r = RVal v).
Proof.
  intros V ty cast vadd vsub vneg invalid key key_eqb Hk s s1 k t v Hg.
  exact (C01_lemma V ty cast vadd vsub vneg invalid key key_eqb Hk s k t v s1 Hg).
Qed.
Print Assumptions C01_read_freezes_value.

(** A density is set, read, and then four components try to change it while
    another entry is written. *)
Example C01_example :
  let s0 := fst (stepZ empty_store ("e:density", OSet 5%Z)) in
  let g := stepZ s0 ("e:density", OGet tt) in
  snd g = RVal 5%Z /\
  snd (runZ (fst g)
         [("e:density", OSet 7%Z); ("i:density", OSet 7%Z); ("e:density", OAdd tt 1%Z);
          ("e:density", OGetNonFinal tt); ("e:density", OSetBoundary 9%Z);
          ("i:density", OAdd tt 1%Z); ("e:density", OGet tt); ("i:density", OGet tt)])
  = [RThrow; RUnit; RThrow; RVal 5%Z; RThrow; RUnit; RVal 5%Z; RVal 8%Z].
Proof. vm_compute. split; reflexivity. Qed.

(** *** C02, partial: holds as long as boundary writes do not touch the interior,
    which the code does not check.  Full statement: without the hypothesis on
    [OSetBoundary]; it is refuted below. *)
Theorem C02_domain_read_stable_partial :
  forall (V ty : Type) (cast : ty -> V -> option V) (vadd vsub : V -> V -> V)
         (vneg : V -> V) (invalid : V -> bool)
         (key : Type) (key_eqb : key -> key -> bool)
         (key_eqb_spec : forall a b, key_eqb a b = true <-> a = b)
         (D : Type) (domain_part : V -> D)
         (s s1 : store V key) (k : key) (t : ty) (v : V),
    step_at cast vadd vsub vneg invalid key_eqb s (k, OGetNoBoundary t) = (s1, RVal v) ->
    forall h s2 rs,
      run cast vadd vsub vneg invalid key_eqb s1 h = (s2, rs) ->
      (forall w, In (k, OSetBoundary w) h ->
                 exists w', cast t w = Some w' /\ domain_part w' = domain_part v) ->
      forall i o r, observed h rs i k o r ->
        (is_domain_write o -> r = RThrow) /\
        (reads_as t o -> exists v', r = RVal v' /\ domain_part v' = domain_part v).
Proof.
  intros V ty cast vadd vsub vneg invalid key key_eqb Hk D dom s s1 k t v Hg.
  exact (C02_lemma V ty cast vadd vsub vneg invalid key key_eqb Hk D dom s k t v s1 Hg).
Qed.
Print Assumptions C02_domain_read_stable_partial.

(** Values with one interior and one boundary cell. *)
Definition castP (_ : unit) (x : Z * Z) : option (Z * Z) := Some x.
Definition addP (a b : Z * Z) := ((fst a + fst b)%Z, (snd a + snd b)%Z).
Definition subP (a b : Z * Z) := ((fst a - fst b)%Z, (snd a - snd b)%Z).
Definition negP (a : Z * Z) := ((- fst a)%Z, (- snd a)%Z).
Notation stepP := (step_at castP addP subP negP (fun _ => false) String.eqb).
Notation runP := (run castP addP subP negP (fun _ => false) String.eqb).

(** Density read without boundaries, then a sheath component sets the boundary
    cell, then the whole field is read. *)
Example C02_example :
  let s0 := fst (stepP empty_store ("e:density", OSet (3, 0)%Z)) in
  let g := stepP s0 ("e:density", OGetNoBoundary tt) in
  snd g = RVal (3, 0)%Z /\
  snd (runP (fst g) [("e:density", OSetBoundary (3, 2)%Z); ("e:density", OAdd tt (1, 1)%Z);
                     ("e:density", OGet tt); ("e:density", OSetBoundary (3, 4)%Z)])
  = [RUnit; RThrow; RVal (3, 2)%Z; RThrow].
Proof. vm_compute. split; reflexivity. Qed.

(** The full statement of C02 fails: [setBoundary] replaces the whole field and
    is accepted after a domain-only read, so a later reader can see different
    interior values. *)
Theorem C02_domain_read_stable_refuted :
  exists (s s1 s2 : store (Z * Z) string) (k : string) (v v' w : Z * Z),
    stepP s (k, OGetNoBoundary tt) = (s1, RVal v) /\
    runP s1 [(k, OSetBoundary w); (k, OGetNoBoundary tt)] = (s2, [RUnit; RVal v']) /\
    fst v <> fst v'.
Proof.
  exists (fst (stepP empty_store ("e:density", OSet (3, 0)%Z))).
  eexists. eexists. exists "e:density", (3, 0)%Z, (4, 0)%Z, (4, 0)%Z.
  split; [reflexivity|]. split; [reflexivity|]. discriminate.
Qed.
Print Assumptions C02_domain_read_stable_refuted.

(** *** C03 *)
Theorem C03_sources_accumulate :
  forall (key : Type) (key_eqb : key -> key -> bool)
         (key_eqb_spec : forall a b, key_eqb a b = true <-> a = b)
         (k : key) (h : list (key * op R unit)) (s s2 : store R key) rs,
    e_final (s k) = false -> e_final_dom (s k) = false ->
    only_contributes k h ->
    run castR Rplus Rminus Ropp finiteR key_eqb s h = (s2, rs) ->
    (forall i o r, observed h rs i k o r -> r = RUnit) /\
    (contributions key_eqb k h <> [] ->
     snd (step_at castR Rplus Rminus Ropp finiteR key_eqb s2 (k, OGet tt)) =
       RVal (match e_val (s k) with Some x => x | None => 0%R end
             + total (contributions key_eqb k h))%R).
Proof. exact accumulate_read. Qed.
Print Assumptions C03_sources_accumulate.

Theorem C03_order_of_components_is_irrelevant :
  forall (key : Type) (key_eqb : key -> key -> bool)
         (key_eqb_spec : forall a b, key_eqb a b = true <-> a = b)
         (k : key) (h h' : list (key * op R unit)) (s s2 s2' : store R key) rs rs',
    e_final (s k) = false -> e_final_dom (s k) = false ->
    only_contributes k h -> only_contributes k h' ->
    Permutation (contributions key_eqb k h) (contributions key_eqb k h') ->
    contributions key_eqb k h <> [] ->
    run castR Rplus Rminus Ropp finiteR key_eqb s h = (s2, rs) ->
    run castR Rplus Rminus Ropp finiteR key_eqb s h' = (s2', rs') ->
    snd (step_at castR Rplus Rminus Ropp finiteR key_eqb s2 (k, OGet tt)) =
    snd (step_at castR Rplus Rminus Ropp finiteR key_eqb s2' (k, OGet tt)).
Proof. exact accumulate_order. Qed.
Print Assumptions C03_order_of_components_is_irrelevant.

(** The same law for integers computes: 3 - 5 + 10 in two orders, starting unset. *)
Example C03_example :
  let h := [("d:density_source", OAdd tt 3%R); ("e:energy_source", OSet 1%R);
            ("d:density_source", OSubtract tt 5%R)] in
  only_contributes "d:density_source" h /\
  contributions String.eqb "d:density_source" h = [Plus 3; Minus 5] /\
  total [Plus 3; Minus 5] = (-2)%R /\
  e_final (@empty_store R string "d:density_source") = false.
Proof.
  cbn. repeat split; try lra.
  intros o [H|[H|[H|[]]]]; try discriminate H; injection H as <-.
  - exists (Plus 3); reflexivity.
  - exists (Minus 5); reflexivity.
Qed.

(** *** C04 *)
Theorem C04_rejected_call_keeps_all_values :
  forall (V ty : Type) (cast : ty -> V -> option V) (vadd vsub : V -> V -> V)
         (vneg : V -> V) (invalid : V -> bool)
         (key : Type) (key_eqb : key -> key -> bool)
         (key_eqb_spec : forall a b, key_eqb a b = true <-> a = b)
         (s : store V key) (k : key) (o : op V ty) (s1 : store V key),
    step_at cast vadd vsub vneg invalid key_eqb s (k, o) = (s1, RThrow) ->
    forall k', e_val (s1 k') = e_val (s k').
Proof. exact throw_keeps_store. Qed.
Print Assumptions C04_rejected_call_keeps_all_values.

(** IS_SET: the answer (true or false) stays correct, and after "false" every read
    throws, whatever other components do. *)
Theorem C04_presence_answer_stays_true :
  forall (V ty : Type) (cast : ty -> V -> option V) (vadd vsub : V -> V -> V)
         (vneg : V -> V) (invalid : V -> bool)
         (key : Type) (key_eqb : key -> key -> bool)
         (key_eqb_spec : forall a b, key_eqb a b = true <-> a = b)
         (s : store V key) (k : key) (b : bool) (s1 : store V key),
    step_at cast vadd vsub vneg invalid key_eqb s (k, OIsSet) = (s1, RBool b) ->
    forall h s2 rs,
      run cast vadd vsub vneg invalid key_eqb s1 h = (s2, rs) ->
      forall i o r, observed h rs i k o r ->
        (asks_presence o -> r = RBool b) /\
        (b = false -> forall t, reads_as t o -> r = RThrow).
Proof. exact presence_final. Qed.
Print Assumptions C04_presence_answer_stays_true.

(** IS_SET_NOBOUNDARY, partial: only a positive answer is guaranteed to stay true. *)
Theorem C04_presence_noboundary_partial :
  forall (V ty : Type) (cast : ty -> V -> option V) (vadd vsub : V -> V -> V)
         (vneg : V -> V) (invalid : V -> bool)
         (key : Type) (key_eqb : key -> key -> bool)
         (key_eqb_spec : forall a b, key_eqb a b = true <-> a = b)
         (s : store V key) (k : key) (o0 : op V ty) (s1 : store V key),
    o0 = OIsSet \/ o0 = OIsSetNoBoundary ->
    step_at cast vadd vsub vneg invalid key_eqb s (k, o0) = (s1, RBool true) ->
    forall h s2 rs,
      run cast vadd vsub vneg invalid key_eqb s1 h = (s2, rs) ->
      forall i o r, observed h rs i k o r -> asks_presence o -> r = RBool true.
Proof. exact presence_true. Qed.
Print Assumptions C04_presence_noboundary_partial.

(** A negative IS_SET_NOBOUNDARY answer can become wrong: a later [setBoundary] on
    the unset entry is accepted. *)
Theorem C04_presence_noboundary_refuted :
  exists (s s1 s2 : store Z string) (k : string),
    stepZ s (k, OIsSetNoBoundary) = (s1, RBool false) /\
    runZ s1 [(k, OSetBoundary 1%Z); (k, OIsSetNoBoundary)] = (s2, [RUnit; RBool true]).
Proof. exists empty_store. eexists. eexists. exists "e:velocity". split; reflexivity. Qed.
Print Assumptions C04_presence_noboundary_refuted.

(** A rejected read, a rejected write, and a presence test which stays false. *)
Example C04_example :
  snd (runZ empty_store
    [("a", OGet tt); ("a", OSet 1%Z); ("a", OIsSet);
     ("b", OSet 2%Z); ("b", OIsSetNoBoundary); ("b", OSet (-1)%Z); ("b", OIsSet);
     ("c", OSet (-1)%Z)])
  = [RThrow; RThrow; RBool false; RUnit; RBool true; RThrow; RBool true; RThrow].
Proof. vm_compute. reflexivity. Qed.
