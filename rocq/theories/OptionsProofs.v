From Coq Require Import List Bool Reals Lra Permutation Lia ZArith.
From Verif Require Import OptionsModel OptionsSpec.
Import ListNotations.

Section P.
  Variables (V ty : Type) (cast : ty -> V -> option V)
            (vadd vsub : V -> V -> V) (vneg : V -> V) (invalid : V -> bool)
            (key : Type) (key_eqb : key -> key -> bool).
  Hypothesis key_eqb_spec : forall a b, key_eqb a b = true <-> a = b.

  Notation entry := (entry V).
  Notation op := (op V ty).
  Notation result := (result V).
  Notation step := (step cast vadd vsub vneg invalid).
  Notation step_at := (step_at cast vadd vsub vneg invalid key_eqb).
  Notation run := (run cast vadd vsub vneg invalid key_eqb).

  Lemma upd_same (s : store V key) k e : upd key_eqb s k e k = e.
  Proof.
    unfold upd. destruct (key_eqb k k) eqn:E; [reflexivity|].
    assert (key_eqb k k = true) as H by (apply key_eqb_spec; reflexivity).
    congruence.
  Qed.

  Lemma upd_other (s : store V key) k k' e : k <> k' -> upd key_eqb s k e k' = s k'.
  Proof.
    intros N. unfold upd. destruct (key_eqb k k') eqn:E; [|reflexivity].
    apply key_eqb_spec in E. contradiction.
  Qed.

  Lemma step_at_same s k o : fst (step_at s (k, o)) k = fst (step (s k) o).
  Proof.
    unfold OptionsModel.step_at. cbn [fst snd]. destruct (step (s k) o) as [e r].
    cbn [fst]. apply upd_same.
  Qed.

  Lemma step_at_other s k k' o : k <> k' -> fst (step_at s (k, o)) k' = s k'.
  Proof.
    intros N. unfold OptionsModel.step_at. cbn [fst snd]. destruct (step (s k) o) as [e r].
    cbn [fst]. apply upd_other; exact N.
  Qed.

  Lemma step_at_res s k o : snd (step_at s (k, o)) = snd (step (s k) o).
  Proof.
    unfold OptionsModel.step_at. cbn [fst snd]. destruct (step (s k) o) as [e r]. reflexivity.
  Qed.

  Lemma key_dec (a b : key) : a = b \/ a <> b.
  Proof.
    destruct (key_eqb a b) eqn:E.
    - left. apply key_eqb_spec; exact E.
    - right. intros ->. assert (key_eqb b b = true) as H by (apply key_eqb_spec; reflexivity).
      congruence.
  Qed.

  (** Induction principle: an invariant of one entry under the calls of a history. *)
  Lemma run_invariant (Inv : entry -> Prop) (Allowed : op -> Prop)
        (Good : op -> result -> Prop) k :
    (forall e o, Inv e -> Allowed o ->
                 Inv (fst (step e o)) /\ Good o (snd (step e o))) ->
    forall h s s2 rs,
      Inv (s k) ->
      (forall o, In (k, o) h -> Allowed o) ->
      run s h = (s2, rs) ->
      Inv (s2 k) /\ (forall i o r, observed h rs i k o r -> Good o r).
  Proof.
    intros Hstep. induction h as [|[k' o'] h IH]; intros s s2 rs Hi Ha Hr.
    - cbn in Hr. injection Hr as <- <-. split; [exact Hi|].
      intros i o r [H _]. destruct i; discriminate H.
    - cbn [OptionsModel.run] in Hr.
      destruct (step_at s (k', o')) as [s1 r1] eqn:E1.
      destruct (run s1 h) as [s2' rs'] eqn:E2.
      injection Hr as <- <-.
      assert (Inv (s1 k) /\ (k' = k -> Good o' r1)) as [H1 H2].
      { destruct (key_dec k' k) as [-> | N].
        - pose proof (step_at_same s k o') as Q. rewrite E1 in Q. cbn [fst] in Q.
          pose proof (step_at_res s k o') as Q2. rewrite E1 in Q2. cbn [snd] in Q2.
          rewrite Q, Q2.
          destruct (Hstep (s k) o' Hi) as [A B]; [apply Ha; left; reflexivity|].
          split; [exact A | intros _; exact B].
        - pose proof (step_at_other s k' k o' N) as Q. rewrite E1 in Q. cbn [fst] in Q.
          rewrite Q. split; [exact Hi | intros Hk; contradiction]. }
      destruct (IH s1 s2' rs' H1) as [A B].
      + intros o Ho. apply Ha. right; exact Ho.
      + exact E2.
      + split; [exact A|].
        intros [|i] o r [Hn Hm]; cbn in Hn, Hm.
        * injection Hn as -> ->. injection Hm as <-. apply H2; reflexivity.
        * apply (B i o r). split; assumption.
  Qed.

  Ltac crush_step :=
    repeat match goal with
           | |- context [match e_val ?e with _ => _ end] => destruct (e_val e) eqn:?
           | |- context [match cast ?a ?b with _ => _ end] => destruct (cast a b) eqn:?
           | |- context [if e_final ?e then _ else _] => destruct (e_final e) eqn:?
           | |- context [if e_final_dom ?e then _ else _] => destruct (e_final_dom e) eqn:?
           | |- context [if invalid ?v then _ else _] => destruct (invalid v) eqn:?
           end.

  (** A finalised entry is frozen. *)
  Lemma final_step (x : option V) (e : entry) (o : op) :
    e_val e = x /\ e_final e = true /\ e_final_dom e = true ->
    (e_val (fst (step e o)) = x /\ e_final (fst (step e o)) = true
     /\ e_final_dom (fst (step e o)) = true)
    /\ ((is_write o -> snd (step e o) = RThrow)
        /\ (forall t, reads_as t o ->
              snd (step e o) = match x with
                               | Some v => match cast t v with Some w => RVal w | None => RThrow end
                               | None => RThrow end)
        /\ (asks_presence o ->
              snd (step e o) = RBool (match x with Some _ => true | None => false end))).
  Proof.
    intros (Hv & Hf & Hd). destruct e as [v f d]. cbn in Hv, Hf, Hd. subst v f d.
    destruct o; cbn; unfold get, getNoBoundary, getNonFinal, isSetFinal,
                isSetFinalNoBoundary, set, setBoundary, add, subtract, mark_final,
                mark_final_dom, force, is_set; cbn.
    all: destruct x as [x|]; cbn; unfold set; cbn.
    all: try (destruct (cast t x) eqn:E; cbn; unfold set; cbn).
    all: repeat split; intros; try contradiction; try tauto; try reflexivity; try congruence.
    all: subst; try rewrite E; try reflexivity; try congruence.
  Qed.

  Lemma get_final s k t s1 r :
    step_at s (k, OGet t) = (s1, r) ->
    e_val (s1 k) = e_val (s k) /\ e_final (s1 k) = true /\ e_final_dom (s1 k) = true
    /\ r = match e_val (s k) with
           | Some v => match cast t v with Some w => RVal w | None => RThrow end
           | None => RThrow end.
  Proof.
    intros H. pose proof (step_at_same s k (OGet t)) as Q. rewrite H in Q. cbn [fst] in Q.
    pose proof (step_at_res s k (OGet t)) as Q2. rewrite H in Q2. cbn [snd] in Q2.
    rewrite Q, Q2. cbn. unfold get, getNonFinal, mark_final. cbn.
    destruct (e_val (s k)) as [v|]; cbn; [destruct (cast t v); cbn|]; auto.
  Qed.

  Lemma isset_final s k s1 r :
    step_at s (k, OIsSet) = (s1, r) ->
    e_val (s1 k) = e_val (s k) /\ e_final (s1 k) = true /\ e_final_dom (s1 k) = true
    /\ r = RBool (is_set (s k)).
  Proof.
    intros H. pose proof (step_at_same s k OIsSet) as Q. rewrite H in Q. cbn [fst] in Q.
    pose proof (step_at_res s k OIsSet) as Q2. rewrite H in Q2. cbn [snd] in Q2.
    rewrite Q, Q2. cbn. auto.
  Qed.

  Lemma frozen_run x k h s s2 rs :
    e_val (s k) = x -> e_final (s k) = true -> e_final_dom (s k) = true ->
    run s h = (s2, rs) ->
    e_val (s2 k) = x /\
    forall i o r, observed h rs i k o r ->
      (is_write o -> r = RThrow) /\
      (forall t, reads_as t o ->
         r = match x with
             | Some v => match cast t v with Some w => RVal w | None => RThrow end
             | None => RThrow end) /\
      (asks_presence o -> r = RBool (match x with Some _ => true | None => false end)).
  Proof.
    intros Hv Hf Hd Hr.
    destruct (run_invariant
                (fun e => e_val e = x /\ e_final e = true /\ e_final_dom e = true)
                (fun _ => True)
                (fun o r => (is_write o -> r = RThrow) /\
                   (forall t, reads_as t o ->
                     r = match x with
                         | Some v => match cast t v with Some w => RVal w | None => RThrow end
                         | None => RThrow end) /\
                   (asks_presence o -> r = RBool (match x with Some _ => true | None => false end)))
                k) with (h := h) (s := s) (s2 := s2) (rs := rs) as [A B]; auto.
    - intros e o He _. apply final_step. exact He.
    - split; [apply A | exact B].
  Qed.

  Lemma C01_lemma s k t v s1 :
    step_at s (k, OGet t) = (s1, RVal v) ->
    forall h s2 rs, run s1 h = (s2, rs) ->
    forall i o r, observed h rs i k o r ->
      (is_write o -> r = RThrow) /\ (reads_as t o -> r = RVal v).
  Proof.
    intros Hg h s2 rs Hr i o r Ho.
    destruct (get_final _ _ _ _ _ Hg) as (A & B & C & D).
    destruct (frozen_run _ k h s1 s2 rs A B C Hr) as [_ F].
    destruct (F i o r Ho) as (F1 & F2 & _).
    split; [exact F1|]. intros Hq. rewrite (F2 t Hq). symmetry. exact D.
  Qed.

  (** ** Domain-only reads *)
  Lemma getnb_marks s k t s1 r :
    step_at s (k, OGetNoBoundary t) = (s1, r) ->
    e_val (s1 k) = e_val (s k) /\ e_final_dom (s1 k) = true
    /\ r = match e_val (s k) with
           | Some v => match cast t v with Some w => RVal w | None => RThrow end
           | None => RThrow end.
  Proof.
    intros H. pose proof (step_at_same s k (OGetNoBoundary t)) as Q. rewrite H in Q. cbn [fst] in Q.
    pose proof (step_at_res s k (OGetNoBoundary t)) as Q2. rewrite H in Q2. cbn [snd] in Q2.
    rewrite Q, Q2. cbn. unfold getNoBoundary, getNonFinal, mark_final_dom. cbn.
    destruct (e_val (s k)) as [v|]; cbn; [destruct (cast t v); cbn|]; auto.
  Qed.

  Lemma C02_lemma (D : Type) (dom : V -> D) s k t v s1 :
    step_at s (k, OGetNoBoundary t) = (s1, RVal v) ->
    forall h s2 rs, run s1 h = (s2, rs) ->
    (forall w, In (k, OSetBoundary w) h -> exists w', cast t w = Some w' /\ dom w' = dom v) ->
    forall i o r, observed h rs i k o r ->
      (is_domain_write o -> r = RThrow) /\
      (reads_as t o -> exists v', r = RVal v' /\ dom v' = dom v).
  Proof.
    intros Hg h s2 rs Hr Hb i o r Ho.
    destruct (getnb_marks _ _ _ _ _ Hg) as (A & B & C).
    destruct (run_invariant
                (fun e => e_final_dom e = true /\
                          exists w w', e_val e = Some w /\ cast t w = Some w' /\ dom w' = dom v)
                (fun o => match o with
                          | OSetBoundary w => exists w', cast t w = Some w' /\ dom w' = dom v
                          | _ => True end)
                (fun o r => (is_domain_write o -> r = RThrow) /\
                            (reads_as t o -> exists v', r = RVal v' /\ dom v' = dom v))
                k) with (h := h) (s := s1) (s2 := s2) (rs := rs) as [_ F]; auto.
    - intros [ev ef ed] o0 (Hd & w & w' & Hv & Hc & Hw) Hal. cbn in Hd, Hv. subst ev ed.
      destruct o0; cbn; unfold get, getNoBoundary, getNonFinal, isSetFinal,
                isSetFinalNoBoundary, set, setBoundary, add, subtract, mark_final,
                mark_final_dom, force, is_set; cbn.
      all: try (destruct (cast t0 w) eqn:E; cbn); unfold set; cbn; try (destruct ef; cbn).
      all: repeat split; intros; try contradiction; try reflexivity; subst; try congruence.
      all: try (exists w, w'; auto; fail).
      all: try (exists w'; split; [congruence | assumption]).
      destruct Hal as (u & Hu1 & Hu2). exists v0, u; auto.
    - split; [exact B|].
      rewrite A. destruct (e_val (s k)) as [x|]; [|discriminate C].
      exists x. destruct (cast t x) as [y|] eqn:E; [|discriminate C].
      injection C as ->. exists y; auto.
    - intros o0 Hin. destruct o0; auto. 
    - apply (F i o r Ho).
  Qed.

  (** ** Rejected calls *)
  Lemma throw_keeps_value e o :
    snd (step e o) = RThrow -> e_val (fst (step e o)) = e_val e.
  Proof.
    destruct e as [ev ef ed].
    destruct o; cbn; unfold get, getNoBoundary, getNonFinal, isSetFinal,
                isSetFinalNoBoundary, set, setBoundary, add, subtract, mark_final,
                mark_final_dom, force, is_set; cbn.
    all: destruct ev as [x|]; cbn; unfold set, force; cbn.
    all: try (destruct (cast t x) eqn:E; cbn).
    all: repeat match goal with |- context [if ?b then _ else _] => destruct b; cbn end.
    all: intros; try reflexivity; discriminate.
  Qed.

  Lemma throw_keeps_store s k o s1 :
    step_at s (k, o) = (s1, RThrow) ->
    forall k', e_val (s1 k') = e_val (s k').
  Proof.
    intros H k'. destruct (key_dec k k') as [<-|N].
    - pose proof (step_at_same s k o) as Q. rewrite H in Q. cbn [fst] in Q. rewrite Q.
      apply throw_keeps_value. pose proof (step_at_res s k o) as Q2. rewrite H in Q2. symmetry. exact Q2.
    - pose proof (step_at_other s k k' o N) as Q. rewrite H in Q. cbn [fst] in Q. rewrite Q. reflexivity.
  Qed.

  Lemma presence_final s k b s1 :
    step_at s (k, OIsSet) = (s1, RBool b) ->
    forall h s2 rs, run s1 h = (s2, rs) ->
    forall i o r, observed h rs i k o r ->
      (asks_presence o -> r = RBool b) /\ (b = false -> forall t, reads_as t o -> r = RThrow).
  Proof.
    intros Hg h s2 rs Hr i o r Ho.
    destruct (isset_final _ _ _ _ Hg) as (A & B & C & D).
    destruct (frozen_run _ k h s1 s2 rs A B C Hr) as [_ F].
    destruct (F i o r Ho) as (_ & F2 & F3). injection D as ->.
    split.
    - intros H. rewrite (F3 H). unfold is_set. reflexivity.
    - intros Hb t Ht. rewrite (F2 t Ht). unfold is_set in Hb.
      destruct (e_val (s k)); [discriminate Hb | reflexivity].
  Qed.

  (** Values never disappear: there is no call which unsets. *)
  Lemma presence_true s k o0 s1 :
    (o0 = OIsSet \/ o0 = OIsSetNoBoundary) ->
    step_at s (k, o0) = (s1, RBool true) ->
    forall h s2 rs, run s1 h = (s2, rs) ->
    forall i o r, observed h rs i k o r ->
      asks_presence o -> r = RBool true.
  Proof.
    intros Ho0 Hg h s2 rs Hr i o r Ho.
    destruct (run_invariant
                (fun e => exists v, e_val e = Some v)
                (fun _ => True)
                (fun o r => asks_presence o -> r = RBool true)
                k) with (h := h) (s := s1) (s2 := s2) (rs := rs) as [_ F]; auto.
    - intros [ev ef ed] o1 [v Hv] _. cbn in Hv. subst ev.
      destruct o1; cbn; unfold get, getNoBoundary, getNonFinal, isSetFinal,
                isSetFinalNoBoundary, set, setBoundary, add, subtract, mark_final,
                mark_final_dom, force, is_set; cbn.
      all: try (destruct (cast t v) eqn:E; cbn); unfold set, force.
      all: repeat match goal with |- context [if ?b then _ else _] => destruct b; cbn end.
      all: split; intros; try contradiction; try reflexivity; eexists; reflexivity.
    - pose proof (step_at_same s k o0) as Q. rewrite Hg in Q. cbn [fst] in Q.
      pose proof (step_at_res s k o0) as Q2. rewrite Hg in Q2. cbn [snd] in Q2.
      rewrite Q. destruct Ho0 as [-> | ->]; cbn in *; unfold is_set in Q2;
        destruct (e_val (s k)) as [x|]; try discriminate Q2; exists x; reflexivity.
    - apply (F i o r Ho).
  Qed.
End P.

(** ** Accumulation of sources, values at one grid point (reals) *)
Section Accumulate.
  Local Open Scope R_scope.
  Variables (key : Type) (key_eqb : key -> key -> bool).
  Hypothesis key_eqb_spec : forall a b, key_eqb a b = true <-> a = b.
  Notation stepA := (step_at castR Rplus Rminus Ropp finiteR key_eqb).
  Notation runA := (run castR Rplus Rminus Ropp finiteR key_eqb).

  Definition val0 (e : entry R) : R := match e_val e with Some x => x | None => 0 end.

  Lemma accumulate_step k c (s : store R key) :
    e_final (s k) = false -> e_final_dom (s k) = false ->
    exists s1, stepA s (k, contrib_op c) = (s1, RUnit)
      /\ e_final (s1 k) = false /\ e_final_dom (s1 k) = false
      /\ e_val (s1 k) = Some (val0 (s k) + signed c).
  Proof.
    intros Hf Hd. unfold step_at. cbn [fst snd].
    destruct c as [x|x]; cbn [contrib_op step signed];
      unfold add, subtract, set, castR, finiteR, val0; rewrite Hf, Hd;
      destruct (e_val (s k)) as [y|] eqn:Ev; cbn;
      eexists; (split; [reflexivity|]); rewrite (upd_same _ key key_eqb key_eqb_spec); cbn;
      repeat split; auto; f_equal; lra.
  Qed.

  Lemma accumulate k h :
    forall (s : store R key) s2 rs,
    e_final (s k) = false -> e_final_dom (s k) = false ->
    only_contributes k h ->
    runA s h = (s2, rs) ->
    e_final (s2 k) = false /\ e_final_dom (s2 k) = false
    /\ val0 (s2 k) = val0 (s k) + total (contributions key_eqb k h)
    /\ (e_val (s2 k) = None -> contributions key_eqb k h = [])
    /\ (forall i o r, observed h rs i k o r -> r = RUnit).
  Proof.
    induction h as [|[k' o] h IH]; intros s s2 rs Hf Hd Hc Hr.
    - cbn in Hr. injection Hr as <- <-. cbn. repeat split; auto; try lra.
      intros i o r [H _]. destruct i; discriminate H.
    - cbn [run] in Hr.
      destruct (stepA s (k', o)) as [s1 r1] eqn:E1.
      destruct (runA s1 h) as [s2' rs'] eqn:E2. injection Hr as <- <-.
      assert (only_contributes k h) as Hc' by (intros o' Ho'; apply Hc; right; exact Ho').
      destruct (key_dec key key_eqb key_eqb_spec k' k) as [-> | N].
      + destruct (Hc o (or_introl eq_refl)) as [c ->].
        destruct (accumulate_step k c s Hf Hd) as (s1' & E & F1 & D1 & V1).
        rewrite E in E1. injection E1 as <- <-.
        destruct (IH s1' s2' rs' F1 D1 Hc' E2) as (A1 & A2 & A3 & A4 & A5).
        assert (key_eqb k k = true) as Hkk by (apply key_eqb_spec; reflexivity).
        repeat split; auto.
        * rewrite A3. unfold val0 at 1. rewrite V1. cbn [contributions]. rewrite Hkk.
          destruct c; cbn [contrib_op total signed]; lra.
        * intros Hn. exfalso.
          destruct (run_invariant R unit castR Rplus Rminus Ropp finiteR key key_eqb key_eqb_spec
                      (fun e => exists v, e_val e = Some v) (fun _ => True) (fun _ _ => True) k)
            with (h := h) (s := s1') (s2 := s2') (rs := rs') as [[v Hv] _]; auto.
          -- intros [ev ef ed] o1 [v Hv] _. cbn in Hv. subst ev. split; [|exact I].
             destruct o1; cbn; unfold get, getNoBoundary, getNonFinal, isSetFinal,
                isSetFinalNoBoundary, set, setBoundary, add, subtract, mark_final,
                mark_final_dom, force, is_set; cbn; unfold set, force; cbn;
             repeat match goal with |- context [if ?b then _ else _] => destruct b; cbn end;
             eexists; reflexivity.
          -- eexists; exact V1.
          -- congruence.
        * intros [|i] o r [Hn Hm]; cbn in Hn, Hm.
          -- injection Hm as <-. reflexivity.
          -- apply (A5 i o r). split; assumption.
      + pose proof (step_at_other R unit castR Rplus Rminus Ropp finiteR key key_eqb key_eqb_spec s k' k o N) as Q.
        rewrite E1 in Q. cbn [fst] in Q.
        assert (e_final (s1 k) = false) as F1 by (rewrite Q; exact Hf).
        assert (e_final_dom (s1 k) = false) as D1 by (rewrite Q; exact Hd).
        destruct (IH s1 s2' rs' F1 D1 Hc' E2) as (A1 & A2 & A3 & A4 & A5).
        assert (key_eqb k k' = false) as Hkk.
        { destruct (key_eqb k k') eqn:E; [|reflexivity]. apply key_eqb_spec in E. congruence. }
        cbn [contributions]. rewrite Hkk. rewrite Q in A3.
        repeat split; auto.
        intros [|i] o' r [Hn Hm]; cbn in Hn, Hm.
        * injection Hn as -> ->. contradiction.
        * apply (A5 i o' r). split; assumption.
  Qed.

  Lemma total_perm cs cs' : Permutation cs cs' -> total cs = total cs'.
  Proof. induction 1; cbn; lra. Qed.

  Lemma accumulate_read k h s s2 rs :
    e_final (s k) = false -> e_final_dom (s k) = false ->
    only_contributes k h ->
    runA s h = (s2, rs) ->
    (forall i o r, observed h rs i k o r -> r = RUnit) /\
    (contributions key_eqb k h <> [] ->
     snd (stepA s2 (k, OGet tt)) =
       RVal (match e_val (s k) with Some x => x | None => 0 end
             + total (contributions key_eqb k h))).
  Proof.
    intros Hf Hd Hc Hr. destruct (accumulate k h s s2 rs Hf Hd Hc Hr) as (A1 & A2 & A3 & A4 & A5).
    split; [exact A5|]. intros Hne.
    rewrite (step_at_res R unit castR Rplus Rminus Ropp finiteR key key_eqb). cbn. unfold get, getNonFinal, mark_final, castR. cbn.
    unfold val0 in A3. destruct (e_val (s2 k)) as [x|]; [|destruct Hne; auto].
    cbn. rewrite A3. reflexivity.
  Qed.

  Lemma accumulate_order k h h' s s2 s2' rs rs' :
    e_final (s k) = false -> e_final_dom (s k) = false ->
    only_contributes k h -> only_contributes k h' ->
    Permutation (contributions key_eqb k h) (contributions key_eqb k h') ->
    contributions key_eqb k h <> [] ->
    runA s h = (s2, rs) -> runA s h' = (s2', rs') ->
    snd (stepA s2 (k, OGet tt)) = snd (stepA s2' (k, OGet tt)).
  Proof.
    intros Hf Hd Hc Hc' Hp Hne Hr Hr'.
    destruct (accumulate_read k h s s2 rs Hf Hd Hc Hr) as [_ E].
    destruct (accumulate_read k h' s s2' rs' Hf Hd Hc' Hr') as [_ E'].
    rewrite E by exact Hne. rewrite E'.
    - rewrite (total_perm _ _ Hp). reflexivity.
    - intros H. apply Hne. apply Permutation_nil. rewrite <- H. apply Permutation_sym. exact Hp.
  Qed.
End Accumulate.
