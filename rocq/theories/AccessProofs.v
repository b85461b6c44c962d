(** Lemmas about the machine of AccessModel.v: paths, the record of an execution, marks,
    erasure of the fields. *)

From Coq Require Import List Bool String QArith Lia.
From Verif Require Import OptionsModel AccessModel AccessComponents AccessSpec.
Import ListNotations.
Open Scope string_scope.
Open Scope list_scope.

(** ** Paths and leaves *)

Lemma path_eqb_refl p : path_eqb p p = true.
Proof. destruct p; simpl; rewrite ?String.eqb_refl; reflexivity. Qed.

Lemma path_eqb_eq p q : path_eqb p q = true -> p = q.
Proof.
  destruct p, q; simpl; intros H; try discriminate H.
  - apply String.eqb_eq in H; congruence.
  - apply String.eqb_eq in H; congruence.
  - apply String.eqb_eq in H; congruence.
  - apply andb_prop in H as [H1 H2].
    apply String.eqb_eq in H1; apply String.eqb_eq in H2; congruence.
Qed.

Lemma path_eqb_spec p q : reflect (p = q) (path_eqb p q).
Proof.
  destruct (path_eqb p q) eqn:E; constructor.
  - apply path_eqb_eq; exact E.
  - intros ->. rewrite path_eqb_refl in E; discriminate.
Qed.

Section Leaves.
  Context {F : Type}.

  Lemma find_put_leaf (l : list (path * leaf F)) p e q :
    find_leaf (put_leaf l p e) q = if path_eqb q p then Some e else find_leaf l q.
  Proof.
    induction l as [|[p' e'] l IH]; simpl.
    - reflexivity.
    - destruct (path_eqb_spec p p') as [<-|Hn]; simpl.
      + destruct (path_eqb q p); reflexivity.
      + destruct (path_eqb_spec q p') as [->|Hq].
        * destruct (path_eqb_spec p' p) as [E|_]; [congruence|reflexivity].
        * exact IH.
  Qed.

  Lemma lookup_put (s : st F) p e q :
    lookup (put s p e) q = if path_eqb q p then Some e else lookup s q.
  Proof.
    unfold lookup, put; destruct p; simpl; apply find_put_leaf.
  Qed.

  Lemma lof_put (s : st F) p e q :
    leaf_or_fresh (put s p e) q = if path_eqb q p then e else leaf_or_fresh s q.
  Proof. unfold leaf_or_fresh. rewrite lookup_put. destruct (path_eqb q p); reflexivity. Qed.

  Lemma lookup_replace (s : st F) p e q :
    lookup (replace s p e) q = if path_eqb q p then Some e else lookup s q.
  Proof. apply find_put_leaf. Qed.

  Lemma lof_replace (s : st F) p e q :
    leaf_or_fresh (replace s p e) q = if path_eqb q p then e else leaf_or_fresh s q.
  Proof. unfold leaf_or_fresh. rewrite lookup_replace. destruct (path_eqb q p); reflexivity. Qed.

  Lemma value_lof (s : st F) p : value s p = e_val (leaf_or_fresh s p).
  Proof. unfold value, leaf_or_fresh. destruct (lookup s p); reflexivity. Qed.

  Lemma lof_lookup (s : st F) p e : lookup s p = Some e -> leaf_or_fresh s p = e.
  Proof. unfold leaf_or_fresh. intros ->. reflexivity. Qed.

  Lemma lof_none (s : st F) p : lookup s p = None -> leaf_or_fresh s p = fresh.
  Proof. unfold leaf_or_fresh. intros ->. reflexivity. Qed.

  Lemma lof_names (l : list (path * leaf F)) n n' b b' c c' p :
    leaf_or_fresh (mkSt l n b c) p = leaf_or_fresh (mkSt l n' b' c') p.
  Proof. reflexivity. Qed.
End Leaves.

(** ** The abstract memory *)

(** Effect of an event on the entry at every path. *)
Definition entry_after {F} (m : path -> leaf F) (e : event F) (p : path) : leaf F :=
  match e with
  | EvRead RFinal q _ => if path_eqb p q then mark_final (m p) else m p
  | EvRead RNoBoundary q _ => if path_eqb p q then mark_final_dom (m p) else m p
  | EvRead RNonFinal _ _ => m p
  | EvQuery nb q _ =>
      if path_eqb p q then (if nb then mark_final_dom (m p) else mark_final (m p)) else m p
  | EvHas _ _ => m p
  | EvWrite _ q v => if path_eqb p q then force v (m p) else m p
  | EvForce q v => if path_eqb p q then force v (m p) else m p
  | EvCopy l r _ => if path_eqb p l then m r else m p
  end.

(** What holds when an event happens. *)
Definition event_ok {F} (m : path -> leaf F) (e : event F) : Prop :=
  match e with
  | EvRead _ p v => e_val (m p) = Some v
  | EvQuery _ p b => b = present (e_val (m p))
  | EvHas p b => b = present (e_val (m p))
  | EvWrite WBoundary p _ => e_final (m p) = false
  | EvWrite _ p _ => e_final (m p) = false /\ e_final_dom (m p) = false
  | EvForce _ _ => True
  | EvCopy _ r v => e_val (m r) = v
  end.

Fixpoint trace_ok {F} (m : path -> leaf F) (tr : list (event F)) : Prop :=
  match tr with
  | [] => True
  | e :: tr' => event_ok m e /\ trace_ok (entry_after m e) tr'
  end.

Definition after {F} (m : path -> leaf F) (tr : list (event F)) : path -> leaf F :=
  fold_left entry_after tr m.

Section Trace.
  Context {F : Type}.
  Implicit Types m : path -> leaf F.

  Lemma entry_after_ext m m' e :
    (forall p, m p = m' p) -> forall p, entry_after m e p = entry_after m' e p.
  Proof.
    intros H p. destruct e as [md q v|nb q b|q b|w q v|q v|l r v]; simpl; rewrite ?H; try reflexivity.
  Qed.

  Lemma event_ok_ext m m' e : (forall p, m p = m' p) -> event_ok m e -> event_ok m' e.
  Proof.
    intros H. destruct e as [md q v|nb q b|q b|w q v|q v|l r v]; simpl; rewrite <- ?H; auto.
  Qed.

  Lemma trace_ok_ext tr : forall m m', (forall p, m p = m' p) -> trace_ok m tr -> trace_ok m' tr.
  Proof.
    induction tr as [|e tr IH]; simpl; intros m m' H Ht; [exact I|].
    destruct Ht as [H1 H2]. split.
    - apply (event_ok_ext m m' e H H1).
    - apply (IH _ _ (entry_after_ext m m' e H) H2).
  Qed.

  Lemma after_ext tr : forall m m', (forall p, m p = m' p) -> forall p, after m tr p = after m' tr p.
  Proof.
    induction tr as [|e tr IH]; simpl; intros m m' H p; [apply H|].
    apply IH. apply entry_after_ext. exact H.
  Qed.

  Lemma after_app m a b : after m (a ++ b) = after (after m a) b.
  Proof. apply fold_left_app. Qed.

  Lemma trace_ok_app a : forall m b, trace_ok m (a ++ b) <-> trace_ok m a /\ trace_ok (after m a) b.
  Proof.
    induction a as [|e a IH]; simpl; intros m b; [tauto|].
    rewrite (IH (entry_after m e) b). unfold after at 2; simpl. tauto.
  Qed.
End Trace.

(** ** Every execution has a consistent record *)

Section Exec.
  Context {F : Type}.
  Variables (fadd fsub : F -> F -> F) (fneg : F -> F) (fconst : Q -> F) (finv : F -> bool).
  Notation step1 := (astep fadd fsub fneg fconst finv).
  Notation run1 := (exec fadd fsub fneg fconst finv).

  Lemma do_read_val m t (e e' : leaf F) w :
    do_read fconst m t e = (e', RVal w) -> exists v, e_val e = Some v.
  Proof.
    destruct m; unfold do_read, get, getNoBoundary, getNonFinal; simpl;
      destruct (e_val e) as [v|]; try discriminate; intros _; eauto.
  Qed.

  Lemma do_read_entry m t (e e' : leaf F) w :
    do_read fconst m t e = (e', RVal w) ->
    e' = match m with
         | RFinal => mark_final e | RNoBoundary => mark_final_dom e | RNonFinal => e
         end.
  Proof.
    destruct m; unfold do_read, get, getNoBoundary, getNonFinal; simpl;
      destruct (e_val e) as [v|]; try discriminate;
      destruct (cast fconst t v); intros H; inversion H; reflexivity.
  Qed.

  Lemma set_ok (v : val F) e e' :
    OptionsModel.set (invalid finv) v e = (e', RUnit) ->
    e_final e = false /\ e_final_dom e = false /\ e' = force v e.
  Proof.
    unfold OptionsModel.set. destruct (e_final e); [discriminate|].
    destruct (e_final_dom e); [discriminate|]. destruct (invalid finv v); [discriminate|].
    intros H; inversion H; auto.
  Qed.

  Lemma do_write_ok w t v (e e' : leaf F) :
    do_write fadd fsub fneg fconst finv w t v e = (e', RUnit) ->
    exists v', e' = force v' e /\ e_final e = false /\
               (w <> WBoundary -> e_final_dom e = false).
  Proof.
    destruct w; simpl.
    - intros H; apply set_ok in H as (H1 & H2 & H3). exists v; auto.
    - unfold setBoundary. destruct (e_final e) eqn:E; [discriminate|].
      intros H; inversion H; subst. exists v. split; [reflexivity|].
      split; [reflexivity|]. intros C; elim C; reflexivity.
    - unfold add. destruct (e_val e) as [old|].
      + destruct (cast fconst t old) as [w|]; [|discriminate].
        intros H; apply set_ok in H as (H1 & H2 & H3). eauto.
      + intros H; apply set_ok in H as (H1 & H2 & H3). eauto.
    - unfold subtract. destruct (e_val e) as [old|].
      + destruct (cast fconst t old) as [w|]; [|discriminate].
        intros H; apply set_ok in H as (H1 & H2 & H3). eauto.
      + intros H; apply set_ok in H as (H1 & H2 & H3). eauto.
  Qed.

  Lemma astep_throws fld s o s1 ev : step1 fld s o = (s1, None, ev) -> ev = [].
  Proof.
    destruct o; simpl; intros H; try (inversion H; reflexivity).
    - destruct (const && negb (s_species s)); inversion H; reflexivity.
    - destruct (lookup s p) as [e|]; [|inversion H; reflexivity].
      destruct (do_read fconst m t e) as [e' r].
      destruct r, (e_val e); inversion H; reflexivity.
    - destruct (lookup s p) as [e|]; [inversion H|].
      destruct const; inversion H; reflexivity.
    - destruct (do_write _ _ _ _ _ _ _ _ _) as [e' r]. destruct r, (e_val e'); inversion H; reflexivity.
  Qed.

  Lemma astep_record fld s o s1 r ev :
    step1 fld s o = (s1, Some r, ev) ->
    trace_ok (leaf_or_fresh s) ev /\
    forall p, leaf_or_fresh s1 p = after (leaf_or_fresh s) ev p.
  Proof.
    destruct o as [n| |c|n| |m t p|c nb p|p|w src p|p|l r0]; simpl; intros H.
    - inversion H; subst; split; [exact I|]; reflexivity.
    - inversion H; subst; split; [exact I|]; reflexivity.
    - destruct (c && negb (s_species s)); inversion H; subst; split; try exact I; reflexivity.
    - inversion H; subst; split; [exact I|]; reflexivity.
    - inversion H; subst; split; [exact I|]; reflexivity.
    - destruct (lookup s p) as [e|] eqn:El; [|inversion H].
      apply lof_lookup in El.
      destruct (do_read fconst m t e) as [e' rr] eqn:Ed.
      destruct rr as [w|b| |]; try (destruct (e_val e); inversion H; fail).
      destruct (e_val e) as [v|] eqn:Ev; inversion H; subst s1 r ev; clear H.
      apply do_read_entry in Ed. split.
      + simpl. rewrite El. auto.
      + intros q. rewrite lof_replace. simpl.
        destruct m; simpl; destruct (path_eqb_spec q p) as [->|]; rewrite ?El; auto.
    - destruct (lookup s p) as [e|] eqn:El.
      + apply lof_lookup in El. inversion H; subst s1 r ev; clear H. split.
        * simpl. split; [|exact I]. rewrite El. unfold is_set, present. reflexivity.
        * intros q. rewrite lof_replace. simpl.
          destruct (path_eqb_spec q p) as [->|]; rewrite ?El; reflexivity.
      + destruct c; [inversion H|]. apply lof_none in El.
        inversion H; subst s1 r ev; clear H. split.
        * simpl. split; [|exact I]. rewrite El. reflexivity.
        * intros q. rewrite lof_put. simpl.
          destruct (path_eqb_spec q p) as [->|]; rewrite ?El; reflexivity.
    - inversion H; subst; clear H. split; [|reflexivity].
      simpl. rewrite value_lof. split; [|exact I].
      unfold present. destruct (e_val (leaf_or_fresh s1 p)); reflexivity.
    - destruct (do_write _ _ _ _ _ _ _ _ _) as [e' rr] eqn:Ed.
      destruct rr; try (destruct (e_val e'); inversion H; fail).
      apply do_write_ok in Ed as (v' & He & Hf & Hd).
      destruct (e_val e') as [v2|] eqn:Ev; inversion H; subst s1 r ev; clear H.
      subst e'. simpl in Ev. inversion Ev; subst v2. split.
      + simpl. split; [|exact I]. destruct w; auto; split; auto; apply Hd; discriminate.
      + intros q. rewrite lof_put. simpl. destruct (path_eqb_spec q p) as [->|]; reflexivity.
    - inversion H; subst; clear H. split; [simpl; auto|].
      intros q. rewrite lof_put. simpl. destruct (path_eqb_spec q p) as [->|]; reflexivity.
    - inversion H; subst; clear H. split; [simpl; auto|].
      intros q. rewrite !lof_put. simpl.
      destruct (path_eqb_spec q l) as [->|]; [reflexivity|].
      destruct (path_eqb_spec q r0) as [->|]; reflexivity.
  Qed.

  Lemma exec_record {A} (m : prog A) : forall num n vs s s' tr a,
    run1 num n vs s m = (s', tr, a) ->
    trace_ok (leaf_or_fresh s) tr /\
    (a <> None -> forall p, leaf_or_fresh s' p = after (leaf_or_fresh s) tr p).
  Proof.
    induction m as [x| |o k IH]; simpl; intros num n vs s s' tr a H.
    - inversion H; subst; split; [exact I|]; reflexivity.
    - inversion H; subst; split; [exact I|]. intros C; elim C; reflexivity.
    - destruct (step1 (num n vs) s o) as [[s1 r] ev] eqn:Es.
      destruct r as [r|].
      + destruct (run1 num (S n) (vs ++ reads_of ev) s1 (k r)) as [[s2 tr2] a2] eqn:Ee.
        inversion H; subst s' tr a; clear H.
        apply astep_record in Es as [H1 H2]. apply IH in Ee as [H3 H4]. split.
        * apply trace_ok_app. split; [exact H1|].
          apply (trace_ok_ext _ _ _ H2 H3).
        * intros Ha p. rewrite after_app. rewrite (H4 Ha p). apply after_ext. exact H2.
      + inversion H; subst s' tr a; clear H.
        pose proof (astep_throws _ _ _ _ _ Es) as ->. split; [exact I|].
        intros C; elim C; reflexivity.
  Qed.
End Exec.

Section Eval.
  Context {F : Type}.
  Variable A : farith F.

  Lemma run_method_record num s m s' tr a :
    run_method A num s m = (s', tr, a) ->
    trace_ok (leaf_or_fresh s) tr /\
    (a <> None -> forall p, leaf_or_fresh s' p = after (leaf_or_fresh s) tr p).
  Proof. apply exec_record. Qed.

  Lemma run_loop_record meth : forall cs num i s s' trs ok,
    run_loop A num meth i cs s = (s', trs, ok) ->
    trace_ok (leaf_or_fresh s) (List.concat trs) /\
    (ok = true -> forall p, leaf_or_fresh s' p = after (leaf_or_fresh s) (List.concat trs) p).
  Proof.
    induction cs as [|c cs IH]; simpl; intros num i s s' trs ok H.
    - inversion H; subst; split; [exact I|]; reflexivity.
    - destruct (run_method A (num i) s (meth c)) as [[s1 tr] a] eqn:Em.
      apply run_method_record in Em as [H1 H2].
      destruct a as [x|].
      + destruct (run_loop A num meth (S i) cs s1) as [[s2 trs2] ok2] eqn:El.
        inversion H; subst s' trs ok; clear H. apply IH in El as [H3 H4].
        assert (H2' := H2 ltac:(discriminate)). simpl. split.
        * apply trace_ok_app. split; [exact H1|]. apply (trace_ok_ext _ _ _ H2' H3).
        * intros Hok p. rewrite after_app, (H4 Hok p). apply after_ext, H2'.
      + inversion H; subst s' trs ok; clear H. simpl. rewrite app_nil_r.
        split; [exact H1|discriminate].
  Qed.

  Lemma run_components_record num cs s s' trs ok :
    run_components A num cs s = (s', trs, ok) ->
    trace_ok (leaf_or_fresh s) (List.concat trs) /\
    (ok = true -> forall p, leaf_or_fresh s' p = after (leaf_or_fresh s) (List.concat trs) p).
  Proof.
    unfold run_components. intros H.
    destruct (run_loop A (num false) c_transform 0 cs s) as [[s1 tr1] ok1] eqn:E1.
    apply run_loop_record in E1 as [H1 H2].
    destruct ok1.
    - destruct (run_loop A (num true) c_finally 0 cs s1) as [[s2 tr2] ok2] eqn:E2.
      inversion H; subst s' trs ok; clear H. apply run_loop_record in E2 as [H3 H4].
      assert (H2' := H2 eq_refl). rewrite concat_app. split.
      + apply trace_ok_app. split; [exact H1|]. apply (trace_ok_ext _ _ _ H2' H3).
      + intros Hok p. rewrite after_app, (H4 Hok p). apply after_ext, H2'.
    - inversion H; subst s' trs ok; clear H. split; [exact H1|discriminate].
  Qed.
End Eval.

(** ** Values: the last one written *)

Lemma entry_after_val {F} (m : path -> leaf F) e p :
  event_ok m e ->
  e_val (entry_after m e p)
  = match written e p with Some v => v | None => e_val (m p) end.
Proof.
  destruct e as [md q v|nb q b|q b|w q v|q v|l r v]; simpl; intros Hok.
  - destruct md; try reflexivity; destruct (path_eqb p q); reflexivity.
  - destruct (path_eqb p q), nb; reflexivity.
  - reflexivity.
  - destruct (path_eqb p q); reflexivity.
  - destruct (path_eqb p q); reflexivity.
  - destruct (path_eqb p l); [exact Hok|reflexivity].
Qed.

Lemma after_val {F} (tr : list (event F)) : forall m mem,
  trace_ok m tr -> (forall p, e_val (m p) = mem p) ->
  forall p, e_val (after m tr p) = latest mem tr p.
Proof.
  induction tr as [|e tr IH]; intros m mem Ht Hm p; [apply Hm|].
  destruct Ht as [He Ht].
  change (e_val (after (entry_after m e) tr p) = latest mem (e :: tr) p).
  rewrite (IH (entry_after m e) (fun q => match written e q with Some v => v | None => mem q end) Ht).
  - reflexivity.
  - intros q. rewrite entry_after_val by exact He. rewrite Hm. reflexivity.
Qed.

Lemma initial_entry {F} t u p :
  leaf_or_fresh (initial (F := F) t u) p
  = mkEntry (initially t u p) false false.
Proof.
  unfold leaf_or_fresh, lookup, initial, initially; simpl.
  destruct p as [q|q|q|s q]; simpl; try reflexivity.
  - destruct (String.eqb q "time"); reflexivity.
  - destruct (String.eqb_spec q "inv_meters_cubed") as [->|_]; [reflexivity|].
    destruct (String.eqb_spec q "eV") as [->|_]; [reflexivity|].
    destruct (String.eqb_spec q "Tesla") as [->|_]; [reflexivity|].
    destruct (String.eqb_spec q "seconds") as [->|_]; [reflexivity|].
    destruct (String.eqb_spec q "meters") as [->|_]; reflexivity.
Qed.

Lemma event_truthful {F} (m : path -> leaf F) mem e :
  event_ok m e -> (forall p, e_val (m p) = mem p) -> truthful mem e.
Proof.
  destruct e as [md q v|nb q b|q b|w q v|q v|l r v]; simpl; intros He Hm; auto;
    rewrite <- Hm; auto.
Qed.

(** In any evaluation, complete or not, every event agrees with the values written before. *)
Lemma record_truthful {F} (A : farith F) num t u cs s' trs ok pre e post :
  rhs A num t u cs = (s', trs, ok) ->
  List.concat trs = pre ++ e :: post ->
  truthful (latest (initially t u) pre) e.
Proof.
  intros H Hsplit. apply run_components_record in H as [H _].
  rewrite Hsplit in H. apply trace_ok_app in H as [H1 [H2 _]].
  apply (event_truthful _ _ _ H2). intros p.
  apply after_val; [exact H1|]. intros q. rewrite initial_entry. reflexivity.
Qed.

Lemma final_values {F} (A : farith F) num t u cs s' trs :
  rhs A num t u cs = (s', trs, true) ->
  forall p, value s' p = latest (initially t u) (List.concat trs) p.
Proof.
  intros H p. apply run_components_record in H as [H1 H2].
  rewrite value_lof, (H2 eq_refl). apply after_val; [exact H1|].
  intros q. rewrite initial_entry. reflexivity.
Qed.

(** ** Marks *)

Lemma entry_after_final {F} (m : path -> leaf F) e p :
  copies_to p e = false ->
  e_final (entry_after m e p) = e_final (m p) || marks_all e p.
Proof.
  destruct e as [md q v|nb q b|q b|w q v|q v|l r v]; simpl; intros Hc;
    try (destruct (path_eqb p q)); try destruct md; try destruct nb; simpl;
    rewrite ?orb_false_r, ?orb_true_r; try reflexivity.
  rewrite Hc. reflexivity.
Qed.

Lemma entry_after_dom {F} (m : path -> leaf F) e p :
  copies_to p e = false ->
  e_final_dom (entry_after m e p) = e_final_dom (m p) || marks_interior e p.
Proof.
  destruct e as [md q v|nb q b|q b|w q v|q v|l r v]; simpl; intros Hc;
    try (destruct (path_eqb p q)); try destruct md; try destruct nb; simpl;
    rewrite ?orb_false_r, ?orb_true_r; try reflexivity.
  rewrite Hc. reflexivity.
Qed.

Lemma after_final {F} (tr : list (event F)) : forall (m : path -> leaf F) p,
  existsb (copies_to p) tr = false -> e_final (m p) = true -> e_final (after m tr p) = true.
Proof.
  induction tr as [|e tr IH]; simpl; intros m p Hc Hm; [exact Hm|].
  apply orb_false_elim in Hc as [Hc1 Hc2]. apply IH; [exact Hc2|].
  rewrite entry_after_final, Hm by exact Hc1. reflexivity.
Qed.

Lemma after_dom {F} (tr : list (event F)) : forall (m : path -> leaf F) p,
  existsb (copies_to p) tr = false -> e_final_dom (m p) = true -> e_final_dom (after m tr p) = true.
Proof.
  induction tr as [|e tr IH]; simpl; intros m p Hc Hm; [exact Hm|].
  apply orb_false_elim in Hc as [Hc1 Hc2]. apply IH; [exact Hc2|].
  rewrite entry_after_dom, Hm by exact Hc1. reflexivity.
Qed.

Lemma marks_all_not_copy {F} (e : event F) p : marks_all e p = true -> copies_to p e = false.
Proof. destruct e; simpl; try discriminate; reflexivity. Qed.
Lemma marks_interior_not_copy {F} (e : event F) p :
  marks_interior e p = true -> copies_to p e = false.
Proof. destruct e; simpl; try discriminate; reflexivity. Qed.

Lemma split_at {F} (A : farith F) num t u cs s' trs ok pre e mid w p v post :
  rhs A num t u cs = (s', trs, ok) ->
  List.concat trs = pre ++ e :: mid ++ EvWrite w p v :: post ->
  exists m : path -> leaf F, event_ok (after (entry_after m e) mid) (EvWrite w p v).
Proof.
  intros H Hsplit. apply run_components_record in H as [H _]. rewrite Hsplit in H.
  apply trace_ok_app in H as [_ [_ H]]. apply trace_ok_app in H as [_ [H _]].
  eexists; exact H.
Qed.

(** After a reader has marked an entry, set, add, subtract and setBoundary do not change it
    (unless a copy has replaced the entry in between). *)
Lemma no_write_after_mark {F} (A : farith F) num t u cs s' trs ok pre e mid w p v post :
  rhs A num t u cs = (s', trs, ok) ->
  List.concat trs = pre ++ e :: mid ++ EvWrite w p v :: post ->
  marks_all e p = true ->
  existsb (copies_to p) mid = true.
Proof.
  intros H Hsplit Hm. destruct (existsb (copies_to p) mid) eqn:Ec; [reflexivity|].
  destruct (split_at A num t u cs s' trs ok pre e mid w p v post H Hsplit) as [m Hok].
  assert (Hf : e_final (after (entry_after m e) mid p) = true).
  { apply after_final; [exact Ec|].
    rewrite entry_after_final by (apply marks_all_not_copy; exact Hm).
    rewrite Hm. apply orb_true_r. }
  simpl in Hok. destruct w; [destruct Hok as [Hok _]| |destruct Hok as [Hok _]|destruct Hok as [Hok _]];
    rewrite Hf in Hok; discriminate.
Qed.

Lemma only_boundary_after_mark {F} (A : farith F) num t u cs s' trs ok pre e mid w p v post :
  rhs A num t u cs = (s', trs, ok) ->
  List.concat trs = pre ++ e :: mid ++ EvWrite w p v :: post ->
  marks_interior e p = true ->
  w = WBoundary \/ existsb (copies_to p) mid = true.
Proof.
  intros H Hsplit Hm. destruct (existsb (copies_to p) mid) eqn:Ec; [right; reflexivity|left].
  destruct (split_at A num t u cs s' trs ok pre e mid w p v post H Hsplit) as [m Hok].
  assert (Hf : e_final_dom (after (entry_after m e) mid p) = true).
  { apply after_dom; [exact Ec|].
    rewrite entry_after_dom by (apply marks_interior_not_copy; exact Hm).
    rewrite Hm. apply orb_true_r. }
  simpl in Hok. destruct w; try reflexivity; destruct Hok as [_ Hok]; rewrite Hf in Hok; discriminate.
Qed.

Lemma latest_app {F} init (a b : list (event F)) p :
  latest init (a ++ b) p = latest (latest init a) b p.
Proof. unfold latest. rewrite fold_left_app. reflexivity. Qed.

Lemma latest_unchanged {F} init (evs : list (event F)) p :
  existsb (changes p) evs = false -> latest init evs p = init p.
Proof.
  unfold latest. generalize (init p) as cur.
  induction evs as [|e evs IH]; simpl; intros cur H; [reflexivity|].
  apply orb_false_elim in H as [H1 H2]. rewrite IH by exact H2.
  unfold changes in H1. apply orb_false_elim in H1 as [Ha Hb].
  destruct e as [md q v|nb q b|q b|w q v|q v|l r v]; simpl in *; try reflexivity.
  - rewrite Ha; reflexivity.
  - rewrite Hb; reflexivity.
  - rewrite Hb; reflexivity.
Qed.

(** The value which a reader gets with get<> is the value at the end of the evaluation, unless
    a plain assignment or a copy replaces it. *)
Lemma final_read_is_final {F} (A : farith F) num t u cs s' trs pre p v post :
  rhs A num t u cs = (s', trs, true) ->
  List.concat trs = pre ++ EvRead RFinal p v :: post ->
  existsb (forces_or_copies p) post = false ->
  value s' p = Some v.
Proof.
  intros H Hsplit Hnf.
  rewrite (final_values A num t u cs s' trs H p), Hsplit.
  change (EvRead RFinal p v :: post) with ([EvRead RFinal p v] ++ post).
  rewrite app_assoc, latest_app, latest_unchanged.
  - rewrite latest_app. unfold latest at 1; simpl.
    apply (record_truthful A num t u cs s' trs true pre (EvRead RFinal p v) post H Hsplit).
  - destruct (existsb (changes p) post) eqn:Ec; [|reflexivity]. exfalso.
    apply existsb_exists in Ec as (x & Hin & Hx).
    apply in_split in Hin as (l1 & l2 & ->).
    rewrite existsb_app in Hnf. simpl in Hnf.
    apply orb_false_elim in Hnf as [Hn1 Hn2]. apply orb_false_elim in Hn2 as [Hn2 _].
    unfold changes in Hx. rewrite Hn2, orb_false_r in Hx.
    destruct x; simpl in Hx; try discriminate.
    apply path_eqb_eq in Hx. subst p0.
    pose proof (no_write_after_mark A num t u cs s' trs true pre (EvRead RFinal p v) l1 w p v0 l2
                  H Hsplit (path_eqb_refl p)) as Hc.
    assert (Hle : existsb (copies_to p) l1 = true -> existsb (forces_or_copies p) l1 = true).
    { intros Hx'. apply existsb_exists in Hx' as (y & Hy & Hy2).
      apply existsb_exists. exists y. split; [exact Hy|].
      destruct y; simpl in *; try discriminate; exact Hy2. }
    rewrite (Hle Hc) in Hn1. discriminate.
Qed.

(** ** Erasure of the fields *)

Definition one_arith : farith unit :=
  mkArith unit (fun _ _ => tt) (fun _ _ => tt) (fun _ => tt) (fun _ => tt) (fun _ => false).
Definition one_num : numerics unit := fun _ _ _ _ => tt.

Definition erase_val {F} (v : val F) : val unit :=
  match v with VF _ => VF tt | VN q => VN q end.
Definition erase_leaf {F} (e : leaf F) : leaf unit :=
  mkEntry (option_map erase_val (e_val e)) (e_final e) (e_final_dom e).
Definition erase_leaves {F} (l : list (path * leaf F)) : list (path * leaf unit) :=
  map (fun pe => (fst pe, erase_leaf (snd pe))) l.
Definition erase_st {F} (s : st F) : st unit :=
  mkSt (erase_leaves (s_leaves s)) (s_names s) (s_species s) (s_fields s).
Definition erase_event {F} (e : event F) : event unit :=
  match e with
  | EvRead m p v => EvRead m p (erase_val v)
  | EvQuery nb p b => EvQuery nb p b
  | EvHas p b => EvHas p b
  | EvWrite w p v => EvWrite w p (erase_val v)
  | EvForce p v => EvForce p (erase_val v)
  | EvCopy l r v => EvCopy l r (option_map erase_val v)
  end.

Section Erase.
  Context {F : Type}.
  Variable A : farith F.
  Hypothesis Hfin : all_finite A.
  Notation stepF := (astep (fa_add A) (fa_sub A) (fa_neg A) (fa_const A) (fa_inv A)).
  Notation step1 := (astep (fa_add one_arith) (fa_sub one_arith) (fa_neg one_arith)
                           (fa_const one_arith) (fa_inv one_arith)).

  Lemma erase_lookup (s : st F) p : lookup (erase_st s) p = option_map erase_leaf (lookup s p).
  Proof.
    unfold lookup, erase_st, erase_leaves; simpl.
    induction (s_leaves s) as [|[q e] l IH]; simpl; [reflexivity|].
    destruct (path_eqb p q); [reflexivity|exact IH].
  Qed.

  Lemma erase_put (s : st F) p e : erase_st (put s p e) = put (erase_st s) p (erase_leaf e).
  Proof.
    assert (H : forall l, erase_leaves (put_leaf l p e) = put_leaf (erase_leaves l) p (erase_leaf e)).
    { induction l as [|[q e'] l IH]; simpl; [reflexivity|].
      destruct (path_eqb p q); simpl; [reflexivity|]. f_equal. exact IH. }
    unfold put, erase_st. destruct p; simpl; rewrite H; reflexivity.
  Qed.

  Lemma erase_replace (s : st F) p e :
    erase_st (replace s p e) = replace (erase_st s) p (erase_leaf e).
  Proof.
    unfold replace, erase_st; simpl. f_equal.
    induction (s_leaves s) as [|[q e'] l IH]; simpl; [reflexivity|].
    destruct (path_eqb p q); simpl; [reflexivity|]. f_equal. exact IH.
  Qed.

  Lemma erase_lof (s : st F) p : leaf_or_fresh (erase_st s) p = erase_leaf (leaf_or_fresh s p).
  Proof. unfold leaf_or_fresh. rewrite erase_lookup. destruct (lookup s p); reflexivity. Qed.

  Lemma erase_cast t (v : val F) :
    cast (fa_const one_arith) t (erase_val v) = option_map erase_val (cast (fa_const A) t v).
  Proof. destruct t, v; reflexivity. Qed.

  Lemma erase_do_read m t (e : leaf F) :
    do_read (fa_const one_arith) m t (erase_leaf e)
    = (erase_leaf (fst (do_read (fa_const A) m t e)),
       match snd (do_read (fa_const A) m t e) with
       | RVal w => RVal (erase_val w) | RBool b => RBool b | RUnit => RUnit | RThrow => RThrow
       end).
  Proof.
    destruct m; unfold do_read, get, getNoBoundary, getNonFinal; simpl;
      destruct (e_val e) as [v|] eqn:Ev; simpl;
      rewrite ?erase_cast; try (destruct (cast (fa_const A) t v); simpl);
      unfold erase_leaf; simpl; rewrite ?Ev; reflexivity.
  Qed.

  Lemma not_invalid (v : val F) : invalid (fa_inv A) v = false.
  Proof. destruct v; simpl; [apply Hfin|reflexivity]. Qed.

  Lemma erase_set (v : val F) e :
    OptionsModel.set (invalid (fa_inv one_arith)) (erase_val v) (erase_leaf e)
    = (erase_leaf (fst (OptionsModel.set (invalid (fa_inv A)) v e)),
       match snd (OptionsModel.set (invalid (fa_inv A)) v e) with
       | RVal w => RVal (erase_val w) | RBool b => RBool b | RUnit => RUnit | RThrow => RThrow
       end).
  Proof.
    unfold OptionsModel.set. rewrite not_invalid.
    assert (Hi : invalid (fa_inv one_arith) (erase_val v) = false) by (destruct v; reflexivity).
    rewrite Hi. simpl.
    destruct (e_final e) eqn:E1; [reflexivity|].
    destruct (e_final_dom e) eqn:E2; reflexivity.
  Qed.

  Lemma erase_vadd (a b : val F) :
    vadd (fa_add one_arith) (fa_const one_arith) (erase_val a) (erase_val b)
    = erase_val (vadd (fa_add A) (fa_const A) a b).
  Proof. destruct a, b; reflexivity. Qed.
  Lemma erase_vsub (a b : val F) :
    vsub (fa_sub one_arith) (fa_const one_arith) (erase_val a) (erase_val b)
    = erase_val (vsub (fa_sub A) (fa_const A) a b).
  Proof. destruct a, b; reflexivity. Qed.
  Lemma erase_vneg (a : val F) :
    vneg (fa_neg one_arith) (erase_val a) = erase_val (vneg (fa_neg A) a).
  Proof. destruct a; reflexivity. Qed.

  Lemma erase_do_write w t (v : val F) (e : leaf F) :
    do_write (fa_add one_arith) (fa_sub one_arith) (fa_neg one_arith) (fa_const one_arith)
             (fa_inv one_arith) w t (erase_val v) (erase_leaf e)
    = let r := do_write (fa_add A) (fa_sub A) (fa_neg A) (fa_const A) (fa_inv A) w t v e in
      (erase_leaf (fst r),
       match snd r with
       | RVal w => RVal (erase_val w) | RBool b => RBool b | RUnit => RUnit | RThrow => RThrow
       end).
  Proof.
    destruct w; cbv zeta; unfold do_write.
    - apply erase_set.
    - unfold setBoundary; simpl. destruct (e_final e) eqn:E; reflexivity.
    - unfold add. cbn [e_val erase_leaf]. destruct (e_val e) as [old|]; cbn [option_map].
      + rewrite erase_cast. destruct (cast (fa_const A) t old); cbn [option_map].
        * rewrite erase_vadd. apply erase_set.
        * reflexivity.
      + apply erase_set.
    - unfold subtract. cbn [e_val erase_leaf]. destruct (e_val e) as [old|]; cbn [option_map].
      + rewrite erase_cast. destruct (cast (fa_const A) t old); cbn [option_map].
        * rewrite erase_vsub. apply erase_set.
        * reflexivity.
      + rewrite erase_vneg. apply erase_set.
  Qed.

  Lemma erase_step fld (s : st F) o :
    step1 tt (erase_st s) o
    = let '(s1, r, ev) := stepF fld s o in (erase_st s1, r, map erase_event ev).
  Proof.
    destruct o as [n| |c|n| |m t p|c nb p|p|w src p|p|l r0]; unfold astep; try reflexivity.
    - cbn [s_species erase_st]. destruct (c && negb (s_species s)); reflexivity.
    - rewrite erase_lookup. destruct (lookup s p) as [e|]; cbn [option_map]; [|reflexivity].
      rewrite erase_do_read.
      destruct (do_read (fa_const A) m t e) as [e' r]. cbn [fst snd].
      destruct r as [w|b| |]; cbn [e_val erase_leaf];
        try (destruct (e_val e); cbn [option_map]; rewrite erase_replace; reflexivity).
      destruct (e_val e) as [v|]; cbn [option_map]; rewrite erase_replace; [|reflexivity].
      destruct w; reflexivity.
    - rewrite erase_lookup. destruct (lookup s p) as [e|]; cbn [option_map].
      + rewrite erase_replace. unfold is_set. cbn [e_val erase_leaf].
        destruct nb, (e_val e) eqn:Ev; cbn [option_map map erase_event]; unfold erase_leaf; simpl;
          rewrite ?Ev; reflexivity.
      + destruct c; [reflexivity|]. rewrite erase_put. destruct nb; reflexivity.
    - unfold value. rewrite erase_lookup.
      destruct (lookup s p) as [e|]; cbn [option_map e_val erase_leaf map erase_event]; [|reflexivity].
      destruct (e_val e); reflexivity.
    - rewrite erase_lof.
      set (v := match src with SrcField => VF fld | SrcNum q => VN q end).
      replace (match src with SrcField => VF tt | SrcNum q => VN q end) with (erase_val v)
        by (unfold v; destruct src; reflexivity).
      rewrite erase_do_write. cbv zeta.
      destruct (do_write (fa_add A) (fa_sub A) (fa_neg A) (fa_const A) (fa_inv A) w (src_ty src) v
                  (leaf_or_fresh s p)) as [e' r]. cbn [fst snd].
      destruct r; cbn [e_val erase_leaf]; destruct (e_val e'); cbn [option_map];
        rewrite erase_put; reflexivity.
    - rewrite erase_lof, erase_put. reflexivity.
    - cbv zeta. rewrite erase_lof, !erase_put. reflexivity.
  Qed.

  Lemma erase_exec {X} (m : prog X) : forall num n vs n' vs' (s : st F),
    exec (fa_add one_arith) (fa_sub one_arith) (fa_neg one_arith) (fa_const one_arith)
         (fa_inv one_arith) (fun _ _ => tt) n' vs' (erase_st s) m
    = let '(s1, tr, a) := exec (fa_add A) (fa_sub A) (fa_neg A) (fa_const A) (fa_inv A)
                               num n vs s m in
      (erase_st s1, map erase_event tr, a).
  Proof.
    induction m as [x| |o k IH]; intros num n vs n' vs' s; try reflexivity.
    cbn [exec]. rewrite (erase_step (num n vs) s o).
    destruct (stepF (num n vs) s o) as [[s1 r] ev].
    destruct r as [r|]; [|reflexivity].
    rewrite (IH r num (S n) (vs ++ reads_of ev)).
    destruct (exec _ _ _ _ _ num (S n) (vs ++ reads_of ev) s1 (k r)) as [[s2 tr2] a2].
    rewrite map_app. reflexivity.
  Qed.

  Lemma erase_loop meth cs : forall num num' i i' (s : st F),
    num' = (fun _ _ _ => tt) ->
    run_loop one_arith num' meth i' cs (erase_st s)
    = let '(s1, trs, ok) := run_loop A num meth i cs s in
      (erase_st s1, map (map erase_event) trs, ok).
  Proof.
    induction cs as [|c cs IH]; intros num num' i i' s Hn; [reflexivity|].
    simpl. subst num'. unfold run_method.
    rewrite (erase_exec (meth c) (num i) 0 [] 0 [] s).
    destruct (exec _ _ _ _ _ (num i) 0 [] s (meth c)) as [[s1 tr] a].
    destruct a as [x|]; [|reflexivity].
    rewrite (IH num (fun _ _ _ => tt) (S i) (S i') s1 eq_refl).
    destruct (run_loop A num meth (S i) cs s1) as [[s2 trs2] ok2]. reflexivity.
  Qed.

  Lemma erase_rhs num t u cs :
    rhs one_arith one_num t u cs
    = let '(s1, trs, ok) := rhs A num t u cs in (erase_st s1, map (map erase_event) trs, ok).
  Proof.
    unfold rhs, run_components.
    change (initial (F := unit) t u) with (erase_st (initial (F := F) t u)).
    rewrite (erase_loop c_transform cs (num false) (one_num false) 0 0 _ eq_refl).
    destruct (run_loop A (num false) c_transform 0 cs (initial t u)) as [[s1 tr1] ok1].
    destruct ok1; [|reflexivity].
    rewrite (erase_loop c_finally cs (num true) (one_num true) 0 0 s1 eq_refl).
    destruct (run_loop A (num true) c_finally 0 cs s1) as [[s2 tr2] ok2].
    rewrite map_app. reflexivity.
  Qed.

  Lemma erase_record num t u c :
    record_of one_arith one_num t u c
    = option_map (map (map erase_event)) (record_of A num t u c).
  Proof.
    unfold record_of. destruct (construct c) as [cs|]; [|reflexivity].
    rewrite (erase_rhs num t u cs).
    destruct (rhs A num t u cs) as [[s1 trs] ok]. destruct ok; reflexivity.
  Qed.
End Erase.

(** The functions of AccessSpec.v which look at records do not see the fields. *)
Section EraseSpec.
  Context {F : Type}.

  Lemma change_erase (e : event F) : change (erase_event e) = change e.
  Proof. destruct e; reflexivity. Qed.
  Lemma sets_erase p (e : event F) : sets p (erase_event e) = sets p e.
  Proof. unfold sets. rewrite change_erase. reflexivity. Qed.
  Lemma changes_erase p (e : event F) : changes p (erase_event e) = changes p e.
  Proof. destruct e; reflexivity. Qed.

  Lemma existsb_erase (f : event unit -> bool) (g : event F -> bool) tr :
    (forall e, f (erase_event e) = g e) -> existsb f (map erase_event tr) = existsb g tr.
  Proof. intros H. induction tr as [|e tr IH]; simpl; [reflexivity|]. rewrite H, IH. reflexivity. Qed.

  Lemma first_with_erase (f : list (event unit) -> bool) (g : list (event F) -> bool) trs :
    (forall tr, f (map erase_event tr) = g tr) ->
    forall i, first_with f i (map (map erase_event) trs) = first_with g i trs.
  Proof.
    intros H. induction trs as [|tr trs IH]; simpl; intros i; [reflexivity|].
    rewrite H, IH. reflexivity.
  Qed.

  Lemma flat_map_erase {X} (f : event unit -> list X) (g : event F -> list X) tr :
    (forall e, f (erase_event e) = g e) -> flat_map f (map erase_event tr) = flat_map g tr.
  Proof. intros H. induction tr as [|e tr IH]; simpl; [reflexivity|]. rewrite H, IH. reflexivity. Qed.

  Lemma set_again_erase (trs : list (list (event F))) : forall i,
    set_again i (map (map erase_event) trs) = set_again i trs.
  Proof.
    induction trs as [|tr trs IH]; intros i; [reflexivity|]. simpl. rewrite IH. f_equal.
    apply flat_map_erase. intros e. rewrite change_erase.
    destruct (change e) as [[k p]|]; [|reflexivity]. destruct k; try reflexivity.
    rewrite (first_with_erase (existsb (sets p)) (existsb (sets p))); [reflexivity|].
    intros tr'. apply existsb_erase. intros e'. apply sets_erase.
  Qed.

  Lemma missed_erase (trs : list (list (event F))) : forall i,
    missed i (map (map erase_event) trs) = missed i trs.
  Proof.
    induction trs as [|tr trs IH]; intros i; [reflexivity|]. simpl. rewrite IH. f_equal.
    apply flat_map_erase. intros e. destruct e as [md q v|nb q b|q b|w q v|q v|l r v]; try reflexivity.
    simpl. destruct b; [reflexivity|].
    rewrite (existsb_erase (changes q) (changes q)) by apply changes_erase.
    rewrite (first_with_erase (existsb (changes q)) (existsb (changes q))); [reflexivity|].
    intros tr'. apply existsb_erase. intros e'. apply changes_erase.
  Qed.

  Lemma transforms_erase c (trs : list (list (event F))) :
    transforms c (map (map erase_event) trs) = map (map erase_event) (transforms c trs).
  Proof. unfold transforms. apply firstn_map. Qed.

  Lemma records_erase (f : cfg -> list (list (event unit)) -> _) (g : cfg -> list (list (event F)) -> _)
      (A : farith F) num t u ins :
    all_finite A ->
    (forall c trs, f c (map (map erase_event) trs) = g c trs) ->
    records g A num t u ins = records f one_arith one_num t u ins.
  Proof.
    intros Hfin H. unfold records. f_equal. apply map_ext. intros ic. f_equal.
    rewrite (erase_record A Hfin num t u (snd ic)).
    destruct (record_of A num t u (snd ic)) as [trs|]; simpl; [|reflexivity].
    symmetry. apply H.
  Qed.
End EraseSpec.
