(** Components which only use their own species can be exchanged. *)

From Coq Require Import List Bool String QArith Lia OrdersEx Permutation.
From Verif Require Import OptionsModel AccessModel AccessComponents AccessSpec AccessOrderSpec
  AccessProofs AccessTables AccessCompose.
Import ListNotations.
Open Scope string_scope.
Open Scope list_scope.

(** ** Names are inserted in any order *)

Lemma cmp_refl s : String.compare s s = Eq.
Proof.
  pose proof (String.compare_antisym s s) as H. destruct (String.compare s s); auto; discriminate.
Qed.

Lemma cmp_trans a b c :
  String.compare a b = Lt -> String.compare b c = Lt -> String.compare a c = Lt.
Proof.
  intros H1 H2.
  destruct String_as_OT.lt_strorder as [_ Ht]. exact (Ht a b c H1 H2).
Qed.

Lemma cmp_gt a b : String.compare a b = Gt -> String.compare b a = Lt.
Proof. intros H. rewrite String.compare_antisym, H. reflexivity. Qed.
Lemma cmp_lt a b : String.compare a b = Lt -> String.compare b a = Gt.
Proof. intros H. rewrite String.compare_antisym, H. reflexivity. Qed.

Lemma insert_lt a b : forall l, String.compare a b = Lt ->
  insert_name a (insert_name b l) = insert_name b (insert_name a l).
Proof.
  intros l Hab. induction l as [|c l IH]; simpl.
  - rewrite Hab, (cmp_lt _ _ Hab). reflexivity.
  - destruct (String.compare b c) eqn:Ebc, (String.compare a c) eqn:Eac; simpl;
      rewrite ?Ebc, ?Eac, ?Hab, ?(cmp_lt _ _ Hab), ?IH; auto.
    all: try (rewrite (cmp_trans a b c Hab Ebc) in Eac; discriminate).
    all: try (apply String.compare_eq_iff in Ebc; subst c; congruence).
    all: apply String.compare_eq_iff in Eac; subst c;
      rewrite String.compare_antisym, Hab in Ebc; discriminate.
Qed.

Lemma insert_comm a b l : insert_name a (insert_name b l) = insert_name b (insert_name a l).
Proof.
  destruct (String.compare a b) eqn:E.
  - apply String.compare_eq_iff in E. subst. reflexivity.
  - apply insert_lt, E.
  - symmetry. apply insert_lt, cmp_gt, E.
Qed.

(** ** States with the same contents *)

Definition same_state {F} (s s' : st F) : Prop :=
  s_names s = s_names s' /\ s_species s = s_species s' /\ s_fields s = s_fields s' /\
  forall p, lookup s p = lookup s' p.

Lemma ss_refl {F} (s : st F) : same_state s s.
Proof. repeat split. Qed.
Lemma ss_sym {F} (s s' : st F) : same_state s s' -> same_state s' s.
Proof. intros (H1 & H2 & H3 & H4). repeat split; auto. Qed.
Lemma ss_trans {F} (s s' s'' : st F) : same_state s s' -> same_state s' s'' -> same_state s s''.
Proof.
  intros (H1 & H2 & H3 & H4) (G1 & G2 & G3 & G4).
  split; [congruence|]. split; [congruence|]. split; [congruence|].
  intros p. rewrite H4. apply G4.
Qed.

Lemma ss_value {F} (s s' : st F) p : same_state s s' -> value s p = value s' p.
Proof. intros (_ & _ & _ & H). unfold value. rewrite H. reflexivity. Qed.

Lemma ss_lof {F} (s s' : st F) p : same_state s s' -> leaf_or_fresh s p = leaf_or_fresh s' p.
Proof. intros (_ & _ & _ & H). unfold leaf_or_fresh. rewrite H. reflexivity. Qed.

Lemma ss_put {F} (s s' : st F) p e : same_state s s' -> same_state (put s p e) (put s' p e).
Proof.
  intros (H1 & H2 & H3 & H4).
  split; [destruct p; simpl; congruence|]. split; [destruct p; simpl; congruence|].
  split; [destruct p; simpl; congruence|]. intros q. rewrite !lookup_put, H4. reflexivity.
Qed.

Lemma ss_replace {F} (s s' : st F) p e :
  same_state s s' -> same_state (replace s p e) (replace s' p e).
Proof.
  intros (H1 & H2 & H3 & H4). repeat split; simpl; try assumption.
  intros q. rewrite !lookup_replace, H4. reflexivity.
Qed.

Section Order.
  Context {F : Type}.
  Variable A : farith F.
  Notation stepA := (astep (fa_add A) (fa_sub A) (fa_neg A) (fa_const A) (fa_inv A)).
  Notation execA := (exec (fa_add A) (fa_sub A) (fa_neg A) (fa_const A) (fa_inv A)).

  Lemma step_ext fld (s s' : st F) o :
    same_state s s' ->
    let '(s1, r, ev) := stepA fld s o in
    let '(s1', r', ev') := stepA fld s' o in
    same_state s1 s1' /\ r = r' /\ ev = ev'.
  Proof.
    intros Hs. pose proof Hs as (H1 & H2 & H3 & H4).
    destruct o as [n| |c|n| |m t p|c nb p|p|w src p|p|l r0]; simpl.
    - repeat split; simpl; try congruence. exact H4.
    - repeat split; simpl; try congruence. exact H4.
    - rewrite <- H2, <- H1, <- H3. destruct (c && negb (s_species s)); repeat split; auto.
    - rewrite <- H1. auto.
    - rewrite <- H3. auto.
    - rewrite <- H4. destruct (lookup s p) as [e|]; [|auto].
      destruct (do_read (fa_const A) m t e) as [e1 r1].
      destruct r1, (e_val e); auto using ss_replace.
    - rewrite <- H4. destruct (lookup s p) as [e|]; [auto using ss_replace|].
      destruct c; auto using ss_put.
    - rewrite (ss_value s s' p Hs). auto.
    - rewrite (ss_lof s s' p Hs).
      destruct (do_write _ _ _ _ _ _ _ _ _) as [e1 r1]. destruct r1, (e_val e1); auto using ss_put.
    - rewrite (ss_lof s s' p Hs). auto using ss_put.
    - rewrite (ss_lof s s' r0 Hs). auto using ss_put.
  Qed.

  Lemma exec_ext {X} (m : prog X) : forall num n vs (s s' : st F),
    same_state s s' ->
    let '(s1, tr, a) := execA num n vs s m in
    let '(s1', tr', a') := execA num n vs s' m in
    same_state s1 s1' /\ tr = tr' /\ a = a'.
  Proof.
    induction m as [x| |o k IH]; intros num n vs s s' Hs; simpl; [auto|auto|].
    pose proof (step_ext (num n vs) s s' o Hs) as H.
    destruct (stepA (num n vs) s o) as [[s1 r] ev].
    destruct (stepA (num n vs) s' o) as [[s1' r'] ev'].
    destruct H as (Hs1 & <- & <-). destruct r as [r|]; [|auto].
    specialize (IH r num (S n) (vs ++ reads_of ev) s1 s1' Hs1).
    destruct (execA num (S n) (vs ++ reads_of ev) s1 (k r)) as [[s2 tr2] a2].
    destruct (execA num (S n) (vs ++ reads_of ev) s1' (k r)) as [[s2' tr2'] a2'].
    destruct IH as (G1 & <- & <-). auto.
  Qed.

  Lemma loop_ext meth : forall cs num i (s s' : st F),
    same_state s s' ->
    let '(s1, trs, ok) := run_loop A num meth i cs s in
    let '(s1', trs', ok') := run_loop A num meth i cs s' in
    same_state s1 s1' /\ trs = trs' /\ ok = ok'.
  Proof.
    induction cs as [|x cs IH]; intros num i s s' Hs; simpl; [auto|].
    unfold run_method. pose proof (exec_ext (meth x) (num i) 0 [] s s' Hs) as H.
    destruct (execA (num i) 0%nat [] s (meth x)) as [[s1 tr] a].
    destruct (execA (num i) 0%nat [] s' (meth x)) as [[s1' tr'] a'].
    destruct H as (Hs1 & <- & <-). destruct a as [y|]; [|auto].
    specialize (IH num (S i) s1 s1' Hs1).
    destruct (run_loop A num meth (S i) cs s1) as [[s2 trs2] ok2].
    destruct (run_loop A num meth (S i) cs s1') as [[s2' trs2'] ok2'].
    destruct IH as (G1 & <- & <-). auto.
  Qed.

  (** ** Calls on different entries commute *)

  (** What a call does to the state: sections it makes, the leaf it stores. *)
  Record delta := mkDelta {
    d_name : option string;
    d_fields : bool;
    d_leaf : option (path * leaf F)
  }.

  Definition apply (s : st F) (d : delta) : st F :=
    mkSt (match d_leaf d with Some (p, e) => put_leaf (s_leaves s) p e | None => s_leaves s end)
         (match d_name d with Some n => insert_name n (s_names s) | None => s_names s end)
         (match d_name d with Some _ => true | None => s_species s end)
         (s_fields s || d_fields d).

  Definition nothing : delta := mkDelta None false None.
  Definition storing (p : path) (e : leaf F) : delta :=
    mkDelta (match p with PSp n _ => Some n | _ => None end)
            (match p with PField _ => true | _ => false end) (Some (p, e)).

  Lemma apply_nothing s : apply s nothing = s.
  Proof. destruct s; unfold apply; simpl. rewrite orb_false_r. reflexivity. Qed.
  Lemma apply_storing s p e : apply s (storing p e) = put s p e.
  Proof. destruct p, s; unfold apply, put; simpl; rewrite ?orb_false_r, ?orb_true_r; reflexivity. Qed.
  Lemma apply_replace s p e : apply s (mkDelta None false (Some (p, e))) = replace s p e.
  Proof. destruct s; unfold apply, replace; simpl. rewrite orb_false_r. reflexivity. Qed.

  (** Calls which look at one entry and make sections at most. *)
  Definition entry_of (o : aop) : option path :=
    match o with
    | ARead _ _ p | AQuery _ _ p | AHas p | AWrite _ _ p | AForce p => Some p
    | _ => None
    end.
  Definition local (o : aop) : Prop :=
    match o with
    | AOpen _ | AOpenFields | AHasSpecies _ | ARead _ _ _ | AQuery _ _ _ | AHas _ | AWrite _ _ _ | AForce _ => True
    | _ => False
    end.
  Definition only_reads (o : aop) : Prop :=
    match o with ARead _ _ _ | AHas _ => True | _ => False end.

  (** The species whose presence a call asks for, and the one it may make. *)
  Definition asks (o : aop) : option string :=
    match o with AHasSpecies n => Some n | _ => None end.
  Definition makes (o : aop) : option string :=
    match o with
    | AOpen n => Some n
    | AQuery _ _ (PSp n _) | AWrite _ _ (PSp n _) | AForce (PSp n _) => Some n
    | _ => None
    end.

  Definition dstep (fld : F) (o : aop) (cur : option (leaf F)) (known : bool) : delta * option resp * list (event F) :=
    match o with
    | AOpen n => (mkDelta (Some n) false None, Some ROk, [])
    | AOpenFields => (mkDelta None true None, Some ROk, [])
    | AHasSpecies n => (nothing, Some (RBoo known), [])
    | ARead m t p =>
        match cur with
        | None => (nothing, None, [])
        | Some e =>
            let (e', r) := do_read (fa_const A) m t e in
            match r, e_val e with
            | RVal w, Some v =>
                (mkDelta None false (Some (p, e')),
                 Some (match w with VF _ => RFld | VN q => RNum q end), [EvRead m p v])
            | _, _ => (mkDelta None false (Some (p, e')), None, [])
            end
        end
    | AQuery c nb p =>
        match cur with
        | None =>
            if c then (nothing, None, [])
            else (storing p (if nb then mark_final_dom fresh else mark_final fresh),
                  Some (RBoo false), [EvQuery nb p false])
        | Some e =>
            (mkDelta None false (Some (p, if nb then mark_final_dom e else mark_final e)),
             Some (RBoo (is_set e)), [EvQuery nb p (is_set e)])
        end
    | AHas p =>
        let b := match cur with Some e => is_set e | None => false end in
        (nothing, Some (RBoo b), [EvHas p b])
    | AWrite w src p =>
        let v := match src with SrcField => VF fld | SrcNum q => VN q end in
        let (e', r) := do_write (fa_add A) (fa_sub A) (fa_neg A) (fa_const A) (fa_inv A) w (src_ty src) v
                         (match cur with Some e => e | None => fresh end) in
        match r, e_val e' with
        | RUnit, Some v' => (storing p e', Some ROk, [EvWrite w p v'])
        | _, _ => (storing p e', None, [])
        end
    | AForce p =>
        let e := match cur with Some e => e | None => fresh end in
        (storing p (mkEntry (Some (VF fld)) (e_final e) (e_final_dom e)), Some ROk,
         [EvForce p (VF fld)])
    | _ => (nothing, None, [])
    end.

  Definition at_entry (s : st F) (o : aop) : option (leaf F) :=
    match entry_of o with Some p => lookup s p | None => None end.

  Definition knows (s : st F) (o : aop) : bool :=
    match asks o with Some n => existsb (String.eqb n) (s_names s) | None => false end.

  Lemma step_local fld s o :
    local o ->
    stepA fld s o = let '(d, r, ev) := dstep fld o (at_entry s o) (knows s o) in (apply s d, r, ev).
  Proof.
    destruct o as [n| |c|n| |m t p|c nb p|p|w src p|p|l r0]; simpl; intros Hl; try contradiction;
      unfold at_entry; simpl.
    - unfold apply, open_species; simpl. rewrite orb_false_r. reflexivity.
    - unfold apply, open_fields; simpl. rewrite orb_true_r. reflexivity.
    - rewrite apply_nothing. reflexivity.
    - destruct (lookup s p) as [e|]; [|rewrite apply_nothing; reflexivity].
      destruct (do_read (fa_const A) m t e) as [e1 r1].
      destruct r1, (e_val e); rewrite apply_replace; reflexivity.
    - destruct (lookup s p) as [e|]; [rewrite apply_replace; reflexivity|].
      destruct c; [rewrite apply_nothing|rewrite apply_storing]; reflexivity.
    - rewrite apply_nothing. unfold value. destruct (lookup s p) as [e|]; [|reflexivity].
      unfold is_set. destruct (e_val e); reflexivity.
    - unfold leaf_or_fresh. destruct (do_write _ _ _ _ _ _ _ _ _) as [e1 r1].
      destruct r1, (e_val e1); rewrite apply_storing; reflexivity.
    - unfold leaf_or_fresh. rewrite apply_storing. reflexivity.
  Qed.

  Lemma dstep_leaf fld o cur kn d r ev p e :
    dstep fld o cur kn = (d, r, ev) -> d_leaf d = Some (p, e) -> entry_of o = Some p.
  Proof.
    intros H Hd.
    destruct o as [n| |c|n| |m t q|c nb q|q|w src q|q|l r0]; simpl in H;
      try (inversion H; subst d; simpl in Hd; discriminate).
    - destruct cur as [e0|]; [|inversion H; subst d; discriminate].
      destruct (do_read (fa_const A) m t e0) as [e1 r1].
      destruct r1, (e_val e0); inversion H; subst d; simpl in Hd; inversion Hd; reflexivity.
    - destruct cur as [e0|]; [|destruct c]; inversion H; subst d; simpl in Hd; inversion Hd; reflexivity.
    - destruct (do_write _ _ _ _ _ _ _ _ _) as [e1 r1].
      destruct r1, (e_val e1); inversion H; subst d; simpl in Hd; inversion Hd; reflexivity.
    - inversion H; subst d; simpl in Hd; inversion Hd; reflexivity.
  Qed.

  Lemma dstep_name fld o cur kn d r ev n :
    dstep fld o cur kn = (d, r, ev) -> d_name d = Some n -> makes o = Some n.
  Proof.
    intros H Hd.
    destruct o as [m| |c|m| |m t q|c nb q|q|w src q|q|l r0]; simpl in H;
      try (inversion H; subst d; simpl in Hd; discriminate).
    - inversion H; subst d; simpl in Hd; exact Hd.
    - destruct cur as [e0|]; [|inversion H; subst d; discriminate].
      destruct (do_read (fa_const A) m t e0) as [e1 r1].
      destruct r1, (e_val e0); inversion H; subst d; simpl in Hd; discriminate.
    - destruct cur as [e0|]; [|destruct c]; inversion H; subst d; simpl in Hd;
        destruct q; simpl; congruence.
    - destruct (do_write _ _ _ _ _ _ _ _ _) as [e1 r1].
      destruct r1, (e_val e1); inversion H; subst d; simpl in Hd; destruct q; simpl; congruence.
    - inversion H; subst d; simpl in Hd; destruct q; simpl; congruence.
  Qed.

  Lemma insert_other n m l : n <> m ->
    existsb (String.eqb n) (insert_name m l) = existsb (String.eqb n) l.
  Proof.
    intros H. assert (Hb : String.eqb n m = false) by (apply String.eqb_neq; exact H).
    induction l as [|a l IH]; simpl; [rewrite Hb; reflexivity|].
    destruct (String.compare m a); simpl; rewrite ?Hb, ?IH; reflexivity.
  Qed.

  Lemma knows_apply s d o :
    (forall n, asks o = Some n -> d_name d <> Some n) -> knows (apply s d) o = knows s o.
  Proof.
    intros H. unfold knows. destruct (asks o) as [n|]; [|reflexivity]. unfold apply. simpl.
    destruct (d_name d) as [m|] eqn:Em; [|reflexivity]. apply insert_other.
    intros ->. exact (H m eq_refl eq_refl).
  Qed.

  Lemma find_put_leaf (l : list (path * leaf F)) p e q :
    find_leaf (put_leaf l p e) q = if path_eqb q p then Some e else find_leaf l q.
  Proof.
    pose proof (lookup_replace (mkSt l [] true true) p e q) as H.
    unfold lookup, replace in H. simpl in H. exact H.
  Qed.

  Lemma apply_other s d p :
    (forall q e, d_leaf d = Some (q, e) -> p <> q) -> lookup (apply s d) p = lookup s p.
  Proof.
    intros H. unfold lookup, apply. simpl. destruct (d_leaf d) as [[q e]|]; [|reflexivity].
    rewrite find_put_leaf. destruct (path_eqb_spec p q); [exfalso; eapply H; eauto|reflexivity].
  Qed.

  Lemma apply_comm s d1 d2 :
    (forall p e q e', d_leaf d1 = Some (p, e) -> d_leaf d2 = Some (q, e') -> p <> q) ->
    same_state (apply (apply s d1) d2) (apply (apply s d2) d1).
  Proof.
    intros H. unfold apply. repeat split; simpl.
    - destruct (d_name d1), (d_name d2); auto using insert_comm.
    - destruct (d_name d1), (d_name d2); reflexivity.
    - destruct (s_fields s), (d_fields d1), (d_fields d2); reflexivity.
    - intros p. unfold lookup. simpl.
      destruct (d_leaf d1) as [[p1 e1]|] eqn:E1, (d_leaf d2) as [[p2 e2]|] eqn:E2; try reflexivity.
      rewrite !find_put_leaf. specialize (H p1 e1 p2 e2 eq_refl eq_refl).
      destruct (path_eqb_spec p p1), (path_eqb_spec p p2); congruence.
  Qed.

  Definition indep (o1 o2 : aop) : Prop :=
    local o1 /\ local o2 /\
    (forall n, asks o1 = Some n -> makes o2 <> Some n) /\
    (forall n, asks o2 = Some n -> makes o1 <> Some n) /\
    forall p, entry_of o1 = Some p -> entry_of o2 = Some p -> only_reads o1 /\ only_reads o2.

  Lemma read_twice m1 t1 m2 t2 (e e1 e2 : leaf F) w1 w2 :
    do_read (fa_const A) m1 t1 e = (e1, RVal w1) -> do_read (fa_const A) m2 t2 e1 = (e2, RVal w2) ->
    e_val e1 = e_val e /\
    exists e1', do_read (fa_const A) m2 t2 e = (e1', RVal w2) /\ e_val e1' = e_val e /\
                do_read (fa_const A) m1 t1 e1' = (e2, RVal w1).
  Proof.
    destruct e as [v f d]. intros H1 H2.
    destruct m1; unfold do_read, get, getNoBoundary, getNonFinal in H1; simpl in H1;
      (destruct v as [v|]; [|discriminate]);
      (destruct (cast (fa_const A) t1 v) as [x1|] eqn:E1; [|discriminate]);
      inversion H1; subst e1 x1; clear H1;
      (split; [reflexivity|]);
      destruct m2; unfold do_read, get, getNoBoundary, getNonFinal in *; simpl in *;
      (destruct (cast (fa_const A) t2 v) as [x2|] eqn:E2; [|discriminate]);
      inversion H2; subst e2 x2; clear H2;
      (eexists; split; [reflexivity|]; split; [reflexivity|]; simpl; rewrite E1; reflexivity).
  Qed.

  Lemma step_commute f1 f2 s o1 o2 s1 r1 ev1 s2 r2 ev2 :
    indep o1 o2 ->
    stepA f1 s o1 = (s1, Some r1, ev1) -> stepA f2 s1 o2 = (s2, Some r2, ev2) ->
    exists s1' s2', stepA f2 s o2 = (s1', Some r2, ev2) /\ stepA f1 s1' o1 = (s2', Some r1, ev1) /\
                    same_state s2 s2'.
  Proof.
    intros (Hl1 & Hl2 & Hk1 & Hk2 & Hi) H1 H2.
    assert (Hcase : (forall p q, entry_of o1 = Some p -> entry_of o2 = Some q -> p <> q) \/
                    exists p, entry_of o1 = Some p /\ entry_of o2 = Some p).
    { destruct (entry_of o1) as [p|]; [|left; discriminate].
      destruct (entry_of o2) as [q|]; [|left; discriminate].
      destruct (path_eqb_spec p q) as [->|Hne]; [right; eauto|].
      left. intros p' q' Hp Hq. congruence. }
    destruct Hcase as [Hne|(p & Hp1 & Hp2)].
    - rewrite step_local in H1 by exact Hl1. rewrite step_local in H2 by exact Hl2.
      destruct (dstep f1 o1 (at_entry s o1) (knows s o1)) as [[d1 r1'] ev1'] eqn:D1.
      inversion H1; subst s1 r1' ev1'; clear H1.
      assert (Ha : at_entry (apply s d1) o2 = at_entry s o2).
      { unfold at_entry. destruct (entry_of o2) as [q|] eqn:E2; [|reflexivity].
        apply apply_other. intros p e Hd Heq.
        apply (dstep_leaf _ _ _ _ _ _ _ _ _ D1) in Hd.
        exact (Hne _ _ Hd eq_refl (eq_sym Heq)). }
      rewrite Ha, knows_apply in H2.
      2:{ intros n Hn Hd. apply (dstep_name _ _ _ _ _ _ _ _ D1) in Hd. exact (Hk2 n Hn Hd). }
      destruct (dstep f2 o2 (at_entry s o2) (knows s o2)) as [[d2 r2'] ev2'] eqn:D2.
      inversion H2; subst s2 r2' ev2'; clear H2.
      exists (apply s d2), (apply (apply s d2) d1).
      split; [rewrite step_local by exact Hl2; rewrite D2; reflexivity|].
      split.
      + rewrite step_local by exact Hl1.
        assert (Hb : at_entry (apply s d2) o1 = at_entry s o1).
        { unfold at_entry. destruct (entry_of o1) as [q|] eqn:E1; [|reflexivity].
          apply apply_other. intros p e Hd Heq.
          apply (dstep_leaf _ _ _ _ _ _ _ _ _ D2) in Hd.
          exact (Hne _ _ eq_refl Hd Heq). }
        rewrite Hb, knows_apply, D1; [reflexivity|].
        intros n Hn Hd. apply (dstep_name _ _ _ _ _ _ _ _ D2) in Hd. exact (Hk1 n Hn Hd).
      + apply apply_comm. intros p e q e' Hd1 Hd2.
        apply (Hne p q); [exact (dstep_leaf _ _ _ _ _ _ _ _ _ D1 Hd1)|
                          exact (dstep_leaf _ _ _ _ _ _ _ _ _ D2 Hd2)].
    - destruct (Hi p Hp1 Hp2) as [Hr1 Hr2].
      destruct o1 as [| | | | |m1 t1 p1| |p1| | |]; simpl in Hr1; try contradiction;
        simpl in Hp1; inversion Hp1; subst p1;
        destruct o2 as [| | | | |m2 t2 p2| |p2| | |]; simpl in Hr2; try contradiction;
        simpl in Hp2; inversion Hp2; subst p2; clear Hp1 Hp2.
      + simpl in H1. destruct (lookup s p) as [e|] eqn:El; [|discriminate].
        destruct (do_read (fa_const A) m1 t1 e) as [e1 x1] eqn:E1.
        destruct x1 as [w1| | |]; try (destruct (e_val e); discriminate).
        destruct (e_val e) as [v|] eqn:Ev; [|discriminate]. inversion H1; subst s1 r1 ev1; clear H1.
        simpl in H2. rewrite lookup_replace, path_eqb_refl in H2.
        destruct (do_read (fa_const A) m2 t2 e1) as [e2 x2] eqn:E2.
        destruct x2 as [w2| | |]; try (destruct (e_val e1); discriminate).
        destruct (read_twice _ _ _ _ _ _ _ _ _ E1 E2) as (Hv1 & e1' & R1 & Hv1' & R2).
        rewrite Hv1, Ev in H2. inversion H2; subst s2 r2 ev2; clear H2.
        exists (replace s p e1'), (replace (replace s p e1') p e2). simpl. rewrite El, R1, Ev.
        split; [reflexivity|].
        rewrite lookup_replace, path_eqb_refl, R2, Hv1', ?Ev. split; [reflexivity|].
        repeat split. intros q. rewrite !lookup_replace. destruct (path_eqb q p); reflexivity.
      + simpl in H1. destruct (lookup s p) as [e|] eqn:El; [|discriminate].
        destruct (do_read (fa_const A) m1 t1 e) as [e1 x1] eqn:E1.
        destruct x1 as [w1| | |]; try (destruct (e_val e); discriminate).
        destruct (e_val e) as [v|] eqn:Ev; [|discriminate]. inversion H1; subst s1 r1 ev1; clear H1.
        assert (Hv1 : e_val e1 = Some v).
        { destruct (do_read_same_val A m1 t1 e e eq_refl) as [_ Hk]. rewrite E1 in Hk. simpl in Hk.
          congruence. }
        simpl in H2. unfold value in H2. rewrite lookup_replace, path_eqb_refl, Hv1 in H2.
        inversion H2; subst s2 r2 ev2; clear H2.
        exists s, (replace s p e1). simpl. unfold value. rewrite El, Ev.
        split; [reflexivity|]. rewrite ?E1, ?Ev. split; [reflexivity|apply ss_refl].
      + simpl in H1. inversion H1; subst s1 r1 ev1; clear H1.
        simpl in H2. destruct (lookup s p) as [e|] eqn:El; [|discriminate].
        destruct (do_read (fa_const A) m2 t2 e) as [e1 x1] eqn:E1.
        destruct x1 as [w1| | |]; try (destruct (e_val e); discriminate).
        destruct (e_val e) as [v|] eqn:Ev; [|discriminate]. inversion H2; subst s2 r2 ev2; clear H2.
        assert (Hv1 : e_val e1 = Some v).
        { destruct (do_read_same_val A m2 t2 e e eq_refl) as [_ Hk]. rewrite E1 in Hk. simpl in Hk.
          congruence. }
        exists (replace s p e1), (replace s p e1). simpl. rewrite El, E1, Ev.
        split; [reflexivity|]. unfold value. rewrite lookup_replace, path_eqb_refl, Hv1, ?El, ?Ev.
        split; [reflexivity|apply ss_refl].
      + simpl in H1. inversion H1; subst s1 r1 ev1; clear H1.
        simpl in H2. inversion H2; subst s2 r2 ev2; clear H2.
        exists s, s. simpl. split; [reflexivity|]. split; [reflexivity|apply ss_refl].
  Qed.

  (** ** Programs *)

  Lemma op_prog_commute o1 {X} (b : prog X) : forall f1 num n vs s s1 r1 ev1 s2 tr y,
    calls (indep o1) b ->
    stepA f1 s o1 = (s1, Some r1, ev1) -> execA num n vs s1 b = (s2, tr, Some y) ->
    exists sb s2', execA num n vs s b = (sb, tr, Some y) /\
                   stepA f1 sb o1 = (s2', Some r1, ev1) /\ same_state s2 s2'.
  Proof.
    induction b as [x| |o k IH]; intros f1 num n vs s s1 r1 ev1 s2 tr y Hc H1 H2.
    - simpl in H2. inversion H2; subst. exists s, s2. split; [reflexivity|].
      split; [exact H1|apply ss_refl].
    - discriminate.
    - destruct Hc as [Ho Hk]. simpl in H2.
      destruct (stepA (num n vs) s1 o) as [[s1b r] ev] eqn:Es.
      destruct r as [r|]; [|discriminate].
      destruct (step_commute _ _ _ _ _ _ _ _ _ _ _ Ho H1 Es) as (s' & s1b' & Hs' & Hs1b & Hss).
      destruct (execA num (S n) (vs ++ reads_of ev) s1b (k r)) as [[s3 tr3] a3] eqn:Ee.
      inversion H2; subst s3 tr a3; clear H2.
      pose proof (exec_ext (k r) num (S n) (vs ++ reads_of ev) s1b s1b' Hss) as Hx.
      rewrite Ee in Hx.
      destruct (execA num (S n) (vs ++ reads_of ev) s1b' (k r)) as [[s3' tr3'] a3'] eqn:Ee'.
      destruct Hx as (Hss3 & <- & <-).
      destruct (IH r f1 num (S n) (vs ++ reads_of ev) s' s1b' r1 ev1 s3' tr3 y (Hk r) Hs1b Ee')
        as (sb & s2' & Hb & Hb1 & Hb2).
      exists sb, s2'. simpl. rewrite Hs', Hb. split; [reflexivity|]. split; [exact Hb1|].
      apply (ss_trans _ _ _ Hss3 Hb2).
  Qed.

  Lemma prog_commute {X Y} (a : prog X) (b : prog Y) : forall numa n vs numb s sa tra x sab trb y,
    calls (fun o1 => calls (indep o1) b) a ->
    execA numa n vs s a = (sa, tra, Some x) ->
    execA numb 0 [] sa b = (sab, trb, Some y) ->
    exists sb sba, execA numb 0 [] s b = (sb, trb, Some y) /\
                   execA numa n vs sb a = (sba, tra, Some x) /\ same_state sab sba.
  Proof.
    induction a as [z| |o k IH]; intros numa n vs numb s sa tra x sab trb y Hc Ha Hb.
    - simpl in Ha. inversion Ha; subst. exists sab, sab. split; [exact Hb|].
      split; [reflexivity|apply ss_refl].
    - discriminate.
    - destruct Hc as [Ho Hk]. simpl in Ha.
      destruct (stepA (numa n vs) s o) as [[s1 r] ev] eqn:Es.
      destruct r as [r|]; [|discriminate].
      destruct (execA numa (S n) (vs ++ reads_of ev) s1 (k r)) as [[s2 tr2] a2] eqn:Ee.
      inversion Ha; subst s2 tra a2; clear Ha.
      destruct (IH r numa (S n) (vs ++ reads_of ev) numb s1 sa tr2 x sab trb y (Hk r) Ee Hb)
        as (sb1 & sba1 & Hb1 & Ha1 & Hss1).
      destruct (op_prog_commute o b _ _ _ _ _ _ _ _ _ _ _ Ho Es Hb1) as (sb & sb' & Hsb & Hsb1 & Hss2).
      pose proof (exec_ext (k r) numa (S n) (vs ++ reads_of ev) sb1 sb' Hss2) as Hx.
      rewrite Ha1 in Hx.
      destruct (execA numa (S n) (vs ++ reads_of ev) sb' (k r)) as [[s3 tr3] a3] eqn:E3.
      destruct Hx as (Hss3 & <- & <-).
      exists sb, s3. split; [exact Hsb|]. split.
      + simpl. rewrite Hsb1, E3. reflexivity.
      + apply (ss_trans _ _ _ Hss1 Hss3).
  Qed.
End Order.

(** ** Components of one species *)

Definition own (n : string) (o : aop) : Prop :=
  local o /\
  (forall m, asks o = Some m -> m = n) /\ (forall m, makes o = Some m -> m = n) /\
  match entry_of o with
  | Some (PSp m _) => m = n
  | Some (PField _) => False
  | Some _ => only_reads o
  | None => True
  end.

Lemma own_indep n m o1 o2 : n <> m -> own n o1 -> own m o2 -> indep o1 o2.
Proof.
  intros Hnm (L1 & A1 & M1 & E1) (L2 & A2 & M2 & E2). split; [exact L1|]. split; [exact L2|].
  split. { intros k Ha Hm. apply A1 in Ha. apply M2 in Hm. congruence. }
  split. { intros k Ha Hm. apply A2 in Ha. apply M1 in Hm. congruence. }
  intros p H1 H2. rewrite H1 in E1. rewrite H2 in E2. destruct p; auto; [contradiction|congruence].
Qed.

Definition uses_own (tf : string * (string -> cfg -> option comp)) : Prop :=
  forall n c x, snd tf n c = Some x -> calls (own n) (c_transform x).

Ltac own_tac f :=
  let n := fresh "n" in let c := fresh "c" in let x := fresh "x" in let H := fresh "H" in
  intros n c x H; cbn [fst snd] in *; unfold f in H;
  invert_create H; get_prog H; calls_tac; paths;
  (split; [exact I|]; split; [simpl; congruence|]; split; [simpl; congruence|]; simpl; auto).

Lemma o_evolve_density : uses_own ("evolve_density", evolve_density).
Proof. own_tac evolve_density. Qed.
Lemma o_evolve_pressure : uses_own ("evolve_pressure", evolve_pressure).
Proof. own_tac evolve_pressure. Qed.
Lemma o_evolve_energy : uses_own ("evolve_energy", evolve_energy).
Proof. own_tac evolve_energy. Qed.
Lemma o_evolve_momentum : uses_own ("evolve_momentum", evolve_momentum).
Proof. own_tac evolve_momentum. Qed.
Lemma o_neutral_mixed : uses_own ("neutral_mixed", neutral_mixed).
Proof. own_tac neutral_mixed. Qed.
Lemma o_isothermal : uses_own ("isothermal", isothermal).
Proof. own_tac isothermal. Qed.
Lemma o_fixed_density : uses_own ("fixed_density", fixed_density).
Proof. own_tac fixed_density. Qed.
Lemma o_fixed_temperature : uses_own ("fixed_temperature", fixed_temperature).
Proof. own_tac fixed_temperature. Qed.
Lemma o_fixed_velocity : uses_own ("fixed_velocity", fixed_velocity).
Proof. own_tac fixed_velocity. Qed.
Lemma o_simple_pump : uses_own ("simple_pump", simple_pump).
Proof. own_tac simple_pump. Qed.
Lemma o_simple_conduction : uses_own ("simple_conduction", simple_conduction).
Proof. own_tac simple_conduction. Qed.
Lemma o_anomalous_diffusion : uses_own ("anomalous_diffusion", anomalous_diffusion).
Proof. own_tac anomalous_diffusion. Qed.
Lemma o_upstream_density_feedback : uses_own ("upstream_density_feedback", upstream_density_feedback).
Proof. own_tac upstream_density_feedback. Qed.
Lemma o_noflow_boundary : uses_own ("noflow_boundary", noflow_boundary).
Proof. own_tac noflow_boundary. Qed.
Lemma o_neutral_boundary : uses_own ("neutral_boundary", neutral_boundary).
Proof. own_tac neutral_boundary. Qed.

Lemma own_created t n c x : In t own_types -> create t n c = Some x -> calls (own n) (c_transform x).
Proof.
  intros Hin H. unfold own_types in Hin. simpl in Hin.
  repeat (destruct Hin as [<-|Hin]); [..|contradiction]; revert n c x H.
  - exact o_evolve_density.
  - exact o_evolve_pressure.
  - exact o_evolve_energy.
  - exact o_evolve_momentum.
  - exact o_neutral_mixed.
  - exact o_isothermal.
  - exact o_fixed_density.
  - exact o_fixed_temperature.
  - exact o_fixed_velocity.
  - exact o_simple_pump.
  - exact o_simple_conduction.
  - exact o_anomalous_diffusion.
  - exact o_upstream_density_feedback.
  - exact o_noflow_boundary.
  - exact o_neutral_boundary.
Qed.

Lemma calls_own_indep n m {X Y} (a : prog X) (b : prog Y) :
  n <> m -> calls (own n) a -> calls (own m) b -> calls (fun o1 => calls (indep o1) b) a.
Proof.
  intros Hnm Ha Hb. revert Ha. apply calls_weaken. intros o Ho.
  revert Hb. apply calls_weaken. intros o2 Ho2. exact (own_indep n m o o2 Hnm Ho Ho2).
Qed.

(** ** Lists of components *)

Section Lists.
  Context {F : Type}.
  Variable A : farith F.
  Local Notation key := (string * string)%type.

  Fixpoint run_tagged (cn : key -> nat -> list (val F) -> F) (meth : comp -> prog unit)
      (l : list (key * comp)) (s : st F) : st F * list (key * list (event F)) * bool :=
    match l with
    | [] => (s, [], true)
    | (k, x) :: l' =>
        match run_method A (cn k) s (meth x) with
        | (s1, tr, Some _) =>
            let '(s2, trs, ok) := run_tagged cn meth l' s1 in (s2, (k, tr) :: trs, ok)
        | (s1, tr, None) => (s1, [(k, tr)], false)
        end
    end.

  Lemma loop_tagged cn meth : forall l cs pre s,
    List.length l = List.length cs ->
    run_loop A (fun i => cn (nth i (pre ++ l) ("", ""))) meth (List.length pre) cs s
    = let '(s', trs, ok) := run_tagged cn meth (combine l cs) s in (s', map snd trs, ok).
  Proof.
    induction l as [|k l IH]; intros cs pre s Hl; destruct cs as [|x cs]; try discriminate; [reflexivity|].
    simpl. assert (Hk : nth (List.length pre) (pre ++ k :: l) ("", "") = k).
    { rewrite app_nth2 by lia. rewrite Nat.sub_diag. reflexivity. }
    rewrite Hk. destruct (run_method A (cn k) s (meth x)) as [[s1 tr] a]. destruct a as [y|]; [|reflexivity].
    specialize (IH cs (pre ++ [k]) s1 ltac:(simpl in Hl; lia)).
    rewrite <- app_assoc in IH. simpl in IH. rewrite app_length in IH. simpl in IH.
    rewrite Nat.add_1_r in IH. rewrite IH.
    destruct (run_tagged cn meth (combine l cs) s1) as [[s2 trs] ok]. reflexivity.
  Qed.

  Lemma tagged_keys cn meth : forall l s s' trs,
    run_tagged cn meth l s = (s', trs, true) -> map fst trs = map fst l.
  Proof.
    induction l as [|[k x] l IH]; simpl; intros s s' trs H; [inversion H; reflexivity|].
    destruct (run_method A (cn k) s (meth x)) as [[s1 tr] a]. destruct a as [y|]; [|discriminate].
    destruct (run_tagged cn meth l s1) as [[s2 trs2] ok2] eqn:E.
    inversion H; subst. simpl. rewrite (IH _ _ _ E). reflexivity.
  Qed.

  Lemma tagged_ext cn meth : forall l s s',
    same_state s s' ->
    let '(s1, trs, ok) := run_tagged cn meth l s in
    let '(s1', trs', ok') := run_tagged cn meth l s' in
    same_state s1 s1' /\ trs = trs' /\ ok = ok'.
  Proof.
    induction l as [|[k x] l IH]; intros s s' Hs; simpl; [auto|].
    unfold run_method. pose proof (exec_ext A (meth x) (cn k) 0 [] s s' Hs) as H.
    destruct (exec _ _ _ _ _ (cn k) 0%nat [] s (meth x)) as [[s1 tr] a].
    destruct (exec _ _ _ _ _ (cn k) 0%nat [] s' (meth x)) as [[s1' tr'] a'].
    destruct H as (Hs1 & <- & <-). destruct a as [y|]; [|auto].
    specialize (IH s1 s1' Hs1).
    destruct (run_tagged cn meth l s1) as [[s2 trs2] ok2].
    destruct (run_tagged cn meth l s1') as [[s2' trs2'] ok2'].
    destruct IH as (G1 & <- & <-). auto.
  Qed.

  Lemma tagged_app cn meth : forall l1 l2 s,
    run_tagged cn meth (l1 ++ l2) s =
    let '(s1, trs1, ok1) := run_tagged cn meth l1 s in
    if ok1 then let '(s2, trs2, ok2) := run_tagged cn meth l2 s1 in (s2, trs1 ++ trs2, ok2)
    else (s1, trs1, false).
  Proof.
    induction l1 as [|[k x] l1 IH]; intros l2 s; simpl.
    - destruct (run_tagged cn meth l2 s) as [[s2 trs2] ok2]. reflexivity.
    - destruct (run_method A (cn k) s (meth x)) as [[s1 tr] a]. destruct a as [y|]; [|reflexivity].
      rewrite IH. destruct (run_tagged cn meth l1 s1) as [[s2 trs2] ok2].
      destruct ok2; [|reflexivity].
      destruct (run_tagged cn meth l2 s2) as [[s3 trs3] ok3]. reflexivity.
  Qed.

  Lemma tagged_swap cn pre ka a kb b post s s' trs :
    calls (fun o1 => calls (indep o1) (c_transform b)) (c_transform a) ->
    run_tagged cn c_transform (pre ++ (ka, a) :: (kb, b) :: post) s = (s', trs, true) ->
    exists s'' trs', run_tagged cn c_transform (pre ++ (kb, b) :: (ka, a) :: post) s = (s'', trs', true) /\
                     same_state s' s'' /\ Permutation trs trs'.
  Proof.
    intros Hi H. rewrite tagged_app in *.
    destruct (run_tagged cn c_transform pre s) as [[s1 trs1] ok1]. destruct ok1; [|discriminate].
    simpl in H.
    destruct (run_method A (cn ka) s1 (c_transform a)) as [[sa tra] ya] eqn:Ea.
    destruct ya as [ya|]; [|discriminate].
    destruct (run_method A (cn kb) sa (c_transform b)) as [[sb trb] yb] eqn:Eb.
    destruct yb as [yb|]; [|discriminate].
    destruct (run_tagged cn c_transform post sb) as [[s2 trs2] ok2] eqn:Ep.
    inversion H; subst s' trs ok2; clear H.
    destruct (prog_commute A (c_transform a) (c_transform b) _ _ _ _ _ _ _ _ _ _ _ Hi Ea Eb)
      as (sb' & sba & Hb & Ha & Hss).
    simpl. unfold run_method. rewrite Hb, Ha.
    pose proof (tagged_ext cn c_transform post sb sba Hss) as Hx. rewrite Ep in Hx.
    destruct (run_tagged cn c_transform post sba) as [[s3 trs3] ok3].
    destruct Hx as (Hss3 & <- & <-).
    exists s3, (trs1 ++ (kb, trb) :: (ka, tra) :: trs2).
    split; [reflexivity|]. split; [exact Hss3|].
    apply Permutation_app_head. apply perm_swap.
  Qed.

  Lemma combine_app2 {X Y} (l1 l2 : list X) (m1 m2 : list Y) :
    List.length l1 = List.length m1 -> combine (l1 ++ l2) (m1 ++ m2) = combine l1 m1 ++ combine l2 m2.
  Proof.
    revert m1. induction l1 as [|x l1 IH]; intros m1 H; destruct m1 as [|y m1]; try discriminate; [reflexivity|].
    simpl. rewrite IH; [reflexivity|]. simpl in H. lia.
  Qed.

  Lemma create_list_app c l1 : forall l2 cs,
    create_list c (l1 ++ l2) = Some cs ->
    exists c1 c2, create_list c l1 = Some c1 /\ create_list c l2 = Some c2 /\ cs = c1 ++ c2.
  Proof.
    induction l1 as [|[t n] l1 IH]; intros l2 cs H.
    - exists [], cs. auto.
    - simpl in H. unfold obind in H. destruct (create t n c) as [x|] eqn:Ex; [|discriminate].
      destruct (create_list c (l1 ++ l2)) as [r|] eqn:Er; [|discriminate].
      destruct (IH l2 r Er) as (c1 & c2 & H1 & H2 & ->). inversion H; subst.
      exists (x :: c1), c2. simpl. unfold obind. rewrite Ex, H1. auto.
  Qed.

  Lemma create_list_join c l1 l2 c1 c2 :
    create_list c l1 = Some c1 -> create_list c l2 = Some c2 ->
    create_list c (l1 ++ l2) = Some (c1 ++ c2).
  Proof.
    revert c1. induction l1 as [|[t n] l1 IH]; intros c1 H1 H2.
    - simpl in H1. inversion H1. exact H2.
    - simpl in *. unfold obind in *. destruct (create t n c) as [x|]; [|discriminate].
      destruct (create_list c l1) as [r|]; [|discriminate]. inversion H1; subst.
      rewrite (IH r eq_refl H2). reflexivity.
  Qed.

  (** Transforms of a reordered list. *)
  Lemma reordered_transform c : forall l l', reordered l l' -> forall cs,
    create_list c l = Some cs ->
    exists cs', create_list c l' = Some cs' /\ Permutation (combine l cs) (combine l' cs') /\
      forall cn s s1 trs, run_tagged cn c_transform (combine l cs) s = (s1, trs, true) ->
        exists s1' trs', run_tagged cn c_transform (combine l' cs') s = (s1', trs', true) /\
          same_state s1 s1' /\ Permutation trs trs'.
  Proof.
    intros l l' Hr. induction Hr as [l|pre a b post l Hap Hr IH]; intros cs Hc.
    - exists cs. split; [exact Hc|]. split; [reflexivity|].
      intros cn s s1 trs H. exists s1, trs. auto using ss_refl.
    - apply create_list_app in Hc as (c1 & c2 & H1 & H2 & ->).
      destruct a as [ta na], b as [tb nb]. destruct Hap as (Ha & Hb & Hne). simpl in Ha, Hb, Hne.
      simpl in H2. unfold obind in H2.
      destruct (create ta na c) as [xa|] eqn:Ea; [|discriminate].
      destruct (create tb nb c) as [xb|] eqn:Eb; [|discriminate].
      destruct (create_list c post) as [cp|] eqn:Ep; [|discriminate]. inversion H2; subst c2; clear H2.
      assert (Hsw : create_list c (pre ++ (tb, nb) :: (ta, na) :: post) = Some (c1 ++ xb :: xa :: cp)).
      { apply create_list_join; [exact H1|]. simpl. unfold obind. rewrite Ea, Eb, Ep. reflexivity. }
      destruct (IH _ Hsw) as (cs' & Hc' & Hp & Hrun).
      pose proof (create_list_length c pre c1 H1) as Hlen.
      rewrite combine_app2 in * by (symmetry; exact Hlen). simpl in *.
      exists cs'. split; [exact Hc'|]. split.
      { etransitivity; [|exact Hp]. apply Permutation_app_head, perm_swap. }
      intros cn s s1 trs H.
      destruct (tagged_swap cn _ _ _ _ _ _ s s1 trs
                  (calls_own_indep na nb _ _ Hne (own_created ta na c xa Ha Ea) (own_created tb nb c xb Hb Eb))
                  H) as (s2 & trs2 & H2 & Hss & Hpm).
      destruct (Hrun cn s s2 trs2 H2) as (s3 & trs3 & H3 & Hss3 & Hpm3).
      exists s3, trs3. split; [exact H3|]. split; [apply (ss_trans _ _ _ Hss Hss3)|].
      etransitivity; eassumption.
  Qed.

  (** finally, in tagged form. *)
  Lemma tagged_finally cn : forall l s s0,
    Forall (fun kx : key * comp => calls const_op (c_finally (snd kx))) l ->
    same_values s0 s ->
    let '(s', trs, ok) := run_tagged cn c_finally l s in
    same_values s0 s' /\
    (ok = true <-> forall kx, In kx l ->
       snd (run_method A (cn (fst kx)) s0 (c_finally (snd kx))) <> None) /\
    (ok = true -> trs = map (fun kx => (fst kx, snd (fst (run_method A (cn (fst kx)) s0 (c_finally (snd kx)))))) l).
  Proof.
    induction l as [|[k x] l IH]; intros s s0 Hc Hs; simpl.
    - split; [exact Hs|]. split; [|reflexivity]. split; [intros _ kx []|reflexivity].
    - inversion Hc as [|? ? Hx Hcs]; subst. simpl in Hx. unfold run_method in *.
      pose proof (const_exec A (c_finally x) (cn k) (cn k) 0 [] s0 s Hx Hs (fun _ _ => eq_refl)) as He.
      destruct (exec _ _ _ _ _ (cn k) 0%nat [] s0 (c_finally x)) as [[sa tra] aa] eqn:Ea.
      destruct (exec _ _ _ _ _ (cn k) 0%nat [] s (c_finally x)) as [[sb trb] ab] eqn:Eb.
      destruct He as (<- & <- & Ha & Hb).
      destruct aa as [y|].
      + specialize (IH sb s0 Hcs (same_trans _ _ _ Hs Hb)).
        destruct (run_tagged cn c_finally l sb) as [[s2 trs2] ok2].
        destruct IH as (G1 & G2 & G3). split; [exact G1|]. split.
        * rewrite G2. split.
          -- intros G kx [<-|Hin]; [|exact (G kx Hin)]. simpl. rewrite Ea. discriminate.
          -- intros G kx Hin. apply G. right. exact Hin.
        * intros Hok. rewrite <- (G3 Hok). reflexivity.
      + split; [exact (same_trans _ _ _ Hs Hb)|]. split; [|discriminate].
        split; [discriminate|]. intros G. exfalso. apply (G (k, x) (or_introl eq_refl)). simpl.
        rewrite Ea. reflexivity.
  Qed.

  Lemma ss_same (s s' : st F) : same_state s s' -> same_values s s'.
  Proof.
    intros (H1 & H2 & H3 & H4). repeat split; auto. intros p. rewrite H4. reflexivity.
  Qed.

  Lemma created_finally_tagged c : forall l cs, create_list c l = Some cs ->
    Forall (fun kx : key * comp => calls const_op (c_finally (snd kx))) (combine l cs).
  Proof.
    intros l cs H. pose proof (created_finally_const c l cs H) as Hf.
    pose proof (create_list_length c l cs H) as Hlen. clear H. symmetry in Hlen.
    revert cs Hf Hlen. induction l as [|k l IH]; intros cs Hf Hlen; destruct cs as [|x cs]; try discriminate;
      [constructor|]. inversion Hf; subst. simpl. constructor; [assumption|]. apply IH; auto.
  Qed.

  Lemma combine_tagged {Y} (l : list key) : forall (trs : list (key * Y)),
    map fst trs = l -> combine l (map snd trs) = trs.
  Proof.
    induction l as [|k l IH]; intros trs H; destruct trs as [|[k' y] trs]; try discriminate; [reflexivity|].
    simpl in *. inversion H; subst. rewrite (IH trs eq_refl). reflexivity.
  Qed.

  Lemma combine_keys (l : list key) : forall (cs : list comp),
    List.length cs = List.length l -> map fst (combine l cs) = l.
  Proof.
    induction l as [|k l IH]; intros cs H; destruct cs as [|x cs]; try discriminate; [reflexivity|].
    simpl in *. rewrite IH; auto.
  Qed.

  Lemma reordered_runs c l l' cs cn t u s trs :
    reordered l l' -> create_list c l = Some cs ->
    rhs A (placed cn l) t u cs = (s, trs, true) ->
    exists cs' s' trs', create_list c l' = Some cs' /\
      rhs A (placed cn l') t u cs' = (s', trs', true) /\
      (forall p, value s p = value s' p) /\
      Permutation (combine (l ++ l) trs) (combine (l' ++ l') trs').
  Proof.
    intros Hr Hc H.
    destruct (reordered_transform c l l' Hr cs Hc) as (cs' & Hc' & Hpc & Hrun).
    pose proof (create_list_length c l cs Hc) as Hlen.
    pose proof (create_list_length c l' cs' Hc') as Hlen'.
    apply rhs_split in H as (s1 & tr1 & tr2 & E1 & E2 & ->).
    unfold placed in E1, E2.
    pose proof (loop_tagged (cn false) c_transform l cs [] (initial t u) (eq_sym Hlen)) as T1.
    pose proof (loop_tagged (cn true) c_finally l cs [] s1 (eq_sym Hlen)) as T2.
    simpl in T1, T2. rewrite E1 in T1. rewrite E2 in T2.
    destruct (run_tagged (cn false) c_transform (combine l cs) (initial t u)) as [[s1a tt1] ok1] eqn:R1.
    inversion T1; subst s1a tr1 ok1; clear T1.
    destruct (run_tagged (cn true) c_finally (combine l cs) s1) as [[s2a tt2] ok2] eqn:R2.
    inversion T2; subst s2a tr2 ok2; clear T2.
    destruct (Hrun (cn false) (initial t u) s1 tt1 R1) as (s1' & tt1' & R1' & Hss & Hp1).
    pose proof (tagged_finally (cn true) (combine l cs) s1 s1 (created_finally_tagged c l cs Hc)
                  (same_refl s1)) as F1. rewrite R2 in F1. destruct F1 as (V1 & O1 & Q1).
    pose proof (tagged_finally (cn true) (combine l' cs') s1' s1 (created_finally_tagged c l' cs' Hc')
                  (ss_same _ _ Hss)) as F2.
    destruct (run_tagged (cn true) c_finally (combine l' cs') s1') as [[s2' tt2'] ok2'] eqn:R2'.
    destruct F2 as (V2 & O2 & Q2).
    assert (Hok : ok2' = true).
    { apply O2. intros kx Hin. apply (proj1 O1 eq_refl).
      apply (Permutation_in _ (Permutation_sym Hpc) Hin). }
    subst ok2'. specialize (Q1 eq_refl). specialize (Q2 eq_refl).
    exists cs', s2', (map snd tt1' ++ map snd tt2').
    split; [exact Hc'|]. split.
    { unfold rhs, run_components, placed.
      pose proof (loop_tagged (cn false) c_transform l' cs' [] (initial t u) (eq_sym Hlen')) as T1.
      pose proof (loop_tagged (cn true) c_finally l' cs' [] s1' (eq_sym Hlen')) as T2.
      simpl in T1, T2. rewrite R1' in T1. rewrite R2' in T2. rewrite T1, T2. reflexivity. }
    split.
    { intros p. rewrite <- (same_value _ _ p V1). apply (same_value _ _ p V2). }
    pose proof (tagged_keys _ _ _ _ _ _ R1) as K1. pose proof (tagged_keys _ _ _ _ _ _ R1') as K1'.
    rewrite combine_keys in K1 by exact Hlen. rewrite combine_keys in K1' by exact Hlen'.
    assert (K2 : map fst tt2 = l).
    { rewrite Q1, map_map. simpl. apply combine_keys. exact Hlen. }
    assert (K2' : map fst tt2' = l').
    { rewrite Q2, map_map. simpl. apply combine_keys. exact Hlen'. }
    assert (L1 : List.length l = List.length (map snd tt1)).
    { rewrite <- K1 at 1. rewrite !map_length. reflexivity. }
    assert (L1' : List.length l' = List.length (map snd tt1')).
    { rewrite <- K1' at 1. rewrite !map_length. reflexivity. }
    rewrite (combine_app2 l l _ _ L1), (combine_app2 l' l' _ _ L1').
    rewrite (combine_tagged l tt1 K1), (combine_tagged l tt2 K2),
            (combine_tagged l' tt1' K1'), (combine_tagged l' tt2' K2').
    apply Permutation_app; [exact Hp1|]. rewrite Q1, Q2. apply Permutation_map. exact Hpc.
  Qed.

  Lemma apart_sym a b : apart a b -> apart b a.
  Proof. intros (H1 & H2 & H3). split; [exact H2|]. split; [exact H1|auto]. Qed.

  Lemma reordered_trans l l' l'' : reordered l l' -> reordered l' l'' -> reordered l l''.
  Proof.
    intros H. induction H as [l|pre a b post l Hap H IH]; intros G; [exact G|].
    apply reordered_swap; auto.
  Qed.

  Lemma reordered_sym l l' : reordered l l' -> reordered l' l.
  Proof.
    intros H. induction H as [l|pre a b post l Hap H IH]; [constructor|].
    apply (reordered_trans _ _ _ IH). apply reordered_swap; [apply apart_sym, Hap|constructor].
  Qed.

  (** The whole: also for evaluations which end with an exception. *)
  Lemma reordered_same_result c l l' cs cn t u s trs ok :
    reordered l l' -> create_list c l = Some cs ->
    rhs A (placed cn l) t u cs = (s, trs, ok) ->
    exists cs' s' trs', create_list c l' = Some cs' /\
      rhs A (placed cn l') t u cs' = (s', trs', ok) /\
      (ok = true -> (forall p, value s p = value s' p) /\
                    Permutation (combine (l ++ l) trs) (combine (l' ++ l') trs')).
  Proof.
    intros Hr Hc H. destruct ok.
    - destruct (reordered_runs c l l' cs cn t u s trs Hr Hc H) as (cs' & s' & trs' & H1 & H2 & H3 & H4).
      exists cs', s', trs'. auto.
    - destruct (reordered_transform c l l' Hr cs Hc) as (cs' & Hc' & _ & _).
      destruct (rhs A (placed cn l') t u cs') as [[s' trs'] ok'] eqn:E.
      destruct ok'.
      + exfalso. destruct (reordered_runs c l' l cs' cn t u s' trs' (reordered_sym _ _ Hr) Hc' E)
          as (cs2 & s2 & trs2 & H1 & H2 & _).
        rewrite Hc in H1. inversion H1; subst cs2. congruence.
      + exists cs', s', trs'. split; [exact Hc'|]. split; [exact E|discriminate].
  Qed.

  (** Blocks. *)
  Lemma reordered_cons x l l' : reordered l l' -> reordered (x :: l) (x :: l').
  Proof.
    intros H. induction H as [l|pre a b post l Hap H IH]; [constructor|].
    apply (reordered_swap (x :: pre)); assumption.
  Qed.
  Lemma reordered_app pre l l' : reordered l l' -> reordered (pre ++ l) (pre ++ l').
  Proof. intros H. induction pre as [|x pre IH]; [exact H|]. apply reordered_cons, IH. Qed.

  Lemma reordered_past x : forall bl post,
    (forall b, In b bl -> apart x b) -> reordered (x :: bl ++ post) (bl ++ x :: post).
  Proof.
    induction bl as [|b bl IH]; intros post H; simpl; [constructor|].
    apply (reordered_swap [] x b (bl ++ post)); [apply H; left; reflexivity|].
    simpl. apply reordered_cons. apply IH. intros b' Hb'. apply H. right; exact Hb'.
  Qed.

  Lemma reordered_blocks pre : forall al bl post,
    (forall a b, In a al -> In b bl -> apart a b) ->
    reordered (pre ++ al ++ bl ++ post) (pre ++ bl ++ al ++ post).
  Proof.
    intros al bl post H. apply reordered_app. revert H.
    induction al as [|a al IH]; intros H; simpl; [constructor|].
    apply (reordered_trans _ (a :: bl ++ al ++ post)).
    - apply reordered_cons, IH. intros a' b Ha Hb. apply H; [right; exact Ha|exact Hb].
    - apply reordered_past. intros b Hb. apply H; [left; reflexivity|exact Hb].
  Qed.

  Lemma species_exchanged c pre al bl post n m cs cn t u s trs ok :
    n <> m ->
    (forall a, In a al -> snd a = n /\ In (fst a) own_types) ->
    (forall b, In b bl -> snd b = m /\ In (fst b) own_types) ->
    create_list c (pre ++ al ++ bl ++ post) = Some cs ->
    rhs A (placed cn (pre ++ al ++ bl ++ post)) t u cs = (s, trs, ok) ->
    exists cs' s' trs', create_list c (pre ++ bl ++ al ++ post) = Some cs' /\
      rhs A (placed cn (pre ++ bl ++ al ++ post)) t u cs' = (s', trs', ok) /\
      (ok = true -> forall p, value s p = value s' p).
  Proof.
    intros Hnm Ha Hb Hc H.
    destruct (reordered_same_result c _ (pre ++ bl ++ al ++ post) cs cn t u s trs ok
                (reordered_blocks pre al bl post ltac:(
                   intros a b Hia Hib; destruct (Ha a Hia) as [E1 T1]; destruct (Hb b Hib) as [E2 T2];
                   split; [exact T1|]; split; [exact T2|]; congruence)) Hc H)
      as (cs' & s' & trs' & H1 & H2 & H3).
    exists cs', s', trs'. split; [exact H1|]. split; [exact H2|]. intros Hok. apply H3, Hok.
  Qed.
End Lists.
