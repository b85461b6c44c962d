(** Lists of components: who provided an entry, the finally loop, the shipped inputs,
    const accesses. *)

From Coq Require Import List Bool String QArith Lia.
From Verif Require Import OptionsModel AccessModel AccessComponents AccessInputs AccessSpec
  AccessProofs AccessTables.
Import ListNotations.
Open Scope string_scope.
Open Scope list_scope.

(** ** Who provided an entry *)

Lemma may_any t n k p : may t n k p = true -> may_change t n p = true.
Proof.
  unfold may_change. intros H. destruct k; rewrite H; rewrite ?orb_true_r; reflexivity.
Qed.

Section Compose.
  Context {F : Type}.
  Variable A : farith F.

  (** A method which only makes changes permitted by [P] leaves other entries alone. *)
  Lemma method_value P num s m s' tr x p :
    calls (within P) m -> run_method A num s m = (s', tr, Some x) ->
    (forall k, P k p = false) -> value s' p = value s p.
  Proof.
    intros Hc H HP. pose proof (run_method_record A num s m s' tr (Some x) H) as [Hok Haf].
    rewrite !value_lof, Haf by discriminate.
    rewrite (after_val tr (leaf_or_fresh s) (fun q => e_val (leaf_or_fresh s q)) Hok (fun q => eq_refl)).
    rewrite latest_unchanged; [reflexivity|].
    destruct (existsb (changes p) tr) eqn:Ec; [|reflexivity]. exfalso.
    apply existsb_exists in Ec as (e & Hin & He).
    assert (Hch : exists k, change e = Some (k, p)).
    { unfold changes in He. destruct e; simpl in *; try discriminate;
        rewrite ?orb_false_r in He; apply path_eqb_eq in He; subst; eauto. }
    destruct Hch as [k Hk].
    pose proof (exec_within _ _ _ _ _ P m _ _ _ _ _ _ _ Hc H e k p Hin Hk) as HPk.
    rewrite HP in HPk. discriminate.
  Qed.

  Lemma create_list_cons c t n l x cs :
    create_list c ((t, n) :: l) = Some (x :: cs) ->
    create t n c = Some x /\ create_list c l = Some cs.
  Proof.
    simpl. unfold obind. destruct (create t n c) as [y|]; [|discriminate].
    destruct (create_list c l) as [r|]; [|discriminate]. intros H; inversion H; auto.
  Qed.

  Lemma create_list_length c l cs : create_list c l = Some cs -> List.length cs = List.length l.
  Proof.
    revert cs. induction l as [|[t n] l IH]; simpl; intros cs H.
    - inversion H; reflexivity.
    - unfold obind in H. destruct (create t n c); [|discriminate].
      destruct (create_list c l) as [r|]; [|discriminate]. inversion H; simpl. rewrite (IH r); auto.
  Qed.

  Lemma loop_needs c : forall l cs num i s s' trs (init : path -> option (val F)) before,
    create_list c l = Some cs ->
    run_loop A num c_transform i cs s = (s', trs, true) ->
    (forall p, value s p <> None -> provided init before p) ->
    (forall j t n p, nth_error l j = Some (t, n) -> In p (transform_needs t n c) ->
       provided init (before ++ firstn j l) p) /\
    (forall p, value s' p <> None -> provided init (before ++ l) p).
  Proof.
    induction l as [|[t n] l IH]; intros cs num i s s' trs init before Hc H Hs.
    - simpl in Hc. inversion Hc; subst cs. simpl in H. inversion H; subst. split.
      + intros j t n p Hj. destruct j; discriminate.
      + intros p Hp. rewrite app_nil_r. auto.
    - destruct cs as [|x cs].
      { apply create_list_length in Hc. discriminate. }
      apply create_list_cons in Hc as [Hx Hc]. simpl in H.
      destruct (run_method A (num i) s (c_transform x)) as [[s1 tr] a] eqn:Em.
      destruct a as [y|]; [|discriminate].
      destruct (run_loop A num c_transform (S i) cs s1) as [[s2 trs2] ok2] eqn:El.
      inversion H; subst s' trs ok2; clear H.
      pose proof (create_listed t n c x Hx) as [Hw _].
      pose proof (create_needs t n c x Hx) as [Hn _].
      assert (Hs1 : forall p, value s1 p <> None -> provided init (before ++ [(t, n)]) p).
      { intros p Hp.
        destruct (may_change t n p) eqn:Emc.
        - right. exists (t, n). split; [apply in_or_app; right; left; reflexivity|exact Emc].
        - rewrite (method_value (may t n) _ _ _ _ _ _ p Hw Em) in Hp.
          + destruct (Hs p Hp) as [H0|(tn & Hin & Htn)]; [left; exact H0|].
            right. exists tn. split; [apply in_or_app; left; exact Hin|exact Htn].
          + intros k. destruct (may t n k p) eqn:Ek; [|reflexivity].
            apply may_any in Ek. congruence. }
      destruct (IH cs num (S i) s1 s2 trs2 init (before ++ [(t, n)]) Hc El Hs1) as [H1 H2].
      split.
      + intros j t' n' p Hj Hin. destruct j as [|j]; simpl in Hj.
        * inversion Hj; subst t' n'. simpl. rewrite app_nil_r. apply Hs.
          unfold run_method in Em.
          apply (exec_must _ _ _ _ _ p _ _ _ _ _ _ _ _ (Hn p Hin) Em).
        * specialize (H1 j t' n' p Hj Hin). rewrite <- app_assoc in H1. exact H1.
      + intros p Hp. specialize (H2 p Hp). rewrite <- app_assoc in H2. exact H2.
  Qed.

  Lemma initial_value t u p : value (initial (F := F) t u) p = initially t u p.
  Proof. rewrite value_lof, initial_entry. reflexivity. Qed.

  Lemma rhs_split num t u cs s' trs :
    rhs A num t u cs = (s', trs, true) ->
    exists s1 tr1 tr2,
      run_loop A (num false) c_transform 0 cs (initial t u) = (s1, tr1, true) /\
      run_loop A (num true) c_finally 0 cs s1 = (s', tr2, true) /\ trs = tr1 ++ tr2.
  Proof.
    unfold rhs, run_components. intros H.
    destruct (run_loop A (num false) c_transform 0 cs (initial t u)) as [[s1 tr1] ok1].
    destruct ok1; [|discriminate].
    destruct (run_loop A (num true) c_finally 0 cs s1) as [[s2 tr2] ok2] eqn:E2.
    inversion H; subst. exists s1, tr1, tr2. auto.
  Qed.

  (** ** The finally loop *)

  (** States which agree in everything but the marks. *)
  Definition same_values (s s' : st F) : Prop :=
    s_names s = s_names s' /\ s_species s = s_species s' /\ s_fields s = s_fields s' /\
    forall p, option_map e_val (lookup s p) = option_map e_val (lookup s' p).

  Lemma same_refl s : same_values s s.
  Proof. repeat split. Qed.
  Lemma same_sym s s' : same_values s s' -> same_values s' s.
  Proof. intros (H1 & H2 & H3 & H4). repeat split; auto. Qed.
  Lemma same_trans s s' s'' : same_values s s' -> same_values s' s'' -> same_values s s''.
  Proof.
    intros (H1 & H2 & H3 & H4) (G1 & G2 & G3 & G4). split; [congruence|]. split; [congruence|].
    split; [congruence|]. intros p. rewrite H4. apply G4.
  Qed.

  Lemma same_value s s' p : same_values s s' -> value s p = value s' p.
  Proof.
    intros (_ & _ & _ & H). specialize (H p). unfold value.
    destruct (lookup s p), (lookup s' p); simpl in H; congruence.
  Qed.

  Notation stepA := (astep (fa_add A) (fa_sub A) (fa_neg A) (fa_const A) (fa_inv A)).

  Lemma do_read_same_val m t (e e' : leaf F) :
    e_val e = e_val e' ->
    snd (do_read (fa_const A) m t e) = snd (do_read (fa_const A) m t e') /\
    e_val (fst (do_read (fa_const A) m t e)) = e_val e.
  Proof.
    intros H. destruct m; unfold do_read, get, getNoBoundary, getNonFinal; simpl; rewrite <- H;
      destruct (e_val e) as [v|] eqn:Ev; try destruct (cast (fa_const A) t v); simpl; auto.
  Qed.

  Lemma const_step fld fld' s s' o :
    const_op o -> same_values s s' ->
    let '(s1, r, ev) := stepA fld s o in
    let '(s1', r', ev') := stepA fld' s' o in
    r = r' /\ ev = ev' /\ same_values s s1 /\ same_values s' s1'.
  Proof.
    intros Ho (H1 & H2 & H3 & H4).
    assert (Hs : same_values s s') by (repeat split; auto).
    destruct o as [n| |c|n| |m t p|c nb p|p|w src p|p|l r0]; simpl in Ho; try contradiction.
    - destruct c; [|contradiction]. simpl. rewrite <- H2, <- H1.
      destruct (s_species s) eqn:E; simpl; repeat split; auto.
    - simpl. rewrite <- H1. repeat split.
    - simpl. rewrite <- H3. repeat split.
    - simpl. pose proof (H4 p) as Hp.
      destruct (lookup s p) as [e|] eqn:El, (lookup s' p) as [e'|] eqn:El'; simpl in Hp; try discriminate.
      2:{ repeat split. }
      inversion Hp as [Hv].
      destruct (do_read_same_val m t e e' Hv) as [Hr Hk].
      destruct (do_read_same_val m t e' e (eq_sym Hv)) as [_ Hk'].
      destruct (do_read (fa_const A) m t e) as [e1 r1].
      destruct (do_read (fa_const A) m t e') as [e1' r1']. simpl in *. subst r1'.
      assert (Ha : same_values s (replace s p e1)).
      { repeat split. intros q. rewrite lookup_replace.
        destruct (path_eqb_spec q p) as [->|]; [|reflexivity]. rewrite El. simpl. congruence. }
      assert (Hb : same_values s' (replace s' p e1')).
      { repeat split. intros q. rewrite lookup_replace.
        destruct (path_eqb_spec q p) as [->|]; [|reflexivity]. rewrite El'. simpl. congruence. }
      destruct r1; try (split; [reflexivity|]; split; [reflexivity|]; split; assumption).
      destruct (e_val e); split; try reflexivity; split; try reflexivity; split; assumption.
    - simpl. rewrite (same_value s s' p Hs). repeat split.
  Qed.

  Lemma const_exec {X} (m : prog X) : forall num num' n vs s s',
    calls const_op m -> same_values s s' ->
    (forall a b, num a b = num' a b) ->
    let '(s1, tr, a) := exec (fa_add A) (fa_sub A) (fa_neg A) (fa_const A) (fa_inv A) num n vs s m in
    let '(s1', tr', a') := exec (fa_add A) (fa_sub A) (fa_neg A) (fa_const A) (fa_inv A) num' n vs s' m in
    tr = tr' /\ a = a' /\ same_values s s1 /\ same_values s' s1'.
  Proof.
    induction m as [x| |o k IH]; intros num num' n vs s s' Hc Hs Hn.
    - simpl. split; [|split; [|split]]; auto using same_refl.
    - simpl. split; [|split; [|split]]; auto using same_refl.
    - destruct Hc as [Ho Hk]. cbn [exec].
      pose proof (const_step (num n vs) (num' n vs) s s' o Ho Hs) as Hst.
      destruct (stepA (num n vs) s o) as [[s1 r] ev].
      destruct (stepA (num' n vs) s' o) as [[s1' r'] ev'].
      destruct Hst as (<- & <- & Ha & Hb).
      destruct r as [r|]; [|auto].
      assert (Hs1 : same_values s1 s1').
      { apply (same_trans _ s); [apply same_sym, Ha|]. apply (same_trans _ s'); assumption. }
      specialize (IH r num num' (S n) (vs ++ reads_of ev) s1 s1' (Hk r) Hs1 Hn).
      destruct (exec _ _ _ _ _ num (S n) (vs ++ reads_of ev) s1 (k r)) as [[s2 tr2] a2].
      destruct (exec _ _ _ _ _ num' (S n) (vs ++ reads_of ev) s1' (k r)) as [[s2' tr2'] a2'].
      destruct IH as (<- & <- & Hc1 & Hc2).
      split; [reflexivity|]. split; [reflexivity|].
      split; eapply same_trans; eassumption.
  Qed.

  Lemma finally_loop num : forall cs i s s0,
    Forall (fun x => calls const_op (c_finally x)) cs ->
    same_values s0 s ->
    let '(s', trs, ok) := run_loop A num c_finally i cs s in
    same_values s0 s' /\
    (ok = true <-> forall j x, nth_error cs j = Some x -> snd (alone A num s0 (i + j) x) = true) /\
    (ok = true -> forall j x, nth_error cs j = Some x ->
                  nth_error trs j = Some (fst (alone A num s0 (i + j) x))).
  Proof.
    induction cs as [|x cs IH]; intros i s s0 Hc Hs.
    - simpl. split; [exact Hs|]. split.
      + split; [|reflexivity]. intros _ j y Hj. destruct j; discriminate.
      + intros _ j y Hj. destruct j; discriminate.
    - inversion Hc as [|? ? Hx Hcs]; subst.
      cbn [run_loop]. unfold alone, run_method.
      pose proof (const_exec (c_finally x) (num i) (num i) 0 [] s0 s Hx Hs (fun _ _ => eq_refl)) as He.
      destruct (exec _ _ _ _ _ (num i) 0 [] s0 (c_finally x)) as [[sa tra] aa] eqn:Ea.
      destruct (exec _ _ _ _ _ (num i) 0 [] s (c_finally x)) as [[sb trb] ab] eqn:Eb.
      destruct He as (<- & <- & Ha & Hb).
      destruct aa as [y|].
      + assert (Hs1 : same_values s0 sb) by exact (same_trans _ _ _ Hs Hb).
        specialize (IH (S i) sb s0 Hcs Hs1).
        destruct (run_loop A num c_finally (S i) cs sb) as [[s2 trs2] ok2].
        destruct IH as (G1 & G2 & G3). split; [exact G1|]. split.
        * rewrite G2. split.
          -- intros G j z Hj. destruct j as [|j].
             ++ simpl in Hj. inversion Hj; subst z. rewrite Nat.add_0_r, Ea. reflexivity.
             ++ specialize (G j z Hj). unfold alone, run_method in G.
                rewrite <- Nat.add_succ_comm. exact G.
          -- intros G j z Hj. specialize (G (S j) z Hj). unfold alone, run_method.
             rewrite Nat.add_succ_comm. exact G.
        * intros Hok j z Hj. destruct j as [|j].
          -- simpl in Hj. inversion Hj; subst z. rewrite Nat.add_0_r, Ea. reflexivity.
          -- specialize (G3 Hok j z Hj). unfold alone, run_method in G3.
             rewrite <- Nat.add_succ_comm. exact G3.
      + split; [exact (same_trans _ _ _ Hs Hb)|]. split; [|discriminate].
        split; [discriminate|]. intros G. specialize (G 0%nat x eq_refl).
        rewrite Nat.add_0_r, Ea in G. discriminate.
  Qed.

  Lemma created_finally_const c l cs :
    create_list c l = Some cs -> Forall (fun x => calls const_op (c_finally x)) cs.
  Proof.
    revert cs. induction l as [|[t n] l IH]; intros cs H.
    - inversion H; constructor.
    - destruct cs as [|x cs]; [constructor|].
      apply create_list_cons in H as [Hx Hc]. constructor; [|apply IH, Hc].
      apply (create_listed t n c x Hx).
  Qed.

  Lemma construct_list c cs :
    construct c = Some cs -> exists l, listed c = Some l /\ create_list c l = Some cs.
  Proof.
    unfold construct, obind. destruct (listed c) as [l|]; [|discriminate]. eauto.
  Qed.

  (** Needs of transform and of finally are provided. *)
  Lemma needs_provided c l cs num t u s' trs :
    listed c = Some l -> construct c = Some cs ->
    rhs A num t u cs = (s', trs, true) ->
    forall i ty n p, nth_error l i = Some (ty, n) ->
      (In p (transform_needs ty n c) -> provided (F := F) (initially t u) (firstn i l) p) /\
      (In p (finally_needs ty n c) -> provided (F := F) (initially t u) l p).
  Proof.
    intros Hl Hc H i ty n p Hi.
    assert (Hcl : create_list c l = Some cs).
    { apply construct_list in Hc as (l' & Hl' & Hc). congruence. }
    apply rhs_split in H as (s1 & tr1 & tr2 & E1 & E2 & _).
    destruct (loop_needs c l cs (num false) 0 (initial t u) s1 tr1 (initially t u) [] Hcl E1) as [H1 H2].
    { intros q Hq. left. rewrite <- initial_value. exact Hq. }
    split.
    - intros Hin. apply (H1 i ty n p Hi Hin).
    - intros Hin. apply H2.
      pose proof (finally_loop (num true) cs 0 s1 s1 (created_finally_const c l cs Hcl) (same_refl s1)) as Hf.
      rewrite E2 in Hf. destruct Hf as (_ & Hf & _).
      assert (Hx : exists x, nth_error cs i = Some x /\ create ty n c = Some x).
      { clear - Hcl Hi. revert cs i Hcl Hi. induction l as [|[t' n'] l IH]; intros cs i Hcl Hi.
        - destruct i; discriminate.
        - destruct cs as [|x cs]; [apply create_list_length in Hcl; discriminate|].
          apply create_list_cons in Hcl as [Hx Hcl]. destruct i as [|i]; simpl in Hi.
          + inversion Hi; subst. exists x. auto.
          + apply (IH cs i Hcl Hi). }
      destruct Hx as (x & Hxi & Hx).
      pose proof (proj1 Hf eq_refl i x Hxi) as Hal. unfold alone, run_method in Hal.
      destruct (exec _ _ _ _ _ (num true (0 + i)%nat) 0 [] s1 (c_finally x)) as [[sa tra] aa] eqn:Ea.
      destruct aa as [y|]; [|discriminate].
      apply (exec_must _ _ _ _ _ p _ _ _ _ _ _ _ _ (proj2 (create_needs ty n c x Hx) p Hin) Ea).
  Qed.
End Compose.

(** ** What components may change *)

Lemma changes_listed {F} (A : farith F) num ty n c x s s' tr a :
  create ty n c = Some x ->
  run_method A num s (c_transform x) = (s', tr, a) ->
  forall e k p, In e tr -> change e = Some (k, p) -> may ty n k p = true.
Proof.
  intros Hx H. apply (exec_within _ _ _ _ _ _ _ _ _ _ _ _ _ _ (proj1 (create_listed ty n c x Hx)) H).
Qed.

Lemma const_no_change o : const_op o -> op_change o = None.
Proof. destruct o; simpl; tauto. Qed.

Lemma finally_changes_nothing {F} (A : farith F) num ty n c x s s' tr a :
  create ty n c = Some x ->
  run_method A num s (c_finally x) = (s', tr, a) ->
  (forall e, In e tr -> change e = None) /\ (forall p, value s' p = value s p).
Proof.
  intros Hx H. pose proof (proj2 (create_listed ty n c x Hx)) as Hc. split.
  - intros e Hin. destruct (change e) as [[k p]|] eqn:E; [|reflexivity]. exfalso.
    assert (Hw : calls (within (fun _ _ => false)) (c_finally x)).
    { revert Hc. apply calls_weaken. intros o Ho. unfold within.
      rewrite (const_no_change o Ho). exact I. }
    pose proof (exec_within _ _ _ _ _ _ _ _ _ _ _ _ _ _ Hw H e k p Hin E). discriminate.
  - intros p. unfold run_method in H.
    pose proof (const_exec A (c_finally x) num num 0 [] s s Hc (same_refl s) (fun _ _ => eq_refl)) as He.
    rewrite H in He. destruct He as (_ & _ & He & _). symmetry. apply same_value, He.
Qed.

(** ** Shipped inputs *)

Definition shipped_ok (t : Q) (u : string -> Q) (c : cfg) : bool :=
  present (record_of one_arith one_num t u c).

Lemma shipped_checked t u : forallb (fun ic => shipped_ok t u (snd ic)) shipped_inputs = true.
Proof. vm_compute. reflexivity. Qed.

Lemma shipped_evaluate {F} (A : farith F) num t u name c :
  all_finite A -> In (name, c) shipped_inputs ->
  exists cs s trs, construct c = Some cs /\ rhs A num t u cs = (s, trs, true).
Proof.
  intros Hfin Hin. pose proof (shipped_checked t u) as H. rewrite forallb_forall in H.
  specialize (H _ Hin). simpl in H. unfold shipped_ok in H.
  rewrite (erase_record A Hfin num t u c) in H. unfold record_of in H.
  destruct (construct c) as [cs|]; [|discriminate].
  destruct (rhs A num t u cs) as [[s trs] ok] eqn:E. destruct ok; [|discriminate].
  exists cs, s, trs. auto.
Qed.

Lemma set_twice_shipped {F} (A : farith F) num t u :
  all_finite A ->
  records (fun c => @set_twice c F) A num t u shipped_inputs =
  [("examples/linear/annulus-isothermal-he-emag/BOUT.inp",
    [(("evolve_momentum", "e"), ("electromagnetic", "electromagnetic"), PSp "e" "velocity");
     (("evolve_momentum", "e"), ("electromagnetic", "electromagnetic"), PSp "e" "momentum");
     (("evolve_momentum", "he+"), ("electromagnetic", "electromagnetic"), PSp "he+" "velocity");
     (("evolve_momentum", "he+"), ("electromagnetic", "electromagnetic"), PSp "he+" "momentum")]);
   ("examples/stellarator-2pt-model/BOUT.inp",
    [(("zero_current", "e"), ("evolve_momentum", "e"), PSp "e" "velocity")]);
   ("tests/integrated/alfven-wave/data/BOUT.inp",
    [(("fixed_velocity", "i"), ("electromagnetic", "electromagnetic"), PSp "i" "velocity");
     (("fixed_velocity", "i"), ("electromagnetic", "electromagnetic"), PSp "i" "momentum");
     (("evolve_momentum", "e"), ("electromagnetic", "electromagnetic"), PSp "e" "velocity");
     (("evolve_momentum", "e"), ("electromagnetic", "electromagnetic"), PSp "e" "momentum")])].
Proof.
  intros Hfin.
  rewrite (records_erase (fun c => @set_twice c unit)); [vm_compute; reflexivity|exact Hfin|].
  intros c trs. unfold set_twice. rewrite transforms_erase, set_again_erase. reflexivity.
Qed.

Lemma overlooked_shipped {F} (A : farith F) num t u :
  all_finite A ->
  records (fun c => @overlooked c F) A num t u shipped_inputs =
  [("examples/1D-hydrogen-equalT/BOUT.inp",
    [(("noflow_boundary", "d+"), ("transform", "equilibriate"), PSp "d+" "temperature");
     (("noflow_boundary", "d+"), ("sheath_boundary", "sheath_boundary"), PSp "d+" "pressure")]);
   ("examples/solkit-comparison/single-temperature/BOUT.inp",
    [(("noflow_boundary", "d+"), ("transform", "equilibriate"), PSp "d+" "temperature");
     (("noflow_boundary", "d+"), ("sheath_boundary_simple", "sheath_boundary_simple"),
      PSp "d+" "pressure")])].
Proof.
  intros Hfin.
  rewrite (records_erase (fun c => @overlooked c unit)); [vm_compute; reflexivity|exact Hfin|].
  intros c trs. unfold overlooked. rewrite transforms_erase, missed_erase. reflexivity.
Qed.

(** ** A const query of a leaf which does not exist *)

Definition no_leaf (p : path) (o : aop) : Prop :=
  match o with
  | AQuery c _ q => c = true \/ q <> p
  | AWrite _ _ q | AForce q => q <> p
  | ACopy l r => l <> p /\ r <> p
  | _ => True
  end.

Fixpoint stuck (p : path) {X} (m : prog X) : Prop :=
  match m with
  | Ret _ => False
  | Throw => True
  | Op o k => (exists nb, o = AQuery true nb p) \/ (no_leaf p o /\ forall r, stuck p (k r))
  end.

Lemma stuck_bind_l p {X Y} (m : prog X) (f : X -> prog Y) : stuck p m -> stuck p (bind m f).
Proof.
  induction m as [x| |o k IH]; simpl; [tauto|tauto|].
  intros [H|[H1 H2]]; [left; exact H|right; split; [exact H1|]]. intros r; apply IH; auto.
Qed.

Lemma stuck_bind_r p {X Y} (m : prog X) (f : X -> prog Y) :
  calls (no_leaf p) m -> (forall a, stuck p (f a)) -> stuck p (bind m f).
Proof.
  induction m as [x| |o k IH]; simpl; intros Hm Hf; [apply Hf|exact I|].
  destruct Hm as [Ho Hk]. right. split; [exact Ho|]. intros r. apply IH; auto.
Qed.

Lemma stuck_each p {X} (f : X -> prog unit) x : forall l,
  In x l -> (forall y, calls (no_leaf p) (f y)) -> stuck p (f x) -> stuck p (each f l).
Proof.
  induction l as [|y l IH]; intros Hin Hf Hx; [destruct Hin|]. simpl.
  destruct Hin as [->|Hin]; [apply stuck_bind_l, Hx|].
  apply stuck_bind_r; [apply Hf|]. intros _. apply IH; auto.
Qed.

Section Stuck.
  Context {F : Type}.
  Variable A : farith F.

  Lemma step_no_leaf fld (s : st F) o s1 r ev p :
    astep (fa_add A) (fa_sub A) (fa_neg A) (fa_const A) (fa_inv A) fld s o = (s1, Some r, ev) ->
    no_leaf p o -> lookup s p = None -> lookup s1 p = None.
  Proof.
    intros H Hn Hp.
    assert (Hput : forall s q e, q <> p -> lookup s p = None -> lookup (F := F) (put s q e) p = None).
    { intros s0 q e Hq H0. rewrite lookup_put. destruct (path_eqb_spec p q); [congruence|exact H0]. }
    assert (Hrep : forall s q e, q <> p -> lookup s p = None -> lookup (F := F) (replace s q e) p = None).
    { intros s0 q e Hq H0. rewrite lookup_replace. destruct (path_eqb_spec p q); [congruence|exact H0]. }
    destruct o as [n| |c|n| |m t q|c nb q|q|w src q|q|l r0]; simpl in H, Hn.
    - inversion H; subst; exact Hp.
    - inversion H; subst; exact Hp.
    - destruct (c && negb (s_species s)); inversion H; subst; exact Hp.
    - inversion H; subst; exact Hp.
    - inversion H; subst; exact Hp.
    - destruct (lookup s q) as [e|] eqn:Eq; [|discriminate].
      assert (Hq : q <> p) by congruence.
      destruct (do_read (fa_const A) m t e) as [e1 r1]. destruct r1, (e_val e); inversion H; subst; auto.
    - destruct (lookup s q) as [e|] eqn:Eq.
      + assert (Hq : q <> p) by congruence. inversion H; subst; auto.
      + destruct c; [discriminate|]. destruct Hn as [Hn|Hn]; [discriminate|].
        inversion H; subst; auto.
    - inversion H; subst; exact Hp.
    - destruct (do_write _ _ _ _ _ _ _ _ _) as [e1 r1]. destruct r1, (e_val e1); inversion H; subst; auto.
    - inversion H; subst; auto.
    - destruct Hn as [H1 H2]. inversion H; subst; auto.
  Qed.

  Lemma exec_stuck p {X} (m : prog X) : forall num n vs (s : st F),
    stuck p m -> lookup s p = None ->
    snd (exec (fa_add A) (fa_sub A) (fa_neg A) (fa_const A) (fa_inv A) num n vs s m) = None.
  Proof.
    induction m as [x| |o k IH]; simpl; intros num n vs s Hm Hp; [destruct Hm|reflexivity|].
    destruct (astep (fa_add A) (fa_sub A) (fa_neg A) (fa_const A) (fa_inv A) (num n vs) s o)
      as [[s1 r] ev] eqn:Es.
    destruct r as [r|]; [|reflexivity].
    destruct Hm as [[nb ->]|[Ho Hk]].
    - simpl in Es. rewrite Hp in Es. discriminate.
    - specialize (IH r num (S n) (vs ++ reads_of ev) s1 (Hk r)
                    (step_no_leaf _ _ _ _ _ _ _ Es Ho Hp)).
      destruct (exec _ _ _ _ _ num (S n) (vs ++ reads_of ev) s1 (k r)) as [[s2 tr2] a2].
      exact IH.
  Qed.

  Lemma exec_kids {X} (f : list string -> prog X) num n vs (s : st F) :
    snd (exec (fa_add A) (fa_sub A) (fa_neg A) (fa_const A) (fa_inv A) num n vs s
              (bind (kids false) f))
    = snd (exec (fa_add A) (fa_sub A) (fa_neg A) (fa_const A) (fa_inv A) num (S n) (vs ++ [])
                (mkSt (s_leaves s) (s_names s) true (s_fields s)) (f (s_names s))).
  Proof.
    simpl. destruct (exec _ _ _ _ _ num (S n) (vs ++ []) _ (f (s_names s))) as [[s2 tr2] a2].
    reflexivity.
  Qed.

  (** Electromagnetic::transform (electromagnetic.cxx 112). *)
  Lemma electromagnetic_needs_charge name c x num (s : st F) n :
    create "electromagnetic" name c = Some x ->
    In n (s_names s) -> lookup s (PSp n "charge") = None ->
    snd (run_method A num s (c_transform x)) = None.
  Proof.
    intros Hx Hn Hp.
    change (create "electromagnetic" name c) with (electromagnetic name c) in Hx.
    unfold electromagnetic, obind in Hx.
    destruct (obool c name "const_gradient" false) as [cg|]; [|discriminate].
    destruct (obool c name "magnetic_flutter" false) as [fl|]; [|discriminate].
    unfold plain in Hx. apply some_inj in Hx. subst x. unfold run_method. cbn [c_transform].
    rewrite exec_kids. apply (exec_stuck (PSp n "charge")); [|exact Hp].
    apply stuck_bind_l. apply (stuck_each _ _ n); [exact Hn| |].
    - intros y. apply calls_bind.
      { apply calls_ask. left; reflexivity. }
      intros b. apply calls_when. unfold if_has. apply calls_bind; [apply calls_ask; exact I|].
      intros b2. apply calls_when. apply calls_bind; [apply calls_rdn; exact I|].
      intros q. apply calls_when.
      apply calls_bind; [apply calls_rd; exact I|]. intros _.
      apply calls_bind; [apply calls_rd; exact I|]. intros _.
      unfold needn. apply calls_bind; [apply calls_rdn; exact I|]. intros _. exact I.
    - apply stuck_bind_l. left. eexists. reflexivity.
  Qed.
End Stuck.

(** ** Cases *)

Definition ion_section : string * list (string * cval) :=
  ("i", [("type", CS "evolve_density, evolve_pressure, evolve_momentum");
         ("charge", CQ 1); ("AA", CQ 2); ("thermal_conduction", CB false)]).

(** A plasma with charged species only, and the same with a neutral gas. *)
Definition charged_only : cfg :=
  [("hermes", [("components", CS "i, e, vorticity, electromagnetic")]);
   ion_section;
   ("vorticity", [("phi_dissipation", CB false); ("diamagnetic", CB false);
                  ("diamagnetic_polarisation", CB false)]);
   ("e", [("type", CS "evolve_density, isothermal, evolve_momentum");
          ("charge", CQ (-(1))); ("AA", CQ (1 # 1836)); ("temperature", CQ 1)])].
Definition with_neutrals : cfg :=
  [("hermes", [("components", CS "i, d, e, vorticity, electromagnetic")]);
   ("d", [("type", CS "neutral_mixed"); ("AA", CQ 2)]);
   ion_section;
   ("vorticity", [("phi_dissipation", CB false); ("diamagnetic", CB false);
                  ("diamagnetic_polarisation", CB false)]);
   ("e", [("type", CS "evolve_density, isothermal, evolve_momentum");
          ("charge", CQ (-(1))); ("AA", CQ (1 # 1836)); ("temperature", CQ 1)])].

(** The pressure before the density. *)
Definition pressure_first : cfg :=
  [("hermes", [("components", CS "i")]);
   ("i", [("type", CS "evolve_pressure, evolve_density");
          ("charge", CQ 1); ("AA", CQ 2); ("thermal_conduction", CB false)])].

(** Electrons by quasineutrality, listed after and before the ions. *)
Definition electrons_last : cfg :=
  [("hermes", [("components", CS "i, e")]);
   ("i", [("type", CS "fixed_density"); ("charge", CQ 1); ("AA", CQ 2); ("density", CQ 1)]);
   ("e", [("type", CS "quasineutral"); ("charge", CQ (-(1))); ("AA", CQ (1 # 1836))])].
Definition electrons_first : cfg :=
  [("hermes", [("components", CS "e, i")]);
   ("i", [("type", CS "fixed_density"); ("charge", CQ 1); ("AA", CQ 2); ("density", CQ 1)]);
   ("e", [("type", CS "quasineutral"); ("charge", CQ (-(1))); ("AA", CQ (1 # 1836))])].

(** Numbers for fields. *)
Definition q_arith : farith Q := mkArith Q Qplus Qminus Qopp (fun q => q) (fun _ => false).
Definition q_num : numerics Q := fun _ i n _ => inject_Z (Z.of_nat (100 * i + n)).

(** A copy over an entry which has been read as final. *)
Definition copied_over : cfg :=
  [("hermes", [("components", CS "e, h, electron_force_balance, later")]);
   ("e", [("type", CS "fixed_density, isothermal"); ("charge", CQ (-(1))); ("AA", CQ (1 # 1836));
          ("density", CQ 1); ("temperature", CQ 1)]);
   ("h", [("type", CS "fixed_density"); ("charge", CQ 0); ("AA", CQ 1); ("density", CQ 1)]);
   ("later", [("type", CS "transform");
              ("transforms", CS "(species:e:pressure = species:h:density)")])].

(** ** The statements of AccessProps.v *)

Lemma set_twice_inputs F (A : farith F) num t u :
  all_finite A ->
  map fst (records (fun c => @set_twice c F) A num t u shipped_inputs) =
  ["examples/linear/annulus-isothermal-he-emag/BOUT.inp";
   "examples/stellarator-2pt-model/BOUT.inp";
   "tests/integrated/alfven-wave/data/BOUT.inp"].
Proof. intros H. rewrite (set_twice_shipped A num t u H). reflexivity. Qed.

Lemma overlooked_inputs F (A : farith F) num t u :
  all_finite A ->
  map fst (records (fun c => @overlooked c F) A num t u shipped_inputs) =
  ["examples/1D-hydrogen-equalT/BOUT.inp";
   "examples/solkit-comparison/single-temperature/BOUT.inp"].
Proof. intros H. rewrite (overlooked_shipped A num t u H). reflexivity. Qed.

Lemma erased_record {F} (A : farith F) num t u c trs1 :
  all_finite A -> record_of one_arith one_num t u c = Some trs1 ->
  exists trs, record_of A num t u c = Some trs /\ trs1 = map (map erase_event) trs.
Proof.
  intros Hfin H. rewrite (erase_record A Hfin num t u c) in H.
  destruct (record_of A num t u c) as [trs|]; [|discriminate]. inversion H. eauto.
Qed.

Definition reads_at {F} (p : path) (e : event F) : bool :=
  match e with EvRead _ q _ => path_eqb p q | _ => false end.

Lemma velocity_thrown_away : exists name c,
  In (name, c) shipped_inputs /\
  forall F (A : farith F) num t u, all_finite A ->
  exists trs, record_of A num t u c = Some trs /\
    set_twice c trs = [(("zero_current", "e"), ("evolve_momentum", "e"), PSp "e" "velocity")] /\
    forall tr e, In tr (firstn 8 trs) -> In e tr ->
      match e with EvRead _ p _ => p <> PSp "e" "velocity" | _ => True end.
Proof.
  exists "examples/stellarator-2pt-model/BOUT.inp", inp_examples_stellarator_2pt_model.
  split. { unfold shipped_inputs. repeat (first [left; reflexivity|right]). }
  intros F A num t u Hfin.
  remember (record_of one_arith one_num t u inp_examples_stellarator_2pt_model) as r eqn:Er.
  vm_compute in Er. destruct r as [trs1|]; [|discriminate].
  symmetry in Er.
  assert (H1 : record_of one_arith one_num t u inp_examples_stellarator_2pt_model = Some trs1).
  { rewrite <- Er. vm_compute. reflexivity. }
  destruct (erased_record A num t u _ trs1 Hfin H1) as (trs & Htrs & Hmap).
  exists trs. split; [exact Htrs|]. apply some_inj in Er. split.
  - unfold set_twice. rewrite <- set_again_erase, <- transforms_erase, <- Hmap, <- Er.
    vm_compute. reflexivity.
  - assert (Hb : forallb (fun tr => negb (existsb (reads_at (PSp "e" "velocity")) tr))
                   (firstn 8 trs1) = true).
    { rewrite <- Er. vm_compute. reflexivity. }
    rewrite Hmap in Hb. clear Er H1.
    intros tr e Htr He. rewrite forallb_forall in Hb.
    specialize (Hb (map erase_event tr)).
    assert (Hin : In (map erase_event tr) (firstn 8 (map (map erase_event) trs))).
    { rewrite firstn_map. apply in_map. exact Htr. }
    specialize (Hb Hin). apply negb_true_iff in Hb.
    destruct e as [m p v| | | | | ]; try exact I. intros ->.
    rewrite (existsb_erase (reads_at (PSp "e" "velocity")) (reads_at (PSp "e" "velocity"))) in Hb.
    + assert (Hc : existsb (reads_at (PSp "e" "velocity")) tr = true).
      { apply existsb_exists. eexists. split; [exact He|]. apply path_eqb_refl. }
      congruence.
    + intros e. destruct e; reflexivity.
Qed.

Lemma temperature_overlooked F (A : farith F) num t u :
  all_finite A ->
  exists trs, record_of A num t u inp_examples_1D_hydrogen_equalT = Some trs /\
    In (("noflow_boundary", "d+"), ("transform", "equilibriate"), PSp "d+" "temperature")
       (overlooked inp_examples_1D_hydrogen_equalT trs).
Proof.
  intros Hfin.
  remember (record_of one_arith one_num t u inp_examples_1D_hydrogen_equalT) as r eqn:Er.
  vm_compute in Er. destruct r as [trs1|]; [|discriminate].
  symmetry in Er.
  assert (H1 : record_of one_arith one_num t u inp_examples_1D_hydrogen_equalT = Some trs1).
  { rewrite <- Er. vm_compute. reflexivity. }
  destruct (erased_record A num t u _ trs1 Hfin H1) as (trs & Htrs & Hmap).
  exists trs. split; [exact Htrs|]. apply some_inj in Er.
  unfold overlooked. rewrite <- missed_erase, <- transforms_erase, <- Hmap, <- Er.
  vm_compute. left. reflexivity.
Qed.

Lemma record_and_values F (A : farith F) num t u cs s' trs ok :
  rhs A num t u cs = (s', trs, ok) ->
  (forall pre e post, List.concat trs = pre ++ e :: post ->
     truthful (latest (initially t u) pre) e) /\
  (ok = true -> forall p, value s' p = latest (initially t u) (List.concat trs) p).
Proof.
  intros H. split.
  - intros pre e post. apply (record_truthful A num t u cs s' trs ok pre e post H).
  - intros ->. apply (final_values A num t u cs s' trs H).
Qed.

Lemma pressure_needs_density F (A : farith F) c l cs num t u s' trs i n :
  listed c = Some l -> construct c = Some cs ->
  rhs A num t u cs = (s', trs, true) ->
  nth_error l i = Some ("evolve_pressure", n) ->
  exists ty m, In (ty, m) (firstn i l) /\ may_change ty m (PSp n "density") = true.
Proof.
  intros Hl Hc H Hi.
  destruct (needs_provided A c l cs num t u s' trs Hl Hc H i _ _ (PSp n "density") Hi) as [Hp _].
  destruct (Hp (or_introl eq_refl)) as [H0|([ty m] & Hin & Hm)]; [exfalso; apply H0; reflexivity|].
  exists ty, m. auto.
Qed.

Lemma neutrals_stop_electromagnetic :
  (exists trs, record_of q_arith q_num 0 (fun _ => 1) charged_only = Some trs) /\
  (exists cs, construct with_neutrals = Some cs) /\
  record_of q_arith q_num 0 (fun _ => 1) with_neutrals = None.
Proof. split; [|split]; [eexists|eexists|]; vm_compute; reflexivity. Qed.

Lemma finally_order F (A : farith F) c cs num s :
  construct c = Some cs ->
  let '(s', trs, ok) := run_loop A num c_finally 0 cs s in
  (forall p, value s' p = value s p) /\
  (ok = true <-> forall i x, nth_error cs i = Some x -> snd (alone A num s i x) = true) /\
  (ok = true -> forall i x, nth_error cs i = Some x ->
     nth_error trs i = Some (fst (alone A num s i x))).
Proof.
  intros Hc. apply construct_list in Hc as (l & _ & Hc).
  pose proof (finally_loop A num cs 0 s s (created_finally_const c l cs Hc) (same_refl s)) as H.
  destruct (run_loop A num c_finally 0 cs s) as [[s' trs] ok].
  destruct H as (H1 & H2 & H3). split; [|split; [exact H2|exact H3]].
  intros p. symmetry. apply same_value, H1.
Qed.

Lemma writes_after_marks F (A : farith F) num t u cs s' trs ok pre e mid w p v post :
  rhs A num t u cs = (s', trs, ok) ->
  List.concat trs = pre ++ e :: mid ++ EvWrite w p v :: post ->
  (marks_all e p = true -> existsb (copies_to p) mid = true) /\
  (marks_interior e p = true -> w = WBoundary \/ existsb (copies_to p) mid = true).
Proof.
  intros H Hs. split; intros Hm.
  - apply (no_write_after_mark A num t u cs s' trs ok pre e mid w p v post H Hs Hm).
  - apply (only_boundary_after_mark A num t u cs s' trs ok pre e mid w p v post H Hs Hm).
Qed.

Lemma copy_after_final_read : exists c cs s' trs v w,
  construct c = Some cs /\ rhs q_arith q_num 0 (fun _ => 1) cs = (s', trs, true) /\
  In (EvRead RFinal (PSp "e" "pressure") v) (List.concat trs) /\
  value s' (PSp "e" "pressure") = Some w /\ v <> w.
Proof.
  exists copied_over. eexists. eexists. eexists. exists (VF (inject_Z 103)), (VF (inject_Z 202)).
  split; [vm_compute; reflexivity|]. split; [vm_compute; reflexivity|].
  split; [vm_compute; repeat (first [left; reflexivity|right])|].
  split; [vm_compute; reflexivity|discriminate].
Qed.

Lemma electrons_without_ions :
  (exists trs, record_of q_arith q_num 0 (fun _ => 1) electrons_last = Some trs /\
     exists v, In (EvRead RNoBoundary (PSp "i" "density") v) (List.concat trs)) /\
  (exists trs, record_of q_arith q_num 0 (fun _ => 1) electrons_first = Some trs /\
     forall m v, ~ In (EvRead m (PSp "i" "density") v) (List.concat trs)).
Proof.
  split; eexists; (split; [vm_compute; reflexivity|]).
  - eexists. simpl. repeat (first [left; reflexivity|right]).
  - intros m v H. simpl in H. repeat (destruct H as [H|H]; [discriminate|]). exact H.
Qed.
