(** What the programs of AccessComponents.v must do in states of which something is known:
    proofs of the tables of AccessActsSpec.v. *)

From Coq Require Import List Bool String QArith Lia.
From Verif Require Import OptionsModel AccessModel AccessComponents AccessSpec AccessProofs
  AccessTables AccessReadSpec AccessReads AccessActsSpec.
Import ListNotations.
Open Scope string_scope.
Open Scope list_scope.

(** ** Calls in a state in which facts hold *)

Definition known (G : facts) (p : path) : Prop :=
  In p (f_present G) \/ exists q, In (p, q) (f_numbers G).

(** A call after which the facts still hold. *)
Definition keeps (G : facts) (o : aop) : Prop :=
  match o with ACopy _ _ => False | _ => True end /\
  (forall p, In p (f_absent G) -> spares p o) /\
  (forall p q, In (p, q) (f_numbers G) -> spares p o).

(** Answers which the facts allow. *)
Definition allowed (G : facts) (o : aop) (r : resp) : Prop :=
  match o with
  | AHas p | AQuery _ _ p =>
      (known G p -> r = RBoo true) /\ (In p (f_absent G) -> r = RBoo false)
  | ARead _ TReal p => forall q, In (p, q) (f_numbers G) -> r = RNum q
  | AKids _ => forall l n, r = RNames l -> In n (f_species G) -> In n l
  | AHasSpecies n => In n (f_species G) -> r = RBoo true
  | AHasFields => f_fields G = true -> r = RBoo true
  | _ => True
  end.

(** Every way through the program which the facts allow makes a call which satisfies [P]. *)
Fixpoint does (G : facts) (P : aop -> Prop) {A} (m : prog A) : Prop :=
  match m with
  | Ret _ => False
  | Throw => True
  | Op o k => P o \/ (keeps G o /\ forall r, allowed G o r -> does G P (k r))
  end.

Section Exec.
  Context {F : Type}.
  Variables (fadd fsub : F -> F -> F) (fneg : F -> F) (fconst : Q -> F) (finv : F -> bool).
  Notation step1 := (astep fadd fsub fneg fconst finv).
  Notation run1 := (exec fadd fsub fneg fconst finv).

  Lemma insert_keeps n x l : In x l -> In x (insert_name n l).
  Proof.
    induction l as [|y l IH]; simpl; [tauto|].
    destruct (String.compare n y); simpl; tauto.
  Qed.

  Lemma open_names (s : st F) p x : In x (s_names s) -> In x (s_names (open_path s p)).
  Proof. destruct p; simpl; auto. apply insert_keeps. Qed.

  Lemma step_names fld s o s1 r ev x :
    step1 fld s o = (s1, Some r, ev) -> In x (s_names s) -> In x (s_names s1).
  Proof.
    intros H Hx.
    destruct o as [n| |c|n| |m t p|c nb p|p|w src p|p|l0 r0]; simpl in H.
    - inversion H; subst. simpl. apply insert_keeps, Hx.
    - inversion H; subst. exact Hx.
    - destruct (c && negb (s_species s)); inversion H; subst; exact Hx.
    - inversion H; subst; exact Hx.
    - inversion H; subst; exact Hx.
    - destruct (lookup s p) as [e0|]; [|discriminate].
      destruct (do_read fconst m t e0) as [e' rr].
      destruct rr, (e_val e0); inversion H; subst; exact Hx.
    - destruct (lookup s p) as [e0|]; [|destruct c; [discriminate|]];
        inversion H; subst; [exact Hx|apply (open_names s p x Hx)].
    - inversion H; subst; exact Hx.
    - destruct (do_write _ _ _ _ _ _ _ _ _) as [e' rr].
      destruct rr, (e_val e'); inversion H; subst; apply (open_names s p x Hx).
    - inversion H; subst. apply (open_names s p x Hx).
    - inversion H; subst. apply (open_names _ l0 x). simpl. apply (open_names s r0 x Hx).
  Qed.

  Lemma open_has_fields (s : st F) p : s_fields s = true -> s_fields (open_path s p) = true.
  Proof. destruct p; simpl; auto. Qed.

  Lemma step_fields fld s o s1 r ev :
    step1 fld s o = (s1, Some r, ev) -> s_fields s = true -> s_fields s1 = true.
  Proof.
    intros H Hx.
    destruct o as [n| |c|n| |m t p|c nb p|p|w src p|p|l0 r0]; simpl in H.
    - inversion H; subst. exact Hx.
    - inversion H; subst. reflexivity.
    - destruct (c && negb (s_species s)); inversion H; subst; exact Hx.
    - inversion H; subst; exact Hx.
    - inversion H; subst; exact Hx.
    - destruct (lookup s p) as [e0|]; [|discriminate].
      destruct (do_read fconst m t e0) as [e' rr].
      destruct rr, (e_val e0); inversion H; subst; exact Hx.
    - destruct (lookup s p) as [e0|]; [|destruct c; [discriminate|]];
        inversion H; subst; [exact Hx|apply (open_has_fields s p Hx)].
    - inversion H; subst; exact Hx.
    - destruct (do_write _ _ _ _ _ _ _ _ _) as [e' rr].
      destruct rr, (e_val e'); inversion H; subst; apply (open_has_fields s p Hx).
    - inversion H; subst. apply (open_has_fields s p Hx).
    - inversion H; subst. apply (open_has_fields _ l0). simpl. apply (open_has_fields s r0 Hx).
  Qed.

  (** What has a value keeps having one, except for copies. *)
  Lemma step_present fld s o s1 r ev p :
    match o with ACopy _ _ => False | _ => True end ->
    step1 fld s o = (s1, Some r, ev) -> value s p <> None -> value s1 p <> None.
  Proof.
    intros Hc H Hp.
    destruct (op_change o) as [[k q]|] eqn:Eo.
    2:{ rewrite (step_spares fadd fsub fneg fconst finv fld s o s1 r ev p); auto.
        unfold spares. rewrite Eo. exact I. }
    destruct (path_eqb p q) eqn:Epq.
    2:{ rewrite (step_spares fadd fsub fneg fconst finv fld s o s1 r ev p); auto.
        unfold spares. rewrite Eo. intros ->. rewrite path_eqb_refl in Epq.
        discriminate. }
    apply path_eqb_eq in Epq. subst q.
    pose proof (astep_record _ _ _ _ _ _ _ _ _ _ _ H) as [Hok Haf].
    destruct o as [n| |c|n| |m t q|c nb q|q|w src q|q|l0 r0]; try discriminate Eo; try destruct Hc;
      simpl in Eo; inversion Eo; subst; simpl in H.
    - destruct (do_write _ _ _ _ _ _ _ _ _) as [e' rr].
      destruct rr, (e_val e') as [v'|] eqn:Ev; inversion H; subst.
      unfold value. rewrite lookup_put, path_eqb_refl, Ev. discriminate.
    - inversion H; subst. unfold value. rewrite lookup_put, path_eqb_refl. discriminate.
  Qed.

  Lemma holds_step G fld s o s1 r ev :
    keeps G o -> step1 fld s o = (s1, Some r, ev) -> holds G s -> holds G s1.
  Proof.
    intros (Kc & Ka & Kn) H (Hp & Ha & Hn & Hs & Hf).
    repeat split.
    - intros p Hin. apply (step_present _ _ _ _ _ _ p Kc H), Hp, Hin.
    - intros p Hin. rewrite (step_spares _ _ _ _ _ _ _ _ _ _ _ p (Ka p Hin) H). apply Ha, Hin.
    - intros p q Hin. rewrite (step_spares _ _ _ _ _ _ _ _ _ _ _ p (Kn p q Hin) H).
      apply Hn, Hin.
    - intros n Hin. apply (step_names _ _ _ _ _ _ n H), Hs, Hin.
    - intros E. apply (step_fields _ _ _ _ _ _ H), Hf, E.
  Qed.

  Lemma known_value G (s : st F) p : holds G s -> known G p -> value s p <> None.
  Proof.
    intros (Hp & _ & Hn & _) [H|[q H]]; [apply Hp, H|]. rewrite (Hn p q H). discriminate.
  Qed.

  Lemma step_allowed G fld s o s1 r ev :
    step1 fld s o = (s1, Some r, ev) -> holds G s -> allowed G o r.
  Proof.
    intros H HG. pose proof HG as (Hp & Ha & Hn & Hs & Hf).
    destruct o as [n| |c|n| |m t p|c nb p|p|w src p|p|l0 r0]; simpl in *; try exact I.
    - destruct (c && negb (s_species s)); inversion H; subst. intros l n E Hin.
      inversion E; subst. apply Hs, Hin.
    - inversion H; subst. intros Hin. f_equal. apply existsb_exists. exists n.
      split; [apply Hs, Hin|apply String.eqb_refl].
    - inversion H; subst. intros E. rewrite (Hf E). reflexivity.
    - destruct t; [exact I|]. intros q Hin. specialize (Hn p q Hin). unfold value in Hn.
      destruct (lookup s p) as [e|]; [|discriminate].
      destruct (do_read fconst m TReal e) as [e' rr] eqn:Ed.
      destruct rr as [w| | |]; try discriminate H. rewrite Hn in H. inversion H; subst.
      destruct e as [v f d]. simpl in Hn. subst v.
      destruct m; cbn in Ed; inversion Ed; subst; try reflexivity.
    - split; intros Hin.
      + assert (Hv := known_value G s p HG Hin). unfold value in Hv.
        destruct (lookup s p) as [e|]; [|congruence]. inversion H; subst. f_equal.
        destruct e as [v f d]. simpl in *. destruct v; [reflexivity|congruence].
      + specialize (Ha p Hin). unfold value in Ha.
        destruct (lookup s p) as [e|].
        * inversion H; subst. destruct e as [v f d]. simpl in *. subst v. reflexivity.
        * destruct c; inversion H; subst. reflexivity.
    - inversion H; subst. split; intros Hin.
      + assert (Hv := known_value G s1 p HG Hin). destruct (value s1 p); [reflexivity|congruence].
      + rewrite (Ha p Hin). reflexivity.
  Qed.

  Lemma exec_does G P {A} (m : prog A) : forall num n vs s s' tr a,
    does G P m -> holds G s -> run1 num n vs s m = (s', tr, Some a) ->
    exists o, P o /\
      (forall l p, op_look o = Some (l, p) -> exists e, In e tr /\ looks_at e = Some (l, p)) /\
      (forall k p, op_change o = Some (k, p) -> exists e, In e tr /\ change e = Some (k, p)).
  Proof.
    induction m as [x| |o k IH]; simpl; intros num n vs s s' tr a Hm HG H; [destruct Hm|discriminate|].
    destruct (step1 (num n vs) s o) as [[s1 r] ev] eqn:Es.
    destruct r as [r|]; [|discriminate].
    destruct (run1 num (S n) (vs ++ reads_of ev) s1 (k r)) as [[s2 tr2] a2] eqn:Ee.
    inversion H; subst s' tr a2; clear H.
    destruct Hm as [Ho|[Hk Hr]].
    - exists o. split; [exact Ho|].
      destruct (step_leaves fadd fsub fneg fconst finv _ _ _ _ _ _ Es) as [H1 H2].
      split; intros y p Hy; [destruct (H1 y p Hy) as (e & Hi & He)|destruct (H2 y p Hy) as (e & Hi & He)];
        exists e; (split; [apply in_or_app; left; exact Hi|exact He]).
    - destruct (IH r _ _ _ _ _ _ _ (Hr r (step_allowed _ _ _ _ _ _ _ Es HG))
                  (holds_step _ _ _ _ _ _ _ Hk Es HG) Ee) as (o' & Ho & H1 & H2).
      exists o'. split; [exact Ho|].
      split; intros y p Hy; [destruct (H1 y p Hy) as (e & Hi & He)|destruct (H2 y p Hy) as (e & Hi & He)];
        exists e; (split; [apply in_or_app; right; exact Hi|exact He]).
  Qed.
End Exec.

(** ** Rules *)

Section Rules.
  Variables (G : facts) (P : aop -> Prop).

  Lemma does_bind_l {A B} (m : prog A) (f : A -> prog B) : does G P m -> does G P (bind m f).
  Proof.
    induction m as [x| |o k IH]; simpl; [tauto|tauto|].
    intros [H|[H1 H2]]; [left; exact H|right; split; [exact H1|]]. intros r Hr. apply IH; auto.
  Qed.

  Lemma does_bind_r {A B} (m : prog A) (f : A -> prog B) :
    calls (keeps G) m -> (forall a, does G P (f a)) -> does G P (bind m f).
  Proof.
    induction m as [x| |o k IH]; simpl; intros Hm Hf; [apply Hf|exact I|].
    destruct Hm as [Ho Hk]. right. split; [exact Ho|]. intros r _. apply IH; auto.
  Qed.

  Lemma does_assoc {A B C} (m : prog A) (f : A -> prog B) (g : B -> prog C) :
    does G P (bind m (fun x => bind (f x) g)) -> does G P (bind (bind m f) g).
  Proof.
    induction m as [x| |o k IH]; simpl; [tauto|tauto|].
    intros [H|[H1 H2]]; [left; exact H|right; split; [exact H1|]]. intros r Hr. apply IH; auto.
  Qed.

  Lemma does_ret {A B} (a : A) (f : A -> prog B) : does G P (f a) -> does G P (bind (Ret a) f).
  Proof. intros H; exact H. Qed.

  Lemma does_wrap {A} (m : prog A) : does G P (bind m (fun a => Ret a)) -> does G P m.
  Proof.
    induction m as [x| |o k IH]; simpl; [tauto|tauto|].
    intros [H|[H1 H2]]; [left; exact H|right; split; [exact H1|]]. intros r Hr. apply IH; auto.
  Qed.

  Lemma does_rd_hit {B} m p (f : unit -> prog B) : P (ARead m TField p) -> does G P (bind (rd m p) f).
  Proof. intros H. left. exact H. Qed.
  Lemma does_rd {B} m p (f : unit -> prog B) : does G P (f tt) -> does G P (bind (rd m p) f).
  Proof.
    intros H. right. split; [repeat split|]. intros [] _; simpl; auto.
  Qed.
  Lemma does_rdn_hit {B} m p (f : Q -> prog B) : P (ARead m TReal p) -> does G P (bind (rdn m p) f).
  Proof. intros H. left. exact H. Qed.
  Lemma does_rdn_known {B} m p q (f : Q -> prog B) :
    In (p, q) (f_numbers G) -> does G P (f q) -> does G P (bind (rdn m p) f).
  Proof.
    intros Hin H. right. split; [repeat split|].
    intros r Hr. rewrite (Hr q Hin). exact H.
  Qed.
  Lemma does_rdn {B} m p (f : Q -> prog B) : (forall q, does G P (f q)) -> does G P (bind (rdn m p) f).
  Proof.
    intros H. right. split; [repeat split|]. intros [] _; simpl; auto.
  Qed.
  Lemma does_ask_hit {B} o (f : bool -> prog B) : P o -> does G P (bind (ask o) f).
  Proof. intros H. left. exact H. Qed.
  Lemma does_ask_true {B} o (f : bool -> prog B) :
    keeps G o -> (forall r, allowed G o r -> r = RBoo true) -> does G P (f true) ->
    does G P (bind (ask o) f).
  Proof.
    intros Hk Ha H. right. split; [exact Hk|]. intros r Hr. rewrite (Ha r Hr). exact H.
  Qed.
  Lemma does_has_true {B} p (f : bool -> prog B) :
    known G p -> does G P (f true) -> does G P (bind (ask (AHas p)) f).
  Proof. intros Hk. apply does_ask_true; [repeat split|]. intros r [H _]. auto. Qed.
  Lemma does_query_true {B} c nb p (f : bool -> prog B) :
    known G p -> does G P (f true) -> does G P (bind (ask (AQuery c nb p)) f).
  Proof. intros Hk. apply does_ask_true; [repeat split|]. intros r [H _]. auto. Qed.
  Lemma does_species_true {B} n (f : bool -> prog B) :
    In n (f_species G) -> does G P (f true) -> does G P (bind (ask (AHasSpecies n)) f).
  Proof. intros Hk. apply does_ask_true; [repeat split|]. intros r H. auto. Qed.
  Lemma does_fields_true {B} (f : bool -> prog B) :
    f_fields G = true -> does G P (f true) -> does G P (bind (ask AHasFields) f).
  Proof. intros Hk. apply does_ask_true; [repeat split|]. intros r H. auto. Qed.
  Lemma does_has_false {B} p (f : bool -> prog B) :
    In p (f_absent G) -> does G P (f false) -> does G P (bind (ask (AHas p)) f).
  Proof.
    intros Hk H. right. split; [repeat split|]. intros r [_ Hr]. rewrite (Hr Hk). exact H.
  Qed.
  Lemma does_query_false {B} c nb p (f : bool -> prog B) :
    In p (f_absent G) -> does G P (f false) -> does G P (bind (ask (AQuery c nb p)) f).
  Proof.
    intros Hk H. right. split; [repeat split|]. intros r [_ Hr]. rewrite (Hr Hk). exact H.
  Qed.
  Lemma does_ask {B} o (f : bool -> prog B) :
    keeps G o -> (forall b, does G P (f b)) -> does G P (bind (ask o) f).
  Proof. intros Hk H. right. split; [exact Hk|]. intros [] _; simpl; auto. Qed.
  Lemma does_put_hit {B} o (f : unit -> prog B) : P o -> does G P (bind (put_op o) f).
  Proof. intros H. left. exact H. Qed.
  Lemma does_put {B} o (f : unit -> prog B) :
    keeps G o -> does G P (f tt) -> does G P (bind (put_op o) f).
  Proof. intros Hk H. right. split; [exact Hk|]. intros [] _; simpl; auto. Qed.
  Lemma does_kids {B} c (f : list string -> prog B) :
    (forall l, Forall (fun n => In n l) (f_species G) -> does G P (f l)) ->
    does G P (bind (kids c) f).
  Proof.
    intros H. right. split; [repeat split|]. intros r Hr. destruct r; simpl; auto.
    apply H. apply Forall_forall. intros n Hn. apply (Hr l n eq_refl Hn).
  Qed.

  Lemma does_each {X} (f : X -> prog unit) x l :
    In x l -> does G P (f x) -> (forall y, calls (keeps G) (f y)) -> does G P (each f l).
  Proof.
    intros Hin Hx Hc. induction l as [|y l IH]; simpl; [destruct Hin|].
    destruct Hin as [->|Hin]; [apply does_bind_l, Hx|].
    apply does_bind_r; [apply Hc|]. intros _. apply IH, Hin.
  Qed.

  Lemma does_tails f x l :
    In x l -> (forall l', In x l' -> does G P (f x l')) ->
    (forall y l', calls (keeps G) (f y l')) -> does G P (tails f l).
  Proof.
    intros Hin Hx Hc. induction l as [|y l IH]; simpl; [destruct Hin|].
    destruct Hin as [->|Hin]; [apply does_bind_l, Hx; left; reflexivity|].
    apply does_bind_r; [apply Hc|]. intros _. apply IH, Hin.
  Qed.

  Lemma does_filter f x l :
    In x l -> does G P (f x) -> (forall y, calls (keeps G) (f y)) -> does G P (filter_prog f l).
  Proof.
    intros Hin Hx Hc. induction l as [|y l IH]; simpl; [destruct Hin|].
    destruct Hin as [->|Hin]; [apply does_bind_l, Hx|].
    apply does_bind_r; [apply Hc|]. intros b. apply does_bind_l. apply IH, Hin.
  Qed.
End Rules.

(** ** The tables *)

Definition reaches (g : target) (o : aop) : Prop :=
  match g with
  | Looked l p => op_look o = Some (l, p)
  | Changed k p => op_change o = Some (k, p)
  end.

Ltac in_literal := solve [repeat (first [left; reflexivity | right])].
Ltac know := solve [left; in_literal | right; eexists; in_literal].

Ltac spare_leaf :=
  unfold keeps, spares; cbn; (split; [exact I|]); split; intros;
  repeat match goal with
  | H : _ \/ _ |- _ => destruct H as [H|H]
  | H : False |- _ => destruct H
  | H : (_, _) = (_, _) |- _ => inversion H; subst; clear H
  end; subst; try exact I; try discriminate; try (intros HH; inversion HH; fail).

Lemma calls_collide (P : aop -> Prop) h a b :
  (forall m t p, P (ARead m t p)) -> (forall c nb p, P (AQuery c nb p)) -> (forall p, P (AHas p)) ->
  (forall w src s q, In q ["collision_frequency"; "momentum_source"; "energy_source"] ->
     P (AWrite w src (PSp s q))) ->
  calls P (collide h a b).
Proof.
  intros H1 H2 H3 H4. unfold collide. calls_tac; auto; apply H4; simpl; tauto.
Qed.

Ltac spare_collide :=
  apply calls_collide; intros; cbn [In] in *;
  repeat match goal with
  | H : _ \/ _ |- _ => destruct H as [H|H]
  | H : False |- _ => destruct H
  end; subst; spare_leaf.

Ltac kcalls :=
  repeat match goal with
  | |- calls _ (collide _ _ _) => spare_collide
  | |- calls _ (rdn _ _) => apply calls_rdn
  | |- calls _ _ => calls_step
  end; spare_leaf.

Ltac bools :=
  rewrite ?String.eqb_refl; cbn beta iota delta [negb andb orb];
  repeat match goal with
  | H : ?b = true |- context [?b] => rewrite H; cbn beta iota delta [negb andb orb]
  | H : ?b = false |- context [?b] => rewrite H; cbn beta iota delta [negb andb orb]
  end.

(** The same without [collide]. *)
Ltac unfold_calls :=
  unfold field_read, has_field, phi_if_charged, flows, no_pressure_source, scale_td,
    isset_read, issetnb_read, isset_readn, has_read, has_readnb, has_readnf, needn,
    pressure_if_density, sheath_electrons, sheath_ion, charge_nonzero, set_if;
  unfold field_read, has_field, charge_nonzero, set_if, needn,
    isset_read, issetnb_read, isset_readn, has_read, has_readnb, has_readnf;
  unfold has_field, if_has, when, needn, has, isset, issetnb, isset_const,
    getf, getnb, getnf, getn, getn_nb, setf, setn, setb, addf, subf, open, openfields,
    is_e, is_ebeam, qzero, uncharged, qltb, qabs in *; paths; cbn beta.

Ltac does_step :=
  match goal with
  | |- does _ _ Throw => exact I
  | |- does _ _ (bind Throw _) => exact I
  | |- does _ _ (bind (bind _ _) _) => apply does_assoc
  | |- does _ _ (bind (Ret _) _) => apply does_ret; bools
  | |- does _ _ (bind done _) => apply does_ret; bools
  | |- does _ _ (bind (rd _ _) _) => first [apply does_rd_hit; reflexivity | apply does_rd]
  | |- does _ _ (bind (rdn _ _) _) =>
      first [ apply does_rdn_hit; reflexivity
            | eapply does_rdn_known; [in_literal|bools]
            | apply does_rdn; intro ]
  | |- does _ _ (bind (ask _) _) =>
      first [ apply does_ask_hit; reflexivity
            | apply does_has_true; [know|bools]
            | apply does_query_true; [know|bools]
            | apply does_species_true; [in_literal|bools]
            | apply does_fields_true; [reflexivity|bools]
            | apply does_has_false; [in_literal|bools]
            | apply does_query_false; [in_literal|bools]
            | apply does_ask; [spare_leaf|intro] ]
  | |- does _ _ (bind (put_op _) _) =>
      first [apply does_put_hit; reflexivity | apply does_put; [spare_leaf|]]
  | |- does _ _ (bind (collide _ _ _) _) =>
      first [ apply does_bind_l; unfold collide; unfold_calls; bools; solve [repeat does_step]
            | apply does_bind_r; [spare_collide|intros _] ]
  | |- does _ _ (bind (kids _) _) =>
      apply does_kids; let l := fresh "ks" in let H := fresh "Hks" in
      intros l H; cbn [f_species] in H;
      repeat match type of H with Forall _ (_ :: _) =>
               let H1 := fresh "Hin" in
               apply Forall_cons_iff in H; destruct H as [H1 H] end; clear H
  | |- does _ _ (bind (each _ (_ :: _)) _) => cbn [each]
  | |- does _ _ (bind (each _ []) _) => cbn [each]
  | H : In ?x ?l |- does _ _ (bind (each _ ?l) _) =>
      apply does_bind_l; refine (does_each _ _ _ x l H _ _);
        [cbn beta; bools; solve [repeat does_step]|intro; solve [kcalls]]
  | H : In ?x ?l |- does _ _ (bind (tails _ ?l) _) =>
      apply does_bind_l; refine (does_tails _ _ _ x l H _ _);
        [let l' := fresh "l" in let H' := fresh "Hl" in
         intros l' H'; cbn beta; bools; solve [repeat does_step]
        |intros; solve [kcalls]]
  | H : In ?x ?l |- does _ _ (bind (filter_prog _ ?l) _) =>
      apply does_bind_l; refine (does_filter _ _ _ x l H _ _);
        [cbn beta; bools; solve [repeat does_step]|intro; solve [kcalls]]
  | |- does _ _ (bind (each _ _) _) => apply does_bind_r; [solve [kcalls]|intros _]
  | |- does _ _ (bind (tails _ _) _) => apply does_bind_r; [solve [kcalls]|intros _]
  | |- does _ _ (bind (pairs _ _) _) => apply does_bind_r; [solve [kcalls]|intros _]
  | |- does _ _ (bind (filter_prog _ _) _) => apply does_bind_r; [solve [kcalls]|intros]
  | |- does _ (reaches (?h _ ?p)) (bind (if ?b then ?m1 else ?m2) _) =>
      match constr:((m1, m2)) with
      | context [p] => let E := fresh "E" in destruct b eqn:E; bools
      | @pair (prog bool) _ _ _ => let E := fresh "E" in destruct b eqn:E; bools
      | _ => first [ apply does_bind_r; [solve [kcalls]|intro]
                   | let E := fresh "E" in destruct b eqn:E; bools ]
      end
  | |- does _ _ (if ?b then _ else _) =>
      let E := fresh "E" in destruct b eqn:E; bools
  | |- does _ _ (Ret _) => fail 1
  | |- does _ _ done => fail 1
  | |- does _ _ (bind _ _) => fail 1
  | |- does _ _ _ => apply does_wrap
  end.

Definition does_as_listed (tf : string * (string -> cfg -> option comp)) : Prop :=
  forall n c x, snd tf n c = Some x -> forall s q,
    Forall (fun g => does (fst g) (reaches (snd g)) (c_transform x)) (claims (fst tf) n c s q) /\
    Forall (fun g => does (fst g) (reaches (snd g)) (c_finally x)) (finally_claims (fst tf) n c s q).

Ltac claim_lists :=
  repeat match goal with
  | |- context [claims ?t ?n ?c ?s ?q] =>
      let l := eval cbv -[obool rreal same charged at_least app nonzero positive exceeds Qle_bool negb andb is_on]
        in (claims t n c s q) in
      change (claims t n c s q) with l
  | |- context [finally_claims ?t ?n ?c ?s ?q] =>
      let l := eval cbv -[obool rreal same charged at_least app nonzero positive exceeds Qle_bool negb andb is_on]
        in (finally_claims t n c s q) in
      change (finally_claims t n c s q) with l
  end.

Ltac forall_cases :=
  repeat match goal with
  | |- Forall _ [] => constructor
  | |- Forall _ (_ :: _) => constructor
  | |- Forall _ (_ ++ _) => apply Forall_app; split
  | |- Forall _ (if ?b then _ else _) => let E := fresh "E" in destruct b eqn:E
  | |- Forall _ (match ?b with _ => _ end) => let E := fresh "E" in destruct b eqn:E
  end.

Ltac split_bools :=
  repeat match goal with
  | H : _ && _ = true |- _ => apply andb_prop in H; destruct H
  | H : negb _ = true |- _ => apply negb_true_iff in H
  | H : negb _ = false |- _ => apply negb_false_iff in H
  | H : false = true |- _ => discriminate H
  | H : Some _ = Some _ |- _ => apply some_inj in H; subst
  | H : None = Some _ |- _ => discriminate H
  end.

Ltac eqb_both :=
  try match goal with
  | H : String.eqb ?s "e" = false |- _ =>
      match s with "e" => fail 1 | _ => idtac end;
      let H' := fresh "Hsym" in
      assert (H' : String.eqb "e" s = false) by (rewrite String.eqb_sym; exact H)
  end.

Ltac claims_tac f :=
  let n := fresh "n" in let c := fresh "c" in let x := fresh "x" in let H := fresh "H" in
  let s := fresh "s" in let q := fresh "q" in
  intros n c x H s q; cbn [fst snd] in *; unfold f in H;
  claim_lists;
  invert_create H; get_prog H; unfold is_on; split; forall_cases; split_bools;
  unfold same, charged, at_least, nonzero, positive, exceeds in *; split_bools; eqb_both;
  cbn [fst snd]; unfold_calls; bools.

Ltac acts_tac f := claims_tac f; solve [repeat does_step].
