(** Optional entries are asked for before they are read: proofs for AccessAskedSpec.v. *)

From Coq Require Import List Bool String QArith Lia.
From Verif Require Import OptionsModel AccessModel AccessComponents AccessSpec AccessProofs
  AccessTables AccessAskedSpec.
Import ListNotations.
Open Scope string_scope.
Open Scope list_scope.

(** [K]: entries shown to be set; [O]: optional entries. *)
Definition may_read (O : path -> bool) (K : list path) (p : path) : Prop := O p = false \/ In p K.

Fixpoint guarded (O : path -> bool) (K : list path) {A} (m : prog A) : Prop :=
  match m with
  | Ret _ => True
  | Throw => True
  | Op o k =>
      match o with
      | ARead _ _ p => may_read O K p /\ forall r, guarded O (p :: K) (k r)
      | AHas p | AQuery _ _ p =>
          guarded O (p :: K) (k (RBoo true)) /\ forall r, r <> RBoo true -> guarded O K (k r)
      | AWrite _ _ p | AForce p => forall r, guarded O (p :: K) (k r)
      | _ => forall r, guarded O K (k r)
      end
  end.

Section Exec.
  Context {F : Type}.
  Variables (fadd fsub : F -> F -> F) (fneg : F -> F) (fconst : Q -> F) (finv : F -> bool).
  Notation step1 := (astep fadd fsub fneg fconst finv).
  Notation run1 := (exec fadd fsub fneg fconst finv).

  (** [K] is shown by the events so far. *)
  Definition shown (K : list path) (tr : list (event F)) : Prop :=
    forall p, In p K -> exists e, In e tr /\ shows p e.

  Definition fine (O : path -> bool) (K : list path) (tr : list (event F)) : Prop :=
    forall pre m p v post, tr = pre ++ EvRead m p v :: post -> O p = true ->
      In p K \/ exists e, In e pre /\ shows p e.

  Lemma fine_app O K ev K' tr :
    fine O K ev -> fine O K' tr ->
    (forall p, In p K' -> In p K \/ exists e, In e ev /\ shows p e) ->
    fine O K (ev ++ tr).
  Proof.
    intros H1 H2 HK pre m p v post E Ho.
    apply app_eq_app in E as [l [[E1 E2]|[E1 E2]]].
    - destruct l as [|x l].
      + simpl in E2. rewrite app_nil_r in E1. subst ev.
        destruct (H2 [] m p v post (eq_sym E2) Ho) as [H|(e & [] & _)].
        apply HK, H.
      + simpl in E2. inversion E2; subst x. apply (H1 pre m p v l); [|exact Ho].
        rewrite E1. reflexivity.
    - subst pre. destruct (H2 l m p v post E2 Ho) as [H|(e & Hi & He)].
      + destruct (HK p H) as [H'|(e & Hi & He)]; [left; exact H'|].
        right. exists e. split; [apply in_or_app; left; exact Hi|exact He].
      + right. exists e. split; [apply in_or_app; right; exact Hi|exact He].
  Qed.

  Lemma fine_nil O K : fine O K [].
  Proof. intros pre m p v post E. destruct pre; discriminate E. Qed.

  Lemma fine_one O K e : (forall m p v, e = EvRead m p v -> may_read O K p) -> fine O K [e].
  Proof.
    intros H pre m p v post E Ho. destruct pre as [|x pre].
    - simpl in E. inversion E; subst. destruct (H _ _ _ eq_refl) as [H'|H']; [congruence|left; exact H'].
    - inversion E. destruct pre; discriminate.
  Qed.

  Lemma exec_guarded O {A} (m : prog A) : forall K num n vs s s' tr a,
    guarded O K m -> run1 num n vs s m = (s', tr, a) -> fine O K tr.
  Proof.
    induction m as [x| |o k IH]; intros K num n vs s s' tr a Hg H.
    - inversion H; subst. apply fine_nil.
    - inversion H; subst. apply fine_nil.
    - cbn [exec] in H.
      destruct (step1 (num n vs) s o) as [[s1 r] ev] eqn:Es.
      destruct r as [r|].
      2:{ inversion H; subst. apply astep_throws in Es. subst. apply fine_nil. }
      destruct (run1 num (S n) (vs ++ reads_of ev) s1 (k r)) as [[s2 tr2] a2] eqn:Ee.
      inversion H; subst s' tr a2; clear H.
      assert (Hsame : guarded O K (k r) -> fine O K ev -> fine O K (ev ++ tr2)).
      { intros H1 H2. apply (fine_app O K ev K tr2 H2); [|auto].
        exact (IH r K _ _ _ _ _ _ _ H1 Ee). }
      assert (Hmore : forall p, guarded O (p :: K) (k r) -> fine O K ev ->
                (exists e, In e ev /\ shows p e) -> fine O K (ev ++ tr2)).
      { intros p H1 H2 H3. apply (fine_app O K ev (p :: K) tr2 H2).
        - exact (IH r (p :: K) _ _ _ _ _ _ _ H1 Ee).
        - intros q [<-|Hq]; auto. }
      destruct o as [nm| |c|nm| |md t p|c nb p|p|w src p|p|l0 r0]; simpl in Es; cbn [guarded] in Hg.
      + inversion Es; subst. apply Hsame; [apply Hg|apply fine_nil].
      + inversion Es; subst. apply Hsame; [apply Hg|apply fine_nil].
      + destruct (c && negb (s_species s)); inversion Es; subst.
        apply Hsame; [apply Hg|apply fine_nil].
      + inversion Es; subst. apply Hsame; [apply Hg|apply fine_nil].
      + inversion Es; subst. apply Hsame; [apply Hg|apply fine_nil].
      + destruct Hg as [Hr Hk].
        destruct (lookup s p) as [e0|]; [|discriminate].
        destruct (do_read fconst md t e0) as [e' rr].
        destruct rr, (e_val e0) as [v0|]; inversion Es; subst.
        apply (Hmore p); [apply Hk| |eexists; split; [left; reflexivity|reflexivity]].
        apply fine_one. intros m' p' v' E. inversion E; subst. exact Hr.
      + destruct Hg as [Ht Hf].
        assert (exists b, r = RBoo b /\ ev = [EvQuery nb p b]) as (b & -> & ->).
        { destruct (lookup s p) as [e0|]; [|destruct c; [discriminate|]];
            inversion Es; subst; eauto. }
        destruct b.
        * apply (Hmore p); [exact Ht| |eexists; split; [left; reflexivity|reflexivity]].
          apply fine_one. discriminate.
        * apply Hsame; [apply Hf; discriminate|]. apply fine_one. discriminate.
      + destruct Hg as [Ht Hf]. inversion Es; subst. destruct (value s1 p).
        * apply (Hmore p); [exact Ht| |eexists; split; [left; reflexivity|reflexivity]].
          apply fine_one. discriminate.
        * apply Hsame; [apply Hf; discriminate|]. apply fine_one. discriminate.
      + destruct (do_write _ _ _ _ _ _ _ _ _) as [e' rr].
        destruct rr, (e_val e') as [v0|]; inversion Es; subst.
        apply (Hmore p); [apply Hg| |eexists; split; [left; reflexivity|reflexivity]].
        apply fine_one. discriminate.
      + inversion Es; subst.
        apply (Hmore p); [apply Hg| |eexists; split; [left; reflexivity|reflexivity]].
        apply fine_one. discriminate.
      + inversion Es; subst. apply Hsame; [apply Hg|]. apply fine_one. discriminate.
  Qed.
End Exec.

(** ** Rules *)

Section Rules.
  Variable O : path -> bool.

  Lemma guarded_more {A} (m : prog A) : forall K K',
    (forall p, In p K -> In p K') -> guarded O K m -> guarded O K' m.
  Proof.
    induction m as [x| |o k IH]; intros K K' HK H; [exact I|exact I|].
    assert (HK' : forall p q, In q (p :: K) -> In q (p :: K')) by (intros p q [<-|Hq]; simpl; auto).
    destruct o; cbn [guarded] in *; try (intros x; apply (IH x K K' HK), H).
    - destruct H as [H1 H2]. split.
      + destruct H1 as [H1|H1]; [left; exact H1|right; exact (HK p H1)].
      + intros r. exact (IH r (p :: K) (p :: K') (HK' p) (H2 r)).
    - destruct H as [H1 H2]. split; [exact (IH _ (p :: K) (p :: K') (HK' p) H1)|].
      intros r Hr. exact (IH r K K' HK (H2 r Hr)).
    - destruct H as [H1 H2]. split; [exact (IH _ (p :: K) (p :: K') (HK' p) H1)|].
      intros r Hr. exact (IH r K K' HK (H2 r Hr)).
    - intros r. exact (IH r (p :: K) (p :: K') (HK' p) (H r)).
    - intros r. exact (IH r (p :: K) (p :: K') (HK' p) (H r)).
  Qed.

  Lemma guarded_bind {A B} (m : prog A) (f : A -> prog B) : forall K,
    guarded O K m -> (forall a, guarded O K (f a)) -> guarded O K (bind m f).
  Proof.
    induction m as [x| |o k IH]; intros K H Hf; [apply Hf|exact I|].
    assert (Hf' : forall p a, guarded O (p :: K) (f a)).
    { intros p a. apply (guarded_more (f a) K); [simpl; auto|apply Hf]. }
    cbn [bind]. destruct o; cbn [guarded] in *; try (intros x; apply IH; auto).
    - destruct H. split; auto.
    - destruct H. split; auto.
    - destruct H. split; auto.
  Qed.

  Lemma guarded_assoc {A B C} (m : prog A) (f : A -> prog B) (g : B -> prog C) : forall K,
    guarded O K (bind m (fun x => bind (f x) g)) -> guarded O K (bind (bind m f) g).
  Proof.
    induction m as [x| |o k IH]; intros K H; [exact H|exact I|].
    cbn [bind] in *. destruct o; cbn [guarded] in *; try (intros x; apply IH; auto).
    - destruct H. split; auto.
    - destruct H. split; auto.
    - destruct H. split; auto.
  Qed.

  Lemma guarded_each {X} K (f : X -> prog unit) l :
    (forall x, guarded O K (f x)) -> guarded O K (each f l).
  Proof.
    intros H. induction l as [|x l IH]; simpl; [exact I|]. apply guarded_bind; auto.
  Qed.
  Lemma guarded_pairs K f l : (forall x y, guarded O K (f x y)) -> guarded O K (pairs f l).
  Proof.
    intros H. induction l as [|x l IH]; simpl; [exact I|].
    apply guarded_bind; [|intros _; exact IH]. apply guarded_each. apply H.
  Qed.
  Lemma guarded_tails K f l : (forall x y, guarded O K (f x y)) -> guarded O K (tails f l).
  Proof.
    intros H. induction l as [|x l IH]; simpl; [exact I|]. apply guarded_bind; auto.
  Qed.
  Lemma guarded_filter K f l : (forall x, guarded O K (f x)) -> guarded O K (filter_prog f l).
  Proof.
    intros H. induction l as [|x l IH]; simpl; [exact I|].
    apply guarded_bind; [apply H|]. intros b. apply guarded_bind; [exact IH|]. intros; exact I.
  Qed.

  Lemma guarded_ret {A B} K (a : A) (f : A -> prog B) :
    guarded O K (f a) -> guarded O K (bind (Ret a) f).
  Proof. intros H; exact H. Qed.
  Lemma guarded_rd {B} K m p (f : unit -> prog B) :
    may_read O K p -> guarded O (p :: K) (f tt) -> guarded O K (bind (rd m p) f).
  Proof. intros H1 H2. split; [exact H1|]. intros []; simpl; auto. Qed.
  Lemma guarded_rdn {B} K m p (f : Q -> prog B) :
    may_read O K p -> (forall q, guarded O (p :: K) (f q)) -> guarded O K (bind (rdn m p) f).
  Proof. intros H1 H2. split; [exact H1|]. intros []; simpl; auto. Qed.
  Lemma guarded_has {B} K p (f : bool -> prog B) :
    guarded O (p :: K) (f true) -> guarded O K (f false) -> guarded O K (bind (ask (AHas p)) f).
  Proof. intros H1 H2. split; [exact H1|]. intros [| |[|]| |] H; simpl; auto; congruence. Qed.
  Lemma guarded_query {B} K c nb p (f : bool -> prog B) :
    guarded O (p :: K) (f true) -> guarded O K (f false) ->
    guarded O K (bind (ask (AQuery c nb p)) f).
  Proof. intros H1 H2. split; [exact H1|]. intros [| |[|]| |] H; simpl; auto; congruence. Qed.
  Lemma guarded_species {B} K n (f : bool -> prog B) :
    (forall b, guarded O K (f b)) -> guarded O K (bind (ask (AHasSpecies n)) f).
  Proof. intros H []; simpl; auto. Qed.
  Lemma guarded_fields {B} K (f : bool -> prog B) :
    (forall b, guarded O K (f b)) -> guarded O K (bind (ask AHasFields) f).
  Proof. intros H []; simpl; auto. Qed.
  Lemma guarded_write {B} K w src p (f : unit -> prog B) :
    guarded O (p :: K) (f tt) -> guarded O K (bind (put_op (AWrite w src p)) f).
  Proof. intros H []; simpl; auto. Qed.
  Lemma guarded_kids {B} K c (f : list string -> prog B) :
    (forall l, guarded O K (f l)) -> guarded O K (bind (kids c) f).
  Proof. intros H []; simpl; auto. Qed.
  Lemma guarded_open {B} K s (f : unit -> prog B) :
    guarded O K (f tt) -> guarded O K (bind (put_op (AOpen s)) f).
  Proof. intros H []; simpl; auto. Qed.
  Lemma guarded_openf {B} K (f : unit -> prog B) :
    guarded O K (f tt) -> guarded O K (bind (put_op AOpenFields) f).
  Proof. intros H []; simpl; auto. Qed.

  Lemma guarded_wrap {A} (m : prog A) : forall K,
    guarded O K (bind m (fun a => Ret a)) -> guarded O K m.
  Proof.
    induction m as [x| |o k IH]; intros K H; [exact I|exact I|].
    cbn [bind] in H. destruct o; cbn [guarded] in *; try (intros x; apply IH; auto).
    - destruct H. split; auto.
    - destruct H. split; auto.
    - destruct H. split; auto.
  Qed.

  (** Nothing optional is read. *)
  Lemma guarded_free {A} (m : prog A) : forall K,
    calls (fun o => match o with ARead _ _ p => O p = false | _ => True end) m -> guarded O K m.
  Proof.
    induction m as [x| |o k IH]; intros K H; [exact I|exact I|].
    destruct H as [Ho Hk]. destruct o; cbn [guarded]; try (intros x; apply IH; auto).
    - split; [left; exact Ho|]. auto.
    - split; auto.
    - split; auto.
  Qed.
End Rules.

(** ** The tables *)

Ltac in_known := solve [repeat (first [left; reflexivity | right])].
Ltac read_ok :=
  first [ right; in_known
        | left; cbn; rewrite ?andb_false_r; reflexivity ].

Ltac guarded_step :=
  match goal with
  | |- guarded _ _ Throw => exact I
  | |- guarded _ _ (Ret _) => exact I
  | |- guarded _ _ done => exact I
  | |- guarded _ _ (bind Throw _) => exact I
  | |- guarded _ _ (bind (Ret _) _) => apply guarded_ret; cbn beta iota delta [negb andb orb]
  | |- guarded _ _ (bind done _) => apply guarded_ret; cbn beta iota
  | |- guarded _ _ (@bind bool _ (bind _ _) _) => apply guarded_assoc
  | |- guarded _ _ (@bind Q _ (bind _ _) _) => apply guarded_assoc
  | |- guarded _ _ (bind (rd _ _) _) => apply guarded_rd; [read_ok|]
  | |- guarded _ _ (bind (rdn _ _) _) => apply guarded_rdn; [read_ok|intro]
  | |- guarded _ _ (bind (ask (AHas _)) _) =>
      apply guarded_has; cbn beta iota delta [negb andb orb]
  | |- guarded _ _ (bind (ask (AQuery _ _ _)) _) =>
      apply guarded_query; cbn beta iota delta [negb andb orb]
  | |- guarded _ _ (bind (ask (AHasSpecies _)) _) => apply guarded_species; intro
  | |- guarded _ _ (bind (ask AHasFields) _) => apply guarded_fields; intros [|]; cbn beta iota
  | |- guarded _ _ (bind (put_op (AWrite _ _ _)) _) => apply guarded_write
  | |- guarded _ _ (bind (put_op (AOpen _)) _) => apply guarded_open
  | |- guarded _ _ (bind (put_op AOpenFields) _) => apply guarded_openf
  | |- guarded _ _ (bind (kids _) _) => apply guarded_kids; intro
  | |- guarded _ _ (@bind bool _ (if ?b then _ else _) _) => destruct b
  | |- guarded _ _ (bind _ _) => apply guarded_bind; [|intro]
  | |- guarded _ _ (each _ (_ :: _)) => cbn [each]
  | |- guarded _ _ (each _ []) => exact I
  | |- guarded _ _ (each _ _) => apply guarded_each; intro
  | |- guarded _ _ (pairs _ _) => apply guarded_pairs; intros
  | |- guarded _ _ (tails _ _) => apply guarded_tails; intros
  | |- guarded _ _ (filter_prog _ _) => apply guarded_filter; intro
  | |- guarded _ _ (if ?b then _ else _) => destruct b
  | |- guarded _ _ (put_op _) => apply guarded_wrap
  | |- guarded _ _ (rd _ _) => apply guarded_wrap
  | |- guarded _ _ (rdn _ _) => apply guarded_wrap
  | |- guarded _ _ (ask _) => apply guarded_wrap
  end.

Ltac unfold_programs :=
  unfold field_read, has_field, phi_if_charged, flows, no_pressure_source, scale_td,
    isset_read, issetnb_read, isset_readn, has_read, has_readnb, has_readnf, needn,
    pressure_if_density, sheath_electrons, sheath_ion, charge_nonzero, set_if, collide,
    ion_ion_force, run_channel;
  unfold field_read, has_field, charge_nonzero, set_if, needn,
    isset_read, issetnb_read, isset_readn, has_read, has_readnb, has_readnf;
  unfold has_field, if_has, when, needn, has, isset, issetnb, isset_const,
    getf, getnb, getnf, getn, getn_nb, setf, setn, setb, addf, subf, open, openfields in *;
  paths; cbv zeta; cbn beta.

Definition guards_as_listed (tf : string * (string -> cfg -> option comp)) : Prop :=
  forall n c x, snd tf n c = Some x ->
    guarded (optional (groups_of optional_table (fst tf)) n) [] (c_transform x) /\
    guarded (optional (groups_of optional_finally_table (fst tf)) n) [] (c_finally x).

Ltac asked_tables :=
  repeat match goal with
  | |- context [groups_of ?tb ?t] =>
      let l := eval vm_compute in (groups_of tb t) in change (groups_of tb t) with l
  end.

Ltac asked_tac f :=
  let n := fresh "n" in let c := fresh "c" in let x := fresh "x" in let H := fresh "H" in
  intros n c x H; cbn [fst snd] in *; unfold f in H;
  asked_tables; invert_create H; get_prog H; unfold_programs; split; repeat guarded_step.

Lemma g_evolve_density : guards_as_listed ("evolve_density", evolve_density).
Proof. asked_tac evolve_density. Qed.
Lemma g_evolve_pressure : guards_as_listed ("evolve_pressure", evolve_pressure).
Proof. asked_tac evolve_pressure. Qed.
Lemma g_evolve_energy : guards_as_listed ("evolve_energy", evolve_energy).
Proof. asked_tac evolve_energy. Qed.
Lemma g_evolve_momentum : guards_as_listed ("evolve_momentum", evolve_momentum).
Proof. asked_tac evolve_momentum. Qed.
Lemma g_neutral_mixed : guards_as_listed ("neutral_mixed", neutral_mixed).
Proof. asked_tac neutral_mixed. Qed.
Lemma g_isothermal : guards_as_listed ("isothermal", isothermal).
Proof. asked_tac isothermal. Qed.
Lemma g_fixed_temperature : guards_as_listed ("fixed_temperature", fixed_temperature).
Proof. asked_tac fixed_temperature. Qed.
Lemma g_fixed_velocity : guards_as_listed ("fixed_velocity", fixed_velocity).
Proof. asked_tac fixed_velocity. Qed.
Lemma g_set_temperature : guards_as_listed ("set_temperature", set_temperature).
Proof. asked_tac set_temperature. Qed.
Lemma g_quasineutral : guards_as_listed ("quasineutral", quasineutral).
Proof. asked_tac quasineutral. Qed.
Lemma g_zero_current : guards_as_listed ("zero_current", zero_current).
Proof. asked_tac zero_current. Qed.
Lemma g_sound_speed : guards_as_listed ("sound_speed", sound_speed).
Proof. asked_tac sound_speed. Qed.
Lemma g_anomalous_diffusion : guards_as_listed ("anomalous_diffusion", anomalous_diffusion).
Proof. asked_tac anomalous_diffusion. Qed.
Lemma g_classical_diffusion : guards_as_listed ("classical_diffusion", classical_diffusion).
Proof. asked_tac classical_diffusion. Qed.
Lemma g_binormal_stpm : guards_as_listed ("binormal_stpm", binormal_stpm).
Proof. asked_tac binormal_stpm. Qed.
Lemma g_neutral_parallel_diffusion : guards_as_listed ("neutral_parallel_diffusion", neutral_parallel_diffusion).
Proof. asked_tac neutral_parallel_diffusion. Qed.
Lemma g_solkit_neutral_parallel_diffusion : guards_as_listed ("solkit_neutral_parallel_diffusion", solkit_neutral_parallel_diffusion).
Proof. asked_tac solkit_neutral_parallel_diffusion. Qed.
Lemma g_upstream_density_feedback : guards_as_listed ("upstream_density_feedback", upstream_density_feedback).
Proof. asked_tac upstream_density_feedback. Qed.
Lemma g_electron_force_balance : guards_as_listed ("electron_force_balance", electron_force_balance).
Proof. asked_tac electron_force_balance. Qed.
Lemma g_ion_viscosity : guards_as_listed ("ion_viscosity", ion_viscosity).
Proof. asked_tac ion_viscosity. Qed.
Lemma g_thermal_force : guards_as_listed ("thermal_force", thermal_force).
Proof. asked_tac thermal_force. Qed.
Lemma g_collisions : guards_as_listed ("collisions", collisions).
Proof. asked_tac collisions. Qed.
Lemma g_noflow_boundary : guards_as_listed ("noflow_boundary", noflow_boundary).
Proof. asked_tac noflow_boundary. Qed.
Lemma g_neutral_boundary : guards_as_listed ("neutral_boundary", neutral_boundary).
Proof. asked_tac neutral_boundary. Qed.
Lemma g_sheath_boundary : guards_as_listed ("sheath_boundary", sheath_boundary).
Proof. asked_tac sheath_boundary. Qed.
Lemma g_sheath_boundary_simple : guards_as_listed ("sheath_boundary_simple", sheath_boundary_simple).
Proof. asked_tac sheath_boundary_simple. Qed.
Lemma g_sheath_boundary_insulating : guards_as_listed ("sheath_boundary_insulating", sheath_boundary_insulating).
Proof. asked_tac sheath_boundary_insulating. Qed.
Lemma g_recycling : guards_as_listed ("recycling", recycling).
Proof. asked_tac recycling. Qed.
Lemma g_vorticity : guards_as_listed ("vorticity", vorticity).
Proof. asked_tac vorticity. Qed.
Lemma g_relax_potential : guards_as_listed ("relax_potential", relax_potential).
Proof. asked_tac relax_potential. Qed.
Lemma g_diamagnetic_drift : guards_as_listed ("diamagnetic_drift", diamagnetic_drift).
Proof. asked_tac diamagnetic_drift. Qed.
Lemma g_polarisation_drift : guards_as_listed ("polarisation_drift", polarisation_drift).
Proof. asked_tac polarisation_drift. Qed.
Lemma g_electromagnetic : guards_as_listed ("electromagnetic", electromagnetic).
Proof. asked_tac electromagnetic. Qed.

Lemma guarded_none O {A} (m : prog A) : forall K, (forall p, O p = false) -> guarded O K m.
Proof.
  intros K H. apply guarded_free. induction m as [x| |o k IH]; [exact I|exact I|].
  split; [destruct o; auto|exact IH].
Qed.

Lemma not_listed tf :
  groups_of optional_table (fst tf) = [] -> groups_of optional_finally_table (fst tf) = [] ->
  guards_as_listed tf.
Proof.
  intros H1 H2 n c x _. rewrite H1, H2. split; apply guarded_none; reflexivity.
Qed.

Lemma reactions_not_listed :
  Forall (fun t => groups_of optional_table t = [] /\ groups_of optional_finally_table t = [])
    (map fst reaction_types ++ map fst cx_types).
Proof.
  match goal with |- Forall _ ?l => let l' := eval vm_compute in l in change l with l' end.
  repeat (apply Forall_cons; [split; reflexivity|]). constructor.
Qed.

Lemma simple_types_guard : Forall guards_as_listed simple_types.
Proof.
  unfold simple_types. repeat rewrite Forall_app. repeat split.
  - repeat match goal with
    | |- Forall _ ((?t, ?f) :: _) =>
        apply Forall_cons;
        [first
          [ exact g_evolve_density | exact g_evolve_pressure | exact g_evolve_energy |
            exact g_evolve_momentum | exact g_neutral_mixed | exact g_isothermal | exact
            g_fixed_temperature | exact g_fixed_velocity | exact g_set_temperature |
            exact g_quasineutral | exact g_zero_current | exact g_sound_speed | exact
            g_anomalous_diffusion | exact g_classical_diffusion | exact g_binormal_stpm
            | exact g_neutral_parallel_diffusion | exact
            g_solkit_neutral_parallel_diffusion | exact g_upstream_density_feedback |
            exact g_electron_force_balance | exact g_ion_viscosity | exact
            g_thermal_force | exact g_collisions | exact g_noflow_boundary | exact
            g_neutral_boundary | exact g_sheath_boundary | exact
            g_sheath_boundary_simple | exact g_sheath_boundary_insulating | exact
            g_recycling | exact g_vorticity | exact g_relax_potential | exact
            g_diamagnetic_drift | exact g_polarisation_drift | exact g_electromagnetic
            | apply not_listed; reflexivity ] |]
    end. constructor.
  - apply Forall_map. repeat (apply Forall_cons; [apply not_listed; reflexivity|]). constructor.
  - apply Forall_map, Forall_forall. intros tp Hin.
    pose proof reactions_not_listed as H. rewrite Forall_forall in H.
    destruct (H (fst tp)) as [H1 H2]; [|apply not_listed; assumption].
    apply in_or_app. left. exact (in_map (@fst string (prog unit)) _ tp Hin).
  - apply Forall_map, Forall_forall. intros tp Hin.
    pose proof reactions_not_listed as H. rewrite Forall_forall in H.
    destruct (H (fst tp)) as [H1 H2]; [|apply not_listed; assumption].
    apply in_or_app. right. exact (in_map (@fst string (string * string)) _ tp Hin).
Qed.

Lemma optional_asked {F} (A : farith F) num ty n c x s s' tr a :
  create ty n c = Some x ->
  (run_method A num s (c_transform x) = (s', tr, a) ->
   asked (groups_of optional_table ty) n tr) /\
  (run_method A num s (c_finally x) = (s', tr, a) ->
   asked (groups_of optional_finally_table ty) n tr).
Proof.
  unfold create. destruct (assoc ty simple_types) as [f|] eqn:Ea; [|discriminate].
  intros Hc. apply assoc_in in Ea. pose proof simple_types_guard as Hl.
  rewrite Forall_forall in Hl. destruct (Hl _ Ea n c x Hc) as [H1 H2].
  split; intros Hr pre m p v post E Ho; unfold run_method in Hr.
  - destruct (exec_guarded _ _ _ _ _ _ _ _ _ _ _ _ _ _ _ H1 Hr pre m p v post E Ho) as [[]|H]; exact H.
  - destruct (exec_guarded _ _ _ _ _ _ _ _ _ _ _ _ _ _ _ H2 Hr pre m p v post E Ho) as [[]|H]; exact H.
Qed.
