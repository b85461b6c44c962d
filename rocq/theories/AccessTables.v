(** What the programs of AccessComponents.v write and need: proofs of the tables of
    AccessSpec.v, and what follows for lists of components. *)

From Coq Require Import List Bool String QArith Lia.
From Verif Require Import OptionsModel AccessModel AccessComponents AccessSpec AccessProofs.
Import ListNotations.
Open Scope string_scope.
Open Scope list_scope.

(** ** All calls of a program *)

Fixpoint calls (P : aop -> Prop) {A} (m : prog A) : Prop :=
  match m with
  | Ret _ => True
  | Throw => True
  | Op o k => P o /\ forall r, calls P (k r)
  end.

Definition op_change (o : aop) : option (kind * path) :=
  match o with
  | AWrite w _ p => Some (kind_of w, p)
  | AForce p => Some (KSet, p)
  | ACopy l _ => Some (KSet, l)
  | _ => None
  end.

(** Only permitted changes. *)
Definition within (P : kind -> path -> bool) (o : aop) : Prop :=
  match op_change o with Some (k, p) => P k p = true | None => True end.

(** No change at all, nothing created: what a const Options& allows. *)
Definition const_op (o : aop) : Prop :=
  match o with
  | ARead _ _ _ | AHas _ | AHasFields | AHasSpecies _ | AKids true => True
  | _ => False
  end.

(** No change at [p]. *)
Definition spares (p : path) (o : aop) : Prop :=
  match op_change o with Some (_, q) => p <> q | None => True end.

Section Calls.
  Variable P : aop -> Prop.

  Lemma calls_bind {A B} (m : prog A) (f : A -> prog B) :
    calls P m -> (forall a, calls P (f a)) -> calls P (bind m f).
  Proof.
    induction m as [x| |o k IH]; simpl; intros Hm Hf; [apply Hf|exact I|].
    destruct Hm as [Ho Hk]. split; [exact Ho|]. intros r. apply IH; auto.
  Qed.

  Lemma calls_each {X} (f : X -> prog unit) l : (forall x, calls P (f x)) -> calls P (each f l).
  Proof.
    intros H. induction l as [|x l IH]; simpl; [exact I|]. apply calls_bind; auto.
  Qed.

  Lemma calls_when b m : calls P m -> calls P (when b m).
  Proof. destruct b; simpl; auto. Qed.

  Lemma calls_pairs f l : (forall x y, calls P (f x y)) -> calls P (pairs f l).
  Proof.
    intros H. induction l as [|x l IH]; simpl; [exact I|].
    apply calls_bind; [|intros _; exact IH]. apply calls_each. apply H.
  Qed.

  Lemma calls_tails f l : (forall x y, calls P (f x y)) -> calls P (tails f l).
  Proof.
    intros H. induction l as [|x l IH]; simpl; [exact I|].
    apply calls_bind; auto.
  Qed.

  Lemma calls_filter f l : (forall x, calls P (f x)) -> calls P (filter_prog f l).
  Proof.
    intros H. induction l as [|x l IH]; simpl; [exact I|].
    apply calls_bind; [apply H|]. intros b. apply calls_bind; [exact IH|]. intros; exact I.
  Qed.

  Lemma calls_rd m p : P (ARead m TField p) -> calls P (rd m p).
  Proof. intros H. split; [exact H|]. intros []; exact I. Qed.
  Lemma calls_rdn m p : P (ARead m TReal p) -> calls P (rdn m p).
  Proof. intros H. split; [exact H|]. intros []; exact I. Qed.
  Lemma calls_ask o : P o -> calls P (ask o).
  Proof. intros H. split; [exact H|]. intros []; exact I. Qed.
  Lemma calls_put o : P o -> calls P (put_op o).
  Proof. intros H. split; [exact H|]. intros []; exact I. Qed.
  Lemma calls_kids b : P (AKids b) -> calls P (kids b).
  Proof. intros H. split; [exact H|]. intros []; exact I. Qed.
End Calls.

(** ** A program must read [p] before it changes it *)

Fixpoint must (p : path) {A} (m : prog A) : Prop :=
  match m with
  | Ret _ => False
  | Throw => True
  | Op o k => (exists md t, o = ARead md t p) \/ (spares p o /\ forall r, must p (k r))
  end.

Lemma must_bind_l p {A B} (m : prog A) (f : A -> prog B) : must p m -> must p (bind m f).
Proof.
  induction m as [x| |o k IH]; simpl; [tauto|tauto|].
  intros [H|[H1 H2]]; [left; exact H|right; split; [exact H1|]]. intros r; apply IH; auto.
Qed.

Lemma must_bind_r p {A B} (m : prog A) (f : A -> prog B) :
  calls (spares p) m -> (forall a, must p (f a)) -> must p (bind m f).
Proof.
  induction m as [x| |o k IH]; simpl; intros Hm Hf; [apply Hf|exact I|].
  destruct Hm as [Ho Hk]. right. split; [exact Ho|]. intros r. apply IH; auto.
Qed.

Lemma must_rd p md : must p (rd md p).
Proof. left. eauto. Qed.
Lemma must_rdn p md : must p (rdn md p).
Proof. left. eauto. Qed.
Lemma must_throw p {A} : must p (@Throw A).
Proof. exact I. Qed.

(** ** Consequences for executions *)

Section Exec.
  Context {F : Type}.
  Variables (fadd fsub : F -> F -> F) (fneg : F -> F) (fconst : Q -> F) (finv : F -> bool).
  Notation step1 := (astep fadd fsub fneg fconst finv).
  Notation run1 := (exec fadd fsub fneg fconst finv).

  Lemma step_change fld s o s1 r ev e :
    step1 fld s o = (s1, r, ev) -> In e ev -> change e = None \/ change e = op_change o.
  Proof.
    intros H Hin. destruct r as [r|].
    2:{ apply astep_throws in H. subst ev. destruct Hin. }
    destruct o as [n| |c|n| |m t p|c nb p|p|w src p|p|l r0]; simpl in H.
    - inversion H; subst; destruct Hin.
    - inversion H; subst; destruct Hin.
    - destruct (c && negb (s_species s)); inversion H; subst; destruct Hin.
    - inversion H; subst; destruct Hin.
    - inversion H; subst; destruct Hin.
    - destruct (lookup s p) as [e0|]; [|discriminate].
      destruct (do_read fconst m t e0) as [e' rr].
      destruct rr, (e_val e0); inversion H; subst; destruct Hin as [<-|[]]; left; reflexivity.
    - destruct (lookup s p) as [e0|]; [|destruct c; [discriminate|]];
        inversion H; subst; destruct Hin as [<-|[]]; left; reflexivity.
    - inversion H; subst; destruct Hin as [<-|[]]; left; reflexivity.
    - destruct (do_write _ _ _ _ _ _ _ _ _) as [e' rr].
      destruct rr, (e_val e'); inversion H; subst; destruct Hin as [<-|[]]; right; reflexivity.
    - inversion H; subst; destruct Hin as [<-|[]]; right; reflexivity.
    - inversion H; subst; destruct Hin as [<-|[]]; right; reflexivity.
  Qed.

  Lemma exec_within P {A} (m : prog A) : forall num n vs s s' tr a,
    calls (within P) m -> run1 num n vs s m = (s', tr, a) ->
    forall e k p, In e tr -> change e = Some (k, p) -> P k p = true.
  Proof.
    induction m as [x| |o k IH]; simpl; intros num n vs s s' tr a Hc H e kd p Hin He.
    - inversion H; subst; destruct Hin.
    - inversion H; subst; destruct Hin.
    - destruct Hc as [Ho Hk].
      destruct (step1 (num n vs) s o) as [[s1 r] ev] eqn:Es.
      assert (Hev : In e ev -> P kd p = true).
      { intros Hi. destruct (step_change _ _ _ _ _ _ _ Es Hi) as [H0|H0]; [congruence|].
        unfold within in Ho. rewrite <- H0, He in Ho. exact Ho. }
      destruct r as [r|].
      + destruct (run1 num (S n) (vs ++ reads_of ev) s1 (k r)) as [[s2 tr2] a2] eqn:Ee.
        inversion H; subst s' tr a; clear H. apply in_app_or in Hin as [Hin|Hin]; [auto|].
        apply (IH r _ _ _ _ _ _ _ (Hk r) Ee e kd p Hin He).
      + inversion H; subst s' tr a; clear H. auto.
  Qed.

  Lemma step_spares fld s o s1 r ev p :
    spares p o -> step1 fld s o = (s1, Some r, ev) -> value s1 p = value s p.
  Proof.
    intros Hs H. pose proof (astep_record _ _ _ _ _ _ _ _ _ _ _ H) as [Hok Haf].
    rewrite !value_lof, Haf.
    rewrite (after_val ev (leaf_or_fresh s) (fun q => e_val (leaf_or_fresh s q)) Hok (fun q => eq_refl)).
    rewrite latest_unchanged; [reflexivity|].
    destruct (existsb (changes p) ev) eqn:Ec; [|reflexivity]. exfalso.
    apply existsb_exists in Ec as (x & Hin & Hx).
    destruct (step_change _ _ _ _ _ _ _ H Hin) as [H0|H0].
    - destruct x; simpl in *; discriminate.
    - unfold spares in Hs. rewrite <- H0 in Hs.
      destruct x; unfold changes in Hx; simpl in *; try discriminate;
        rewrite ?orb_false_r in Hx; apply path_eqb_eq in Hx; congruence.
  Qed.

  Lemma exec_must p {A} (m : prog A) : forall num n vs s s' tr a,
    must p m -> run1 num n vs s m = (s', tr, Some a) -> value s p <> None.
  Proof.
    induction m as [x| |o k IH]; simpl; intros num n vs s s' tr a Hm H; [destruct Hm|discriminate|].
    destruct (step1 (num n vs) s o) as [[s1 r] ev] eqn:Es.
    destruct r as [r|]; [|discriminate].
    destruct (run1 num (S n) (vs ++ reads_of ev) s1 (k r)) as [[s2 tr2] a2] eqn:Ee.
    inversion H; subst s' tr a2; clear H.
    destruct Hm as [(md & t & ->)|[Hs Hk]].
    - simpl in Es. destruct (lookup s p) as [e|] eqn:El; [|discriminate].
      destruct (do_read fconst md t e) as [e' rr] eqn:Ed.
      destruct rr as [w|b| |]; try (destruct (e_val e); discriminate).
      apply do_read_val in Ed as [v Hv]. unfold value. rewrite El, Hv. discriminate.
    - rewrite <- (step_spares _ _ _ _ _ _ p Hs Es). apply (IH r _ _ _ _ _ _ _ (Hk r) Ee).
  Qed.
End Exec.

(** ** The tables *)

Ltac unfold_helpers :=
  unfold field_read, has_field, phi_if_charged, flows, no_pressure_source, scale_td,
         isset_read, issetnb_read, isset_readn, has_read, has_readnb, has_readnf, needn,
         pressure_if_density, sheath_electrons, sheath_ion, charge_nonzero, set_if,
         run_channel, collide, ion_ion_force, equal_mass, charge_of, if_has,
         amjuel, adas, adas_cx, hydrogen_cx, solkit_cx, ionisation.

Ltac calls_step :=
  match goal with
  | |- calls _ (bind _ _) => apply calls_bind; [|intros]
  | |- calls _ (when false _) => exact I
  | |- calls _ (when _ _) => apply calls_when
  | |- calls _ (each _ (_ :: _)) => cbn [each]
  | |- calls _ (each _ []) => exact I
  | |- calls _ (each _ _) => apply calls_each; intros
  | |- calls _ (pairs _ _) => apply calls_pairs; intros
  | |- calls _ (tails _ _) => apply calls_tails; intros
  | |- calls _ (filter_prog _ _) => apply calls_filter; intros
  | |- calls _ (getf _) => apply calls_rd
  | |- calls _ (getnb _) => apply calls_rd
  | |- calls _ (getnf _) => apply calls_rd
  | |- calls _ (rd _ _) => apply calls_rd
  | |- calls _ (getn _) => apply calls_rdn
  | |- calls _ (getn_nb _) => apply calls_rdn
  | |- calls _ (has _) => apply calls_ask
  | |- calls _ (isset _) => apply calls_ask
  | |- calls _ (issetnb _) => apply calls_ask
  | |- calls _ (isset_const _) => apply calls_ask
  | |- calls _ (ask _) => apply calls_ask
  | |- calls _ (kids _) => apply calls_kids
  | |- calls _ (setf _) => apply calls_put
  | |- calls _ (setn _ _) => apply calls_put
  | |- calls _ (setb _) => apply calls_put
  | |- calls _ (addf _) => apply calls_put
  | |- calls _ (subf _) => apply calls_put
  | |- calls _ (open _) => apply calls_put
  | |- calls _ openfields => apply calls_put
  | |- calls _ (put_op _) => apply calls_put
  | |- calls _ done => exact I
  | |- calls _ Throw => exact I
  | |- calls _ (Ret _) => exact I
  | |- calls _ (if ?b then _ else _) => destruct b
  | |- calls _ (let _ := _ in _) => cbv zeta
  | |- calls _ _ => progress unfold_helpers
  end.

Ltac paths := unfold n_, t_, p_, v_, nv_, q_, a_, nu_, sn_, snv_, se_, phi in *.

Ltac within_leaf :=
  unfold within; paths; simpl; rewrite ?String.eqb_refl; try exact I; try reflexivity.

Ltac calls_tac := repeat calls_step.

Ltac invert_create H :=
  repeat match type of H with
  | obind (if ?b then _ else _) _ = Some _ => destruct b; cbn [obind] in H
  | obind (Some _) _ = Some _ => cbn [obind] in H
  | obind None _ = Some _ => discriminate H
  | obind ?m _ = Some _ => destruct m; cbn [obind] in H; [|discriminate H]
  | (if ?b then _ else _) = Some _ => destruct b; [|try discriminate H]
  | None = Some _ => discriminate H
  end.

Lemma some_inj {X} (a b : X) : Some a = Some b -> a = b.
Proof. congruence. Qed.

Ltac get_prog H :=
  cbv beta delta [plain] in H;
  match type of H with Some _ = Some _ => apply some_inj in H; subst; cbn [c_transform c_finally] end.

Definition writes_as_listed (tf : string * (string -> cfg -> option comp)) : Prop :=
  forall n c x, snd tf n c = Some x ->
    calls (within (may (fst tf) n)) (c_transform x) /\ calls const_op (c_finally x).

Ltac listed_tac f :=
  let n := fresh "n" in let c := fresh "c" in let x := fresh "x" in let H := fresh "H" in
  intros n c x H; cbn [fst snd] in *; unfold f in H;
  invert_create H; get_prog H;
  unfold may;
  match goal with |- context [effects_of ?t] =>
    let l := eval vm_compute in (effects_of t) in change (effects_of t) with l end;
  split; calls_tac; within_leaf.

Lemma w_evolve_density : writes_as_listed ("evolve_density", evolve_density).
Proof. listed_tac evolve_density. Qed.
Lemma w_evolve_pressure : writes_as_listed ("evolve_pressure", evolve_pressure).
Proof. listed_tac evolve_pressure. Qed.
Lemma w_evolve_energy : writes_as_listed ("evolve_energy", evolve_energy).
Proof. listed_tac evolve_energy. Qed.
Lemma w_evolve_momentum : writes_as_listed ("evolve_momentum", evolve_momentum).
Proof. listed_tac evolve_momentum. Qed.
Lemma w_neutral_mixed : writes_as_listed ("neutral_mixed", neutral_mixed).
Proof. listed_tac neutral_mixed. Qed.
Lemma w_isothermal : writes_as_listed ("isothermal", isothermal).
Proof. listed_tac isothermal. Qed.
Lemma w_fixed_density : writes_as_listed ("fixed_density", fixed_density).
Proof. listed_tac fixed_density. Qed.
Lemma w_fixed_temperature : writes_as_listed ("fixed_temperature", fixed_temperature).
Proof. listed_tac fixed_temperature. Qed.
Lemma w_fixed_velocity : writes_as_listed ("fixed_velocity", fixed_velocity).
Proof. listed_tac fixed_velocity. Qed.
Lemma w_set_temperature : writes_as_listed ("set_temperature", set_temperature).
Proof. listed_tac set_temperature. Qed.
Lemma w_quasineutral : writes_as_listed ("quasineutral", quasineutral).
Proof. listed_tac quasineutral. Qed.
Lemma w_zero_current : writes_as_listed ("zero_current", zero_current).
Proof. listed_tac zero_current. Qed.
Lemma w_fixed_fraction_ions : writes_as_listed ("fixed_fraction_ions", fixed_fraction_ions).
Proof. listed_tac fixed_fraction_ions. Qed.
Lemma w_sound_speed : writes_as_listed ("sound_speed", sound_speed).
Proof. listed_tac sound_speed. Qed.
Lemma w_scale_timederivs : writes_as_listed ("scale_timederivs", scale_timederivs).
Proof. listed_tac scale_timederivs. Qed.
Lemma w_transform : writes_as_listed ("transform", transform_comp).
Proof. listed_tac transform_comp. Qed.
Lemma w_simple_pump : writes_as_listed ("simple_pump", simple_pump).
Proof. listed_tac simple_pump. Qed.
Lemma w_simple_conduction : writes_as_listed ("simple_conduction", simple_conduction).
Proof. listed_tac simple_conduction. Qed.
Lemma w_snb_conduction : writes_as_listed ("snb_conduction", snb_conduction).
Proof. listed_tac snb_conduction. Qed.
Lemma w_anomalous_diffusion : writes_as_listed ("anomalous_diffusion", anomalous_diffusion).
Proof. listed_tac anomalous_diffusion. Qed.
Lemma w_classical_diffusion : writes_as_listed ("classical_diffusion", classical_diffusion).
Proof. listed_tac classical_diffusion. Qed.
Lemma w_binormal_stpm : writes_as_listed ("binormal_stpm", binormal_stpm).
Proof. listed_tac binormal_stpm. Qed.
Lemma w_neutral_parallel_diffusion : writes_as_listed ("neutral_parallel_diffusion", neutral_parallel_diffusion).
Proof. listed_tac neutral_parallel_diffusion. Qed.
Lemma w_solkit_neutral_parallel_diffusion : writes_as_listed ("solkit_neutral_parallel_diffusion", solkit_neutral_parallel_diffusion).
Proof. listed_tac solkit_neutral_parallel_diffusion. Qed.
Lemma w_upstream_density_feedback : writes_as_listed ("upstream_density_feedback", upstream_density_feedback).
Proof. listed_tac upstream_density_feedback. Qed.
Lemma w_temperature_feedback : writes_as_listed ("temperature_feedback", temperature_feedback).
Proof. listed_tac temperature_feedback. Qed.
Lemma w_detachment_controller : writes_as_listed ("detachment_controller", detachment_controller).
Proof. listed_tac detachment_controller. Qed.
Lemma w_electron_force_balance : writes_as_listed ("electron_force_balance", electron_force_balance).
Proof. listed_tac electron_force_balance. Qed.
Lemma w_ion_viscosity : writes_as_listed ("ion_viscosity", ion_viscosity).
Proof. listed_tac ion_viscosity. Qed.
Lemma w_electron_viscosity : writes_as_listed ("electron_viscosity", electron_viscosity).
Proof. listed_tac electron_viscosity. Qed.
Lemma w_thermal_force : writes_as_listed ("thermal_force", thermal_force).
Proof. listed_tac thermal_force. Qed.
Lemma w_collisions : writes_as_listed ("collisions", collisions).
Proof. listed_tac collisions. Qed.
Lemma w_noflow_boundary : writes_as_listed ("noflow_boundary", noflow_boundary).
Proof. listed_tac noflow_boundary. Qed.
Lemma w_neutral_boundary : writes_as_listed ("neutral_boundary", neutral_boundary).
Proof. listed_tac neutral_boundary. Qed.
Lemma w_sheath_boundary : writes_as_listed ("sheath_boundary", sheath_boundary).
Proof. listed_tac sheath_boundary. Qed.
Lemma w_sheath_boundary_simple : writes_as_listed ("sheath_boundary_simple", sheath_boundary_simple).
Proof. listed_tac sheath_boundary_simple. Qed.
Lemma w_sheath_boundary_insulating : writes_as_listed ("sheath_boundary_insulating", sheath_boundary_insulating).
Proof. listed_tac sheath_boundary_insulating. Qed.
Lemma w_sheath_closure : writes_as_listed ("sheath_closure", sheath_closure).
Proof. listed_tac sheath_closure. Qed.
Lemma w_recycling : writes_as_listed ("recycling", recycling).
Proof. listed_tac recycling. Qed.
Lemma w_vorticity : writes_as_listed ("vorticity", vorticity).
Proof. listed_tac vorticity. Qed.
Lemma w_relax_potential : writes_as_listed ("relax_potential", relax_potential).
Proof. listed_tac relax_potential. Qed.
Lemma w_diamagnetic_drift : writes_as_listed ("diamagnetic_drift", diamagnetic_drift).
Proof. listed_tac diamagnetic_drift. Qed.
Lemma w_polarisation_drift : writes_as_listed ("polarisation_drift", polarisation_drift).
Proof. listed_tac polarisation_drift. Qed.
Lemma w_electromagnetic : writes_as_listed ("electromagnetic", electromagnetic).
Proof. listed_tac electromagnetic. Qed.

(** Reactions: written with names of species as arguments. *)
Definition reaction_may (k : kind) (p : path) : bool :=
  existsb (fun x => covers "" x k p) reaction_effects.

Lemma r_amjuel a b : calls (within reaction_may) (amjuel a b).
Proof. calls_tac; within_leaf. Qed.
Lemma r_adas a b : calls (within reaction_may) (adas a b).
Proof. calls_tac; within_leaf. Qed.
Lemma r_adas_cx a b c d : calls (within reaction_may) (adas_cx a b c d).
Proof. calls_tac; within_leaf. Qed.
Lemma r_hydrogen_cx g a b : calls (within reaction_may) (hydrogen_cx g a b).
Proof. calls_tac; within_leaf. Qed.
Lemma r_solkit_cx a : calls (within reaction_may) (solkit_cx a).
Proof. calls_tac; within_leaf. Qed.
Lemma r_ionisation : calls (within reaction_may) ionisation.
Proof. calls_tac; within_leaf. Qed.

Lemma reactions_within :
  Forall (fun tp => calls (within reaction_may) (snd tp)) reaction_types.
Proof.
  assert (Ha : forall el z, Forall (fun tp => calls (within reaction_may) (snd tp)) (adas_types el z)).
  { intros el z. apply Forall_forall. intros tp Hin.
    apply in_flat_map in Hin as (k & _ & [<-|[<-|Hin]]); cbn [snd].
    - apply r_adas.
    - apply r_adas.
    - apply in_map_iff in Hin as (h & <- & _). apply r_adas_cx. }
  unfold reaction_types. repeat rewrite Forall_app.
  repeat split; try apply Ha.
  - apply Forall_map, Forall_forall. intros i _. apply r_amjuel.
  - apply Forall_map, Forall_forall. intros i _. apply r_amjuel.
  - constructor; [apply r_amjuel|]. constructor; [apply r_amjuel|constructor].
  - apply Forall_map, Forall_forall. intros i _. apply r_solkit_cx.
  - constructor; [apply r_ionisation|constructor].
Qed.

Lemma reactions_not_in_table :
  forallb (fun t => negb (present (assoc t effect_table)))
          (map fst reaction_types ++ map fst cx_types) = true.
Proof. vm_compute. reflexivity. Qed.

Lemma reaction_effects_of t :
  In t (map fst reaction_types ++ map fst cx_types) -> effects_of t = reaction_effects.
Proof.
  intros Hin. pose proof reactions_not_in_table as H. rewrite forallb_forall in H.
  specialize (H t Hin). unfold effects_of. destruct (assoc t effect_table); [discriminate|reflexivity].
Qed.

Lemma calls_weaken (P Q : aop -> Prop) {A} (m : prog A) :
  (forall o, P o -> Q o) -> calls P m -> calls Q m.
Proof.
  intros H. induction m as [x| |o k IH]; simpl; auto. intros [H1 H2]. split; auto.
Qed.

Lemma reaction_within_may t n {A} (m : prog A) :
  In t (map fst reaction_types ++ map fst cx_types) ->
  calls (within reaction_may) m -> calls (within (may t n)) m.
Proof.
  intros Hin. apply calls_weaken. intros o. unfold within.
  destruct (op_change o) as [[k p]|]; [|auto].
  unfold may, reaction_may. rewrite (reaction_effects_of t Hin).
  unfold reaction_effects, sources; simpl. destruct p; auto.
Qed.

Lemma simple_types_listed : Forall writes_as_listed simple_types.
Proof.
  unfold simple_types. repeat rewrite Forall_app. repeat split.
  - apply Forall_cons; [exact w_evolve_density|].
    apply Forall_cons; [exact w_evolve_pressure|].
    apply Forall_cons; [exact w_evolve_energy|].
    apply Forall_cons; [exact w_evolve_momentum|].
    apply Forall_cons; [exact w_neutral_mixed|].
    apply Forall_cons; [exact w_isothermal|].
    apply Forall_cons; [exact w_fixed_density|].
    apply Forall_cons; [exact w_fixed_temperature|].
    apply Forall_cons; [exact w_fixed_velocity|].
    apply Forall_cons; [exact w_set_temperature|].
    apply Forall_cons; [exact w_quasineutral|].
    apply Forall_cons; [exact w_zero_current|].
    apply Forall_cons; [exact w_fixed_fraction_ions|].
    apply Forall_cons; [exact w_sound_speed|].
    apply Forall_cons; [exact w_scale_timederivs|].
    apply Forall_cons; [exact w_transform|].
    apply Forall_cons; [exact w_simple_pump|].
    apply Forall_cons; [exact w_simple_conduction|].
    apply Forall_cons; [exact w_snb_conduction|].
    apply Forall_cons; [exact w_anomalous_diffusion|].
    apply Forall_cons; [exact w_classical_diffusion|].
    apply Forall_cons; [exact w_binormal_stpm|].
    apply Forall_cons; [exact w_neutral_parallel_diffusion|].
    apply Forall_cons; [exact w_solkit_neutral_parallel_diffusion|].
    apply Forall_cons; [exact w_upstream_density_feedback|].
    apply Forall_cons; [exact w_temperature_feedback|].
    apply Forall_cons; [exact w_detachment_controller|].
    apply Forall_cons; [exact w_electron_force_balance|].
    apply Forall_cons; [exact w_ion_viscosity|].
    apply Forall_cons; [exact w_electron_viscosity|].
    apply Forall_cons; [exact w_thermal_force|].
    apply Forall_cons; [exact w_collisions|].
    apply Forall_cons; [exact w_noflow_boundary|].
    apply Forall_cons; [exact w_neutral_boundary|].
    apply Forall_cons; [exact w_sheath_boundary|].
    apply Forall_cons; [exact w_sheath_boundary_simple|].
    apply Forall_cons; [exact w_sheath_boundary_insulating|].
    apply Forall_cons; [exact w_sheath_closure|].
    apply Forall_cons; [exact w_recycling|].
    apply Forall_cons; [exact w_vorticity|].
    apply Forall_cons; [exact w_relax_potential|].
    apply Forall_cons; [exact w_diamagnetic_drift|].
    apply Forall_cons; [exact w_polarisation_drift|].
    apply Forall_cons; [exact w_electromagnetic|].
    constructor.
  - apply Forall_map.
    repeat (apply Forall_cons; [listed_tac fixed_fraction_radiation|]). constructor.
  - apply Forall_map, Forall_forall. intros tp Hin n c x H. cbn [fst snd] in *.
    get_prog H. split; [|exact I].
    apply reaction_within_may; [apply in_or_app; left; apply in_map; exact Hin|].
    pose proof reactions_within as Hr. rewrite Forall_forall in Hr. apply Hr, Hin.
  - apply Forall_map, Forall_forall. intros tp Hin n c x H. cbn [fst snd] in *.
    invert_create H. get_prog H. split; [|exact I].
    apply reaction_within_may; [apply in_or_app; right; apply in_map; exact Hin|].
    apply r_hydrogen_cx.
Qed.

Lemma assoc_in {X} k (l : list (string * X)) x : assoc k l = Some x -> In (k, x) l.
Proof.
  induction l as [|[k' y] l IH]; simpl; [discriminate|].
  destruct (String.eqb_spec k k') as [<-|_]; intros H; [left; congruence|right; auto].
Qed.

Lemma create_listed t n c x :
  create t n c = Some x ->
  calls (within (may t n)) (c_transform x) /\ calls const_op (c_finally x).
Proof.
  unfold create. destruct (assoc t simple_types) as [f|] eqn:Ea; [|discriminate].
  intros H. apply assoc_in in Ea. pose proof simple_types_listed as Hl.
  rewrite Forall_forall in Hl. apply (Hl _ Ea n c x H).
Qed.

(** *** Needs *)

Ltac spares_leaf :=
  unfold spares; paths; simpl; try exact I; intros; congruence.

Ltac must_step :=
  match goal with
  | |- must _ (bind _ _) =>
      first [ apply must_bind_l; solve [repeat must_step]
            | apply must_bind_r; [solve [calls_tac; spares_leaf] | intros] ]
  | |- must _ Throw => exact I
  | |- must _ (getf _) => apply must_rd
  | |- must _ (getnb _) => apply must_rd
  | |- must _ (getnf _) => apply must_rd
  | |- must _ (getn _) => apply must_rdn
  | |- must _ (getn_nb _) => apply must_rdn
  | |- must _ (when true ?m) => change (when true m) with m
  | |- must _ (if ?b then _ else _) => destruct b
  | |- must _ (let _ := _ in _) => cbv zeta
  | |- must _ _ => progress unfold_helpers
  end.

Ltac must_tac := repeat must_step.

Definition needs_as_listed (tf : string * (string -> cfg -> option comp)) : Prop :=
  forall n c x, snd tf n c = Some x ->
    (forall p, In p (transform_needs (fst tf) n c) -> must p (c_transform x)) /\
    (forall p, In p (finally_needs (fst tf) n c) -> must p (c_finally x)).

Ltac needs_list :=
  match goal with
  | |- context [transform_needs ?t ?n ?c] =>
      let l := eval cbv -[obool opt_true app orb] in (transform_needs t n c) in
      change (transform_needs t n c) with l
  | |- context [finally_needs ?t ?n ?c] =>
      let l := eval cbv -[obool opt_true app orb] in (finally_needs t n c) in
      change (finally_needs t n c) with l
  end.

Ltac in_cases :=
  let p := fresh "p" in let Hin := fresh "Hin" in
  intros p Hin; cbn [opt_true app orb] in Hin;
  repeat match type of Hin with
         | _ \/ _ => destruct Hin as [Hin|Hin]
         | In _ (if ?b || ?b' then _ else _) => destruct b, b'; cbn [orb] in Hin
         | In _ (if ?b then _ else _) => destruct b
         | In _ _ => cbn [In] in Hin
         | False => destruct Hin
         end.

Ltac needs_tac f :=
  let n := fresh "n" in let c := fresh "c" in let x := fresh "x" in let H := fresh "H" in
  intros n c x H; cbn [fst snd] in *; unfold f in H;
  repeat needs_list;
  invert_create H; get_prog H; split; in_cases; subst; must_tac.

Lemma d_evolve_density : needs_as_listed ("evolve_density", evolve_density).
Proof. needs_tac evolve_density. Qed.
Lemma d_evolve_pressure : needs_as_listed ("evolve_pressure", evolve_pressure).
Proof. needs_tac evolve_pressure. Qed.
Lemma d_evolve_energy : needs_as_listed ("evolve_energy", evolve_energy).
Proof. needs_tac evolve_energy. Qed.
Lemma d_evolve_momentum : needs_as_listed ("evolve_momentum", evolve_momentum).
Proof. needs_tac evolve_momentum. Qed.
Lemma d_neutral_mixed : needs_as_listed ("neutral_mixed", neutral_mixed).
Proof. needs_tac neutral_mixed. Qed.
Lemma d_isothermal : needs_as_listed ("isothermal", isothermal).
Proof. needs_tac isothermal. Qed.
Lemma d_fixed_density : needs_as_listed ("fixed_density", fixed_density).
Proof. needs_tac fixed_density. Qed.
Lemma d_fixed_temperature : needs_as_listed ("fixed_temperature", fixed_temperature).
Proof. needs_tac fixed_temperature. Qed.
Lemma d_fixed_velocity : needs_as_listed ("fixed_velocity", fixed_velocity).
Proof. needs_tac fixed_velocity. Qed.
Lemma d_set_temperature : needs_as_listed ("set_temperature", set_temperature).
Proof. needs_tac set_temperature. Qed.
Lemma d_quasineutral : needs_as_listed ("quasineutral", quasineutral).
Proof. needs_tac quasineutral. Qed.
Lemma d_zero_current : needs_as_listed ("zero_current", zero_current).
Proof. needs_tac zero_current. Qed.
Lemma d_fixed_fraction_ions : needs_as_listed ("fixed_fraction_ions", fixed_fraction_ions).
Proof. needs_tac fixed_fraction_ions. Qed.
Lemma d_sound_speed : needs_as_listed ("sound_speed", sound_speed).
Proof. needs_tac sound_speed. Qed.
Lemma d_scale_timederivs : needs_as_listed ("scale_timederivs", scale_timederivs).
Proof. needs_tac scale_timederivs. Qed.
Lemma d_transform : needs_as_listed ("transform", transform_comp).
Proof. needs_tac transform_comp. Qed.
Lemma d_simple_pump : needs_as_listed ("simple_pump", simple_pump).
Proof. needs_tac simple_pump. Qed.
Lemma d_simple_conduction : needs_as_listed ("simple_conduction", simple_conduction).
Proof. needs_tac simple_conduction. Qed.
Lemma d_snb_conduction : needs_as_listed ("snb_conduction", snb_conduction).
Proof. needs_tac snb_conduction. Qed.
Lemma d_anomalous_diffusion : needs_as_listed ("anomalous_diffusion", anomalous_diffusion).
Proof. needs_tac anomalous_diffusion. Qed.
Lemma d_classical_diffusion : needs_as_listed ("classical_diffusion", classical_diffusion).
Proof. needs_tac classical_diffusion. Qed.
Lemma d_binormal_stpm : needs_as_listed ("binormal_stpm", binormal_stpm).
Proof. needs_tac binormal_stpm. Qed.
Lemma d_neutral_parallel_diffusion : needs_as_listed ("neutral_parallel_diffusion", neutral_parallel_diffusion).
Proof. needs_tac neutral_parallel_diffusion. Qed.
Lemma d_solkit_neutral_parallel_diffusion : needs_as_listed ("solkit_neutral_parallel_diffusion", solkit_neutral_parallel_diffusion).
Proof. needs_tac solkit_neutral_parallel_diffusion. Qed.
Lemma d_upstream_density_feedback : needs_as_listed ("upstream_density_feedback", upstream_density_feedback).
Proof. needs_tac upstream_density_feedback. Qed.
Lemma d_temperature_feedback : needs_as_listed ("temperature_feedback", temperature_feedback).
Proof. needs_tac temperature_feedback. Qed.
Lemma d_detachment_controller : needs_as_listed ("detachment_controller", detachment_controller).
Proof. needs_tac detachment_controller. Qed.
Lemma d_electron_force_balance : needs_as_listed ("electron_force_balance", electron_force_balance).
Proof. needs_tac electron_force_balance. Qed.
Lemma d_ion_viscosity : needs_as_listed ("ion_viscosity", ion_viscosity).
Proof. needs_tac ion_viscosity. Qed.
Lemma d_electron_viscosity : needs_as_listed ("electron_viscosity", electron_viscosity).
Proof. needs_tac electron_viscosity. Qed.
Lemma d_thermal_force : needs_as_listed ("thermal_force", thermal_force).
Proof. needs_tac thermal_force. Qed.
Lemma d_collisions : needs_as_listed ("collisions", collisions).
Proof. needs_tac collisions. Qed.
Lemma d_noflow_boundary : needs_as_listed ("noflow_boundary", noflow_boundary).
Proof. needs_tac noflow_boundary. Qed.
Lemma d_neutral_boundary : needs_as_listed ("neutral_boundary", neutral_boundary).
Proof. needs_tac neutral_boundary. Qed.
Lemma d_sheath_boundary : needs_as_listed ("sheath_boundary", sheath_boundary).
Proof. needs_tac sheath_boundary. Qed.
Lemma d_sheath_boundary_simple : needs_as_listed ("sheath_boundary_simple", sheath_boundary_simple).
Proof. needs_tac sheath_boundary_simple. Qed.
Lemma d_sheath_boundary_insulating : needs_as_listed ("sheath_boundary_insulating", sheath_boundary_insulating).
Proof. needs_tac sheath_boundary_insulating. Qed.
Lemma d_sheath_closure : needs_as_listed ("sheath_closure", sheath_closure).
Proof. needs_tac sheath_closure. Qed.
Lemma d_recycling : needs_as_listed ("recycling", recycling).
Proof. needs_tac recycling. Qed.
Lemma d_vorticity : needs_as_listed ("vorticity", vorticity).
Proof. needs_tac vorticity. Qed.
Lemma d_relax_potential : needs_as_listed ("relax_potential", relax_potential).
Proof. needs_tac relax_potential. Qed.
Lemma d_diamagnetic_drift : needs_as_listed ("diamagnetic_drift", diamagnetic_drift).
Proof. needs_tac diamagnetic_drift. Qed.
Lemma d_polarisation_drift : needs_as_listed ("polarisation_drift", polarisation_drift).
Proof. needs_tac polarisation_drift. Qed.
Lemma d_electromagnetic : needs_as_listed ("electromagnetic", electromagnetic).
Proof. needs_tac electromagnetic. Qed.

Lemma reactions_need :
  Forall (fun tp => needs_as_listed (fst tp, fun _ _ => plain (snd tp))) reaction_types.
Proof.
  let l := eval cbv -[amjuel adas adas_cx solkit_cx ionisation] in reaction_types in
  change reaction_types with l.
  repeat (apply Forall_cons; [intros n c x H; cbn [fst snd] in *; get_prog H;
               repeat needs_list; split; in_cases; subst; must_tac|]).
  constructor.
Qed.

Lemma cx_need :
  Forall (fun tp => needs_as_listed (fst tp, fun n c =>
            g <-? obool c n "no_neutral_cx_mom_gain" false ;;
            plain (hydrogen_cx g (fst (snd tp)) (snd (snd tp))))) cx_types.
Proof.
  let l := eval cbv in cx_types in change cx_types with l.
  repeat (apply Forall_cons; [intros n c x H; cbn [fst snd] in *; invert_create H; get_prog H;
               repeat needs_list; split; in_cases; subst; must_tac|]).
  constructor.
Qed.

Lemma simple_types_need : Forall needs_as_listed simple_types.
Proof.
  unfold simple_types. repeat rewrite Forall_app. repeat split.
  - apply Forall_cons; [exact d_evolve_density|].
    apply Forall_cons; [exact d_evolve_pressure|].
    apply Forall_cons; [exact d_evolve_energy|].
    apply Forall_cons; [exact d_evolve_momentum|].
    apply Forall_cons; [exact d_neutral_mixed|].
    apply Forall_cons; [exact d_isothermal|].
    apply Forall_cons; [exact d_fixed_density|].
    apply Forall_cons; [exact d_fixed_temperature|].
    apply Forall_cons; [exact d_fixed_velocity|].
    apply Forall_cons; [exact d_set_temperature|].
    apply Forall_cons; [exact d_quasineutral|].
    apply Forall_cons; [exact d_zero_current|].
    apply Forall_cons; [exact d_fixed_fraction_ions|].
    apply Forall_cons; [exact d_sound_speed|].
    apply Forall_cons; [exact d_scale_timederivs|].
    apply Forall_cons; [exact d_transform|].
    apply Forall_cons; [exact d_simple_pump|].
    apply Forall_cons; [exact d_simple_conduction|].
    apply Forall_cons; [exact d_snb_conduction|].
    apply Forall_cons; [exact d_anomalous_diffusion|].
    apply Forall_cons; [exact d_classical_diffusion|].
    apply Forall_cons; [exact d_binormal_stpm|].
    apply Forall_cons; [exact d_neutral_parallel_diffusion|].
    apply Forall_cons; [exact d_solkit_neutral_parallel_diffusion|].
    apply Forall_cons; [exact d_upstream_density_feedback|].
    apply Forall_cons; [exact d_temperature_feedback|].
    apply Forall_cons; [exact d_detachment_controller|].
    apply Forall_cons; [exact d_electron_force_balance|].
    apply Forall_cons; [exact d_ion_viscosity|].
    apply Forall_cons; [exact d_electron_viscosity|].
    apply Forall_cons; [exact d_thermal_force|].
    apply Forall_cons; [exact d_collisions|].
    apply Forall_cons; [exact d_noflow_boundary|].
    apply Forall_cons; [exact d_neutral_boundary|].
    apply Forall_cons; [exact d_sheath_boundary|].
    apply Forall_cons; [exact d_sheath_boundary_simple|].
    apply Forall_cons; [exact d_sheath_boundary_insulating|].
    apply Forall_cons; [exact d_sheath_closure|].
    apply Forall_cons; [exact d_recycling|].
    apply Forall_cons; [exact d_vorticity|].
    apply Forall_cons; [exact d_relax_potential|].
    apply Forall_cons; [exact d_diamagnetic_drift|].
    apply Forall_cons; [exact d_polarisation_drift|].
    apply Forall_cons; [exact d_electromagnetic|].
    constructor.
  - apply Forall_map.
    repeat (apply Forall_cons; [needs_tac fixed_fraction_radiation|]). constructor.
  - apply Forall_map. exact reactions_need.
  - apply Forall_map. exact cx_need.
Qed.

Lemma create_needs t n c x :
  create t n c = Some x ->
  (forall p, In p (transform_needs t n c) -> must p (c_transform x)) /\
  (forall p, In p (finally_needs t n c) -> must p (c_finally x)).
Proof.
  unfold create. destruct (assoc t simple_types) as [f|] eqn:Ea; [|discriminate].
  intros H. apply assoc_in in Ea. pose proof simple_types_need as Hl.
  rewrite Forall_forall in Hl. apply (Hl _ Ea n c x H).
Qed.
