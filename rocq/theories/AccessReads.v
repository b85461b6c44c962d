(** What the programs of AccessComponents.v look at, what they always look at and always
    change: proofs of the tables of AccessReadSpec.v; wrong orders are refused. *)

From Coq Require Import List Bool String QArith Lia.
From Verif Require Import OptionsModel AccessModel AccessComponents AccessSpec AccessProofs
  AccessTables AccessReadSpec.
Import ListNotations.
Open Scope string_scope.
Open Scope list_scope.

(** ** Looks of a program *)

Definition op_look (o : aop) : option (look * path) :=
  match o with
  | ARead RFinal _ p => Some (Whole, p)
  | ARead RNoBoundary _ p => Some (Interior, p)
  | ARead RNonFinal _ p => Some (Current, p)
  | AQuery _ nb p => Some (if nb then AskInterior else AskWhole, p)
  | AHas p => Some (Ask, p)
  | _ => None
  end.

Definition looking (P : look -> path -> bool) (o : aop) : Prop :=
  match op_look o with Some (l, p) => P l p = true | None => True end.

(** Every way through the program to its end makes a call which satisfies [P]. *)
Fixpoint passes (P : aop -> Prop) {A} (m : prog A) : Prop :=
  match m with
  | Ret _ => False
  | Throw => True
  | Op o k => P o \/ forall r, passes P (k r)
  end.

Lemma passes_bind_l P {A B} (m : prog A) (f : A -> prog B) : passes P m -> passes P (bind m f).
Proof.
  induction m as [x| |o k IH]; simpl; [tauto|tauto|].
  intros [H|H]; [left; exact H|right; intros r; apply IH, H].
Qed.

Lemma passes_bind_r P {A B} (m : prog A) (f : A -> prog B) :
  (forall a, passes P (f a)) -> passes P (bind m f).
Proof.
  intros Hf. induction m as [x| |o k IH]; simpl; [apply Hf|exact I|].
  right. intros r. apply IH.
Qed.

Lemma passes_rd (P : aop -> Prop) m p : P (ARead m TField p) -> passes P (rd m p).
Proof. intros H. left. exact H. Qed.
Lemma passes_rdn (P : aop -> Prop) m p : P (ARead m TReal p) -> passes P (rdn m p).
Proof. intros H. left. exact H. Qed.
Lemma passes_ask (P : aop -> Prop) o : P o -> passes P (ask o).
Proof. intros H. left. exact H. Qed.
Lemma passes_put (P : aop -> Prop) o : P o -> passes P (put_op o).
Proof. intros H. left. exact H. Qed.

Section Exec.
  Context {F : Type}.
  Variables (fadd fsub : F -> F -> F) (fneg : F -> F) (fconst : Q -> F) (finv : F -> bool).
  Notation step1 := (astep fadd fsub fneg fconst finv).
  Notation run1 := (exec fadd fsub fneg fconst finv).

  Lemma step_looks fld s o s1 r ev e :
    step1 fld s o = (s1, r, ev) -> In e ev -> looks_at e = None \/ looks_at e = op_look o.
  Proof.
    intros H Hin. destruct r as [r|].
    2:{ apply astep_throws in H. subst ev. destruct Hin. }
    destruct o as [n| |c|n| |m t p|c nb p|p|w src p|p|l r0]; simpl in H.
    - inversion H; subst; destruct Hin.
    - inversion H; subst; destruct Hin.
    - destruct (c && negb (s_species s)); inversion H; subst; destruct Hin.
    - inversion H; subst; destruct Hin.
    - inversion H; subst; destruct Hin.
    - destruct (lookup s p) as [e0|]; [|discriminate].
      destruct (do_read fconst m t e0) as [e' rr].
      destruct rr, (e_val e0); inversion H; subst; destruct Hin as [<-|[]]; right;
        destruct m; reflexivity.
    - destruct (lookup s p) as [e0|]; [|destruct c; [discriminate|]];
        inversion H; subst; destruct Hin as [<-|[]]; right; destruct nb; reflexivity.
    - inversion H; subst; destruct Hin as [<-|[]]; right; reflexivity.
    - destruct (do_write _ _ _ _ _ _ _ _ _) as [e' rr].
      destruct rr, (e_val e'); inversion H; subst; destruct Hin as [<-|[]]; left; reflexivity.
    - inversion H; subst; destruct Hin as [<-|[]]; left; reflexivity.
    - inversion H; subst; destruct Hin as [<-|[]]; left; reflexivity.
  Qed.

  (** A call which returns leaves its event. *)
  Lemma step_leaves fld s o s1 r ev :
    step1 fld s o = (s1, Some r, ev) ->
    (forall l p, op_look o = Some (l, p) -> exists e, In e ev /\ looks_at e = Some (l, p)) /\
    (forall k p, op_change o = Some (k, p) -> exists e, In e ev /\ change e = Some (k, p)).
  Proof.
    intros H.
    destruct o as [n| |c|n| |m t p|c nb p|p|w src p|p|l0 r0]; simpl in H;
      split; intros l q Hq; try discriminate Hq.
    - destruct (lookup s p) as [e0|]; [|discriminate].
      destruct (do_read fconst m t e0) as [e' rr].
      destruct rr as [w| | |], (e_val e0) as [v|]; inversion H; subst.
      exists (EvRead m p v). split; [left; reflexivity|].
      destruct m; exact Hq.
    - destruct (lookup s p) as [e0|]; [|destruct c; [discriminate|]];
        inversion H; subst; eexists; (split; [left; reflexivity|]);
        destruct nb; exact Hq.
    - inversion H; subst. eexists. split; [left; reflexivity|exact Hq].
    - destruct (do_write _ _ _ _ _ _ _ _ _) as [e' rr].
      destruct rr, (e_val e'); inversion H; subst. eexists. split; [left; reflexivity|exact Hq].
    - inversion H; subst. eexists. split; [left; reflexivity|exact Hq].
    - inversion H; subst. eexists. split; [left; reflexivity|exact Hq].
  Qed.

  Lemma exec_looking P {A} (m : prog A) : forall num n vs s s' tr a,
    calls (looking P) m -> run1 num n vs s m = (s', tr, a) ->
    forall e l p, In e tr -> looks_at e = Some (l, p) -> P l p = true.
  Proof.
    induction m as [x| |o k IH]; simpl; intros num n vs s s' tr a Hc H e l p Hin He.
    - inversion H; subst; destruct Hin.
    - inversion H; subst; destruct Hin.
    - destruct Hc as [Ho Hk].
      destruct (step1 (num n vs) s o) as [[s1 r] ev] eqn:Es.
      assert (Hev : In e ev -> P l p = true).
      { intros Hi. destruct (step_looks _ _ _ _ _ _ _ Es Hi) as [H0|H0]; [congruence|].
        unfold looking in Ho. rewrite <- H0, He in Ho. exact Ho. }
      destruct r as [r|].
      + destruct (run1 num (S n) (vs ++ reads_of ev) s1 (k r)) as [[s2 tr2] a2] eqn:Ee.
        inversion H; subst s' tr a; clear H. apply in_app_or in Hin as [Hin|Hin]; [auto|].
        apply (IH r _ _ _ _ _ _ _ (Hk r) Ee e l p Hin He).
      + inversion H; subst s' tr a; clear H. auto.
  Qed.

  Lemma exec_passes P {A} (m : prog A) : forall num n vs s s' tr a,
    passes P m -> run1 num n vs s m = (s', tr, Some a) ->
    exists o, P o /\
      (forall l p, op_look o = Some (l, p) -> exists e, In e tr /\ looks_at e = Some (l, p)) /\
      (forall k p, op_change o = Some (k, p) -> exists e, In e tr /\ change e = Some (k, p)).
  Proof.
    induction m as [x| |o k IH]; simpl; intros num n vs s s' tr a Hm H; [destruct Hm|discriminate|].
    destruct (step1 (num n vs) s o) as [[s1 r] ev] eqn:Es.
    destruct r as [r|]; [|discriminate].
    destruct (run1 num (S n) (vs ++ reads_of ev) s1 (k r)) as [[s2 tr2] a2] eqn:Ee.
    inversion H; subst s' tr a2; clear H.
    destruct Hm as [Ho|Hk].
    - exists o. split; [exact Ho|]. destruct (step_leaves _ _ _ _ _ _ Es) as [H1 H2].
      split; intros y p Hy; [destruct (H1 y p Hy) as (e & Hi & He)|destruct (H2 y p Hy) as (e & Hi & He)];
        exists e; (split; [apply in_or_app; left; exact Hi|exact He]).
    - destruct (IH r _ _ _ _ _ _ _ (Hk r) Ee) as (o' & Ho & H1 & H2).
      exists o'. split; [exact Ho|].
      split; intros y p Hy; [destruct (H1 y p Hy) as (e & Hi & He)|destruct (H2 y p Hy) as (e & Hi & He)];
        exists e; (split; [apply in_or_app; right; exact Hi|exact He]).
  Qed.
End Exec.

(** ** The tables *)

Definition looks_as_listed (tf : string * (string -> cfg -> option comp)) : Prop :=
  forall n c x, snd tf n c = Some x ->
    calls (looking (may_look (fst tf) n)) (c_transform x) /\
    calls (looking (may_look_finally (fst tf) n)) (c_finally x).

Ltac looking_leaf :=
  unfold looking; paths; simpl; rewrite ?String.eqb_refl; try exact I; try reflexivity;
  try solve [repeat match goal with |- context [String.eqb ?a ?b] => destruct (String.eqb a b) end;
             reflexivity].

Ltac reduce_tables :=
  unfold may_look, may_look_finally;
  repeat match goal with
  | |- context [views_of ?t] =>
      let l := eval vm_compute in (views_of t) in change (views_of t) with l
  | |- context [assoc ?t finally_table] =>
      let l := eval vm_compute in (assoc t finally_table) in
      change (assoc t finally_table) with l; cbv beta iota
  end.

Ltac looks_tac f :=
  let n := fresh "n" in let c := fresh "c" in let x := fresh "x" in let H := fresh "H" in
  intros n c x H; cbn [fst snd] in *; unfold f in H;
  invert_create H; get_prog H; reduce_tables;
  split; calls_tac; looking_leaf.

Lemma k_evolve_density : looks_as_listed ("evolve_density", evolve_density).
Proof. looks_tac evolve_density. Qed.
Lemma k_evolve_pressure : looks_as_listed ("evolve_pressure", evolve_pressure).
Proof. looks_tac evolve_pressure. Qed.
Lemma k_evolve_energy : looks_as_listed ("evolve_energy", evolve_energy).
Proof. looks_tac evolve_energy. Qed.
Lemma k_evolve_momentum : looks_as_listed ("evolve_momentum", evolve_momentum).
Proof. looks_tac evolve_momentum. Qed.
Lemma k_neutral_mixed : looks_as_listed ("neutral_mixed", neutral_mixed).
Proof. looks_tac neutral_mixed. Qed.
Lemma k_isothermal : looks_as_listed ("isothermal", isothermal).
Proof. looks_tac isothermal. Qed.
Lemma k_fixed_density : looks_as_listed ("fixed_density", fixed_density).
Proof. looks_tac fixed_density. Qed.
Lemma k_fixed_temperature : looks_as_listed ("fixed_temperature", fixed_temperature).
Proof. looks_tac fixed_temperature. Qed.
Lemma k_fixed_velocity : looks_as_listed ("fixed_velocity", fixed_velocity).
Proof. looks_tac fixed_velocity. Qed.
Lemma k_set_temperature : looks_as_listed ("set_temperature", set_temperature).
Proof. looks_tac set_temperature. Qed.
Lemma k_quasineutral : looks_as_listed ("quasineutral", quasineutral).
Proof. looks_tac quasineutral. Qed.
Lemma k_zero_current : looks_as_listed ("zero_current", zero_current).
Proof. looks_tac zero_current. Qed.
Lemma k_fixed_fraction_ions : looks_as_listed ("fixed_fraction_ions", fixed_fraction_ions).
Proof. looks_tac fixed_fraction_ions. Qed.
Lemma k_sound_speed : looks_as_listed ("sound_speed", sound_speed).
Proof. looks_tac sound_speed. Qed.
Lemma k_scale_timederivs : looks_as_listed ("scale_timederivs", scale_timederivs).
Proof. looks_tac scale_timederivs. Qed.
Lemma k_transform : looks_as_listed ("transform", transform_comp).
Proof. looks_tac transform_comp. Qed.
Lemma k_simple_pump : looks_as_listed ("simple_pump", simple_pump).
Proof. looks_tac simple_pump. Qed.
Lemma k_simple_conduction : looks_as_listed ("simple_conduction", simple_conduction).
Proof. looks_tac simple_conduction. Qed.
Lemma k_snb_conduction : looks_as_listed ("snb_conduction", snb_conduction).
Proof. looks_tac snb_conduction. Qed.
Lemma k_anomalous_diffusion : looks_as_listed ("anomalous_diffusion", anomalous_diffusion).
Proof. looks_tac anomalous_diffusion. Qed.
Lemma k_classical_diffusion : looks_as_listed ("classical_diffusion", classical_diffusion).
Proof. looks_tac classical_diffusion. Qed.
Lemma k_binormal_stpm : looks_as_listed ("binormal_stpm", binormal_stpm).
Proof. looks_tac binormal_stpm. Qed.
Lemma k_neutral_parallel_diffusion : looks_as_listed ("neutral_parallel_diffusion", neutral_parallel_diffusion).
Proof. looks_tac neutral_parallel_diffusion. Qed.
Lemma k_solkit_neutral_parallel_diffusion : looks_as_listed ("solkit_neutral_parallel_diffusion", solkit_neutral_parallel_diffusion).
Proof. looks_tac solkit_neutral_parallel_diffusion. Qed.
Lemma k_upstream_density_feedback : looks_as_listed ("upstream_density_feedback", upstream_density_feedback).
Proof. looks_tac upstream_density_feedback. Qed.
Lemma k_temperature_feedback : looks_as_listed ("temperature_feedback", temperature_feedback).
Proof. looks_tac temperature_feedback. Qed.
Lemma k_detachment_controller : looks_as_listed ("detachment_controller", detachment_controller).
Proof. looks_tac detachment_controller. Qed.
Lemma k_electron_force_balance : looks_as_listed ("electron_force_balance", electron_force_balance).
Proof. looks_tac electron_force_balance. Qed.
Lemma k_ion_viscosity : looks_as_listed ("ion_viscosity", ion_viscosity).
Proof. looks_tac ion_viscosity. Qed.
Lemma k_electron_viscosity : looks_as_listed ("electron_viscosity", electron_viscosity).
Proof. looks_tac electron_viscosity. Qed.
Lemma k_thermal_force : looks_as_listed ("thermal_force", thermal_force).
Proof. looks_tac thermal_force. Qed.
Lemma k_collisions : looks_as_listed ("collisions", collisions).
Proof. looks_tac collisions. Qed.
Lemma k_noflow_boundary : looks_as_listed ("noflow_boundary", noflow_boundary).
Proof. looks_tac noflow_boundary. Qed.
Lemma k_neutral_boundary : looks_as_listed ("neutral_boundary", neutral_boundary).
Proof. looks_tac neutral_boundary. Qed.
Lemma k_sheath_boundary : looks_as_listed ("sheath_boundary", sheath_boundary).
Proof. looks_tac sheath_boundary. Qed.
Lemma k_sheath_boundary_simple : looks_as_listed ("sheath_boundary_simple", sheath_boundary_simple).
Proof. looks_tac sheath_boundary_simple. Qed.
Lemma k_sheath_boundary_insulating : looks_as_listed ("sheath_boundary_insulating", sheath_boundary_insulating).
Proof. looks_tac sheath_boundary_insulating. Qed.
Lemma k_sheath_closure : looks_as_listed ("sheath_closure", sheath_closure).
Proof. looks_tac sheath_closure. Qed.
Lemma k_recycling : looks_as_listed ("recycling", recycling).
Proof. looks_tac recycling. Qed.
Lemma k_vorticity : looks_as_listed ("vorticity", vorticity).
Proof. looks_tac vorticity. Qed.
Lemma k_relax_potential : looks_as_listed ("relax_potential", relax_potential).
Proof. looks_tac relax_potential. Qed.
Lemma k_diamagnetic_drift : looks_as_listed ("diamagnetic_drift", diamagnetic_drift).
Proof. looks_tac diamagnetic_drift. Qed.
Lemma k_polarisation_drift : looks_as_listed ("polarisation_drift", polarisation_drift).
Proof. looks_tac polarisation_drift. Qed.
Lemma k_electromagnetic : looks_as_listed ("electromagnetic", electromagnetic).
Proof. looks_tac electromagnetic. Qed.
(** Reactions. *)
Definition reaction_look (l : look) (p : path) : bool :=
  existsb (fun v => shows "" v l p) reaction_views.

Lemma l_amjuel a b : calls (looking reaction_look) (amjuel a b).
Proof. calls_tac; looking_leaf. Qed.
Lemma l_adas a b : calls (looking reaction_look) (adas a b).
Proof. calls_tac; looking_leaf. Qed.
Lemma l_adas_cx a b c d : calls (looking reaction_look) (adas_cx a b c d).
Proof. calls_tac; looking_leaf. Qed.
Lemma l_hydrogen_cx g a b : calls (looking reaction_look) (hydrogen_cx g a b).
Proof. calls_tac; looking_leaf. Qed.
Lemma l_solkit_cx a : calls (looking reaction_look) (solkit_cx a).
Proof. calls_tac; looking_leaf. Qed.
Lemma l_ionisation : calls (looking reaction_look) ionisation.
Proof. calls_tac; looking_leaf. Qed.

Lemma reactions_looking :
  Forall (fun tp => calls (looking reaction_look) (snd tp)) reaction_types.
Proof.
  assert (Ha : forall el z, Forall (fun tp => calls (looking reaction_look) (snd tp)) (adas_types el z)).
  { intros el z. apply Forall_forall. intros tp Hin.
    apply in_flat_map in Hin as (k & _ & [<-|[<-|Hin]]); cbn [snd].
    - apply l_adas.
    - apply l_adas.
    - apply in_map_iff in Hin as (h & <- & _). apply l_adas_cx. }
  unfold reaction_types. repeat rewrite Forall_app.
  repeat split; try apply Ha.
  - apply Forall_map, Forall_forall. intros i _. apply l_amjuel.
  - apply Forall_map, Forall_forall. intros i _. apply l_amjuel.
  - constructor; [apply l_amjuel|]. constructor; [apply l_amjuel|constructor].
  - apply Forall_map, Forall_forall. intros i _. apply l_solkit_cx.
  - constructor; [apply l_ionisation|constructor].
Qed.

Lemma reactions_not_viewed :
  forallb (fun t => negb (present (assoc t view_table)) && negb (present (assoc t finally_table)))
          (map fst reaction_types ++ map fst cx_types) = true.
Proof. vm_compute. reflexivity. Qed.

Lemma reaction_look_may t n {A} (m : prog A) :
  In t (map fst reaction_types ++ map fst cx_types) ->
  calls (looking reaction_look) m -> calls (looking (may_look t n)) m.
Proof.
  intros Hin. apply calls_weaken. intros o. unfold looking.
  destruct (op_look o) as [[l p]|]; [|auto].
  unfold may_look, reaction_look, views_of.
  pose proof reactions_not_viewed as H. rewrite forallb_forall in H. specialize (H t Hin).
  destruct (assoc t view_table); [discriminate|].
  unfold reaction_views; simpl. destruct p; auto.
Qed.

Lemma simple_types_look : Forall looks_as_listed simple_types.
Proof.
  unfold simple_types. repeat rewrite Forall_app. repeat split.
  - apply Forall_cons; [exact k_evolve_density|].
    apply Forall_cons; [exact k_evolve_pressure|].
    apply Forall_cons; [exact k_evolve_energy|].
    apply Forall_cons; [exact k_evolve_momentum|].
    apply Forall_cons; [exact k_neutral_mixed|].
    apply Forall_cons; [exact k_isothermal|].
    apply Forall_cons; [exact k_fixed_density|].
    apply Forall_cons; [exact k_fixed_temperature|].
    apply Forall_cons; [exact k_fixed_velocity|].
    apply Forall_cons; [exact k_set_temperature|].
    apply Forall_cons; [exact k_quasineutral|].
    apply Forall_cons; [exact k_zero_current|].
    apply Forall_cons; [exact k_fixed_fraction_ions|].
    apply Forall_cons; [exact k_sound_speed|].
    apply Forall_cons; [exact k_scale_timederivs|].
    apply Forall_cons; [exact k_transform|].
    apply Forall_cons; [exact k_simple_pump|].
    apply Forall_cons; [exact k_simple_conduction|].
    apply Forall_cons; [exact k_snb_conduction|].
    apply Forall_cons; [exact k_anomalous_diffusion|].
    apply Forall_cons; [exact k_classical_diffusion|].
    apply Forall_cons; [exact k_binormal_stpm|].
    apply Forall_cons; [exact k_neutral_parallel_diffusion|].
    apply Forall_cons; [exact k_solkit_neutral_parallel_diffusion|].
    apply Forall_cons; [exact k_upstream_density_feedback|].
    apply Forall_cons; [exact k_temperature_feedback|].
    apply Forall_cons; [exact k_detachment_controller|].
    apply Forall_cons; [exact k_electron_force_balance|].
    apply Forall_cons; [exact k_ion_viscosity|].
    apply Forall_cons; [exact k_electron_viscosity|].
    apply Forall_cons; [exact k_thermal_force|].
    apply Forall_cons; [exact k_collisions|].
    apply Forall_cons; [exact k_noflow_boundary|].
    apply Forall_cons; [exact k_neutral_boundary|].
    apply Forall_cons; [exact k_sheath_boundary|].
    apply Forall_cons; [exact k_sheath_boundary_simple|].
    apply Forall_cons; [exact k_sheath_boundary_insulating|].
    apply Forall_cons; [exact k_sheath_closure|].
    apply Forall_cons; [exact k_recycling|].
    apply Forall_cons; [exact k_vorticity|].
    apply Forall_cons; [exact k_relax_potential|].
    apply Forall_cons; [exact k_diamagnetic_drift|].
    apply Forall_cons; [exact k_polarisation_drift|].
    apply Forall_cons; [exact k_electromagnetic|].
    constructor.
  - apply Forall_map.
    repeat (apply Forall_cons; [looks_tac fixed_fraction_radiation|]). constructor.
  - apply Forall_map, Forall_forall. intros tp Hin n c x H. cbn [fst snd] in *.
    get_prog H. split; [|exact I].
    apply reaction_look_may; [apply in_or_app; left; apply in_map; exact Hin|].
    pose proof reactions_looking as Hr. rewrite Forall_forall in Hr. apply Hr, Hin.
  - apply Forall_map, Forall_forall. intros tp Hin n c x H. cbn [fst snd] in *.
    invert_create H. get_prog H. split; [|exact I].
    apply reaction_look_may; [apply in_or_app; right; apply in_map; exact Hin|].
    apply l_hydrogen_cx.
Qed.

Lemma create_looks t n c x :
  create t n c = Some x ->
  calls (looking (may_look t n)) (c_transform x) /\
  calls (looking (may_look_finally t n)) (c_finally x).
Proof.
  unfold create. destruct (assoc t simple_types) as [f|] eqn:Ea; [|discriminate].
  intros H. apply assoc_in in Ea. pose proof simple_types_look as Hl.
  rewrite Forall_forall in Hl. apply (Hl _ Ea n c x H).
Qed.

Lemma looks_listed {F} (A : farith F) num ty n c x s s' tr a :
  create ty n c = Some x ->
  (run_method A num s (c_transform x) = (s', tr, a) ->
   forall e l p, In e tr -> looks_at e = Some (l, p) -> may_look ty n l p = true) /\
  (run_method A num s (c_finally x) = (s', tr, a) ->
   forall e l p, In e tr -> looks_at e = Some (l, p) -> may_look_finally ty n l p = true).
Proof.
  intros Hc. destruct (create_looks _ _ _ _ Hc) as [H1 H2].
  split; intros Hr e l p; [eapply exec_looking; [exact H1|exact Hr]|eapply exec_looking; [exact H2|exact Hr]].
Qed.

(** *** Always *)

Definition is_look (x : look * path) (o : aop) : Prop := op_look o = Some x.
Definition is_change (x : kind * path) (o : aop) : Prop := op_change o = Some x.

Ltac passes_step :=
  match goal with
  | |- passes _ (bind _ _) =>
      first [ apply passes_bind_l; solve [repeat passes_step]
            | apply passes_bind_r; intros ]
  | |- passes _ Throw => exact I
  | |- passes _ (getf _) => apply passes_rd; reflexivity
  | |- passes _ (getnb _) => apply passes_rd; reflexivity
  | |- passes _ (getnf _) => apply passes_rd; reflexivity
  | |- passes _ (rd _ _) => apply passes_rd; reflexivity
  | |- passes _ (getn _) => apply passes_rdn; reflexivity
  | |- passes _ (getn_nb _) => apply passes_rdn; reflexivity
  | |- passes _ (has _) => apply passes_ask; reflexivity
  | |- passes _ (isset _) => apply passes_ask; reflexivity
  | |- passes _ (issetnb _) => apply passes_ask; reflexivity
  | |- passes _ (isset_const _) => apply passes_ask; reflexivity
  | |- passes _ (setf _) => apply passes_put; reflexivity
  | |- passes _ (setn _ _) => apply passes_put; reflexivity
  | |- passes _ (setb _) => apply passes_put; reflexivity
  | |- passes _ (addf _) => apply passes_put; reflexivity
  | |- passes _ (subf _) => apply passes_put; reflexivity
  | |- passes _ (put_op _) => apply passes_put; reflexivity
  | |- passes _ (when true ?m) => change (when true m) with m
  | |- passes _ (if ?b then _ else _) => destruct b
  | |- passes _ (let _ := _ in _) => cbv zeta
  | |- passes _ (each _ _) => fail 1
  | |- passes _ _ => progress unfold_helpers
  end.

Definition always_as_listed (tf : string * (string -> cfg -> option comp)) : Prop :=
  forall n c x, snd tf n c = Some x ->
    (forall y, In y (always_looks (fst tf) n c) -> passes (is_look y) (c_transform x)) /\
    (forall y, In y (always_changes (fst tf) n c) -> passes (is_change y) (c_transform x)).

Ltac always_list :=
  match goal with
  | |- context [always_looks ?t ?n ?c] =>
      let l := eval cbv -[opt rstring obool rreal opt_set opt_true app orb Qeq_bool] in (always_looks t n c) in
      change (always_looks t n c) with l
  | |- context [always_changes ?t ?n ?c] =>
      let l := eval cbv -[opt rstring obool rreal opt_set opt_true app orb Qeq_bool] in (always_changes t n c) in
      change (always_changes t n c) with l
  end.

Ltac always_cases :=
  let p := fresh "p" in let Hin := fresh "Hin" in
  intros p Hin; cbn [opt_true app orb In] in Hin;
  repeat match type of Hin with
         | _ \/ _ => destruct Hin as [Hin|Hin]
         | In _ (_ ++ _) => apply in_app_or in Hin
         | In _ (if ?b then _ else _) => destruct b eqn:?; cbn [app In] in Hin
         | In _ (match ?b with _ => _ end) => destruct b eqn:?; cbn [app In] in Hin
         | In _ _ => cbn [app In] in Hin
         | False => destruct Hin
         end.

Ltac always_tac f :=
  let n := fresh "n" in let c := fresh "c" in let x := fresh "x" in let H := fresh "H" in
  intros n c x H; cbn [fst snd] in *; unfold f in H;
  repeat always_list;
  invert_create H; get_prog H; split; always_cases; subst; unfold qzero in *;
  repeat match goal with E : ?b = _ |- context [?b] => rewrite E end; cbn [negb];
  repeat passes_step.

Lemma a_evolve_density : always_as_listed ("evolve_density", evolve_density).
Proof. always_tac evolve_density. Qed.
Lemma a_evolve_pressure : always_as_listed ("evolve_pressure", evolve_pressure).
Proof. always_tac evolve_pressure. Qed.
Lemma a_evolve_energy : always_as_listed ("evolve_energy", evolve_energy).
Proof. always_tac evolve_energy. Qed.
Lemma a_evolve_momentum : always_as_listed ("evolve_momentum", evolve_momentum).
Proof. always_tac evolve_momentum. Qed.
Lemma a_neutral_mixed : always_as_listed ("neutral_mixed", neutral_mixed).
Proof. always_tac neutral_mixed. Qed.
Lemma a_isothermal : always_as_listed ("isothermal", isothermal).
Proof. always_tac isothermal. Qed.
Lemma a_fixed_density : always_as_listed ("fixed_density", fixed_density).
Proof. always_tac fixed_density. Qed.
Lemma a_fixed_temperature : always_as_listed ("fixed_temperature", fixed_temperature).
Proof. always_tac fixed_temperature. Qed.
Lemma a_fixed_velocity : always_as_listed ("fixed_velocity", fixed_velocity).
Proof. always_tac fixed_velocity. Qed.
Lemma a_set_temperature : always_as_listed ("set_temperature", set_temperature).
Proof. always_tac set_temperature. Qed.
Lemma a_quasineutral : always_as_listed ("quasineutral", quasineutral).
Proof. always_tac quasineutral. Qed.
Lemma a_zero_current : always_as_listed ("zero_current", zero_current).
Proof. always_tac zero_current. Qed.
Lemma a_fixed_fraction_ions : always_as_listed ("fixed_fraction_ions", fixed_fraction_ions).
Proof. always_tac fixed_fraction_ions. Qed.
Lemma a_sound_speed : always_as_listed ("sound_speed", sound_speed).
Proof. always_tac sound_speed. Qed.
Lemma a_scale_timederivs : always_as_listed ("scale_timederivs", scale_timederivs).
Proof. always_tac scale_timederivs. Qed.
Lemma a_transform : always_as_listed ("transform", transform_comp).
Proof. always_tac transform_comp. Qed.
Lemma a_simple_pump : always_as_listed ("simple_pump", simple_pump).
Proof. always_tac simple_pump. Qed.
Lemma a_simple_conduction : always_as_listed ("simple_conduction", simple_conduction).
Proof. always_tac simple_conduction. Qed.
Lemma a_snb_conduction : always_as_listed ("snb_conduction", snb_conduction).
Proof. always_tac snb_conduction. Qed.
Lemma a_anomalous_diffusion : always_as_listed ("anomalous_diffusion", anomalous_diffusion).
Proof. always_tac anomalous_diffusion. Qed.
Lemma a_classical_diffusion : always_as_listed ("classical_diffusion", classical_diffusion).
Proof. always_tac classical_diffusion. Qed.
Lemma a_binormal_stpm : always_as_listed ("binormal_stpm", binormal_stpm).
Proof. always_tac binormal_stpm. Qed.
Lemma a_neutral_parallel_diffusion : always_as_listed ("neutral_parallel_diffusion", neutral_parallel_diffusion).
Proof. always_tac neutral_parallel_diffusion. Qed.
Lemma a_solkit_neutral_parallel_diffusion : always_as_listed ("solkit_neutral_parallel_diffusion", solkit_neutral_parallel_diffusion).
Proof. always_tac solkit_neutral_parallel_diffusion. Qed.
Lemma a_upstream_density_feedback : always_as_listed ("upstream_density_feedback", upstream_density_feedback).
Proof. always_tac upstream_density_feedback. Qed.
Lemma a_temperature_feedback : always_as_listed ("temperature_feedback", temperature_feedback).
Proof. always_tac temperature_feedback. Qed.
Lemma a_detachment_controller : always_as_listed ("detachment_controller", detachment_controller).
Proof. always_tac detachment_controller. Qed.
Lemma a_electron_force_balance : always_as_listed ("electron_force_balance", electron_force_balance).
Proof. always_tac electron_force_balance. Qed.
Lemma a_ion_viscosity : always_as_listed ("ion_viscosity", ion_viscosity).
Proof. always_tac ion_viscosity. Qed.
Lemma a_electron_viscosity : always_as_listed ("electron_viscosity", electron_viscosity).
Proof. always_tac electron_viscosity. Qed.
Lemma a_thermal_force : always_as_listed ("thermal_force", thermal_force).
Proof. always_tac thermal_force. Qed.
Lemma a_collisions : always_as_listed ("collisions", collisions).
Proof. always_tac collisions. Qed.
Lemma a_noflow_boundary : always_as_listed ("noflow_boundary", noflow_boundary).
Proof. always_tac noflow_boundary. Qed.
Lemma a_neutral_boundary : always_as_listed ("neutral_boundary", neutral_boundary).
Proof. always_tac neutral_boundary. Qed.
Lemma a_sheath_boundary : always_as_listed ("sheath_boundary", sheath_boundary).
Proof. always_tac sheath_boundary. Qed.
Lemma a_sheath_boundary_simple : always_as_listed ("sheath_boundary_simple", sheath_boundary_simple).
Proof. always_tac sheath_boundary_simple. Qed.
Lemma a_sheath_boundary_insulating : always_as_listed ("sheath_boundary_insulating", sheath_boundary_insulating).
Proof. always_tac sheath_boundary_insulating. Qed.
Lemma a_sheath_closure : always_as_listed ("sheath_closure", sheath_closure).
Proof. always_tac sheath_closure. Qed.
Lemma a_recycling : always_as_listed ("recycling", recycling).
Proof. always_tac recycling. Qed.
Lemma a_vorticity : always_as_listed ("vorticity", vorticity).
Proof. always_tac vorticity. Qed.
Lemma a_relax_potential : always_as_listed ("relax_potential", relax_potential).
Proof. always_tac relax_potential. Qed.
Lemma a_diamagnetic_drift : always_as_listed ("diamagnetic_drift", diamagnetic_drift).
Proof. always_tac diamagnetic_drift. Qed.
Lemma a_polarisation_drift : always_as_listed ("polarisation_drift", polarisation_drift).
Proof. always_tac polarisation_drift. Qed.
Lemma a_electromagnetic : always_as_listed ("electromagnetic", electromagnetic).
Proof. always_tac electromagnetic. Qed.
(** The reactions always do what is listed. *)
Lemma reactions_always :
  Forall (fun tp => always_as_listed (fst tp, fun _ _ => plain (snd tp))) reaction_types.
Proof.
  let l := eval cbv -[amjuel adas adas_cx solkit_cx ionisation] in reaction_types in
  change reaction_types with l.
  repeat (apply Forall_cons; [intros n c x H; cbn [fst snd] in *; get_prog H;
               repeat always_list; split; always_cases; subst; repeat passes_step|]).
  constructor.
Qed.

Lemma cx_always :
  Forall (fun tp => always_as_listed (fst tp, fun n c =>
            g <-? obool c n "no_neutral_cx_mom_gain" false ;;
            plain (hydrogen_cx g (fst (snd tp)) (snd (snd tp))))) cx_types.
Proof.
  let l := eval cbv in cx_types in change cx_types with l.
  repeat (apply Forall_cons; [intros n c x H; cbn [fst snd] in *; invert_create H; get_prog H;
               repeat always_list; split; always_cases; subst; repeat passes_step|]).
  constructor.
Qed.

Lemma simple_types_always : Forall always_as_listed simple_types.
Proof.
  unfold simple_types. repeat rewrite Forall_app. repeat split.
  - apply Forall_cons; [exact a_evolve_density|].
    apply Forall_cons; [exact a_evolve_pressure|].
    apply Forall_cons; [exact a_evolve_energy|].
    apply Forall_cons; [exact a_evolve_momentum|].
    apply Forall_cons; [exact a_neutral_mixed|].
    apply Forall_cons; [exact a_isothermal|].
    apply Forall_cons; [exact a_fixed_density|].
    apply Forall_cons; [exact a_fixed_temperature|].
    apply Forall_cons; [exact a_fixed_velocity|].
    apply Forall_cons; [exact a_set_temperature|].
    apply Forall_cons; [exact a_quasineutral|].
    apply Forall_cons; [exact a_zero_current|].
    apply Forall_cons; [exact a_fixed_fraction_ions|].
    apply Forall_cons; [exact a_sound_speed|].
    apply Forall_cons; [exact a_scale_timederivs|].
    apply Forall_cons; [exact a_transform|].
    apply Forall_cons; [exact a_simple_pump|].
    apply Forall_cons; [exact a_simple_conduction|].
    apply Forall_cons; [exact a_snb_conduction|].
    apply Forall_cons; [exact a_anomalous_diffusion|].
    apply Forall_cons; [exact a_classical_diffusion|].
    apply Forall_cons; [exact a_binormal_stpm|].
    apply Forall_cons; [exact a_neutral_parallel_diffusion|].
    apply Forall_cons; [exact a_solkit_neutral_parallel_diffusion|].
    apply Forall_cons; [exact a_upstream_density_feedback|].
    apply Forall_cons; [exact a_temperature_feedback|].
    apply Forall_cons; [exact a_detachment_controller|].
    apply Forall_cons; [exact a_electron_force_balance|].
    apply Forall_cons; [exact a_ion_viscosity|].
    apply Forall_cons; [exact a_electron_viscosity|].
    apply Forall_cons; [exact a_thermal_force|].
    apply Forall_cons; [exact a_collisions|].
    apply Forall_cons; [exact a_noflow_boundary|].
    apply Forall_cons; [exact a_neutral_boundary|].
    apply Forall_cons; [exact a_sheath_boundary|].
    apply Forall_cons; [exact a_sheath_boundary_simple|].
    apply Forall_cons; [exact a_sheath_boundary_insulating|].
    apply Forall_cons; [exact a_sheath_closure|].
    apply Forall_cons; [exact a_recycling|].
    apply Forall_cons; [exact a_vorticity|].
    apply Forall_cons; [exact a_relax_potential|].
    apply Forall_cons; [exact a_diamagnetic_drift|].
    apply Forall_cons; [exact a_polarisation_drift|].
    apply Forall_cons; [exact a_electromagnetic|].
    constructor.
  - apply Forall_map.
    repeat (apply Forall_cons; [always_tac fixed_fraction_radiation|]). constructor.
  - apply Forall_map. exact reactions_always.
  - apply Forall_map. exact cx_always.
Qed.

Lemma create_always t n c x :
  create t n c = Some x ->
  (forall y, In y (always_looks t n c) -> passes (is_look y) (c_transform x)) /\
  (forall y, In y (always_changes t n c) -> passes (is_change y) (c_transform x)).
Proof.
  unfold create. destruct (assoc t simple_types) as [f|] eqn:Ea; [|discriminate].
  intros H. apply assoc_in in Ea. pose proof simple_types_always as Hl.
  rewrite Forall_forall in Hl. apply (Hl _ Ea n c x H).
Qed.

Lemma always_done {F} (A : farith F) num ty n c x s s' tr :
  create ty n c = Some x ->
  run_method A num s (c_transform x) = (s', tr, Some tt) ->
  (forall y, In y (always_looks ty n c) -> exists e, In e tr /\ looks_at e = Some y) /\
  (forall y, In y (always_changes ty n c) -> exists e, In e tr /\ change e = Some y).
Proof.
  intros Hc Hr. destruct (create_always _ _ _ _ Hc) as [H1 H2]. unfold run_method in Hr.
  split; intros [y p] Hy.
  - destruct (exec_passes _ _ _ _ _ _ _ _ _ _ _ _ _ _ (H1 _ Hy) Hr) as (o & Ho & Hl & _).
    apply Hl, Ho.
  - destruct (exec_passes _ _ _ _ _ _ _ _ _ _ _ _ _ _ (H2 _ Hy) Hr) as (o & Ho & _ & Hl).
    apply Hl, Ho.
Qed.
