(** Proofs for components run one after the other. *)

From Coq Require Import List Bool Reals String Lra.
From Verif Require Import OptionsModel OptionsSpec StateMonad StateSpec StateMonadProofs StateEffects CollisionsModel ThermalForceModel ThermalForceProofs ReactionsModel ReactionsSpec ReactionsProofs ReactionsAdasProofs ReactionsCxProofs ReactionsLaws ReactionsExamples.
From Verif Require CollisionsProofs CollisionsProofs2.
From Verif Require Import SystemModel SystemSpec SystemProofs ExchangeModel ExchangeSpec.
Import ListNotations.
Open Scope R_scope.
Open Scope string_scope.

Definition sources4 : list string := ["density_source"; "momentum_source"; "energy_source"; "collision_frequency"].
Definition kept (s s' : State * unit) : Prop := forall k q, ~ List.In q sources4 -> value s' k q = value s k q.

Lemma coll_run c r species (s s' : State * unit) : finishes (run_part (Coll c r species)) s s' tt ->
  exists s1, finishes (transform c species) (fst s, r) s1 tt /\ fst s' = fst s1.
Proof.
  unfold finishes. cbn [run_part]. destruct (transform c species (fst s, r)) as [s1 o]. intros [= <- ->]. exists s1. split; reflexivity.
Qed.
Lemma coll_kept c r species (s s' : State * unit) : finishes (run_part (Coll c r species)) s s' tt ->
  forall k q, ~ List.In q ["momentum_source"; "energy_source"; "collision_frequency"] -> value s' k q = value s k q.
Proof.
  intros F k q H. destruct (coll_run _ _ _ _ _ F) as (s1 & F1 & E). pose proof (CollisionsProofs.transform_performs _ _ _ _ F1) as (_ & _ & B).
  assert (Q : CollisionsProofs.is_source q = false).
  { unfold CollisionsProofs.is_source, CollisionsProofs.mom, CollisionsProofs.en, CollisionsProofs.cf.
    cbn [List.In] in H. repeat match goal with |- context [String.eqb ?a ?b] => destruct (String.eqb_spec a b); subst; try (exfalso; tauto) end; reflexivity. }
  destruct (B k q Q) as [V _]. unfold val in V. cbn [fst] in V. unfold value. rewrite E. exact V.
Qed.
Lemma value_fst {P} (s : State * P) (s1 : State * unit) k q : fst s = fst s1 -> value s k q = value s1 k q.
Proof. intros H. unfold value. rewrite H. reflexivity. Qed.

Lemma part_kept L p (s s' : State * unit) : NoDup L -> exchanges L p -> finishes (run_part p) s s' tt -> kept s s'.
Proof.
  intros NL X F k q Hq. unfold sources4 in Hq. destruct p as [c r sp|ei ii g sp|[nm c el fr to rows cols rt rad heating m1 m2|nm c rt rad heating el fr to|nm c rt el fA fB tA tB|nm a1 i1 a2 i2 mult ng]]; cbn [exchanges run_part react] in *.
  - apply (coll_kept _ _ _ _ _ F). intros H. apply Hq. right. exact H.
  - subst sp. apply (proj2 (thermal_force_conserves ei ii g L s s' NL F)). left. intros ->. apply Hq. cbn. tauto.
  - apply bind_finishes in F. destruct F as (s1 & out & F & F2). apply ret_finishes in F2. destruct F2 as [-> _].
    destruct X as (ND & I). apply (amjuel_particles _ _ _ _ _ _ _ _ _ _ _ _ _ _ _ ND F). right. exact Hq.
  - destruct X as (ND & I). apply (adas_laws _ _ _ _ _ _ _ _ _ _ ND F). right. exact Hq.
  - destruct X as (ND & I). apply (adas_cx_laws _ _ _ _ _ _ _ _ _ _ ND F). right. exact Hq.
  - apply (hcx_only _ _ _ _ _ _ _ _ _ F). right. exact Hq.
Qed.

Lemma part_momentum L p (s s' : State * unit) : NoDup L -> exchanges L p -> finishes (run_part p) s s' tt -> sumR (fun k => change s s' k "momentum_source") L = 0.
Proof.
  intros NL X F. destruct p as [c r sp|ei ii g sp|[nm c el fr to rows cols rt rad heating m1 m2|nm c rt rad heating el fr to|nm c rt el fA fB tA tB|nm a1 i1 a2 i2 mult ng]]; cbn [exchanges run_part react] in *.
  - subst sp. destruct (coll_run _ _ _ _ _ F) as (s1 & F1 & E). pose proof (CollisionsProofs2.momentum_conserved _ _ _ _ NL F1) as M.
    unfold change, Rminus. rewrite sumR_plus, sumR_opp.
    rewrite (sumR_ext (fun k => value s' k "momentum_source") (fun k => value s1 k "momentum_source")) by (intros; symmetry; apply value_fst; symmetry; exact E).
    rewrite M. rewrite (sumR_ext (fun k => value (fst s, r) k "momentum_source") (fun k => value s k "momentum_source")) by (intros; reflexivity). lra.
  - subst sp. destruct (thermal_force_conserves ei ii g L s s' NL F) as [M _]. unfold change, Rminus. rewrite sumR_plus, sumR_opp, M. lra.
  - apply bind_finishes in F. destruct F as (s1 & out & F & F2). apply ret_finishes in F2. destruct F2 as [-> _].
    destruct X as (ND & I). destruct (amjuel_momentum_energy _ _ _ _ _ _ _ _ _ _ _ _ _ _ _ ND F) as (H1 & _ & H2 & _ & _).
    destruct (amjuel_particles _ _ _ _ _ _ _ _ _ _ _ _ _ _ _ ND F) as (_ & _ & H3).
    rewrite (sumR_support _ [el; fr; to] L ND NL I); [|intros x _ Hx; unfold change; rewrite (H3 x "momentum_source" (or_introl Hx)); ring]. cbn [sumR]. lra.
  - destruct X as (ND & I). destruct (adas_laws _ _ _ _ _ _ _ _ _ _ ND F) as (_ & _ & H1 & H2 & _ & H3).
    rewrite (sumR_support _ [el; fr; to] L ND NL I); [|intros x _ Hx; unfold change; rewrite (H3 x "momentum_source" (or_introl Hx)); ring]. cbn [sumR]. lra.
  - destruct X as (ND & I). destruct (adas_cx_laws _ _ _ _ _ _ _ _ _ _ ND F) as (_ & _ & _ & H1 & _ & _ & H3).
    rewrite (sumR_support _ [fA; fB; tA; tB] L ND NL I); [|intros x _ Hx; unfold change; rewrite (H3 x "momentum_source" (or_introl Hx)); ring]. cbn [sumR]. lra.
  - destruct X as (I & ->). apply (hcx_conserves nm a1 i1 a2 i2 mult s s' L NL (I a1 ltac:(cbn; tauto)) (I i1 ltac:(cbn; tauto)) (I a2 ltac:(cbn; tauto)) (I i2 ltac:(cbn; tauto)) F).
Qed.

Lemma accounts_exchanges L p : accounts L p -> exchanges L p.
Proof. destruct p as [c r sp|ei ii g sp|[nm c el fr to rows cols rt rad heating m1 m2|nm c rt rad heating el fr to|nm c rt el fA fB tA tB|nm a1 i1 a2 i2 mult ng]]; cbn [accounts exchanges]; tauto. Qed.

Lemma part_energy L p (s s' : State * unit) : NoDup L -> accounts L p -> (forall k, List.In k L -> 0 < value s k "AA") -> finishes (run_part p) s s' tt ->
  sumR (fun k => energy_gain s s' k) L = heat p s.
Proof.
  intros NL X PA F. destruct p as [c r sp|ei ii g sp|[nm c el fr to rows cols rt rad heating m1 m2|nm c rt rad heating el fr to|nm c rt el fA fB tA tB|nm a1 i1 a2 i2 mult ng]]; cbn [accounts run_part react heat] in *; try contradiction.
  - destruct X as [-> FH]. pose proof (coll_kept _ _ _ _ _ F) as K. destruct (coll_run _ _ _ _ _ F) as (s1 & F1 & E).
    pose proof (CollisionsProofs2.energy_conserved c L (fst s, r) s1 NL FH PA F1) as M.
    rewrite (sumR_ext _ (fun k => (value s1 k "energy_source" + value (fst s, r) k "velocity" * value s1 k "momentum_source")
       + - (value (fst s, r) k "energy_source" + value (fst s, r) k "velocity" * value (fst s, r) k "momentum_source"))).
    + rewrite sumR_plus, sumR_opp, M. lra.
    + intros k _. unfold energy_gain, change. cbv zeta. rewrite (K k "density_source") by (cbn; intuition discriminate).
      rewrite !(value_fst s1 s' k) by (symmetry; exact E). rewrite !(value_fst (fst s, r) s k) by reflexivity. ring.
  - apply bind_finishes in F. destruct F as (s1 & out & F & F2). apply ret_finishes in F2. destruct F2 as [-> _].
    destruct X as (ND & I & -> & Q1 & Q2). destruct (amjuel_energy _ _ _ _ _ _ _ _ _ _ _ _ _ _ ND Q2 F) as (_ & _ & _ & H1 & H2).
    destruct (amjuel_particles _ _ _ _ _ _ _ _ _ _ _ _ _ _ _ ND F) as (_ & _ & H3).
    rewrite (sumR_support _ [el; fr; to] L ND NL I).
    2:{ intros x _ Hx. unfold energy_gain, change. cbv zeta. rewrite !(H3 x _ (or_introl Hx)). ring. }
    cbn [sumR]. rewrite (amjuel_rate_is_fit _ _ _ _ _ _ _ _ _ _ _ _ _ _ ND Q1 F) in H2. lra.
  - destruct X as (I & ->). apply (hcx_conserves nm a1 i1 a2 i2 mult s s' L NL (I a1 ltac:(cbn; tauto)) (I i1 ltac:(cbn; tauto)) (I a2 ltac:(cbn; tauto)) (I i2 ltac:(cbn; tauto)) F).
Qed.
Lemma heat_kept p (s s' : State * unit) : kept s s' -> heat p s' = heat p s.
Proof.
  intros K. destruct p as [c r sp|ei ii g sp|[nm c el fr to rows cols rt rad heating m1 m2|nm c rt rad heating el fr to|nm c rt el fA fB tA tB|nm a1 i1 a2 i2 mult ng]]; cbn [heat]; try reflexivity.
  unfold amjuel_source. rewrite !K by (cbn; intuition discriminate). reflexivity.
Qed.

(** All of them. *)
Lemma kept_trans s1 s2 s3 : kept s1 s2 -> kept s2 s3 -> kept s1 s3.
Proof. intros H1 H2 k q Hq. rewrite (H2 k q Hq). apply H1. exact Hq. Qed.
Lemma parts_momentum L : NoDup L -> forall l (s s' : State * unit), List.Forall (exchanges L) l -> finishes (run_parts l) s s' tt ->
  sumR (fun k => change s s' k "momentum_source") L = 0 /\ kept s s'.
Proof.
  intros NL. induction l as [|p l IH]; intros s s' X F.
  - apply ret_finishes in F. destruct F as [-> _]. split; [apply sumR_zero; intros; unfold change; ring|intros k q _; reflexivity].
  - unfold run_parts in F. cbn [mfor] in F. apply bind_finishes in F. destruct F as (s1 & [] & F1 & F2). inversion X as [|? ? X1 X2]; subst.
    destruct (IH s1 s' X2 F2) as [A2 K2]. pose proof (part_momentum L p s s1 NL X1 F1) as A1. pose proof (part_kept L p s s1 NL X1 F1) as K1.
    split; [|exact (kept_trans _ _ _ K1 K2)].
    rewrite (sumR_ext _ (fun k => change s s1 k "momentum_source" + change s1 s' k "momentum_source")) by (intros; apply change_trans).
    rewrite sumR_plus, A1, A2. ring.
Qed.
Lemma parts_energy L : NoDup L -> forall l (s s' : State * unit), List.Forall (accounts L) l -> (forall k, List.In k L -> 0 < value s k "AA") ->
  finishes (run_parts l) s s' tt -> sumR (fun k => energy_gain s s' k) L = sumR (fun p => heat p s) l.
Proof.
  intros NL. induction l as [|p l IH]; intros s s' X PA F.
  - apply ret_finishes in F. destruct F as [-> _]. cbn [sumR]. apply sumR_zero. intros. unfold energy_gain, change. cbv zeta. ring.
  - unfold run_parts in F. cbn [mfor] in F. apply bind_finishes in F. destruct F as (s1 & [] & F1 & F2). inversion X as [|? ? X1 X2]; subst.
    pose proof (part_kept L p s s1 NL (accounts_exchanges _ _ X1) F1) as K1. cbn [sumR].
    assert (PA1 : forall k, List.In k L -> 0 < value s1 k "AA") by (intros k Hk; rewrite (K1 k "AA") by (cbn; intuition discriminate); apply PA; exact Hk).
    pose proof (IH s1 s' X2 PA1 F2) as A2. pose proof (part_energy L p s s1 NL X1 PA F1) as A1.
    rewrite <- A1. rewrite (sumR_ext (fun p => heat p s) (fun p => heat p s1)) by (intros; symmetry; apply heat_kept; exact K1). rewrite <- A2, <- sumR_plus.
    apply sumR_ext. intros k _. unfold energy_gain. cbv zeta. rewrite !(change_trans s s1 s' k).
    rewrite (K1 k "AA"), (K1 k "velocity") by (cbn; intuition discriminate). ring.
Qed.
