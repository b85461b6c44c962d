From Coq Require Import List Bool String Reals Lra.
From Verif Require Import OptionsModel OptionsSpec StateMonad StateSpec StateMonadProofs StateEffects
  LimitersModel ReactionsModel ReactionsSpec.
Import ListNotations.
Open Scope R_scope.
Open Scope string_scope.

Definition W (q : string) : bool :=
  (String.eqb q "density_source" || String.eqb q "momentum_source" || String.eqb q "energy_source"
   || String.eqb q "collision_frequency")%bool.

Lemma W_spec q : W q = false <-> ~ In q ["density_source"; "momentum_source"; "energy_source"; "collision_frequency"].
Proof.
  unfold W. rewrite !orb_false_iff, !String.eqb_neq. cbn [In]. intuition.
Qed.

Lemma value_0 (s : State * unit) k : has s k = false -> val s k = 0.
Proof. unfold has, val, is_set, value_or_0. destruct (e_val (fst s k)); [discriminate|auto]. Qed.

(** Reading a charge which may be unset gives its value, zero if unset. *)
Lemma step_charge {B} s0 s s' d (b : B) sp (f : R -> RM B) :
  effect W s0 s d -> finishes (bind (charge_or_0 sp) f) s s' b ->
  exists s1, effect W s0 s1 d /\ finishes (f (val s0 (sp, "charge"))) s1 s' b.
Proof.
  intros E H. unfold charge_or_0 in H. apply bind_assoc_finishes in H. exec1 H E.
  destruct (has s0 (sp, "charge")) eqn:Hc.
  - exec1 H E. eauto.
  - exec1 H E. rewrite value_0 by auto. eauto.
Qed.

Ltac charge_step H E :=
  let s1 := fresh "st" in let E1 := fresh "E1" in
  apply (step_charge _ _ _ _ _ _ _ E) in H; destruct H as (s1 & E1 & H); clear E; rename E1 into E; cbv beta in H.

(** Names decided from hypotheses. *)
Ltac names :=
  repeat match goal with
  | H : ?a <> ?b |- context [String.eqb ?a ?b] => rewrite (proj2 (String.eqb_neq a b) H)
  | H : ?b <> ?a |- context [String.eqb ?a ?b] => rewrite (proj2 (String.eqb_neq a b) (not_eq_sym H))
  | |- context [String.eqb ?a ?a] => rewrite (String.eqb_refl a)
  | |- context [String.eqb (String ?x ?y) (String ?u ?v)] =>
      let r := eval lazy in (String.eqb (String x y) (String u v)) in
      change (String.eqb (String x y) (String u v)) with r
  end.
(** Values after a run in terms of the initial ones. *)
Ltac values E :=
  rewrite ?val_value, ?(proj1 E); rewrite ?at_key_species; names; cbv iota beta; names.

Definition amjuel_rate nm c electron from_ion rows cols t mult (s : State * unit) : R :=
  average c (fun a => match a with
      | [ne; n1; te] => ne * n1 * rate_of rows cols t (te * Tnorm nm) (ne * Nnorm nm) * Nnorm nm
                        / FreqNorm nm * mult
      | _ => 0 end)
    [((electron, "density"), val s (electron, "density")); ((from_ion, "density"), val s (from_ion, "density"));
     ((electron, "temperature"), val s (electron, "temperature"))].
Definition amjuel_radiation nm c electron from_ion rows cols t mult (s : State * unit) : R :=
  average c (fun a => match a with
      | [ne; n1; te] => ne * n1 * rate_of rows cols t (te * Tnorm nm) (ne * Nnorm nm) * Nnorm nm
                        / (Tnorm nm * FreqNorm nm) * mult
      | _ => 0 end)
    [((electron, "density"), val s (electron, "density")); ((from_ion, "density"), val s (from_ion, "density"));
     ((electron, "temperature"), val s (electron, "temperature"))].

Section Amjuel.
  Variables (nm : norms) (c : cell) (el fr to : string) (rows cols : nat) (rt rad : table)
    (heating rmult radmult : R) (s s' : State * unit) (out : amjuel_out).
  Hypotheses (N1 : el <> fr) (N2 : el <> to) (N3 : fr <> to).
  Hypothesis F : finishes (electron_reaction nm c el fr to rows cols rt rad heating rmult radmult) s s' out.

  Let rate := amjuel_rate nm c el fr rows cols rt rmult s.
  Let loss := amjuel_radiation nm c el fr rows cols rad radmult s - heating / Tnorm nm * rate * radmult.
  Let Zf := val s (fr, "charge").
  Let Zt := val s (to, "charge").
  Let A := val s (fr, "AA").
  Let v1 := val s (fr, "velocity").
  Let v2 := val s (to, "velocity").
  Let T1 := val s (fr, "temperature").
  Let ve := val s (el, "velocity").
  Let Ae := val s (el, "AA").

  Lemma amjuel_effect :
    val s (to, "AA") = A /\ reads_inside rows cols rt = true /\ reads_inside rows cols rad = true /\
    out = mkOut rate (rate * A * v1) (rate * (3 / 2) * T1) loss /\
    effect W s s' (fun k =>
      at_key (fr, "density_source") (- rate) k + at_key (to, "density_source") rate k
      + at_key (el, "density_source") ((Zt - Zf) * rate) k
      + at_key (el, "energy_source") (0.5 * Ae * (Zt - Zf) * rate * SQ ve - loss) k
      + at_key (fr, "momentum_source") (- (rate * A * v1)) k + at_key (to, "momentum_source") (rate * A * v1) k
      + at_key (to, "energy_source") (0.5 * A * rate * SQ (v1 - v2) + rate * (3 / 2) * T1) k
      + at_key (fr, "energy_source") (- (rate * (3 / 2) * T1)) k).
  Proof.
    pose proof (effect_start W s) as E. unfold electron_reaction in F. revert F. intros H.
    exec H E.
    destruct (Reqb (val s (fr, "AA")) (val s (to, "AA"))) eqn:EA; cbn [negb] in H; [|exec H E].
    apply Reqb_eq in EA. exec1 H E.
    charge_step H E. charge_step H E.
    destruct (reads_inside rows cols rt) eqn:I1; cbn [andb negb] in H; [|exec H E].
    destruct (reads_inside rows cols rad) eqn:I2; cbn [andb negb] in H; [|exec H E]. cbv zeta in H.
    fold (amjuel_rate nm c el fr rows cols rt rmult s) in H. fold rate in H.
    fold (amjuel_radiation nm c el fr rows cols rad radmult s) in H. fold loss in H.
    fold Zf Zt A v1 v2 T1 in H.
    split; [unfold A; auto|]. split; auto. split; auto.
    assert (Z0 : forall x k, x = 0 -> at_key (el, "density_source") x k = 0 /\ at_key (el, "energy_source") x k = 0).
    { intros x k ->. unfold at_key. destruct (key_eqb _ k), (key_eqb _ k); auto. }
    exec H E. destruct (Reqb Zf Zt) eqn:EZ; cbn [negb] in H.
    - apply Reqb_eq in EZ. exec H E. apply ret_finishes in H as [-> ->]. split; auto.
      eapply effect_ext; [|exact E]. intros k. cbv beta.
      rewrite (proj1 (Z0 ((Zt - Zf) * rate) k ltac:(rewrite EZ; lra))).
      replace (0.5 * Ae * (Zt - Zf) * rate * SQ ve - loss) with (- loss) by (rewrite EZ; lra).
      unfold at_key. destruct (key_eqb (to, "energy_source") k); lra.
    - exec H E. destruct (has s (el, "velocity")) eqn:Hv.
      + exec H E. apply ret_finishes in H as [-> ->]. split; auto.
        eapply effect_ext; [|exact E]. intros k. cbv beta. fold Ae ve. unfold at_key.
        destruct (key_eqb (el, "energy_source") k), (key_eqb (to, "energy_source") k); lra.
      + exec H E. apply ret_finishes in H as [-> ->]. split; auto.
        eapply effect_ext; [|exact E]. intros k. cbv beta. unfold ve. rewrite value_0 by auto. unfold SQ, at_key.
        destruct (key_eqb (el, "energy_source") k), (key_eqb (to, "energy_source") k); lra.
  Qed.
End Amjuel.

Lemma effect_only_sources s s' d species :
  effect W s s' d ->
  (forall sp q, ~ In sp species -> d (sp, q) = 0) ->
  only_sources s s' species.
Proof.
  intros E Hd sp q [Hn|Hq].
  - rewrite !val_value, (proj1 E), Hd by auto. lra.
  - rewrite !val_value. apply W_spec in Hq. exact (proj1 (proj2 E sp q Hq)).
Qed.

Ltac away :=
  let sp := fresh "sp" in let q := fresh "q" in let H := fresh "H" in
  cbv beta; intros sp q H; rewrite !at_key_species;
  repeat match goal with |- context [String.eqb ?a sp] =>
    destruct (String.eqb_spec a sp) as [->|]; [exfalso; apply H; cbn [In]; tauto|] end; lra.

Lemma nodup3 (el fr to : string) : NoDup [el; fr; to] -> el <> fr /\ el <> to /\ fr <> to.
Proof.
  intros ND. inversion ND as [|? ? H1 N']; subst. inversion N' as [|? ? H2 N'']; subst. cbn [In] in *.
  repeat split; intros ->; tauto.
Qed.
Lemma nodup4 (a b c d : string) :
  NoDup [a; b; c; d] -> a <> b /\ a <> c /\ a <> d /\ b <> c /\ b <> d /\ c <> d.
Proof.
  intros ND. inversion ND as [|? ? H1 N']; subst. inversion N' as [|? ? H2 N'']; subst.
  inversion N'' as [|? ? H3 N3]; subst. cbn [In] in *.
  repeat split; intros ->; tauto.
Qed.

Section AmjuelLaws.
  Variables (nm : norms) (c : cell) (el fr to : string) (rows cols : nat) (rt rad : table)
    (heating rmult radmult : R) (s s' : State * unit) (out : amjuel_out).
  Hypothesis ND : NoDup [el; fr; to].
  Hypothesis F : finishes (electron_reaction nm c el fr to rows cols rt rad heating rmult radmult) s s' out.

  Lemma amjuel_particles_charge :
    change s s' to "density_source" = o_rate out /\
    change s s' fr "density_source" = - o_rate out /\
    value s fr "charge" * change s s' fr "density_source"
    + value s to "charge" * change s s' to "density_source"
    + (-1) * change s s' el "density_source" = 0 /\
    only_sources s s' [el; fr; to].
  Proof.
    destruct (nodup3 _ _ _ ND) as (N1 & N2 & N3).
    destruct (amjuel_effect nm c el fr to rows cols rt rad heating rmult radmult s s' out F)
      as (_ & _ & _ & -> & E).
    cbn [o_rate]. unfold change. 
    split; [values E; lra|]. split; [values E; lra|].
    split; [values E; lra|].
    eapply effect_only_sources; [exact E|]. away.
  Qed.

  Lemma amjuel_momentum_energy :
    change s s' fr "momentum_source" + change s s' to "momentum_source" = 0 /\
    change s s' to "momentum_source" = o_rate out * value s fr "AA" * value s fr "velocity" /\
    change s s' el "momentum_source" = 0 /\
    energy_gain s s' fr + energy_gain s s' to = 0 /\
    energy_gain s s' el = - o_loss out.
  Proof.
    destruct (nodup3 _ _ _ ND) as (N1 & N2 & N3).
    destruct (amjuel_effect nm c el fr to rows cols rt rad heating rmult radmult s s' out F)
      as (EA & _ & _ & -> & E).
    cbn [o_rate o_loss]. unfold energy_gain, change. cbv zeta.
    split; [values E; lra|]. split; [values E; lra|]. split; [values E; lra|].
    split; values E; rewrite ?EA; unfold SQ; lra.
  Qed.

  Lemma amjuel_loss :
    o_loss out = amjuel_radiation nm c el fr rows cols rad radmult s
                 - heating / Tnorm nm * o_rate out * radmult.
  Proof.
    destruct (amjuel_effect nm c el fr to rows cols rt rad heating rmult radmult s s' out F)
      as (_ & _ & _ & -> & _). reflexivity.
  Qed.
  Lemma amjuel_rate_eq : o_rate out = amjuel_rate nm c el fr rows cols rt rmult s.
  Proof.
    destruct (amjuel_effect nm c el fr to rows cols rt rad heating rmult radmult s s' out F)
      as (_ & _ & _ & -> & _). reflexivity.
  Qed.
End AmjuelLaws.

