From Coq Require Import List Bool String Reals Lra.
From Verif Require Import OptionsModel OptionsSpec StateMonad StateSpec StateMonadProofs StateEffects
  LimitersModel ReactionsModel ReactionsSpec ReactionsProofs.
Import ListNotations.
Open Scope R_scope.
Open Scope string_scope.

(** ** OpenADAS *)

Section Adas.
  Variables (nm : norms) (c : cell) (rc radc : R -> R -> R) (heating : R) (el fr to : string)
    (s s' : State * unit).
  Hypothesis F : finishes (adas_rates nm c rc radc heating el fr to) s s' tt.

  Definition adas_rate : R := average c (fun a => match a with
      | [ne; n1; te] => rfloor ne 0 * rfloor n1 0 * rc (te * Tnorm nm) (ne * Nnorm nm) * Nnorm nm / FreqNorm nm
      | _ => 0 end)
    [((el, "density"), val s (el, "density")); ((fr, "density"), val s (fr, "density"));
     ((el, "temperature"), val s (el, "temperature"))].
  Definition adas_radiation : R := average c (fun a => match a with
      | [ne; n1; te] => rfloor ne 0 * rfloor n1 0 * radc (te * Tnorm nm) (ne * Nnorm nm) * Nnorm nm / (Tnorm nm * FreqNorm nm)
      | _ => 0 end)
    [((el, "density"), val s (el, "density")); ((fr, "density"), val s (fr, "density"));
     ((el, "temperature"), val s (el, "temperature"))].

  Let Zf := val s (fr, "charge").
  Let Zt := val s (to, "charge").
  Let A := val s (fr, "AA").
  Let v1 := val s (fr, "velocity").
  Let T1 := val s (fr, "temperature").

  Lemma adas_effect :
    val s (to, "AA") = A /\
    effect W s s' (fun k =>
      at_key (fr, "density_source") (- adas_rate) k + at_key (to, "density_source") adas_rate k
      + at_key (el, "density_source") ((Zt - Zf) * adas_rate) k
      + at_key (fr, "momentum_source") (- (adas_rate * A * v1)) k + at_key (to, "momentum_source") (adas_rate * A * v1) k
      + at_key (fr, "energy_source") (- (adas_rate * (3 / 2) * T1)) k + at_key (to, "energy_source") (adas_rate * (3 / 2) * T1) k
      + at_key (el, "energy_source") (- (adas_radiation - heating / Tnorm nm * adas_rate)) k).
  Proof.
    pose proof (effect_start W s) as E. unfold adas_rates in F. revert F. intros H.
    exec H E.
    destruct (Reqb (val s (fr, "AA")) (val s (to, "AA"))) eqn:EA; cbn [negb] in H; [|exec H E].
    apply Reqb_eq in EA.
    charge_step H E. charge_step H E.
    cbv zeta in H. fold adas_rate adas_radiation in H. fold Zf Zt A v1 T1 in H.
    split; [unfold A; auto|].
    assert (Z0 : forall x k, x = 0 -> at_key (el, "density_source") x k = 0).
    { intros x k ->. unfold at_key. destruct (key_eqb _ k); auto. }
    exec H E. destruct (Reqb Zf Zt) eqn:EZ; cbn [negb] in H.
    - apply Reqb_eq in EZ. exec H E.
      eapply effect_ext; [|exact E]. intros k. cbv beta.
      rewrite (Z0 ((Zt - Zf) * adas_rate) k ltac:(rewrite EZ; lra)). lra.
    - exec H E. eapply effect_ext; [|exact E]. intros k. cbv beta. lra.
  Qed.
End Adas.

Section AdasLaws.
  Variables (nm : norms) (c : cell) (rc radc : R -> R -> R) (heating : R) (el fr to : string)
    (s s' : State * unit).
  Hypothesis ND : NoDup [el; fr; to].
  Hypothesis F : finishes (adas_rates nm c rc radc heating el fr to) s s' tt.

  Lemma adas_laws :
    change s s' fr "density_source" + change s s' to "density_source" = 0 /\
    value s fr "charge" * change s s' fr "density_source"
    + value s to "charge" * change s s' to "density_source"
    + (-1) * change s s' el "density_source" = 0 /\
    change s s' fr "momentum_source" + change s s' to "momentum_source" = 0 /\
    change s s' el "momentum_source" = 0 /\
    change s s' fr "energy_source" + change s s' to "energy_source" = 0 /\
    only_sources s s' [el; fr; to].
  Proof.
    destruct (nodup3 _ _ _ ND) as (N1 & N2 & N3).
    destruct (adas_effect nm c rc radc heating el fr to s s' F) as (EA & E).
    unfold change.
    split; [values E; lra|]. split; [values E; lra|]. split; [values E; lra|].
    split; [values E; lra|]. split; [values E; lra|].
    eapply effect_only_sources; [exact E|]. away.
  Qed.

  Lemma adas_energy_defect :
    energy_gain s s' fr + energy_gain s s' to
    = - (1 / 2) * value s fr "AA" * change s s' to "density_source"
      * (value s fr "velocity" - value s to "velocity") ^ 2.
  Proof.
    destruct (nodup3 _ _ _ ND) as (N1 & N2 & N3).
    destruct (adas_effect nm c rc radc heating el fr to s s' F) as (EA & E).
    unfold energy_gain, change. cbv zeta. values E. rewrite ?EA. lra.
  Qed.
End AdasLaws.

(** OpenADAS charge exchange. *)
Section AdasCX.
  Variables (nm : norms) (c : cell) (rc : R -> R -> R) (el fA fB tA tB : string)
    (s s' : State * unit).
  Hypothesis F : finishes (adas_cx nm c rc el fA fB tA tB) s s' tt.

  Definition adas_cx_rate : R := average c (fun a => match a with
      | [na; nb; ne; te] => rfloor na 0 * rfloor nb 0 * rc (te * Tnorm nm) (ne * Nnorm nm) * Nnorm nm / FreqNorm nm
      | _ => 0 end)
    [((fA, "density"), val s (fA, "density")); ((fB, "density"), val s (fB, "density"));
     ((el, "density"), val s (el, "density")); ((el, "temperature"), val s (el, "temperature"))].

  Definition cx_move (f t : string) (k : key) : R :=
    at_key (f, "density_source") (- adas_cx_rate) k + at_key (t, "density_source") adas_cx_rate k
    + at_key (f, "momentum_source") (- (adas_cx_rate * val s (f, "AA") * val s (f, "velocity"))) k
    + at_key (t, "momentum_source") (adas_cx_rate * val s (f, "AA") * val s (f, "velocity")) k
    + at_key (f, "energy_source") (- (adas_cx_rate * (3 / 2) * val s (f, "temperature"))) k
    + at_key (t, "energy_source") (adas_cx_rate * (3 / 2) * val s (f, "temperature")) k.

  Lemma adas_cx_effect :
    val s (tA, "AA") = val s (fA, "AA") /\ val s (tB, "AA") = val s (fB, "AA") /\
    effect W s s' (fun k => cx_move fA tA k + cx_move fB tB k).
  Proof.
    pose proof (effect_start W s) as E. unfold adas_cx in F. revert F. intros H.
    exec H E.
    destruct (Reqb (val s (fA, "AA")) (val s (tA, "AA"))) eqn:EA; cbn [negb] in H; [|exec H E].
    apply Reqb_eq in EA. exec H E.
    destruct (Reqb (val s (fB, "AA")) (val s (tB, "AA"))) eqn:EB; cbn [negb] in H; [|exec H E].
    apply Reqb_eq in EB. exec H E. fold adas_cx_rate in E.
    split; auto. split; auto. eapply effect_ext; [|exact E]. intros k. cbv beta. unfold cx_move. lra.
  Qed.
End AdasCX.

Section AdasCXLaws.
  Variables (nm : norms) (c : cell) (rc : R -> R -> R) (el fA fB tA tB : string)
    (s s' : State * unit).
  Hypothesis ND : NoDup [fA; fB; tA; tB].
  Hypothesis F : finishes (adas_cx nm c rc el fA fB tA tB) s s' tt.

  Lemma adas_cx_values :
    forall f t m, (f = fA /\ t = tA \/ f = fB /\ t = tB) ->
    m = adas_cx_rate nm c rc el fA fB s ->
    change s s' f "density_source" = - m /\ change s s' t "density_source" = m /\
    change s s' f "momentum_source" = - (m * value s f "AA" * value s f "velocity") /\
    change s s' t "momentum_source" = m * value s f "AA" * value s f "velocity" /\
    change s s' f "energy_source" = - (m * (3 / 2) * value s f "temperature") /\
    change s s' t "energy_source" = m * (3 / 2) * value s f "temperature".
  Proof.
    destruct (nodup4 _ _ _ _ ND) as (N1 & N2 & N3 & N4 & N5 & N6).
    destruct (adas_cx_effect nm c rc el fA fB tA tB s s' F) as (EA & EB & E).
    assert (D : forall sp q, change s s' sp q = cx_move nm c rc el fA fB s fA tA (sp, q) + cx_move nm c rc el fA fB s fB tB (sp, q)).
    { intros sp q. unfold change. rewrite !val_value, (proj1 E). lra. }
    clear E. unfold cx_move in D.
    intros f t m Hft Hm. rewrite <- Hm in D. clear Hm.
    rewrite !val_value.
    destruct Hft as [[-> ->]|[-> ->]]; repeat split; rewrite D, !at_key_species; names; cbv iota; lra.
  Qed.

  Lemma adas_cx_laws :
    change s s' fA "density_source" + change s s' tA "density_source" = 0 /\
    change s s' fB "density_source" + change s s' tB "density_source" = 0 /\
    change s s' fA "density_source" = change s s' fB "density_source" /\
    change s s' fA "momentum_source" + change s s' fB "momentum_source"
    + change s s' tA "momentum_source" + change s s' tB "momentum_source" = 0 /\
    change s s' fA "energy_source" + change s s' fB "energy_source"
    + change s s' tA "energy_source" + change s s' tB "energy_source" = 0 /\
    value s fA "charge" * change s s' fA "density_source" + value s fB "charge" * change s s' fB "density_source"
    + value s tA "charge" * change s s' tA "density_source" + value s tB "charge" * change s s' tB "density_source"
    = change s s' tA "density_source"
      * (value s tA "charge" + value s tB "charge" - (value s fA "charge" + value s fB "charge")) /\
    only_sources s s' [fA; fB; tA; tB].
  Proof.
    destruct (adas_cx_values fA tA _ ltac:(auto) eq_refl) as (-> & -> & -> & -> & -> & ->).
    destruct (adas_cx_values fB tB _ ltac:(auto) eq_refl) as (-> & -> & -> & -> & -> & ->).
    do 6 (split; [lra|]).
    destruct (adas_cx_effect nm c rc el fA fB tA tB s s' F) as (EA & EB & E).
    eapply effect_only_sources; [exact E|]. unfold cx_move. away.
  Qed.

  Lemma adas_cx_energy_defect :
    energy_gain s s' fA + energy_gain s s' fB + energy_gain s s' tA + energy_gain s s' tB
    = - (1 / 2) * change s s' tA "density_source"
      * (value s fA "AA" * (value s fA "velocity" - value s tA "velocity") ^ 2
         + value s fB "AA" * (value s fB "velocity" - value s tB "velocity") ^ 2).
  Proof.
    destruct (adas_cx_effect nm c rc el fA fB tA tB s s' F) as (EA & EB & _).
    unfold energy_gain. cbv zeta.
    destruct (adas_cx_values fA tA _ ltac:(auto) eq_refl) as (-> & -> & -> & -> & -> & ->).
    destruct (adas_cx_values fB tB _ ltac:(auto) eq_refl) as (-> & -> & -> & -> & -> & ->).
    rewrite !(val_value s tA "AA"), !(val_value s tB "AA"), EA, EB, <- !val_value. lra.
  Qed.
End AdasCXLaws.
