From Coq Require Import List Bool String Reals Lra.
From Verif Require Import OptionsModel OptionsSpec StateMonad StateSpec StateMonadProofs StateEffects
  LimitersModel ReactionsModel ReactionsSpec ReactionsProofs.
Import ListNotations.
Open Scope R_scope.
Open Scope string_scope.

(** ** Hydrogen charge exchange *)

Section HydrogenCX.
  Variables (nm : norms) (a1 i1 a2 i2 : string) (mult : R) (no_gain : bool) (s s' : State * unit).
  Hypothesis F : finishes (hydrogen_cx nm a1 i1 a2 i2 mult no_gain) s s' tt.

  Definition hcx_sigmav : R :=
    cx_sigmav nm (cx_Teff nm (val s (a1, "temperature")) (val s (a1, "AA"))
                    (val s (i1, "temperature")) (val s (i1, "AA"))) mult.
  Definition hcx_rate : R :=
    rfloor (val s (a1, "density")) 1e-5 * rfloor (val s (i1, "density")) 1e-5 * hcx_sigmav.
  (* Particle exchange, zero for identical isotopes. *)
  Definition hcx_swap : R :=
    if (negb (String.eqb a1 a2) || negb (String.eqb i1 i2))%bool then hcx_rate else 0.

  Let Aa := val s (a1, "AA").
  Let Ai := val s (i1, "AA").
  Let va := val s (a1, "velocity").
  Let vi := val s (i1, "velocity").
  Let Ta := val s (a1, "temperature").
  Let Ti := val s (i1, "temperature").

  Lemma hydrogen_cx_effect :
    val s (i2, "AA") = Aa /\ val s (a2, "AA") = Ai /\
    effect W s s' (fun k =>
      at_key (a1, "density_source") (- hcx_swap) k + at_key (i2, "density_source") hcx_swap k
      + at_key (i1, "density_source") (- hcx_swap) k + at_key (a2, "density_source") hcx_swap k
      + at_key (a1, "momentum_source") (- (hcx_rate * Aa * va)) k
      + at_key (i2, "momentum_source") (if no_gain then 0 else hcx_rate * Aa * va) k
      + at_key (i1, "momentum_source") (- (hcx_rate * Ai * vi)) k
      + at_key (a2, "momentum_source") (hcx_rate * Ai * vi) k
      + at_key (i2, "energy_source") (0.5 * Aa * hcx_rate * SQ (val s (i2, "velocity") - va)) k
      + at_key (a2, "energy_source") (0.5 * Ai * hcx_rate * SQ (val s (a2, "velocity") - vi)) k
      + at_key (a1, "energy_source") (- (3 / 2 * hcx_rate * Ta)) k
      + at_key (i2, "energy_source") (3 / 2 * hcx_rate * Ta) k
      + at_key (i1, "energy_source") (- (3 / 2 * hcx_rate * Ti)) k
      + at_key (a2, "energy_source") (3 / 2 * hcx_rate * Ti) k
      + at_key (a1, "collision_frequency") (rfloor (val s (i1, "density")) 1e-5 * hcx_sigmav) k
      + at_key (i1, "collision_frequency") (rfloor (val s (a1, "density")) 1e-5 * hcx_sigmav) k).
  Proof.
    pose proof (effect_start W s) as E. unfold hydrogen_cx in F. revert F. intros H.
    exec H E.
    destruct (Reqb (val s (i2, "AA")) (val s (a1, "AA"))) eqn:EA; cbn [negb] in H; [|exec H E].
    apply Reqb_eq in EA. exec H E.
    destruct (Reqb (val s (a2, "AA")) (val s (i1, "AA"))) eqn:EB; cbn [negb] in H; [|exec H E].
    apply Reqb_eq in EB. cbv zeta in H. exec1 H E. exec1 H E.
    fold hcx_sigmav in H. fold hcx_rate in H. 
    split; auto. split; auto.
    assert (Z0 : forall sp q k, at_key (sp, q) 0 k = 0).
    { intros sp q k. unfold at_key. destruct (key_eqb _ k); auto. }
    unfold hcx_swap.
    destruct (negb (String.eqb a1 a2) || negb (String.eqb i1 i2))%bool; cbv iota in H.
    - exec H E. destruct no_gain; cbn [negb] in H; exec H E.
      + eapply effect_ext; [|exact E]. intros k. cbv beta. rewrite !Z0. fold Aa Ai va vi Ta Ti. lra.
      + eapply effect_ext; [|exact E]. intros k. cbv beta. fold Aa Ai va vi Ta Ti. lra.
    - exec H E. destruct no_gain; cbn [negb] in H; exec H E.
      + eapply effect_ext; [|exact E]. intros k. cbv beta. rewrite ?Ropp_0, !Z0. fold Aa Ai va vi Ta Ti. lra.
      + eapply effect_ext; [|exact E]. intros k. cbv beta. rewrite ?Ropp_0, !Z0. fold Aa Ai va vi Ta Ti. lra.
  Qed.
End HydrogenCX.

Lemma sumR_weight (l : list string) (w : string -> R) a q v q' :
  NoDup l -> In a l ->
  sumR (fun s => w s * at_key (a, q) v (s, q')) l = if String.eqb q q' then w a * v else 0.
Proof.
  intros Hd Hi.
  rewrite (sumR_ext _ (fun s => if String.eqb a s then (fun s => if String.eqb q q' then w s * v else 0) s else 0)).
  - now rewrite sumR_one.
  - intros x _. rewrite at_key_species. destruct (String.eqb a x), (String.eqb q q'); lra.
Qed.

Fixpoint contribs (l : list (string * string * R)) (k : key) : R :=
  match l with [] => 0 | (sp, q, x) :: l => at_key (sp, q) x k + contribs l k end.
Fixpoint totals (w : string -> R) (q : string) (l : list (string * string * R)) : R :=
  match l with [] => 0 | (sp, q', x) :: l => (if String.eqb q' q then w sp * x else 0) + totals w q l end.

Lemma contribs_total (L : list string) w q l :
  NoDup L -> (forall sp q' x, In (sp, q', x) l -> In sp L) ->
  sumR (fun sp => w sp * contribs l (sp, q)) L = totals w q l.
Proof.
  intros ND. induction l as [|[[a q'] x] l IH]; intros HL; cbn [contribs totals].
  - apply sumR_zero. intros; lra.
  - rewrite (sumR_ext _ (fun sp => w sp * at_key (a, q') x (sp, q) + w sp * contribs l (sp, q))) by (intros; lra).
    rewrite sumR_plus, sumR_weight, IH; auto.
    + intros sp q2 y Hy. apply (HL sp q2 y). now right.
    + apply (HL a q' x). now left.
Qed.

Lemma hcx_only nm a1 i1 a2 i2 mult no_gain (s s' : State * unit) :
  finishes (hydrogen_cx nm a1 i1 a2 i2 mult no_gain) s s' tt -> only_sources s s' [a1; i1; a2; i2].
  Proof.
    intros F.
    destruct (hydrogen_cx_effect nm a1 i1 a2 i2 mult no_gain s s' F) as (EA & EB & E).
    eapply effect_only_sources; [exact E|].
    intros sp q Hn. cbn [In] in Hn.
    assert (N : a1 <> sp /\ i1 <> sp /\ a2 <> sp /\ i2 <> sp) by (repeat split; intros ->; tauto).
    destruct N as (N1 & N2 & N3 & N4). apply String.eqb_neq in N1, N2, N3, N4.
    rewrite !at_key_species, N1, N2, N3, N4. lra.
  Qed.
Section HydrogenCXLaws.
  Variables (nm : norms) (a1 i1 a2 i2 : string) (mult : R) (no_gain : bool) (s s' : State * unit).
  Variable L : list string.
  Hypothesis ND : NoDup L.
  Hypotheses (La1 : In a1 L) (Li1 : In i1 L) (La2 : In a2 L) (Li2 : In i2 L).
  Hypothesis F : finishes (hydrogen_cx nm a1 i1 a2 i2 mult no_gain) s s' tt.

  Let rate := hcx_rate nm a1 i1 mult s.
  Let swap := hcx_swap nm a1 i1 a2 i2 mult s.

  (* Weighted totals over the species in L of the sixteen contributions. *)
  Lemma hcx_total w q :
    sumR (fun sp => w sp * change s s' sp q) L =
      (if String.eqb "density_source" q then swap * (w i2 - w a1 + (w a2 - w i1)) else 0)
      + (if String.eqb "momentum_source" q then
           rate * (value s a1 "AA" * value s a1 "velocity" * ((if no_gain then 0 else w i2) - w a1)
                   + value s i1 "AA" * value s i1 "velocity" * (w a2 - w i1)) else 0)
      + (if String.eqb "energy_source" q then
           0.5 * rate * (w i2 * value s a1 "AA" * (value s i2 "velocity" - value s a1 "velocity") ^ 2
                         + w a2 * value s i1 "AA" * (value s a2 "velocity" - value s i1 "velocity") ^ 2)
           + 3 / 2 * rate * (value s a1 "temperature" * (w i2 - w a1) + value s i1 "temperature" * (w a2 - w i1)) else 0)
      + (if String.eqb "collision_frequency" q then
           hcx_sigmav nm a1 i1 mult s * (w a1 * rfloor (value s i1 "density") 1e-5 + w i1 * rfloor (value s a1 "density") 1e-5) else 0).
  Proof.
    destruct (hydrogen_cx_effect nm a1 i1 a2 i2 mult no_gain s s' F) as (EA & EB & E).
    fold rate swap in E. rewrite !val_value. clearbody rate swap.
    set (Aa := val s (a1, "AA")) in *. set (Ai := val s (i1, "AA")) in *.
    set (va := val s (a1, "velocity")) in *. set (vi := val s (i1, "velocity")) in *.
    set (Ta := val s (a1, "temperature")) in *. set (Ti := val s (i1, "temperature")) in *.
    set (va2 := val s (a2, "velocity")) in *. set (vi2 := val s (i2, "velocity")) in *.
    set (Fa := rfloor (val s (a1, "density")) 1e-5) in *. set (Fi := rfloor (val s (i1, "density")) 1e-5) in *.
    set (sv := hcx_sigmav nm a1 i1 mult s) in *.
    clearbody Aa Ai va vi Ta Ti va2 vi2 Fa Fi sv.
    match type of E with effect _ _ _ (fun k => 
      at_key (_, ?q1) ?x1 k + at_key (_, ?q2) ?x2 k + at_key (_, ?q3) ?x3 k + at_key (_, ?q4) ?x4 k + at_key (_, ?q5) ?x5 k
      + at_key (_, ?q6) ?x6 k + at_key (_, ?q7) ?x7 k + at_key (_, ?q8) ?x8 k + at_key (_, ?q9) ?x9 k + at_key (_, ?q10) ?x10 k
      + at_key (_, ?q11) ?x11 k + at_key (_, ?q12) ?x12 k + at_key (_, ?q13) ?x13 k + at_key (_, ?q14) ?x14 k
      + at_key (_, ?q15) ?x15 k + at_key (_, ?q16) ?x16 k) =>
      assert (E2 : effect W s s' (contribs [(a1, q1, x1); (i2, q2, x2); (i1, q3, x3); (a2, q4, x4); (a1, q5, x5); (i2, q6, x6);
        (i1, q7, x7); (a2, q8, x8); (i2, q9, x9); (a2, q10, x10); (a1, q11, x11); (i2, q12, x12); (i1, q13, x13); (a2, q14, x14);
        (a1, q15, x15); (i1, q16, x16)])) end.
    { eapply effect_ext; [|exact E]. intros k. cbn [contribs]. 
      repeat match goal with |- context [at_key ?k ?v ?kk] => generalize (at_key k v kk); intro end. lra. }
    clear E.
    erewrite sumR_ext.
    2:{ intros x _. unfold change. rewrite !val_value, (proj1 E2).
        rewrite (Rplus_comm (val s (x, q))). unfold Rminus. rewrite Rplus_assoc, Rplus_opp_r, Rplus_0_r. reflexivity. }
    rewrite contribs_total; [|exact ND|].
    2:{ intros sp q' x Hin. cbn [In] in Hin.
        repeat destruct Hin as [Hin|Hin]; try (injection Hin as <- _ _; assumption). destruct Hin. }
    clear E2. cbn [totals]. unfold SQ.
    destruct (String.eqb "density_source" q), (String.eqb "momentum_source" q), (String.eqb "energy_source" q),
      (String.eqb "collision_frequency" q), no_gain; lra.
  Qed.

  Lemma hcx_density w :
    sumR (fun sp => w sp * change s s' sp "density_source") L = swap * (w i2 - w a1 + (w a2 - w i1)).
  Proof. rewrite hcx_total. names. lra. Qed.

  Lemma hcx_momentum w :
    sumR (fun sp => w sp * change s s' sp "momentum_source") L
    = rate * (value s a1 "AA" * value s a1 "velocity" * ((if no_gain then 0 else w i2) - w a1)
              + value s i1 "AA" * value s i1 "velocity" * (w a2 - w i1)).
  Proof. rewrite hcx_total. names. lra. Qed.

  Lemma hcx_energy :
    sumR (fun sp => change s s' sp "energy_source") L
    = 0.5 * rate * (value s a1 "AA" * (value s i2 "velocity" - value s a1 "velocity") ^ 2
                    + value s i1 "AA" * (value s a2 "velocity" - value s i1 "velocity") ^ 2).
  Proof.
    rewrite (sumR_ext _ (fun sp => (fun _ => 1) sp * change s s' sp "energy_source")) by (intros; cbv beta; lra).
    rewrite hcx_total. names. lra.
  Qed.

  (* The total energy is conserved when particles are exchanged, and also when they are not (the same
     isotope) because then the species coincide. *)
  Lemma hcx_energy_gain :
    no_gain = false ->
    (a1 = a2 /\ i1 = i2 \/ a1 <> a2 \/ i1 <> i2) ->
    sumR (fun sp => energy_gain s s' sp) L = 0.
  Proof.
    intros Hg Hn. destruct (hydrogen_cx_effect nm a1 i1 a2 i2 mult no_gain s s' F) as (EA & EB & _).
    rewrite <- !val_value in *.
    unfold energy_gain. cbv zeta.
    rewrite (sumR_ext _ (fun sp => change s s' sp "energy_source" + value s sp "velocity" * change s s' sp "momentum_source"
       + - (1 / 2 * value s sp "AA" * value s sp "velocity" ^ 2) * change s s' sp "density_source")) by (intros; lra).
    rewrite !sumR_plus, hcx_energy, (hcx_momentum (fun sp => value s sp "velocity")),
      (hcx_density (fun sp => - (1 / 2 * value s sp "AA" * value s sp "velocity" ^ 2))).
    rewrite EA, EB, Hg. unfold swap, hcx_swap. fold rate.
    destruct Hn as [[<- <-]|Hn].
    - rewrite !String.eqb_refl. cbn [negb orb]. rewrite EB in *. lra.
    - replace (negb (String.eqb a1 a2) || negb (String.eqb i1 i2))%bool with true; [lra|].
      symmetry. apply orb_true_iff. rewrite !negb_true_iff, !String.eqb_neq. exact Hn.
  Qed.

End HydrogenCXLaws.
