(** Concrete cases for the theorems about reactions. *)

From Coq Require Import List Bool String Reals Lra Lia.
From Verif Require Import OptionsModel OptionsSpec StateMonad StateSpec StateMonadProofs StateEffects
  LimitersModel LimitersProofs ReactionsModel AmjuelTables ReactionsSpec ReactionsProofs ReactionsAdasProofs ReactionsCxProofs
  ReactionsTableProofs ReactionsLaws CollisionsExamples.
Import ListNotations.
Open Scope R_scope.
Open Scope string_scope.

Definition ex_norms : norms := mkNorms 10 1e19 1e6.
Definition ex_state : State * unit :=
  (state_of
     [(("e", "density"), 2); (("e", "temperature"), 1); (("e", "velocity"), 2); (("e", "AA"), 1 / 1836);
      (("h", "density"), 3); (("h", "temperature"), 1); (("h", "velocity"), 1); (("h", "AA"), 1);
      (("h+", "density"), 2); (("h+", "temperature"), 2); (("h+", "velocity"), 5); (("h+", "AA"), 1);
      (("h+", "charge"), 1); (("h+", "density_source"), 7)], tt).
Definition ex_cell : cell := uniform_cell (val ex_state).

Lemma Reqb_refl x : Reqb x x = true.
Proof. now apply Reqb_true. Qed.

Lemma ready_of st : ready W (state_of st, tt) (state_of st, tt).
Proof. apply ready_start. intros. apply state_of_unmarked. Qed.

Ltac vals st l :=
  lazymatch l with
  | nil => idtac
  | (?k, ?v) :: ?l' =>
      let V := fresh "V" in assert (V : val st k = v) by reflexivity; vals st l'
  end.

Section Runs.
  Variables (nm : norms) (c : cell) (rt rad : table) (heating m1 m2 : R).
  Hypotheses (S1 : square 9 rt) (S2 : square 9 rad).

  Lemma ionisation_runs : halts (electron_reaction nm c "e" "h" "h+" 9 9 rt rad heating m1 m2) ex_state.
  Proof.
    pose proof (ready_of _ : ready W ex_state ex_state) as R0.
    assert (V1 : val ex_state ("h", "AA") = 1) by reflexivity.
    assert (V2 : val ex_state ("h+", "AA") = 1) by reflexivity.
    assert (V3 : val ex_state ("h+", "charge") = 1) by reflexivity.
    unfold electron_reaction, charge_or_0.
    rewrite (square_reads 9 rt S1), (square_reads 9 rad S2). cbn [andb negb].
    run_all ex_state R0 idtac
      ltac:(rewrite ?V1, ?V2, ?V3, ?Reqb_refl, ?(Reqb_false 0 1), ?(Reqb_false 1 0) by lra; cbn [negb]).
  Qed.
  Lemma recombination_runs : halts (electron_reaction nm c "e" "h+" "h" 9 9 rt rad heating m1 m2) ex_state.
  Proof.
    pose proof (ready_of _ : ready W ex_state ex_state) as R0.
    assert (V1 : val ex_state ("h", "AA") = 1) by reflexivity.
    assert (V2 : val ex_state ("h+", "AA") = 1) by reflexivity.
    assert (V3 : val ex_state ("h+", "charge") = 1) by reflexivity.
    unfold electron_reaction, charge_or_0.
    rewrite (square_reads 9 rt S1), (square_reads 9 rad S2). cbn [andb negb].
    run_all ex_state R0 idtac
      ltac:(rewrite ?V1, ?V2, ?V3, ?Reqb_refl, ?(Reqb_false 0 1), ?(Reqb_false 1 0) by lra; cbn [negb]).
  Qed.
End Runs.

Lemma nodup_eh : NoDup ["e"; "h"; "h+"].
Proof. repeat constructor; cbn; intuition discriminate. Qed.
Lemma nodup_hpe : NoDup ["e"; "h+"; "h"].
Proof. repeat constructor; cbn; intuition discriminate. Qed.

Lemma amjuel_case :
  NoDup ["e"; "h"; "h+"] /\ NoDup ["e"; "h+"; "h"] /\
  square 9 hyd_ionisation_rate_coefs /\ square 9 hyd_recombination_rate_coefs /\
  (exists s' out, finishes (hyd_ionisation ex_norms ex_cell "h" hyd_ionisation_rate_coefs
                              hyd_ionisation_radiation_coefs 1 1) ex_state s' out) /\
  (exists s' out, finishes (hyd_recombination ex_norms ex_cell "h" hyd_recombination_rate_coefs
                              hyd_recombination_radiation_coefs 1 1) ex_state s' out).
Proof.
  split; [exact nodup_eh|]. split; [exact nodup_hpe|].
  pose proof tables_square as (T1 & T2 & T3 & T4 & _).
  split; [exact T1|]. split; [exact T3|]. split.
  - exact (ionisation_runs ex_norms ex_cell _ _ 0 1 1 T1 T2).
  - exact (recombination_runs ex_norms ex_cell _ _ 13.6 1 1 T3 T4).
Qed.

(** The rate on the example state is positive. *)
Lemma source_uniform nm el sp k t u m :
  amjuel_source nm ex_cell el sp k t u m ex_state
  = value ex_state el "density" * value ex_state sp "density"
    * amjuel_fit k (entry t) (clamp 0.1 1e4 (value ex_state el "temperature" * Tnorm nm))
        (clamp 1e14 1e22 (value ex_state el "density" * Nnorm nm)) * Nnorm nm / u * m.
Proof. unfold amjuel_source, ex_cell. rewrite average_uniform. reflexivity. Qed.

Lemma fit_pos k t x y : 0 < amjuel_fit k t x y.
Proof. unfold amjuel_fit. apply Rmult_lt_0_compat; [apply exp_pos|lra]. Qed.

Lemma source_positive sp k t :
  0 < value ex_state sp "density" ->
  0 < amjuel_source ex_norms ex_cell "e" sp k t (FreqNorm ex_norms) 1 ex_state.
Proof.
  intros H. rewrite source_uniform.
  replace (value ex_state "e" "density") with 2 by reflexivity.
  pose proof (fit_pos k (entry t) (clamp 0.1 1e4 (value ex_state "e" "temperature" * Tnorm ex_norms))
        (clamp 1e14 1e22 (2 * Nnorm ex_norms))) as P.
  set (f := amjuel_fit _ _ _ _) in *. clearbody f.
  assert (Q1 : 0 < Nnorm ex_norms) by (cbn [Nnorm ex_norms]; lra).
  assert (Q2 : 0 < / FreqNorm ex_norms) by (apply Rinv_0_lt_compat; cbn [FreqNorm ex_norms]; lra).
  set (a := Nnorm ex_norms) in *. unfold Rdiv. set (b := / FreqNorm ex_norms) in *. clearbody a b.
  set (d := value ex_state sp "density") in *. clearbody d.
  assert (0 < 2 * d) by lra. assert (0 < 2 * d * f) by (now apply Rmult_lt_0_compat).
  assert (0 < 2 * d * f * a) by (now apply Rmult_lt_0_compat).
  assert (0 < 2 * d * f * a * b) by (now apply Rmult_lt_0_compat). lra.
Qed.

Lemma recombination_case :
  exists (s' : State * unit) out,
    finishes (hyd_recombination ex_norms ex_cell "h" hyd_recombination_rate_coefs
                hyd_recombination_radiation_coefs 1 1) ex_state s' out /\
    square 9 hyd_recombination_radiation_coefs /\
    change ex_state s' "h" "density_source" <> 0 /\
    value ex_state "h+" "velocity" <> value ex_state "h" "velocity".
Proof.
  pose proof tables_square as (_ & _ & T3 & T4 & _).
  destruct (recombination_runs ex_norms ex_cell _ _ 13.6 1 1 T3 T4) as (s' & out & F).
  exists s', out. split; [exact F|]. split; [exact T4|]. split.
  - rewrite (amjuel_rate_is_fit _ _ _ _ _ _ _ _ _ _ _ _ _ _ nodup_hpe T3 F).
    apply Rgt_not_eq. apply source_positive. change (0 < 2). lra.
  - change (5 <> 1). lra.
Qed.

Lemma potential_energy_refuted :
  exists nm c el fr to k rt rad heating rmult radmult (s s' : State * unit) out,
    NoDup [el; fr; to] /\ square k rt /\ square k rad /\
    finishes (electron_reaction nm c el fr to k k rt rad heating rmult radmult) s s' out /\
    energy_gain s s' el
    <> heating / Tnorm nm * change s s' to "density_source"
       - amjuel_source nm c el fr k rad (Tnorm nm * FreqNorm nm) radmult s.
Proof.
  pose proof tables_square as (_ & _ & T3 & T4 & _).
  destruct (recombination_runs ex_norms ex_cell _ _ 13.6 1 2 T3 T4) as (s' & out & F).
  exists ex_norms, ex_cell, "e", "h+", "h", 9%nat, hyd_recombination_rate_coefs, hyd_recombination_radiation_coefs,
    13.6, 1, 2, ex_state, s', out.
  split; [exact nodup_hpe|]. split; [exact T3|]. split; [exact T4|]. split; [exact F|].
  destruct (amjuel_energy _ _ _ _ _ _ _ _ _ _ _ _ _ _ nodup_hpe T4 F) as (_ & _ & _ & _ & ->).
  rewrite (amjuel_rate_is_fit _ _ _ _ _ _ _ _ _ _ _ _ _ _ nodup_hpe T3 F).
  pose proof (source_positive "h+" 9 hyd_recombination_rate_coefs ltac:(change (0 < 2); lra)) as P.
  set (x := amjuel_source _ _ _ _ _ hyd_recombination_rate_coefs _ _ _) in *. clearbody x.
  set (y := amjuel_source _ _ _ _ _ _ _ _ _). clearbody y.
  cbn [Tnorm ex_norms]. lra.
Qed.

(** ** OpenADAS *)

Lemma adas_runs nm c rc radc heating : halts (adas_rates nm c rc radc heating "e" "h" "h+") ex_state.
Proof.
  pose proof (ready_of _ : ready W ex_state ex_state) as R0.
  assert (V1 : val ex_state ("h", "AA") = 1) by reflexivity.
  assert (V2 : val ex_state ("h+", "AA") = 1) by reflexivity.
  assert (V3 : val ex_state ("h+", "charge") = 1) by reflexivity.
  unfold adas_rates, charge_or_0.
  run_all ex_state R0 idtac
    ltac:(rewrite ?V1, ?V2, ?V3, ?Reqb_refl, ?(Reqb_false 0 1), ?(Reqb_false 1 0) by lra; cbn [negb]).
Qed.

Lemma adas_case :
  NoDup ["e"; "h"; "h+"] /\
  exists s', finishes (adas_rates ex_norms ex_cell (fun _ _ => 1) (fun _ _ => 2) 3 "e" "h" "h+") ex_state s' tt.
Proof. split; [exact nodup_eh|]. apply halts_unit, adas_runs. Qed.

Lemma rfloor_id x m : m <= x -> rfloor x m = x.
Proof. intros H. unfold rfloor. cases_R; lra. Qed.

Lemma adas_energy_refuted :
  exists nm c rc radc heating el fr to (s s' : State * unit),
    NoDup [el; fr; to] /\
    finishes (adas_rates nm c rc radc heating el fr to) s s' tt /\
    energy_gain s s' fr + energy_gain s s' to <> 0.
Proof.
  destruct (halts_unit _ _ (adas_runs (mkNorms 1 1 1) ex_cell (fun _ _ => 1) (fun _ _ => 1) 0)) as [s' F].
  exists (mkNorms 1 1 1), ex_cell, (fun _ _ => 1), (fun _ _ => 1), 0, "e", "h", "h+", ex_state, s'.
  split; [exact nodup_eh|]. split; [exact F|].
  rewrite (adas_energy_defect _ _ _ _ _ _ _ _ _ _ nodup_eh F).
  destruct (nodup3 _ _ _ nodup_eh) as (N1 & N2 & N3).
  destruct (adas_effect _ _ _ _ _ _ _ _ _ _ F) as (_ & E).
  unfold change. values E.
  unfold adas_rate, ex_cell. rewrite average_uniform. cbn [map snd Tnorm Nnorm FreqNorm].
  change (val ex_state ("e", "density")) with 2. change (val ex_state ("h", "density")) with 3.
  change (val ex_state ("h", "AA")) with 1. change (val ex_state ("h", "velocity")) with 1.
  change (val ex_state ("h+", "velocity")) with 5.
  rewrite !rfloor_id by lra. lra.
Qed.

(** ** Charge exchange *)

Definition cx_state : State * unit :=
  (state_of
     [(("e", "density"), 2); (("e", "temperature"), 1);
      (("h", "density"), 3); (("h", "temperature"), 1); (("h", "velocity"), 1); (("h", "AA"), 1);
      (("h+", "density"), 2); (("h+", "temperature"), 2); (("h+", "velocity"), 5); (("h+", "AA"), 1); (("h+", "charge"), 1);
      (("d", "density"), 3); (("d", "temperature"), 1); (("d", "velocity"), 1); (("d", "AA"), 2);
      (("d+", "density"), 2); (("d+", "temperature"), 2); (("d+", "velocity"), 5); (("d+", "AA"), 2); (("d+", "charge"), 1);
      (("c", "density"), 1); (("c", "temperature"), 1); (("c", "velocity"), 1); (("c", "AA"), 12);
      (("c+", "density"), 1); (("c+", "temperature"), 2); (("c+", "velocity"), 4); (("c+", "AA"), 12); (("c+", "charge"), 1)], tt).

Lemma cx_runs nm mult no_gain : halts (hydrogen_cx nm "h" "d+" "d" "h+" mult no_gain) cx_state.
Proof.
  pose proof (ready_of _ : ready W cx_state cx_state) as R0.
  assert (V1 : val cx_state ("h", "AA") = 1) by reflexivity.
  assert (V2 : val cx_state ("h+", "AA") = 1) by reflexivity.
  assert (V3 : val cx_state ("d", "AA") = 2) by reflexivity.
  assert (V4 : val cx_state ("d+", "AA") = 2) by reflexivity.
  unfold hydrogen_cx. destruct no_gain; cbn [negb].
  all: run_all cx_state R0 idtac ltac:(rewrite ?V1, ?V2, ?V3, ?V4, ?Reqb_refl; cbn [negb orb]).
Qed.
Lemma cx_runs_same nm mult no_gain : halts (hydrogen_cx nm "h" "h+" "h" "h+" mult no_gain) cx_state.
Proof.
  pose proof (ready_of _ : ready W cx_state cx_state) as R0.
  assert (V1 : val cx_state ("h", "AA") = 1) by reflexivity.
  assert (V2 : val cx_state ("h+", "AA") = 1) by reflexivity.
  unfold hydrogen_cx. destruct no_gain; cbn [negb].
  all: run_all cx_state R0 idtac ltac:(rewrite ?V1, ?V2, ?Reqb_refl; cbn [negb orb]).
Qed.

Lemma hcx_rate_pos nm a i mult s : 0 < Nnorm nm -> 0 < FreqNorm nm -> 0 < mult -> 0 < hcx_rate nm a i mult s.
Proof.
  intros H1 H2 H3. unfold hcx_rate, hcx_sigmav, cx_sigmav.
  assert (P : forall x, 0 < rfloor x 1e-5) by (intros x; unfold rfloor; cases_R; lra).
  set (e := exp _). assert (Pe : 0 < e) by apply exp_pos. clearbody e.
  assert (Pf : 0 < / FreqNorm nm) by (now apply Rinv_0_lt_compat).
  set (c := 1e-6). assert (Pc : 0 < c) by (unfold c; lra). clearbody c. unfold Rdiv.
  pose proof (P (val s (a, "density"))) as Pa. pose proof (P (val s (i, "density"))) as Pi.
  set (x := rfloor _ _) in *. set (y := rfloor _ _) in *. clearbody x y.
  apply Rmult_lt_0_compat; [now apply Rmult_lt_0_compat|].
  apply Rmult_lt_0_compat; [|exact H3]. apply Rmult_lt_0_compat; [exact Pe|].
  apply Rmult_lt_0_compat; [|exact Pf]. now apply Rmult_lt_0_compat.
Qed.

(** Conservation over a list of the species. *)
Lemma hcx_conserves nm a1 i1 a2 i2 mult (s s' : State * unit) L :
  NoDup L -> In a1 L -> In i1 L -> In a2 L -> In i2 L ->
  finishes (hydrogen_cx nm a1 i1 a2 i2 mult false) s s' tt ->
  sumR (fun sp => change s s' sp "momentum_source") L = 0 /\
  sumR (fun sp => energy_gain s s' sp) L = 0 /\
  sumR (fun sp => change s s' sp "density_source") L = 0 /\
  only_sources s s' [a1; i1; a2; i2].
Proof.
  intros ND L1 L2 L3 L4 F.
  assert (One : forall q, sumR (fun sp => change s s' sp q) L = sumR (fun sp => (fun _ => 1) sp * change s s' sp q) L)
    by (intros q; apply sumR_ext; intros; cbv beta; lra).
  rewrite !One, (hcx_momentum nm a1 i1 a2 i2 mult false s s' L ND L1 L2 L3 L4 F),
    (hcx_density nm a1 i1 a2 i2 mult false s s' L ND L1 L2 L3 L4 F).
  split; [lra|]. split; [|split; [lra|exact (hcx_only nm a1 i1 a2 i2 mult false s s' F)]].
  apply (hcx_energy_gain nm a1 i1 a2 i2 mult false s s' L ND L1 L2 L3 L4 F eq_refl).
  destruct (String.string_dec a1 a2) as [->|]; [|auto]. destruct (String.string_dec i1 i2) as [->|]; auto.
Qed.

Definition six := ["h"; "d"; "t"; "h+"; "d+"; "t+"].
Lemma nodup_six : NoDup six.
Proof. repeat constructor; cbn; intuition discriminate. Qed.
Lemma in_six iso : In iso ["h"; "d"; "t"] -> In iso six /\ In (iso ++ "+") six.
Proof. cbn. intuition (subst; cbn; auto 10). Qed.

Lemma hcx_isotopes nm iso1 iso2 mult no_gain (s s' : State * unit) :
  In iso1 ["h"; "d"; "t"] -> In iso2 ["h"; "d"; "t"] ->
  finishes (hydrogen_cx_isotopes nm iso1 iso2 mult no_gain) s s' tt ->
  (forall iso, In iso ["h"; "d"; "t"] ->
     change s s' iso "density_source" + change s s' (iso ++ "+") "density_source" = 0) /\
  change s s' "h" "density_source" + change s s' "d" "density_source" + change s s' "t" "density_source" = 0 /\
  (iso1 = iso2 -> forall sp, change s s' sp "density_source" = 0).
Proof.
  intros I1 I2 F. unfold hydrogen_cx_isotopes in F.
  assert (D : forall w, sumR (fun sp => w sp * change s s' sp "density_source") six
     = hcx_swap nm iso1 (iso2 ++ "+") iso2 (iso1 ++ "+") mult s
       * (w (iso1 ++ "+") - w iso1 + (w iso2 - w (iso2 ++ "+")))).
  { intros w. apply in_six in I1 as [A1 A2]. apply in_six in I2 as [B1 B2].
    exact (hcx_density nm _ _ _ _ mult no_gain s s' six nodup_six A1 B2 B1 A2 F w). }
  set (x := hcx_swap _ _ _ _ _ _ _) in *. 
  split; [|split].
  - intros iso Hi.
    specialize (D (fun sp => if String.eqb sp iso then 1 else if String.eqb sp (iso ++ "+") then 1 else 0)).
    cbv beta in D. clearbody x. cbn in Hi, I1, I2.
    destruct Hi as [<-|[<-|[<-|[]]]], I1 as [<-|[<-|[<-|[]]]], I2 as [<-|[<-|[<-|[]]]];
      unfold six in D; cbn [sumR append] in D |- *; names; 
      repeat match type of D with context [String.eqb ?a ?b] =>
        let r := eval lazy in (String.eqb a b) in change (String.eqb a b) with r in D end; lra.
  - specialize (D (fun sp => if String.eqb sp "h" then 1 else if String.eqb sp "d" then 1
                             else if String.eqb sp "t" then 1 else 0)).
    cbv beta in D. clearbody x. cbn in I1, I2.
    destruct I1 as [<-|[<-|[<-|[]]]], I2 as [<-|[<-|[<-|[]]]];
      unfold six in D; cbn [sumR append] in D |- *;
      repeat match type of D with context [String.eqb ?a ?b] =>
        let r := eval lazy in (String.eqb a b) in change (String.eqb a b) with r in D end; lra.
  - intros <- sp. assert (X : x = 0).
    { unfold x, hcx_swap. rewrite !String.eqb_refl. reflexivity. }
    destruct (in_dec String.string_dec sp six) as [Hs|Hs].
    + specialize (D (fun sp' => if String.eqb sp sp' then 1 else 0)). rewrite X in D.
      rewrite (sumR_ext _ (fun sp' => if String.eqb sp sp' then (fun y => change s s' y "density_source") sp' else 0)) in D
        by (intros y _; destruct (String.eqb sp y); lra).
      rewrite sumR_one in D; auto using nodup_six. lra.
    + unfold change. rewrite (hcx_only _ _ _ _ _ _ _ _ _ F); [lra|]. left. intros Hn. apply Hs.
      apply in_six in I1 as [A1 A2]. cbn [In] in Hn. destruct Hn as [<-|[<-|[<-|[<-|[]]]]]; assumption.
Qed.

Lemma hcx_isotopes_energy nm iso1 iso2 mult (s s' : State * unit) :
  In iso1 ["h"; "d"; "t"] -> In iso2 ["h"; "d"; "t"] ->
  finishes (hydrogen_cx_isotopes nm iso1 iso2 mult false) s s' tt ->
  let species := ["h"; "d"; "t"; "h+"; "d+"; "t+"] in
  sumR (fun sp => change s s' sp "momentum_source") species = 0 /\
  sumR (fun sp => energy_gain s s' sp) species = 0.
Proof.
  intros I1 I2 F species. apply in_six in I1 as [A1 A2]. apply in_six in I2 as [B1 B2].
  destruct (hcx_conserves nm _ _ _ _ mult s s' six nodup_six A1 B2 B1 A2 F) as (H1 & H2 & _). auto.
Qed.

Lemma ex_norms_pos : 0 < Nnorm ex_norms /\ 0 < FreqNorm ex_norms.
Proof. cbn [Nnorm FreqNorm ex_norms]. lra. Qed.

Lemma option_refuted :
  exists nm a1 i1 a2 i2 mult (s s' : State * unit),
    NoDup [a1; i1; a2; i2] /\
    finishes (hydrogen_cx nm a1 i1 a2 i2 mult true) s s' tt /\
    change s s' a2 "momentum_source" <> 0 /\
    change s s' a1 "momentum_source" + change s s' i2 "momentum_source" <> 0.
Proof.
  destruct (halts_unit _ _ (cx_runs ex_norms 1 true)) as [s' F].
  exists ex_norms, "h", "d+", "d", "h+", 1, cx_state, s'.
  assert (ND : NoDup ["h"; "d+"; "d"; "h+"]) by (repeat constructor; cbn; intuition discriminate).
  split; [exact ND|]. split; [exact F|].
  destruct ex_norms_pos as [P1 P2].
  pose proof (hcx_rate_pos ex_norms "h" "d+" 1 cx_state P1 P2 ltac:(lra)) as P.
  pose proof (hcx_momentum ex_norms "h" "d+" "d" "h+" 1 true cx_state s' ["h"; "d+"; "d"; "h+"] ND ltac:(cbn; auto) ltac:(cbn; auto)
                ltac:(cbn; auto) ltac:(cbn; auto) F) as D.
  set (r := hcx_rate _ _ _ _ _) in *. clearbody r.
  pose proof (D (fun sp => if String.eqb sp "d" then 1 else 0)) as D1.
  pose proof (D (fun sp => if String.eqb sp "h" then 1 else if String.eqb sp "h+" then 1 else 0)) as D2.
  clear D. cbv beta in D1, D2. cbn [sumR] in D1, D2.
  repeat match type of D1 with context [String.eqb ?a ?b] =>
        let r := eval lazy in (String.eqb a b) in change (String.eqb a b) with r in D1 end.
  repeat match type of D2 with context [String.eqb ?a ?b] =>
        let r := eval lazy in (String.eqb a b) in change (String.eqb a b) with r in D2 end.
  cbv iota in D1, D2.
  change (value cx_state "h" "AA") with 1 in D1, D2. change (value cx_state "h" "velocity") with 1 in D1, D2.
  change (value cx_state "d+" "AA") with 2 in D1, D2. change (value cx_state "d+" "velocity") with 5 in D1, D2.
  split; lra.
Qed.

Lemma cx_case :
  (exists s', finishes (hydrogen_cx_isotopes ex_norms "h" "d" 1 false) cx_state s' tt /\
              change cx_state s' "d" "density_source" <> 0) /\
  (exists s', finishes (hydrogen_cx_isotopes ex_norms "h" "h" 1 false) cx_state s' tt /\
              change cx_state s' "h" "momentum_source" <> 0).
Proof.
  destruct ex_norms_pos as [P1 P2]. split.
  - destruct (halts_unit _ _ (cx_runs ex_norms 1 false)) as [s' F]. exists s'. split; [exact F|].
    pose proof (hcx_rate_pos ex_norms "h" "d+" 1 cx_state P1 P2 ltac:(lra)) as P.
    assert (ND : NoDup ["h"; "d+"; "d"; "h+"]) by (repeat constructor; cbn; intuition discriminate).
    pose proof (hcx_density ex_norms "h" "d+" "d" "h+" 1 false cx_state s' ["h"; "d+"; "d"; "h+"] ND ltac:(cbn; auto) ltac:(cbn; auto)
                ltac:(cbn; auto) ltac:(cbn; auto) F (fun sp => if String.eqb sp "d" then 1 else 0)) as D.
    unfold hcx_swap in D. set (r := hcx_rate _ _ _ _ _) in *. clearbody r. cbv beta in D. cbn [sumR] in D.
    repeat match type of D with context [String.eqb ?a ?b] =>
        let r := eval lazy in (String.eqb a b) in change (String.eqb a b) with r in D end.
    cbn [negb orb] in D. lra.
  - destruct (halts_unit _ _ (cx_runs_same ex_norms 1 false)) as [s' F]. exists s'. split; [exact F|].
    pose proof (hcx_rate_pos ex_norms "h" "h+" 1 cx_state P1 P2 ltac:(lra)) as P.
    assert (ND : NoDup ["h"; "h+"]) by (repeat constructor; cbn; intuition discriminate).
    pose proof (hcx_momentum ex_norms "h" "h+" "h" "h+" 1 false cx_state s' ["h"; "h+"] ND ltac:(cbn; auto) ltac:(cbn; auto)
                ltac:(cbn; auto) ltac:(cbn; auto) F (fun sp => if String.eqb sp "h" then 1 else 0)) as D.
    set (r := hcx_rate _ _ _ _ _) in *. clearbody r. cbv beta in D. cbn [sumR] in D.
    repeat match type of D with context [String.eqb ?a ?b] =>
        let r := eval lazy in (String.eqb a b) in change (String.eqb a b) with r in D end.
    cbv iota in D.
    change (value cx_state "h" "AA") with 1 in D. change (value cx_state "h" "velocity") with 1 in D.
    change (value cx_state "h+" "AA") with 1 in D. change (value cx_state "h+" "velocity") with 5 in D.
    lra.
Qed.

Lemma adas_cx_runs nm c rc : halts (adas_cx nm c rc "e" "c+" "d" "c" "d+") cx_state.
Proof.
  pose proof (ready_of _ : ready W cx_state cx_state) as R0.
  assert (V1 : val cx_state ("c", "AA") = 12) by reflexivity.
  assert (V2 : val cx_state ("c+", "AA") = 12) by reflexivity.
  assert (V3 : val cx_state ("d", "AA") = 2) by reflexivity.
  assert (V4 : val cx_state ("d+", "AA") = 2) by reflexivity.
  unfold adas_cx.
  run_all cx_state R0 idtac ltac:(rewrite ?V1, ?V2, ?V3, ?V4, ?Reqb_refl; cbn [negb orb]).
Qed.

Lemma adas_cx_case :
  NoDup ["c+"; "d"; "c"; "d+"] /\
  exists s', finishes (adas_cx ex_norms ex_cell (fun _ _ => 1) "e" "c+" "d" "c" "d+") cx_state s' tt /\
             change cx_state s' "c" "density_source" <> 0 /\
             value cx_state "c" "charge" + value cx_state "d+" "charge"
             - (value cx_state "c+" "charge" + value cx_state "d" "charge") = 0.
Proof.
  assert (ND : NoDup ["c+"; "d"; "c"; "d+"]) by (repeat constructor; cbn; intuition discriminate).
  split; [exact ND|].
  destruct (halts_unit _ _ (adas_cx_runs ex_norms ex_cell (fun _ _ => 1))) as [s' F].
  exists s'. split; [exact F|]. split.
  - destruct (adas_cx_values _ _ _ _ _ _ _ _ _ _ ND F "c+" "c" _ ltac:(auto) eq_refl) as (_ & -> & _).
    unfold adas_cx_rate, ex_cell. rewrite average_uniform. cbn [map snd].
    change (val cx_state ("c+", "density")) with 1. change (val cx_state ("d", "density")) with 3.
    rewrite !rfloor_id by lra.
    destruct ex_norms_pos as [P1 P2]. set (a := Nnorm ex_norms) in *. set (b := FreqNorm ex_norms) in *. clearbody a b.
    apply Rgt_not_eq. unfold Rdiv. apply Rmult_lt_0_compat; [lra|]. now apply Rinv_0_lt_compat.
  - change (value cx_state "c" "charge") with 0. change (value cx_state "d+" "charge") with 1.
    change (value cx_state "c+" "charge") with 1. change (value cx_state "d" "charge") with 0. lra.
Qed.

(** ** Tables *)

Definition ex_table : adas :=
  mkAdas [[1 + 3 * 2; 1 + 3 * 5]; [1 + 2 * 1 + 3 * 2 + 4 * 1 * 2; 1 + 2 * 1 + 3 * 5 + 4 * 1 * 5];
          [1 + 2 * 4 + 3 * 2 + 4 * 4 * 2; 1 + 2 * 4 + 3 * 5 + 4 * 4 * 5]]
    [0; 1; 4] [2; 5].

Lemma ex_table_case :
  table_ok ex_table /\
  clamped (log_temperature ex_table) (-5) = clamped (log_temperature ex_table) 0 /\
  (forall i j t d, nth_error (log_temperature ex_table) i = Some t -> nth_error (log_density ex_table) j = Some d ->
     coef (log_coeff ex_table) i j = Some (1 + 2 * t + 3 * d + 4 * t * d)).
Proof.
  split; [|split].
  - split; [|split; [|split; [|split]]].
    + intros [|[|[|i]]] [|[|[|j]]] a b Hij Ha Hb; cbn in Ha, Hb; try lia; try discriminate;
        try (injection Ha as <-); try (injection Hb as <-); try lra; destruct j; discriminate.
    + intros [|[|i]] [|[|j]] a b Hij Ha Hb; cbn in Ha, Hb; try lia; try discriminate;
        try (injection Ha as <-); try (injection Hb as <-); try lra; destruct j; discriminate.
    + cbn. lia.
    + cbn. lia.
    + split; [reflexivity|]. cbn [In ex_table log_coeff]. intros row [<-|[<-|[<-|[]]]]; reflexivity.
  - unfold clamped. f_equal. cbn [log_temperature ex_table hd last]. unfold clamp.
    pose proof (Rpower10_pos 0). pose proof (Rpower10_pos 4).
    rewrite !Rmin_right, !Rmax_left by lra. reflexivity.
  - intros [|[|[|i]]] [|[|j]] t d Ht Hd; cbn in Ht, Hd |- *; try discriminate;
      try (injection Ht as <-); try (injection Hd as <-); try (f_equal; lra);
      try (destruct i; discriminate); destruct j; discriminate.
Qed.

Lemma rectangular_refuted :
  exists rows cols t,
    (0 < cols < rows)%nat /\ List.length t = rows /\ (forall row, In row t -> List.length row = cols) /\
    forall T n, evaluate rows cols t T n = None.
Proof.
  exists 2%nat, 1%nat, [[1]; [1]]. split; [lia|]. split; [reflexivity|].
  assert (H : forall row, In row [[1]; [1]] -> List.length row = 1%nat).
  { cbn [In]. intros row [<-|[<-|[]]]; reflexivity. }
  split; [exact H|]. intros T n. apply evaluate_rectangular; auto with arith.
Qed.
