(** Laws of the registered reactions. *)

From Coq Require Import List Bool Ascii String ZArith Reals Lra Lia.
From Verif Require Import OptionsModel OptionsSpec StateMonad StateSpec StateMonadProofs StateEffects LimitersModel LimitersProofs
  RadiationModel ReactionsModel AmjuelTables ReactionsSpec ReactionsProofs ReactionsAdasProofs ReactionsCxProofs ReactionsTableProofs
  ReactionsLaws RegistryModel RegistrySpec RegistryProofs.
Import ListNotations.
Open Scope R_scope.
Open Scope string_scope.

(** ** The rates are not negative *)

Lemma rfloor_0 x : 0 <= rfloor x 0.
Proof. apply rfloor_ge. Qed.

Lemma scaled_rate a b r N f : 0 <= a -> 0 <= b -> 0 <= r -> 0 < N -> 0 < f -> 0 <= a * b * r * N / f.
Proof.
  intros. unfold Rdiv. apply Rmult_le_pos; [|apply Rlt_le, Rinv_0_lt_compat; assumption].
  apply Rmult_le_pos; [|lra]. apply Rmult_le_pos; [|assumption]. apply Rmult_le_pos; assumption.
Qed.

Lemma rate_of_nonneg rows cols t T n : 0 <= rate_of rows cols t T n.
Proof.
  unfold rate_of, evaluate. destruct (loop_n _ _ _ _ _ _ _ _) as [x|]; [|lra].
  apply Rmult_le_pos; [apply Rlt_le, exp_pos|lra].
Qed.

Section Rates.
  Variables (su : setup) (s : State * unit).
  Hypothesis Ph : physical su s.

  Lemma adas_rate_nonneg file level el fr :
    0 <= adas_rate (su_norms su) (su_cell su) (su_table su file level) el fr s.
  Proof using Ph.
    destruct Ph as (HN & HF & Hm & Hc & Hp & HM & HT & HD & HE).
    unfold adas_rate, average. apply average_nonneg; try assumption; cbn [map t_m t_c t_p fst snd];
      apply scaled_rate; auto using rfloor_0.
  Qed.
  Lemma adas_cx_rate_nonneg file level el fA fB :
    0 <= adas_cx_rate (su_norms su) (su_cell su) (su_table su file level) el fA fB s.
  Proof using Ph.
    destruct Ph as (HN & HF & Hm & Hc & Hp & HM & HT & HD & HE).
    unfold adas_cx_rate, average. apply average_nonneg; try assumption; cbn [map t_m t_c t_p fst snd];
      apply scaled_rate; auto using rfloor_0.
  Qed.
  Lemma amjuel_rate_nonneg el fr rows cols t :
    0 <= amjuel_rate (su_norms su) (su_cell su) el fr rows cols t (su_rate_multiplier su) s.
  Proof using Ph.
    destruct Ph as (HN & HF & Hm & Hc & Hp & HM & HT & HD & HE).
    destruct (HD el) as (E1 & E2 & E3). destruct (HD fr) as (F1 & F2 & F3).
    rewrite val_value in E1, F1.
    destruct (HE _ _ _ E2 E1 E3) as (A1 & A2). destruct (HE _ _ _ F2 F1 F3) as (B1 & B2).
    unfold amjuel_rate, average. apply average_nonneg; try assumption; cbn [map t_m t_c t_p fst snd];
      (apply Rmult_le_pos; [|assumption]); apply scaled_rate; auto using rate_of_nonneg.
  Qed.
  Lemma hcx_swap_nonneg a1 i1 a2 i2 : 0 <= hcx_swap (su_norms su) a1 i1 a2 i2 (su_rate_multiplier su) s.
  Proof using Ph.
    destruct Ph as (HN & HF & Hm & Hc & Hp & HM & HT & HD & HE).
    unfold hcx_swap. destruct (_ || _)%bool; [|lra]. unfold hcx_rate.
    assert (0 <= hcx_sigmav (su_norms su) a1 i1 (su_rate_multiplier su) s) as Hs.
    { unfold hcx_sigmav, cx_sigmav. apply Rmult_le_pos; [|assumption]. apply Rmult_le_pos; [apply Rlt_le, exp_pos|].
      apply Rlt_le, Rdiv_lt_0_compat; [|assumption]. apply Rmult_lt_0_compat; [lra|assumption]. }
    pose proof (rfloor_ge (val s (a1, "density")) 1e-5). pose proof (rfloor_ge (val s (i1, "density")) 1e-5).
    apply Rmult_le_pos; [|assumption]. apply Rmult_le_pos; lra.
  Qed.
End Rates.

(** ** The sources of particles follow the formula *)


Lemma follows su name r (s s' : State * unit) f :
  List.In (name, r) registry -> formula name = Some f -> charges_as_named s (fst f ++ snd f)%list ->
  finishes (perform su r) s s' tt ->
  exists rate, (forall sp, change s s' sp "density_source" = IZR (made f sp) * rate) /\ (physical su s -> 0 <= rate).
Proof.
  intros Hin Hf HC F. rewrite (formula_of name r Hin) in Hf. injection Hf as <-.
  pose proof all_charges_ok as CK. rewrite forallb_forall in CK. specialize (CK _ Hin). unfold charges_ok in CK. cbn [snd] in CK.
  assert (Hq : forall fr to k d, expected r = impact fr to k ->
      (Z.eqb (charge to) (charge fr + d) && negb (String.eqb fr "e") && negb (String.eqb to "e"))%bool = true ->
      val s (to, "charge") - val s (fr, "charge") = IZR d).
  { intros fr to k d He Hb. apply andb_true_iff in Hb as [Hb N2]. apply andb_true_iff in Hb as [Hz N1].
    apply Z.eqb_eq in Hz. apply negb_true_iff in N1, N2. apply String.eqb_neq in N1, N2.
    rewrite He in HC. unfold impact in HC. cbn [fst snd] in HC.
    assert (H1 : value s fr "charge" = IZR (charge fr)) by (apply (HC 1%nat); auto; cbn [List.In app]; auto).
    assert (H2 : value s to "charge" = IZR (charge to)) by (apply (HC 1%nat); auto; apply in_or_app; right; cbn [List.In]; auto).
    rewrite !val_value in H1, H2. rewrite H1, H2, Hz, plus_IZR. lra. }
  destruct r as [i|i| | |i j|i|el l|el l|el l i]; cbn [perform] in F; cbv zeta in F; cbn [expected] in *; unfold impact in CK; cbn [fst snd] in CK.
  - apply bind_finishes in F as (s1 & out & F & F2). apply ret_finishes in F2 as [-> _].
    unfold hyd_ionisation in F. eexists; split.
    + intros sp. refine (amjuel_made _ _ _ _ _ _ _ _ _ _ _ s s1 out 2%nat sp _ F).
      rewrite (Hq _ _ 2%nat 1%Z eq_refl CK). cbn [INR]. lra.
    + intros. now apply amjuel_rate_nonneg.
  - apply bind_finishes in F as (s1 & out & F & F2). apply ret_finishes in F2 as [-> _].
    unfold hyd_recombination in F. eexists; split.
    + intros sp. refine (amjuel_made _ _ _ _ _ _ _ _ _ _ _ s s1 out 0%nat sp _ F).
      rewrite (Hq _ _ 0%nat (-1)%Z eq_refl CK). cbn [INR]. lra.
    + intros. now apply amjuel_rate_nonneg.
  - apply bind_finishes in F as (s1 & out & F & F2). apply ret_finishes in F2 as [-> _].
    unfold he_ionisation in F. eexists; split.
    + intros sp. refine (amjuel_made _ _ _ _ _ _ _ _ _ _ _ s s1 out 2%nat sp _ F).
      rewrite (Hq _ _ 2%nat 1%Z eq_refl CK). cbn [INR]. lra.
    + intros. now apply amjuel_rate_nonneg.
  - apply bind_finishes in F as (s1 & out & F & F2). apply ret_finishes in F2 as [-> _].
    unfold he_recombination in F. eexists; split.
    + intros sp. refine (amjuel_made _ _ _ _ _ _ _ _ _ _ _ s s1 out 0%nat sp _ F).
      rewrite (Hq _ _ 0%nat (-1)%Z eq_refl CK). cbn [INR]. lra.
    + intros. now apply amjuel_rate_nonneg.
  - unfold hydrogen_cx_isotopes in F. eexists; split; [intros sp; exact (hyd_cx_made _ _ _ _ _ _ _ s s' sp F)|intros; now apply hcx_swap_nonneg].
  - exists 0. split; [intros sp; rewrite (solkit_made _ _ _ s s' sp F); ring|intros; lra].
  - eexists; split.
    + intros sp. refine (adas_made _ _ _ _ _ _ _ s s' 2%nat sp _ F).
      rewrite (Hq _ _ 2%nat 1%Z eq_refl CK). cbn [INR]. lra.
    + intros. now apply adas_rate_nonneg.
  - eexists; split.
    + intros sp. refine (adas_made _ _ _ _ _ _ _ s s' 0%nat sp _ F).
      rewrite (Hq _ _ 0%nat (-1)%Z eq_refl CK). cbn [INR]. lra.
    + intros. now apply adas_rate_nonneg.
  - eexists; split; [intros sp; exact (adas_cx_made _ _ _ _ _ _ _ s s' sp F)|intros; now apply adas_cx_rate_nonneg].
Qed.

(** ** The species of each element *)

Lemma species_names el k : (k <= List.length (ionisation_energy el))%nat ->
  charge (species_name el k) = Z.of_nat k /\ nucleus (species_name el k) = symbol el.
Proof.
  destruct el; cbn [ionisation_energy List.length]; intros H;
    do 11 (destruct k as [|k]; [first [exfalso; lia|vm_compute; split; reflexivity]|]); exfalso; lia.
Qed.

Definition registered (r : reaction) : Prop := exists name, List.In (name, r) registry.
Definition element_eqb (a b : element) : bool :=
  match a, b with Carbon, Carbon | Lithium, Lithium | Neon, Neon => true | _, _ => false end.
Definition reaction_eqb (a b : reaction) : bool :=
  match a, b with
  | Adas_ionisation e l, Adas_ionisation e' l' => (element_eqb e e' && Nat.eqb l l')%bool
  | Adas_recombination e l, Adas_recombination e' l' => (element_eqb e e' && Nat.eqb l l')%bool
  | Adas_cx e l i, Adas_cx e' l' i' => (element_eqb e e' && Nat.eqb l l' && String.eqb i i')%bool
  | _, _ => false
  end.
Lemma element_eqb_eq a b : element_eqb a b = true -> a = b.
Proof. destruct a, b; cbn; intros H; auto; discriminate. Qed.
Lemma reaction_eqb_eq a b : reaction_eqb a b = true -> a = b.
Proof.
  destruct a, b; cbn [reaction_eqb]; intros H; try discriminate;
    repeat match goal with H : (_ && _)%bool = true |- _ => apply andb_true_iff in H as [? ?] end;
    repeat match goal with
    | H : element_eqb _ _ = true |- _ => apply element_eqb_eq in H
    | H : Nat.eqb _ _ = true |- _ => apply Nat.eqb_eq in H
    | H : String.eqb _ _ = true |- _ => apply String.eqb_eq in H end; now subst.
Qed.
Lemma find_registered r : existsb (fun p => reaction_eqb r (snd p)) registry = true -> registered r.
Proof.
  intros H. apply existsb_exists in H as ((name & r') & Hi & E). cbn [snd] in E. apply reaction_eqb_eq in E. subst. now exists name.
Qed.
Lemma all_levels el k : (k < List.length (ionisation_energy el))%nat ->
  registered (Adas_ionisation el k) /\ registered (Adas_recombination el k) /\
  (forall iso, List.In iso ["h"; "d"; "t"] -> registered (Adas_cx el k iso)).
Proof.
  destruct el; cbn [ionisation_energy List.length]; intros H;
    do 10 (destruct k as [|k]; [first [exfalso; lia|split; [apply find_registered; vm_compute; reflexivity|];
      split; [apply find_registered; vm_compute; reflexivity|];
      intros iso Hi; cbn [List.In] in Hi; destruct Hi as [<-|[<-|[<-|[]]]]; apply find_registered; vm_compute; reflexivity]
      |]); exfalso; lia.
Qed.

(** ** Energies *)

Lemma energies_increase el : increasing (ionisation_energy el) /\ Forall (fun e => 0 < e) (ionisation_energy el).
Proof.
  split.
  - intros i j a b Hij Ha Hb.
    destruct el; cbn [ionisation_energy] in *;
      do 11 (destruct i as [|i]; [
        do 11 (destruct j as [|j]; [first [exfalso; lia|injection Ha as <-; injection Hb as <-; lra|discriminate Hb]|]);
        destruct j; discriminate Hb
      |]); destruct i; discriminate Ha.
  - destruct el; cbn [ionisation_energy]; repeat (apply Forall_cons; [lra|]); apply Forall_nil.
Qed.

Definition heating_code (r : reaction) : option (element * nat * bool) :=
  match r with
  | Adas_ionisation el l => Some (el, l, true)
  | Adas_recombination el l => Some (el, l, false)
  | _ => None
  end.
Definition opposite_code (a b : option (element * nat * bool)) : bool :=
  match a, b with
  | Some (e, l, s), Some (e', l', s') => (element_eqb e e' && Nat.eqb l l' && negb (Bool.eqb s s'))%bool
  | _, _ => false
  end.
Lemma opposite_heating a b : opposite_code (heating_code a) (heating_code b) = true -> adas_heating a = - adas_heating b.
Proof.
  destruct a, b; cbn [heating_code opposite_code]; intros H; try discriminate H;
    apply andb_true_iff in H as [H H3]; apply andb_true_iff in H as [H1 H2]; apply element_eqb_eq in H1; apply Nat.eqb_eq in H2;
    try discriminate H3; subst; cbn [adas_heating]; ring.
Qed.
Definition reverse_on (f g : side * side) : bool :=
  forallb (fun p => Z.eqb (made f (snd p)) (- made g (snd p))) (fst f ++ snd f)%list.
Definition is_impact (r : reaction) : bool := match r with Adas_ionisation _ _ | Adas_recombination _ _ => true | _ => false end.
Lemma reverse_pairs :
  forallb (fun p => forallb (fun q =>
    (negb (reverse_on (expected (snd p)) (expected (snd q))) || opposite_code (heating_code (snd p)) (heating_code (snd q)))%bool)
    (filter (fun q => is_impact (snd q)) registry)) (filter (fun q => is_impact (snd q)) registry) = true.
Proof. vm_compute. reflexivity. Qed.

Lemma reverse_heating n1 r1 n2 r2 f1 f2 :
  List.In (n1, r1) registry -> List.In (n2, r2) registry -> is_impact r1 = true -> is_impact r2 = true ->
  formula n1 = Some f1 -> formula n2 = Some f2 ->
  (forall sp, made f1 sp = (- made f2 sp)%Z) -> adas_heating r1 = - adas_heating r2.
Proof.
  intros H1 H2 I1 I2 F1 F2 HM. rewrite (formula_of n1 r1 H1) in F1. rewrite (formula_of n2 r2 H2) in F2.
  injection F1 as <-. injection F2 as <-.
  pose proof reverse_pairs as RP. rewrite forallb_forall in RP.
  assert (J1 : List.In (n1, r1) (filter (fun q => is_impact (snd q)) registry)) by (apply filter_In; auto).
  assert (J2 : List.In (n2, r2) (filter (fun q => is_impact (snd q)) registry)) by (apply filter_In; auto).
  specialize (RP _ J1). rewrite forallb_forall in RP. specialize (RP _ J2). cbn [snd] in RP.
  apply opposite_heating. apply orb_true_iff in RP as [RP|RP]; auto.
  exfalso. apply negb_true_iff in RP. enough (reverse_on (expected r1) (expected r2) = true) by congruence.
  unfold reverse_on. apply forallb_forall. intros [n sp] _. cbn [snd]. apply Z.eqb_eq. apply HM.
Qed.

(** ** The data files *)

Lemma axis_increasing l : increasing_Z l = true -> increasing (map axis_value l).
Proof.
  assert (Hd : forall l x y, increasing_Z (x :: l) = true -> List.In y l -> (x < y)%Z).
  { induction l0 as [|z l0 IH]; intros x y H Hi; [destruct Hi|].
    cbn [increasing_Z] in H. apply andb_true_iff in H as [H1 H2]. apply Z.ltb_lt in H1.
    destruct Hi as [<-|Hi]; auto. specialize (IH z y H2 Hi). lia. }
  intros H i j a b Hij Ha Hb.
  rewrite nth_error_map in Ha, Hb.
  destruct (nth_error l i) as [x|] eqn:Ei; [|discriminate]. destruct (nth_error l j) as [y|] eqn:Ej; [|discriminate].
  injection Ha as <-. injection Hb as <-.
  assert (x < y)%Z as Hxy.
  { clear - Hd H Hij Ei Ej. revert i j Hij Ei Ej. induction l as [|z l IH]; intros i j Hij Ei Ej.
    - destruct i; discriminate.
    - destruct j as [|j]; [lia|]. destruct i as [|i].
      + injection Ei as <-. apply (Hd l); auto. cbn [nth_error] in Ej. now apply nth_error_In in Ej.
      + cbn [nth_error] in Ei, Ej. assert (increasing_Z l = true) as Hl.
        { destruct l as [|z' l]; [reflexivity|]. cbn [increasing_Z] in H. now apply andb_true_iff in H. }
        apply (IH Hl i j); auto. lia. }
  unfold axis_value. apply IZR_lt in Hxy. unfold Rdiv. apply Rmult_lt_compat_r; [|assumption].
  apply Rinv_0_lt_compat. lra.
Qed.

Definition file_ok (f : data_file) : bool :=
  (increasing_Z (f_temperature f) && increasing_Z (f_density f)
   && Nat.leb 2 (List.length (f_temperature f)) && Nat.leb 2 (List.length (f_density f))
   && forallb (fun sh => (Nat.eqb (List.length sh) (List.length (f_temperature f))
                          && forallb (Nat.eqb (List.length (f_density f))) sh)%bool) (f_shape f))%bool.
Definition reads_ok (p : string * reaction) : bool :=
  forallb (fun fl => match find_file (fst fl) with
                     | Some f => (file_ok f && Nat.ltb (snd fl) (List.length (f_shape f)))%bool
                     | None => false end) (tables_read (snd p)).
Lemma all_reads_ok : forallb reads_ok registry = true.
Proof. vm_compute. reflexivity. Qed.

Lemma file_table f level coeff : file_ok f = true -> (level < List.length (f_shape f))%nat ->
  map (@List.length R) coeff = nth level (f_shape f) [] -> table_ok (table_of f coeff).
Proof.
  intros H Hl Hc. unfold file_ok in H. repeat (apply andb_true_iff in H as [H ?]).
  rewrite forallb_forall in H0. specialize (H0 _ (nth_In _ [] Hl)). apply andb_true_iff in H0 as [S1 S2].
  apply Nat.eqb_eq in S1. apply Nat.leb_le in H1, H2.
  unfold table_ok, table_of. cbn [log_temperature log_density].
  split; [now apply axis_increasing|]. split; [now apply axis_increasing|].
  rewrite !map_length. split; [assumption|]. split; [assumption|].
  unfold rectangular. cbn [log_coeff log_temperature log_density]. rewrite !map_length. split.
  - rewrite <- S1, <- Hc. now rewrite map_length.
  - intros row Hr. rewrite forallb_forall in S2.
    assert (List.In (List.length row) (nth level (f_shape f) [])) as Hi by (rewrite <- Hc; apply in_map; assumption).
    apply S2 in Hi. apply Nat.eqb_eq in Hi. auto.
Qed.

Lemma shipped_tables name r file level :
  List.In (name, r) registry -> List.In (file, level) (tables_read r) ->
  exists f, find_file file = Some f /\ (level < List.length (f_shape f))%nat /\
    forall coeff, map (@List.length R) coeff = nth level (f_shape f) [] ->
    forall T n, exists v, adas_evaluate (table_of f coeff) T n = Some v /\ 0 < v.
Proof.
  intros H Hi. pose proof all_reads_ok as A. rewrite forallb_forall in A. specialize (A _ H).
  unfold reads_ok in A. rewrite forallb_forall in A. specialize (A _ Hi). cbn [fst snd] in A.
  destruct (find_file file) as [f|]; [|discriminate]. apply andb_true_iff in A as [A1 A2]. apply Nat.ltb_lt in A2.
  exists f. split; [reflexivity|]. split; [assumption|]. intros coeff Hc. apply adas_total. now apply (file_table f level).
Qed.
