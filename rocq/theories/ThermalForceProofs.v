From Coq Require Import List Bool String Reals Lra.
From Verif Require Import OptionsModel OptionsSpec StateMonad StateSpec StateMonadProofs StateEffects
  ThermalForceModel ThermalForceSpec.
Import ListNotations.
Open Scope R_scope.
Open Scope string_scope.

Definition W (q : string) : bool := String.eqb q "momentum_source".

(** [m] changes only momentum sources, and their total over [l] not at all. *)
Definition exchanges {A} (l : list string) (m : TM A) : Prop :=
  forall s s' a, finishes m s s' a ->
    sumR (fun sp => val s' (sp, "momentum_source")) l = sumR (fun sp => val s (sp, "momentum_source")) l /\
    forall sp q, q <> "momentum_source" \/ ~ In sp l -> val s' (sp, q) = val s (sp, q).

Section L.
  Variable l : list string.
  Hypothesis ND : NoDup l.

  Lemma ex_ret {A} (a : A) : exchanges l (ret a).
  Proof. intros s s' b H. apply ret_finishes in H as [-> _]. auto. Qed.
  Lemma ex_bind {A B} (m : TM A) (f : A -> TM B) :
    exchanges l m -> (forall a, exchanges l (f a)) -> exchanges l (bind m f).
  Proof.
    intros Hm Hf s s' b H. apply bind_finishes in H as (s1 & a & H1 & H2).
    destruct (Hm _ _ _ H1) as [A1 B1]. destruct (Hf _ _ _ _ H2) as [A2 B2].
    split; [congruence|]. intros. rewrite B2, B1; auto.
  Qed.
  Lemma ex_same {A} (m : TM A) : (forall s s' a, finishes m s s' a -> same s s') -> exchanges l m.
  Proof.
    intros H s s' a F. destruct (H _ _ _ F) as (V & _). split.
    - apply sumR_ext. intros; apply V.
    - intros; apply V.
  Qed.
  Lemma ex_get k : exchanges l (mget k).
  Proof. apply ex_same. intros s s' a F. now apply get_finishes in F as (S & _). Qed.
  Lemma ex_get_nb k : exchanges l (mget_nb k).
  Proof. apply ex_same. intros s s' a F. now apply get_nb_finishes in F as (S & _). Qed.
  Lemma ex_is_set k : exchanges l (mis_set k).
  Proof. apply ex_same. intros s s' a F. now apply is_set_finishes in F as (S & _). Qed.
  Lemma ex_if {A} (b : bool) (m n : TM A) : exchanges l m -> exchanges l n -> exchanges l (if b then m else n).
  Proof. destruct b; auto. Qed.
  Lemma ex_mfor {A} (xs : list A) f : (forall x, In x xs -> exchanges l (f x)) -> exchanges l (mfor xs f).
  Proof.
    induction xs; intros H; cbn [mfor]; [apply ex_ret|].
    apply ex_bind; [apply H; now left|]. intros _. apply IHxs. intros; apply H; now right.
  Qed.
  Lemma ex_transfer a b x : In a l -> In b l ->
    exchanges l (madd (a, "momentum_source") x ;; msub (b, "momentum_source") x).
  Proof.
    intros Ha Hb s s' u H. apply bind_finishes in H as (s1 & [] & H1 & H2). destruct u.
    apply add_finishes in H1 as (A1 & _). apply sub_finishes in H2 as (A2 & _). unfold adds in *. split.
    - rewrite (sumR_ext _ (fun sp => val s (sp, "momentum_source") + at_key (a, "momentum_source") x (sp, "momentum_source")
                                     + at_key (b, "momentum_source") (- x) (sp, "momentum_source")))
        by (intros; rewrite A2, A1; lra).
      rewrite !sumR_plus, !sumR_at by auto. rewrite String.eqb_refl. lra.
    - intros sp q Hq. rewrite A2, A1. unfold at_key.
      rewrite !key_eqb_neq; [lra| |]; intros X; injection X as X1 X2; subst; destruct Hq; auto.
  Qed.
End L.

Ltac ex_auto :=
  repeat first
    [ apply ex_ret | apply ex_get | apply ex_get_nb | apply ex_is_set
    | match goal with
      | |- exchanges _ (madd _ _ ;; msub _ _) => apply ex_transfer; auto; fail
      | |- exchanges _ (if _ then _ else _) => apply ex_if
      | |- exchanges _ (bind _ _) => apply ex_bind; [|intros ?]
      | |- exchanges _ (let _ := _ in _) => cbv zeta
      end ].

Lemma ex_heavy_force l grad a b : NoDup l -> In a l -> In b l -> exchanges l (heavy_force grad a b).
Proof. intros. unfold heavy_force. ex_auto. Qed.
Lemma ex_ion_pair l grad a b : NoDup l -> In a l -> In b l -> exchanges l (ion_pair grad a b).
Proof. intros. unfold ion_pair. ex_auto; now apply ex_heavy_force. Qed.
Lemma ex_electron_force l grad a : NoDup l -> In "e" l -> In a l -> exchanges l (electron_force grad a).
Proof. intros. unfold electron_force. ex_auto. Qed.
Lemma ex_ion_loop l grad sub : NoDup l -> (forall x, In x sub -> In x l) -> exchanges l (ion_loop grad sub).
Proof.
  intros ND. induction sub as [|a sub IH]; intros Hs; cbn [ion_loop]; [apply ex_ret|].
  apply ex_bind; [|intros _; apply IH; intros; apply Hs; now right].
  ex_auto. apply ex_mfor. intros x Hx. apply ex_ion_pair; auto; apply Hs; [now left|now right].
Qed.

Lemma thermal_force_exchanges l ei ii grad : NoDup l -> exchanges l (thermal_force ei ii grad l).
Proof.
  intros ND. unfold thermal_force. apply ex_bind.
  - destruct ei, (existsb (String.eqb "e") l) eqn:E; cbn [andb]; try apply ex_ret.
    apply ex_bind; [apply ex_get|]. intros _. apply ex_mfor. intros x Hx. apply ex_electron_force; auto.
    apply existsb_exists in E as (y & Hy & Ey). apply String.eqb_eq in Ey. now subst.
  - intros _. apply ex_if; [|apply ex_ret]. now apply ex_ion_loop.
Qed.

Lemma thermal_force_conserves :
  forall (electron_ion ion_ion : bool) (grad : string -> R) species (s s' : State * unit),
    NoDup species ->
    finishes (thermal_force electron_ion ion_ion grad species) s s' tt ->
    sumR (fun sp => value s' sp "momentum_source") species
    = sumR (fun sp => value s sp "momentum_source") species /\
    (forall sp q, q <> "momentum_source" \/ ~ In sp species -> value s' sp q = value s sp q).
Proof.
  intros ei ii grad l s s' ND F. exact (thermal_force_exchanges l ei ii grad ND s s' tt F).
Qed.

(** ** The force on each species *)

Notation MS sp := (sp, "momentum_source").

Definition e_term (s0 : State * unit) (g : R) (sp : string) : R :=
  if String.eqb sp "e" then 0
  else if has s0 (sp, "charge") then val s0 (sp, "density") * (0.71 * SQ (val s0 (sp, "charge"))) * g else 0.

Lemma electron_force_effect grad sp s0 s s' d :
  effect W s0 s d -> finishes (electron_force grad sp) s s' tt ->
  effect W s0 s' (fun k => d k + (at_key (MS sp) (e_term s0 (grad "e") sp) k
                                  + at_key (MS "e") (- e_term s0 (grad "e") sp) k)).
Proof.
  intros E H. unfold electron_force in H. unfold e_term.
  assert (Z : forall k x, at_key k 0 x = 0) by (intros k x; unfold at_key; now destruct (key_eqb k x)).
  destruct (String.eqb sp "e").
  - apply ret_finishes in H as [-> _]. eapply effect_ext; [|exact E]. intros k. rewrite Ropp_0, !Z. lra.
  - exec1 H E. destruct (has s0 (sp, "charge")).
    + exec H E. eapply effect_ext; [|exact E]. intros k. cbv beta. lra.
    + apply ret_finishes in H as [-> _]. eapply effect_ext; [|exact E]. intros k. rewrite Ropp_0, !Z. lra.
Qed.

Lemma sumR_at_list (l : list string) (f : string -> R) sp : NoDup l -> In sp l ->
  sumR (fun x => at_key (MS x) (f x) (MS sp)) l = f sp.
Proof.
  intros ND Hi. rewrite (sumR_ext _ (fun x => if String.eqb sp x then f x else 0)).
  - now apply sumR_one.
  - intros x _. rewrite at_key_species, String.eqb_refl, String.eqb_sym. reflexivity.
Qed.

Lemma electrons_only grad species (s s' : State * unit) :
  NoDup species -> In "e" species ->
  finishes (thermal_force true false grad species) s s' tt ->
  (forall sp, In sp species -> ion s sp ->
     value s' sp "momentum_source" - value s sp "momentum_source"
     = 0.71 * value s sp "charge" ^ 2 * value s sp "density" * grad "e") /\
  (forall sp, In sp species -> sp <> "e" -> present s sp "charge" = false ->
     value s' sp "momentum_source" = value s sp "momentum_source").
Proof.
  intros ND He F. unfold thermal_force in F.
  assert (existsb (String.eqb "e") species = true) as X.
  { apply existsb_exists. exists "e". split; auto. }
  rewrite X in F. cbn [andb] in F. mstep F. apply ret_finishes in F as [-> _]. destruct a. rename s0 into s'.
  pose proof (effect_start W s) as E. rename H into F. exec1 F E.
  eapply (mfor_effect W species _ (fun sp k => at_key (MS sp) (e_term s (grad "e") sp) k
                                  + at_key (MS "e") (- e_term s (grad "e") sp) k)) in F; [|intros; eapply electron_force_effect; eassumption|exact E].
  destruct F as (V & _). cbv beta in V.
  assert (K : forall sp, In sp species -> sp <> "e" ->
    val s' (MS sp) = val s (MS sp) + e_term s (grad "e") sp).
  { intros sp Hi Hn. rewrite V. rewrite sumR_plus, sumR_at_list by auto.
    rewrite sumR_zero; [lra|]. intros x _. rewrite at_key_species.
    destruct (String.eqb_spec "e" sp); congruence. }
  split.
  - intros sp Hi [Hn Hc]. rewrite has_present in Hc. rewrite !val_value. rewrite K by auto. unfold e_term.
    apply String.eqb_neq in Hn as ->. rewrite Hc. unfold SQ. lra.
  - intros sp Hi Hn Hc. rewrite has_present in Hc. rewrite !val_value. rewrite K by auto. unfold e_term.
    apply String.eqb_neq in Hn as ->. rewrite Hc. lra.
Qed.

(** Ion-ion forces. *)
Definition is_ion (s0 : State * unit) sp : bool := (negb (String.eqb sp "e") && has s0 (sp, "charge"))%bool.

(** Force on the heavy species b from the light species a. *)
Definition hf (s0 : State * unit) (grad : string -> R) (a b : string) : R :=
  if Reqb (val s0 (b, "charge")) 0 then 0
  else val s0 (b, "density") * beta (val s0 (a, "AA")) (val s0 (b, "AA")) (val s0 (b, "charge")) * grad a.
Definition lh (s0 : State * unit) (a b : string) : bool :=
  (is_ion s0 a && is_ion s0 b && Rltb (val s0 (a, "AA")) 4 && Rltb 10 (val s0 (b, "AA")))%bool.
(** Force on a from b. *)
Definition force (s0 : State * unit) grad (a b : string) : R :=
  if lh s0 a b then - hf s0 grad a b else if lh s0 b a then hf s0 grad b a else 0.

Lemma at_0 k x : at_key k 0 x = 0.
Proof. unfold at_key; now destruct (key_eqb k x). Qed.

Lemma lh_not s0 a b : lh s0 a b = true -> lh s0 b a = false.
Proof.
  unfold lh. rewrite !andb_true_iff. intros [[[Ha Hb] H1] H2]. rewrite Ha, Hb. cbn [andb].
  unfold Rltb in *. destruct (Rlt_dec (val s0 (a, "AA")) 4); [|discriminate].
  destruct (Rlt_dec 10 (val s0 (b, "AA"))); [|discriminate].
  destruct (Rlt_dec (val s0 (b, "AA")) 4); auto. lra.
Qed.
Lemma force_anti s0 grad a b : force s0 grad a b = - force s0 grad b a.
Proof.
  unfold force. destruct (lh s0 a b) eqn:E1.
  - rewrite (lh_not _ _ _ E1). lra.
  - destruct (lh s0 b a); lra.
Qed.
Lemma force_self s0 grad a : force s0 grad a a = 0.
Proof. pose proof (force_anti s0 grad a a). lra. Qed.

Lemma heavy_force_effect grad a b s0 s s' d :
  effect W s0 s d -> finishes (heavy_force grad a b) s s' tt ->
  effect W s0 s' (fun k => d k + (at_key (MS b) (hf s0 grad a b) k + at_key (MS a) (- hf s0 grad a b) k)).
Proof.
  intros E H. unfold heavy_force in H. exec H E. unfold hf. destruct (Reqb (val s0 (b, "charge")) 0).
  - apply ret_finishes in H as [-> _]. eapply effect_ext; [|exact E]. intros k. rewrite Ropp_0, !at_0. lra.
  - exec H E. eapply effect_ext; [|exact E]. intros k. cbv beta. lra.
Qed.

Lemma ion_pair_effect grad a b s0 s s' d : is_ion s0 a = true ->
  effect W s0 s d -> finishes (ion_pair grad a b) s s' tt ->
  effect W s0 s' (fun k => d k + (at_key (MS a) (force s0 grad a b) k + at_key (MS b) (force s0 grad b a) k)).
Proof.
  intros Ha E H. unfold ion_pair in H.
  assert (Hn : is_ion s0 b = false -> force s0 grad a b = 0 /\ force s0 grad b a = 0).
  { intros Hb. unfold force, lh. rewrite Hb, Ha. cbn [andb]. auto. }
  assert (Hi : is_ion s0 b = true ->
    lh s0 a b = (Rltb (val s0 (a, "AA")) 4 && Rltb 10 (val s0 (b, "AA")))%bool /\
    lh s0 b a = (Rltb 10 (val s0 (a, "AA")) && Rltb (val s0 (b, "AA")) 4)%bool).
  { intros Hb. unfold lh. rewrite Ha, Hb. cbn [andb]. split; auto. apply andb_comm. }
  destruct (String.eqb b "e") eqn:Eb.
  { apply ret_finishes in H as [-> _]. destruct Hn as [-> ->]; [unfold is_ion; now rewrite Eb|].
    eapply effect_ext; [|exact E]. intros k. rewrite !at_0. lra. }
  exec1 H E. destruct (has s0 (b, "charge")) eqn:Hc.
  2:{ apply ret_finishes in H as [-> _]. destruct Hn as [-> ->]; [unfold is_ion; now rewrite Eb, Hc|].
    eapply effect_ext; [|exact E]. intros k. rewrite !at_0. lra. }
  destruct Hi as [L1 L2]; [unfold is_ion; now rewrite Eb, Hc|].
  exec1 H E.
  assert (K1 : lh s0 a b = true -> forall s2, finishes (heavy_force grad a b) s2 s' tt -> effect W s0 s2 d ->
     effect W s0 s' (fun k => d k + (at_key (MS a) (force s0 grad a b) k + at_key (MS b) (force s0 grad b a) k))).
  { intros L s2 F E2. pose proof (heavy_force_effect _ _ _ _ _ _ _ E2 F) as E3.
    eapply effect_ext; [|exact E3]. intros k. cbv beta. unfold force. rewrite L, (lh_not _ _ _ L). lra. }
  assert (K2 : lh s0 b a = true -> forall s2, finishes (heavy_force grad b a) s2 s' tt -> effect W s0 s2 d ->
     effect W s0 s' (fun k => d k + (at_key (MS a) (force s0 grad a b) k + at_key (MS b) (force s0 grad b a) k))).
  { intros L s2 F E2. pose proof (heavy_force_effect _ _ _ _ _ _ _ E2 F) as E3.
    eapply effect_ext; [|exact E3]. intros k. cbv beta. unfold force. rewrite L, (lh_not _ _ _ L). lra. }
  assert (K3 : lh s0 a b = false -> lh s0 b a = false -> forall s2, s' = s2 -> effect W s0 s2 d ->
     effect W s0 s' (fun k => d k + (at_key (MS a) (force s0 grad a b) k + at_key (MS b) (force s0 grad b a) k))).
  { intros La Lb s2 -> E2. eapply effect_ext; [|exact E2]. intros k. cbv beta. unfold force.
    rewrite La, Lb, !at_0. lra. }
  destruct (Rltb (val s0 (a, "AA")) 4) eqn:R1.
  - exec H E. destruct (Rltb 10 (val s0 (b, "AA"))) eqn:R2.
    + apply (K1 L1 _ H E).
    + exec1 H E. destruct (Rltb 10 (val s0 (a, "AA"))) eqn:R3.
      * exec H E. destruct (Rltb (val s0 (b, "AA")) 4) eqn:R4.
        -- apply (K2 L2 _ H E).
        -- apply ret_finishes in H as [-> _]. eapply K3; eauto.
      * exec H E. apply ret_finishes in H as [-> _]. eapply K3; eauto.
  - exec H E. destruct (Rltb 10 (val s0 (a, "AA"))) eqn:R3.
      * exec H E. destruct (Rltb (val s0 (b, "AA")) 4) eqn:R4.
        -- apply (K2 L2 _ H E).
        -- apply ret_finishes in H as [-> _]. eapply K3; eauto.
      * exec H E. apply ret_finishes in H as [-> _]. eapply K3; eauto.
Qed.

(** Pairwise terms of a list: each unordered pair once. *)
Fixpoint pair_terms (F : string -> string -> R) (l : list string) (k : key) : R :=
  match l with
  | [] => 0
  | a :: l' => sumR (fun b => at_key (MS a) (F a b) k + at_key (MS b) (F b a) k) l' + pair_terms F l' k
  end.

Lemma pair_terms_out F l sp : ~ In sp l -> pair_terms F l (MS sp) = 0.
Proof.
  induction l as [|a l IH]; intros H; cbn [pair_terms]; auto.
  rewrite IH by (intros X; apply H; now right). rewrite sumR_zero; [lra|].
  intros b Hb. rewrite !at_key_species.
  destruct (String.eqb_spec a sp); [subst; destruct H; now left|].
  destruct (String.eqb_spec b sp); [subst; destruct H; now right|]. lra.
Qed.

Lemma pair_terms_in F l sp : (forall a, F a a = 0) -> NoDup l -> In sp l ->
  pair_terms F l (MS sp) = sumR (fun b => F sp b) l.
Proof.
  intros F0. induction l as [|a l IH]; intros ND Hi; [destruct Hi|].
  inversion ND as [|? ? Hn ND']; subst. cbn [pair_terms sumR].
  destruct (String.eqb_spec a sp) as [->|Hne].
  - rewrite pair_terms_out, F0 by auto. rewrite Rplus_0_r, Rplus_0_l. apply sumR_ext. intros b Hb.
    rewrite !at_key_species, !String.eqb_refl. destruct (String.eqb_spec b sp); [subst; contradiction|]. lra.
  - destruct Hi as [->|Hi]; [congruence|]. rewrite IH by auto. f_equal.
    rewrite (sumR_ext _ (fun b => at_key (MS b) (F b a) (MS sp))).
    + now rewrite (sumR_at_list l (fun b => F b a)).
    + intros b _. rewrite at_key_species. destruct (String.eqb_spec a sp); [congruence|]. lra.
Qed.

Lemma ion_loop_effect grad l s0 : forall s s' d,
  effect W s0 s d -> finishes (ion_loop grad l) s s' tt ->
  effect W s0 s' (fun k => d k + pair_terms (force s0 grad) l k).
Proof.
  induction l as [|a l IH]; intros s s' d E H; cbn [ion_loop pair_terms] in *.
  - apply ret_finishes in H as [-> _]. eapply effect_ext; [|exact E]. intros; lra.
  - mstep H. destruct a0.
    assert (E1 : effect W s0 s1 (fun k => d k + sumR (fun b => at_key (MS a) (force s0 grad a b) k + at_key (MS b) (force s0 grad b a) k) l)).
    { assert (Hz : is_ion s0 a = false -> forall k, sumR (fun b => at_key (MS a) (force s0 grad a b) k + at_key (MS b) (force s0 grad b a) k) l = 0).
      { intros Ha k. apply sumR_zero. intros b _.
        assert (force s0 grad a b = 0) as X by (unfold force, lh; rewrite Ha; rewrite andb_false_r; reflexivity).
        pose proof (force_anti s0 grad b a) as Y. rewrite X in Y. rewrite X. replace (force s0 grad b a) with 0 by lra.
        rewrite !at_0. lra. }
      destruct (String.eqb a "e") eqn:Ea.
      - apply ret_finishes in H0 as [-> _]. eapply effect_ext; [|exact E]. intros k.
        rewrite Hz; [lra|]. unfold is_ion. now rewrite Ea.
      - exec1 H0 E. destruct (has s0 (a, "charge")) eqn:Hc.
        + eapply mfor_effect in H0; [exact H0| |exact E]. intros. apply ion_pair_effect with (s := s2); auto.
          unfold is_ion. now rewrite Ea, Hc.
        + apply ret_finishes in H0 as [-> _]. eapply effect_ext; [|exact E]. intros k.
          rewrite Hz; [lra|]. unfold is_ion. now rewrite Ea, Hc. }
    eapply effect_ext; [|apply (IH _ _ _ E1 H)]. intros k. cbv beta. lra.
Qed.

Lemma beta_stangeby mi mz Z : beta mi mz Z = stangeby_beta mi mz Z.
Proof. unfold beta, stangeby_beta, SQ. cbv zeta. cbn [pow]. rewrite !Rmult_1_r. reflexivity. Qed.

Lemma is_ion_spec s sp : is_ion s sp = true <-> ion s sp.
Proof.
  unfold is_ion, ion. rewrite has_present, andb_true_iff, negb_true_iff, String.eqb_neq. reflexivity.
Qed.
Lemma lh_spec s a b : lh s a b = true <-> light s a /\ heavy s b.
Proof.
  unfold lh, light, heavy. rewrite !andb_true_iff, !is_ion_spec, !val_value. unfold Rltb.
  destruct (Rlt_dec (val s (a, "AA")) 4), (Rlt_dec 10 (val s (b, "AA"))); intuition discriminate.
Qed.

Lemma ions_only grad species (s s' : State * unit) :
  NoDup species ->
  finishes (thermal_force false true grad species) s s' tt ->
  exists F : string -> string -> R,
    (forall a b, F a b = - F b a) /\
    (forall sp, In sp species ->
       value s' sp "momentum_source" - value s sp "momentum_source" = sumR (F sp) species) /\
    (forall a b, light s a -> heavy s b ->
       F b a = if Req_EM_T (value s b "charge") 0 then 0
               else value s b "density" * stangeby_beta (value s a "AA") (value s b "AA") (value s b "charge") * grad a) /\
    (forall a b, ~ (light s a /\ heavy s b) -> ~ (light s b /\ heavy s a) -> F a b = 0).
Proof.
  intros ND F. unfold thermal_force in F. cbn [andb] in F. mstep F. apply ret_finishes in H as [-> _]. destruct a.
  pose proof (ion_loop_effect _ _ _ _ _ _ (effect_start W s) F) as (V & _).
  exists (force s grad). repeat split.
  - apply force_anti.
  - intros sp Hi. rewrite !val_value, V. cbv beta. rewrite pair_terms_in; auto using force_self.
    change (fun b => force s grad sp b) with (force s grad sp). lra.
  - intros a b L H. unfold force. assert (X : lh s a b = true) by now apply lh_spec.
    rewrite (lh_not _ _ _ X), X. unfold hf. rewrite beta_stangeby, !val_value. unfold Reqb.
    destruct (Req_EM_T (val s (b, "charge")) 0); reflexivity.
  - intros a b N1 N2. unfold force. rewrite <- !lh_spec in *.
    destruct (lh s a b), (lh s b a); auto; congruence.
Qed.
