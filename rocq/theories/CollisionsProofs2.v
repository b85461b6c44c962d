(** Consequences for whole evaluations of the collisions component. *)

From Coq Require Import List Bool String Reals Lra Lia.
From Verif Require Import OptionsModel OptionsSpec StateMonad StateSpec StateMonadProofs
  CollisionsModel CollisionsSpec CollisionsProofs.
Import ListNotations.
Open Scope R_scope.
Open Scope string_scope.

Lemma NoDup_app_intro {A} (l1 l2 : list A) :
  NoDup l1 -> NoDup l2 -> (forall x, In x l1 -> In x l2 -> False) -> NoDup (l1 ++ l2).
Proof.
  induction l1 as [|a l1 IH]; intros H1 H2 H3; cbn; auto.
  inversion H1; subst. constructor.
  - rewrite in_app_iff. intros [H|H]; [contradiction|]. eapply H3; eauto. now left.
  - apply IH; auto. intros x Hx Hx'. eapply H3; eauto. now right.
Qed.

Section Members.
  Variables (c : config) (v : key -> R) (h : key -> bool).

  Lemma electron_events_pair s e : In e (electron_events c v h s) -> ev1 e = "e" /\ ev2 e = s.
  Proof.
    unfold electron_events. destruct (String.eqb_spec s "e") as [->|].
    - destruct (electron_electron c); [intros [<-|[]]|intros []]; auto.
    - destruct (_ && _)%bool.
      + destruct (electron_ion c); [intros [<-|[]]|intros []]; auto.
      + destruct (_ && _)%bool; [intros []|].
        destruct (electron_neutral c); [intros [<-|[]]|intros []]; auto.
  Qed.
  Lemma charged_events_pair s1 s2 e : In e (charged_events c v h s1 s2) ->
    ev1 e = s1 /\ ev2 e = s2 /\ s2 <> "e" /\ s2 <> "ebeam".
  Proof.
    unfold charged_events. destruct (String.eqb_spec s2 "e"); [intros []|].
    destruct (String.eqb_spec s2 "ebeam"); cbn [orb]; [intros []|].
    destruct (charged v h s2); [destruct (ion_ion c)|]; [intros [<-|[]]|intros []|intros [<-|[]]]; auto.
  Qed.
  Lemma neutral_events_pair s1 s2 e : In e (neutral_events c v h s1 s2) ->
    ev1 e = s1 /\ ev2 e = s2 /\ s2 <> "e".
  Proof.
    unfold neutral_events. destruct (String.eqb_spec s2 "e"); [intros []|].
    destruct (h (s2, "charge")); [destruct (ion_neutral c)|destruct (neutral_neutral c)];
      intros H; (destruct H as [<-|H]; auto; destruct H) || destruct H.
  Qed.
  Definition partner_events s1 s2 : list event :=
    if charged v h s1 then charged_events c v h s1 s2 else neutral_events c v h s1 s2.
  Lemma partner_events_pair s1 s2 e : In e (partner_events s1 s2) ->
    ev1 e = s1 /\ ev2 e = s2 /\ s2 <> "e".
  Proof.
    unfold partner_events. destruct (charged v h s1); intros H.
    - apply charged_events_pair in H. tauto.
    - now apply neutral_events_pair in H.
  Qed.
  Lemma events_from_eq s1 l :
    events_from c v h s1 l =
    if (String.eqb s1 "e" || String.eqb s1 "ebeam")%bool then [] else flat_map (partner_events s1) l.
  Proof. unfold events_from, partner_events. destruct (_ || _)%bool, (charged v h s1); auto. Qed.

  Lemma events_from_pair s1 l e : In e (events_from c v h s1 l) ->
    ev1 e = s1 /\ In (ev2 e) l /\ s1 <> "e" /\ s1 <> "ebeam" /\ ev2 e <> "e".
  Proof.
    rewrite events_from_eq.
    destruct (String.eqb_spec s1 "e"); [intros []|]. destruct (String.eqb_spec s1 "ebeam"); [intros []|].
    cbn [orb]. rewrite in_flat_map. intros (x & Hx & He). apply partner_events_pair in He as (E1 & E2 & E3).
    rewrite E2. auto.
  Qed.
  Lemma pair_events_pair l e : In e (pair_events c v h l) ->
    In (ev1 e) l /\ In (ev2 e) l /\ ev1 e <> "e" /\ ev1 e <> "ebeam" /\ ev2 e <> "e".
  Proof.
    induction l as [|x l IH]; [intros []|]. cbn [pair_events]. rewrite in_app_iff. intros [H|H].
    - apply events_from_pair in H as (E1 & E2 & E3 & E4 & E5). rewrite E1. split; [now left|auto].
    - destruct (IH H) as (E1 & E2 & E3). split; [now right|]. split; [now right|]. auto.
  Qed.
  Lemma all_events_pair l e : In e (all_events c v h l) -> In (ev1 e) l /\ In (ev2 e) l.
  Proof.
    unfold all_events. rewrite in_app_iff. intros [H|H].
    - destruct (existsb (String.eqb "e") l) eqn:E; [|destruct H].
      apply existsb_exists in E as (x & Hx & Ex). apply String.eqb_eq in Ex. subst x.
      apply in_flat_map in H as (y & Hy & H). apply electron_events_pair in H as (-> & ->). auto.
    - apply pair_events_pair in H. tauto.
  Qed.

  (** Keys of the recorded rates. *)
  Definition pkeys (e : event) : list (string * string) := map fst (recorded v e).
  Lemma pkeys_in e a b : In (a, b) (pkeys e) <-> (a = ev1 e /\ b = ev2 e) \/ (a = ev2 e /\ b = ev1 e).
  Proof.
    unfold pkeys, recorded. destruct (String.eqb_spec (ev1 e) (ev2 e)) as [E|E]; cbn.
    - rewrite E. intuition congruence.
    - intuition congruence.
  Qed.
  Lemma pkeys_nodup e : NoDup (pkeys e).
  Proof.
    unfold pkeys, recorded. destruct (String.eqb_spec (ev1 e) (ev2 e)) as [E|E]; cbn.
    - constructor; [intros []|constructor].
    - constructor; [cbn; intuition congruence|]. constructor; [intros []|constructor].
  Qed.

  Lemma nodup_flat {A B} (g : A -> list B) (l : list A) : NoDup l ->
    (forall x, In x l -> NoDup (g x)) ->
    (forall x y b, In x l -> In y l -> In b (g x) -> In b (g y) -> x = y) ->
    NoDup (flat_map g l).
  Proof.
    induction l as [|x l IH]; intros Hd Hn Hj; cbn; [constructor|].
    inversion Hd; subst. apply NoDup_app_intro.
    - apply Hn; now left.
    - apply IH; auto; intros.
      + apply Hn; now right.
      + eapply Hj; eauto; now right.
    - intros b Hb Hb'. apply in_flat_map in Hb' as (y & Hy & Hb'').
      assert (x = y) by (eapply Hj; eauto; [now left|now right]). subst. contradiction.
  Qed.

  Lemma flat_pkeys_small (l : list event) : (List.length l <= 1)%nat -> NoDup (flat_map pkeys l).
  Proof.
    destruct l as [|e [|]]; cbn; intros H; [constructor| |lia].
    rewrite app_nil_r. apply pkeys_nodup.
  Qed.
  Lemma electron_events_small s : (List.length (electron_events c v h s) <= 1)%nat.
  Proof.
    unfold electron_events.
    destruct (String.eqb s "e"), (electron_electron c), (electron_ion c), (electron_neutral c);
      repeat destruct (_ && _)%bool; cbn; lia.
  Qed.
  Lemma partner_events_small s1 s2 : (List.length (partner_events s1 s2) <= 1)%nat.
  Proof.
    unfold partner_events, charged_events, neutral_events.
    destruct (charged v h s1), (charged v h s2), (h (s2, "charge")), (ion_ion c), (ion_neutral c),
      (neutral_neutral c), (String.eqb s2 "e"), (String.eqb s2 "ebeam"); cbn; lia.
  Qed.
  Lemma flat_map_flat_map {A B C} (f : A -> list B) (g : B -> list C) l :
    flat_map g (flat_map f l) = flat_map (fun x => flat_map g (f x)) l.
  Proof. induction l as [|x l IH]; cbn; auto. now rewrite flat_map_app, IH. Qed.

  (** Events of one species with a list of different partners. *)
  Lemma nodup_star s1 (f : string -> list event) l :
    NoDup l -> (forall x, (List.length (f x) <= 1)%nat) ->
    (forall x e, In e (f x) -> ev1 e = s1 /\ ev2 e = x) ->
    NoDup (flat_map pkeys (flat_map f l)).
  Proof.
    intros Hd Hs Hp. rewrite flat_map_flat_map. apply nodup_flat; auto.
    - intros x _. apply flat_pkeys_small, Hs.
    - intros x y [a b] _ _ Hx Hy.
      apply in_flat_map in Hx as (e & He & Hk). apply in_flat_map in Hy as (e' & He' & Hk').
      apply Hp in He as (E1 & E2). apply Hp in He' as (E1' & E2').
      apply pkeys_in in Hk. apply pkeys_in in Hk'. rewrite E1, E2 in Hk. rewrite E1', E2' in Hk'.
      intuition congruence.
  Qed.

  Lemma pair_events_nodup l : NoDup l -> NoDup (flat_map pkeys (pair_events c v h l)).
  Proof.
    induction l as [|s1 l IH]; intros Hd; [constructor|].
    cbn [pair_events]. rewrite flat_map_app. inversion Hd; subst. apply NoDup_app_intro; auto.
    - rewrite events_from_eq. destruct (_ || _)%bool; [constructor|].
      apply (nodup_star s1); auto using partner_events_small.
      intros x e He. apply partner_events_pair in He. tauto.
    - intros [a b] Ha Hb. apply in_flat_map in Ha as (e & He & Hk). apply in_flat_map in Hb as (e' & He' & Hk').
      apply events_from_pair in He. apply pair_events_pair in He'.
      apply pkeys_in in Hk. apply pkeys_in in Hk'.
      destruct He as (E1 & _), He' as (I1 & I2 & _). rewrite E1 in Hk. intuition congruence.
  Qed.
  Lemma all_events_nodup l : NoDup l -> NoDup (flat_map pkeys (all_events c v h l)).
  Proof.
    intros Hd. unfold all_events. rewrite flat_map_app. apply NoDup_app_intro.
    - destruct (existsb _ l); [|constructor].
      apply (nodup_star "e"); auto using electron_events_small. intros. now apply electron_events_pair.
    - now apply pair_events_nodup.
    - intros [a b] Ha Hb. apply in_flat_map in Ha as (e & He & Hk). apply in_flat_map in Hb as (e' & He' & Hk').
      destruct (existsb _ l); [|destruct He].
      apply in_flat_map in He as (x & _ & He). apply electron_events_pair in He as (E1 & E2).
      apply pair_events_pair in He'. apply pkeys_in in Hk. apply pkeys_in in Hk'.
      rewrite E1 in Hk. intuition congruence.
  Qed.
End Members.

Lemma map_fst_flat v evs : map fst (flat_map (recorded v) evs) = flat_map (pkeys v) evs.
Proof. induction evs as [|e evs IH]; cbn; auto. now rewrite map_app, IH. Qed.

(** ** Sums over species *)

Section Sums.
  Variables (c : config) (species : list string).
  Hypothesis Hd : NoDup species.
  Variable v : key -> R.

  Lemma change_mom_sum e : In (ev1 e) species -> In (ev2 e) species ->
    sumR (fun sp => change c v e (sp, mom)) species = 0.
  Proof.
    intros I1 I2. unfold change. destruct (String.eqb (ev1 e) (ev2 e)).
    - rewrite sumR_at by auto. reflexivity.
    - rewrite !sumR_plus, !sumR_at by auto. cbn. lra.
  Qed.

  Lemma change_energy_sum e : frictional_heating c = true ->
    In (ev1 e) species -> In (ev2 e) species ->
    0 < v (ev1 e, "AA") -> 0 < v (ev2 e, "AA") ->
    sumR (fun sp => change c v e (sp, en) + v (sp, "velocity") * change c v e (sp, mom)) species = 0.
  Proof.
    intros Hf I1 I2 M1 M2. rewrite sumR_plus. unfold change.
    destruct (String.eqb (ev1 e) (ev2 e)).
    - rewrite sumR_at by auto. cbn. rewrite sumR_zero; [lra|]. intros x _.
      unfold at_key, key_eqb; cbn. rewrite andb_false_r. lra.
    - rewrite !sumR_plus, !sumR_at by auto. cbn.
      rewrite (sumR_ext _ (fun sp => (if String.eqb (ev1 e) sp then (fun s => v (s, "velocity") * F12 v e) sp else 0)
          + (if String.eqb (ev2 e) sp then (fun s => v (s, "velocity") * - F12 v e) sp else 0))).
      2:{ intros x _. rewrite !at_key_species. cbn.
          destruct (String.eqb (ev1 e) x), (String.eqb (ev2 e) x); lra. }
      rewrite sumR_plus, !sumR_one by auto. unfold H1, H2. rewrite Hf.
      generalize (F12 v e) as F. intros F. field. lra.
  Qed.

  Lemma change_energy_sum_off e : frictional_heating c = false ->
    In (ev1 e) species -> In (ev2 e) species ->
    sumR (fun sp => change c v e (sp, en)) species = 0.
  Proof.
    intros Hf I1 I2. unfold change. destruct (String.eqb (ev1 e) (ev2 e)).
    - rewrite sumR_at by auto. reflexivity.
    - rewrite !sumR_plus, !sumR_at by auto. cbn. unfold H1, H2. rewrite Hf. lra.
  Qed.
End Sums.

Theorem momentum_conserved c species (s s' : State * rates) : NoDup species ->
  finishes (transform c species) s s' tt ->
  sumR (fun sp => value s' sp "momentum_source") species
  = sumR (fun sp => value s sp "momentum_source") species.
Proof.
  intros Hd H. apply transform_performs in H as (A & _ & _).
  rewrite (sumR_ext _ (fun sp => value s sp "momentum_source" +
     sumR (fun e => change c (val s) e (sp, mom)) (all_events c (val s) (has s) species)))
    by (intros; rewrite val_value; apply A).
  rewrite sumR_plus, sumR_swap.
  rewrite (sumR_zero (fun b => sumR _ species)); [lra|].
  intros e He. apply all_events_pair in He as [I1 I2]. now apply change_mom_sum.
Qed.

Theorem energy_conserved c species (s s' : State * rates) : NoDup species -> frictional_heating c = true ->
  (forall sp, In sp species -> 0 < value s sp "AA") ->
  finishes (transform c species) s s' tt ->
  sumR (fun sp => value s' sp "energy_source" + value s sp "velocity" * value s' sp "momentum_source") species
  = sumR (fun sp => value s sp "energy_source" + value s sp "velocity" * value s sp "momentum_source") species.
Proof.
  intros Hd Hf Hm H. apply transform_performs in H as (A & _ & _).
  rewrite (sumR_ext _ (fun sp => (value s sp "energy_source" + value s sp "velocity" * value s sp "momentum_source") +
     sumR (fun e => change c (val s) e (sp, en) + val s (sp, "velocity") * change c (val s) e (sp, mom))
       (all_events c (val s) (has s) species))).
  2:{ intros sp _. rewrite !val_value, !A. rewrite sumR_plus, sumR_scal. unfold en, mom. lra. }
  rewrite sumR_plus, sumR_swap.
  rewrite (sumR_zero (fun b => sumR _ species)); [lra|].
  intros e He. apply all_events_pair in He as [I1 I2]. apply change_energy_sum; auto; now apply Hm.
Qed.

Theorem energy_exchange_conserved c species (s s' : State * rates) : NoDup species -> frictional_heating c = false ->
  finishes (transform c species) s s' tt ->
  sumR (fun sp => value s' sp "energy_source") species
  = sumR (fun sp => value s sp "energy_source") species.
Proof.
  intros Hd Hf H. apply transform_performs in H as (A & _ & _).
  rewrite (sumR_ext _ (fun sp => value s sp "energy_source" +
     sumR (fun e => change c (val s) e (sp, en)) (all_events c (val s) (has s) species)))
    by (intros; rewrite val_value; apply A).
  rewrite sumR_plus, sumR_swap.
  rewrite (sumR_zero (fun b => sumR _ species)); [lra|].
  intros e He. apply all_events_pair in He as [I1 I2]. now apply change_energy_sum_off.
Qed.

(** ** Rates *)

Lemma recorded_total v e sp :
  change (mkConfig 0 0 0 0 true true true true true true true 0 0 0 0 0) v e (sp, cf)
  = total_rate (recorded v e) sp.
Proof.
  unfold change, recorded, total_rate. destruct (String.eqb (ev1 e) (ev2 e)); cbn [sumR fst snd].
  - rewrite at_key_species, String.eqb_refl, String.eqb_sym. lra.
  - rewrite !at_key_species, !String.eqb_refl. change (String.eqb mom cf) with false.
    change (String.eqb en cf) with false. rewrite (String.eqb_sym _ sp), (String.eqb_sym (ev2 e) sp).
    destruct (String.eqb sp (ev1 e)), (String.eqb sp (ev2 e)); lra.
Qed.

Lemma change_cf c v e sp : change c v e (sp, cf) = total_rate (recorded v e) sp.
Proof.
  rewrite <- recorded_total. unfold change. destruct (String.eqb (ev1 e) (ev2 e)); auto.
  rewrite !at_key_species. reflexivity.
Qed.

Lemma total_rate_app (l1 l2 : rates) sp : total_rate (l1 ++ l2)%list sp = total_rate l1 sp + total_rate l2 sp.
Proof. apply sumR_app. Qed.

Theorem frequencies_add_up c species (s s' : State * rates) :
  snd s = [] -> finishes (transform c species) s s' tt ->
  forall sp, value s' sp "collision_frequency" = value s sp "collision_frequency" + total_rate (snd s') sp.
Proof.
  intros E H sp. apply transform_performs in H as (A & L & _). rewrite E in L. cbn in L.
  rewrite !val_value, A, L. f_equal. clear A L E.
  induction (all_events c (val s) (has s) species) as [|e evs IH];
    cbn [sumR flat_map]; [reflexivity|].
  rewrite total_rate_app, <- IH, <- (change_cf c). reflexivity.
Qed.

Theorem rates_unique c species (s s' : State * rates) : NoDup species ->
  snd s = [] -> finishes (transform c species) s s' tt -> NoDup (map fst (snd s')).
Proof.
  intros Hd E H. apply transform_performs in H as (_ & L & _). rewrite E in L. cbn in L.
  rewrite L, map_fst_flat. now apply all_events_nodup.
Qed.

Lemma in_rates c species (s s' : State * rates) a b nu : snd s = [] -> finishes (transform c species) s s' tt ->
  In (a, b, nu) (snd s') <->
  exists e, In e (all_events c (val s) (has s) species) /\ In (a, b, nu) (recorded (val s) e).
Proof.
  intros E H. apply transform_performs in H as (_ & L & _). rewrite E in L. cbn in L.
  rewrite L, in_flat_map. reflexivity.
Qed.

Theorem rates_balance c species (s s' : State * rates) : snd s = [] -> finishes (transform c species) s s' tt ->
  (forall sp, In sp species -> 0 < value s sp "AA" /\ 1e-5 <= value s sp "density") ->
  forall a b nu, In (a, b, nu) (snd s') -> exists nu', In (b, a, nu') (snd s') /\
    value s a "AA" * value s a "density" * nu = value s b "AA" * value s b "density" * nu'.
Proof.
  intros E H HA a b nu Hi. pose proof (in_rates c species s s') as X.
  apply (X a b nu E H) in Hi as (e & He & Hr).
  pose proof (all_events_pair _ _ _ _ _ He) as (I1 & I2).
  destruct (HA _ I1) as (M1 & N1), (HA _ I2) as (M2 & N2). rewrite !val_value in *.
  destruct (String.eqb_spec (ev1 e) (ev2 e)) as [Eq|Ne].
  - exists nu. unfold recorded in Hr. rewrite Eq, String.eqb_refl in Hr. destruct Hr as [[= <- <- <-]|[]].
    split; auto. apply (X _ _ _ E H). exists e. split; auto. unfold recorded.
    rewrite Eq, String.eqb_refl. now left.
  - assert (B : val s (ev1 e, "AA") * val s (ev1 e, "density") * ev_nu e =
                val s (ev2 e, "AA") * val s (ev2 e, "density") * nu21 (val s) e).
    { unfold nu21. rewrite rfloor_id by auto. field. split; lra. }
    assert (I12 : In (ev1 e, ev2 e, ev_nu e) (snd s')).
    { apply (X _ _ _ E H). exists e. split; auto. unfold recorded.
      destruct (String.eqb_spec (ev1 e) (ev2 e)); [congruence|]. now left. }
    assert (I21 : In (ev2 e, ev1 e, nu21 (val s) e) (snd s')).
    { apply (X _ _ _ E H). exists e. split; auto. unfold recorded.
      destruct (String.eqb_spec (ev1 e) (ev2 e)); [congruence|]. right. now left. }
    unfold recorded in Hr. destruct (String.eqb_spec (ev1 e) (ev2 e)); [congruence|].
    destruct Hr as [[= <- <- <-]|[[= <- <- <-]|[]]]; eexists; split; eauto.
Qed.

(** ** Signs *)

Lemma Rpower_pos x y : 0 < Rpower x y.
Proof. apply exp_pos. Qed.

Lemma div_nonneg x y : 0 <= x -> 0 < y -> 0 <= x / y.
Proof. intros. apply Rmult_le_pos; auto. left. now apply Rinv_0_lt_compat. Qed.
Lemma div_pos x y : 0 < x -> 0 < y -> 0 < x / y.
Proof. intros. apply Rmult_lt_0_compat; auto. now apply Rinv_0_lt_compat. Qed.
Lemma SQ_nonneg x : 0 <= SQ x.
Proof. unfold SQ. nra. Qed.
Lemma SQ_pos x : 0 < x -> 0 < SQ x.
Proof. unfold SQ. nra. Qed.

Lemma floor_pos x m : 0 < m -> 0 < rfloor x m.
Proof. intros. pose proof (rfloor_ge x m). lra. Qed.
Lemma floor_nonneg x m : 0 <= m -> 0 <= rfloor x m.
Proof. intros. pose proof (rfloor_ge x m). lra. Qed.

Ltac nonneg := repeat first
  [ assumption | lra
  | apply SQ_nonneg | apply sqrt_pos
  | apply div_nonneg | apply Rmult_le_pos | apply Rplus_le_le_0_compat
  | apply floor_nonneg ].
Ltac posi := repeat first
  [ assumption | lra
  | apply SQ_pos | apply Rpower_pos | apply PI_RGT_0
  | apply div_pos | apply Rmult_lt_0_compat | apply floor_pos | apply Rplus_lt_0_compat ].

Section Signs.
  Variable c : config.
  Hypothesis Hc : physical c.

  Lemma nu_ee_nonneg Te Ne : 0 <= nu_ee c Te Ne.
  Proof.
    destruct Hc as (? & ? & ? & ? & ? & ? & ? & ? & ?). unfold nu_ee. cbn zeta.
    apply div_nonneg; [nonneg|posi].
  Qed.
  Lemma nu_ei_nonneg Te Ne Ti Ni Zi Ai : 0 < Ai -> 0 <= nu_ei c Te Ne Ti Ni Zi Ai.
  Proof.
    intros HA. destruct Hc as (? & ? & ? & ? & ? & ? & ? & ? & ?). unfold nu_ei. cbn zeta.
    apply Rmult_le_pos; auto. apply div_nonneg; [|posi].
    apply Rmult_le_pos; [nonneg|]. assert (0 < Me c / (Mp c * Ai)) by posi. lra.
  Qed.
  Lemma mom_coeff_pos Z : 0 < mom_coeff Z.
  Proof.
    unfold mom_coeff. destruct (Reqb Z 1); [lra|]. destruct (Reqb Z 2); [lra|]. destruct (Reqb Z 3); lra.
  Qed.
  Lemma nu_en_nonneg Te Nn : 0 <= Nn -> 0 <= nu_en c Te Nn.
  Proof.
    intros. destruct Hc as (? & ? & ? & ? & ? & ? & ? & ? & ?). unfold nu_en. nonneg.
  Qed.
  Lemma nu_ii_nonneg t1 n1 A1 Z1 t2 n2 A2 Z2 : 0 < A1 -> 0 < A2 ->
    0 <= nu_ii c t1 n1 A1 Z1 t2 n2 A2 Z2.
  Proof.
    intros. destruct Hc as (? & ? & ? & ? & ? & ? & ? & ? & ?). unfold nu_ii. cbn zeta.
    apply div_nonneg; [|posi]. apply Rmult_le_pos; [nonneg|].
    assert (0 < A1 * Mp c / (A2 * Mp c)) by posi. lra.
  Qed.
  Lemma nu_neutral_nonneg a0 t1 A1 t2 n2 A2 : 0 <= a0 -> 0 <= n2 -> 0 <= nu_neutral c a0 t1 A1 t2 n2 A2.
  Proof.
    intros. destruct Hc as (? & ? & ? & ? & ? & ? & ? & ? & ?). unfold nu_neutral. nonneg.
  Qed.

  Variables (v : key -> R) (h : key -> bool) (species : list string).
  Hypothesis Hv : forall sp, In sp species ->
    0 < v (sp, "AA") /\ 0 <= v (sp, "density") /\ 0 <= v (sp, "temperature").

  Lemma N_m3_nonneg sp : In sp species -> 0 <= N_m3 c v sp.
  Proof.
    intros Hi. destruct Hc as (? & ? & ? & ? & ? & ? & ? & ? & ?), (Hv sp Hi) as (? & ? & ?).
    unfold N_m3. nonneg.
  Qed.

  Lemma cross_section_nonneg : 0 <= PI * SQ 2.8e-10.
  Proof. apply Rmult_le_pos; [left; apply PI_RGT_0|apply SQ_nonneg]. Qed.

  Lemma electron_events_nonneg s e : In "e" species -> In s species ->
    In e (electron_events c v h s) -> 0 <= ev_nu e /\ 0 < ev_mc e.
  Proof.
    intros He Hs. destruct Hc as (? & ? & ? & Ho & ? & ? & ? & ? & ?), (Hv s Hs) as (? & ? & ?).
    unfold electron_events. destruct (String.eqb_spec s "e") as [->|].
    - destruct (electron_electron c); [intros [<-|[]]|intros []]; cbn [ev_nu ev_mc]. split; [|lra].
      apply div_nonneg; auto using nu_ee_nonneg.
    - destruct (_ && _)%bool.
      + destruct (electron_ion c); [intros [<-|[]]|intros []]; cbn [ev_nu ev_mc]. split; [|apply mom_coeff_pos].
        apply div_nonneg; auto using nu_ei_nonneg.
      + destruct (_ && _)%bool; [intros []|].
        destruct (electron_neutral c); [intros [<-|[]]|intros []]; cbn [ev_nu ev_mc]. split; [|lra].
        now apply nu_en_nonneg.
  Qed.
  Lemma partner_events_nonneg s1 s2 e : In s1 species -> In s2 species ->
    In e (partner_events c v h s1 s2) -> 0 <= ev_nu e /\ 0 < ev_mc e.
  Proof.
    intros I1 I2. destruct Hc as (? & ? & ? & Ho & ? & ? & ? & ? & ?), (Hv s1 I1) as (? & ? & ?),
      (Hv s2 I2) as (? & ? & ?). pose proof (N_m3_nonneg s2 I2). pose proof cross_section_nonneg.
    unfold partner_events, charged_events, neutral_events.
    destruct (charged v h s1).
    - destruct (_ || _)%bool; [intros []|]. destruct (charged v h s2).
      + destruct (ion_ion c); [intros [<-|[]]|intros []]; cbn [ev_nu ev_mc]. split; [|lra].
        apply div_nonneg; auto using nu_ii_nonneg.
      + intros [<-|[]]; cbn [ev_nu ev_mc]. split; [|lra]. apply nu_neutral_nonneg; auto; lra.
    - destruct (String.eqb s2 "e"); [intros []|]. destruct (h (s2, "charge")).
      + destruct (ion_neutral c); [intros [<-|[]]|intros []]; cbn [ev_nu ev_mc]. split; [|lra].
        apply nu_neutral_nonneg; auto; lra.
      + destruct (neutral_neutral c); [intros [<-|[]]|intros []]; cbn [ev_nu ev_mc]. split; [|lra].
        apply nu_neutral_nonneg; auto; lra.
  Qed.
  Lemma pair_events_nonneg l e : (forall x, In x l -> In x species) ->
    In e (pair_events c v h l) -> 0 <= ev_nu e /\ 0 < ev_mc e.
  Proof.
    induction l as [|s1 l IH]; intros Hl; [intros []|]. cbn [pair_events].
    rewrite in_app_iff. intros [H|H].
    - rewrite events_from_eq in H. destruct (_ || _)%bool; [destruct H|].
      apply in_flat_map in H as (x & Hx & H). eapply partner_events_nonneg; [| |exact H]; auto.
      apply Hl; now left.
    - apply IH; auto. intros; apply Hl; now right.
  Qed.
  Lemma all_events_nonneg e : In e (all_events c v h species) -> 0 <= ev_nu e /\ 0 < ev_mc e.
  Proof.
    unfold all_events. rewrite in_app_iff. intros [H|H].
    - destruct (existsb (String.eqb "e") species) eqn:E; [|destruct H].
      apply existsb_exists in E as (x & Hx & Ex). apply String.eqb_eq in Ex. subst x.
      apply in_flat_map in H as (y & Hy & H). eapply electron_events_nonneg; eauto.
    - eapply pair_events_nonneg; eauto.
  Qed.
End Signs.

Theorem rates_nonneg c species (s s' : State * rates) : physical c -> physical_state s species ->
  snd s = [] -> finishes (transform c species) s s' tt ->
  forall a b nu, In (a, b, nu) (snd s') -> 0 <= nu.
Proof.
  intros Hc Hs E H a b nu Hi. apply (in_rates c species s s' a b nu E H) in Hi as (e & He & Hr).
  pose proof (all_events_pair _ _ _ _ _ He) as (I1 & I2).
  destruct (Hs _ I1) as (M1 & N1 & _), (Hs _ I2) as (M2 & N2 & _). rewrite !val_value in *.
  destruct (all_events_nonneg c Hc (val s) (has s) species Hs e He) as (P & _).
  assert (0 <= nu21 (val s) e).
  { unfold nu21. apply div_nonneg; [|apply floor_pos; lra]. nonneg. }
  unfold recorded in Hr. destruct (String.eqb (ev1 e) (ev2 e)); cbn in Hr.
  - destruct Hr as [[= <- <- <-]|[]]; auto.
  - destruct Hr as [[= <- <- <-]|[[= <- <- <-]|[]]]; auto.
Qed.

(** With all temperatures equal, collisions never cool a species. *)
Theorem friction_never_cools c species (s s' : State * rates) : physical c -> physical_state s species ->
  frictional_heating c = true ->
  (forall a b, In a species -> In b species -> value s a "temperature" = value s b "temperature") ->
  finishes (transform c species) s s' tt ->
  forall sp, value s sp "energy_source" <= value s' sp "energy_source".
Proof.
  intros Hc Hs Hf HT H sp. apply transform_performs in H as (A & _ & _). rewrite !val_value, A.
  enough (0 <= sumR (fun e => change c (val s) e (sp, "energy_source"))
                 (all_events c (val s) (has s) species)) by lra.
  apply sumR_nonneg. intros e He.
  pose proof (all_events_pair _ _ _ _ _ He) as (I1 & I2).
  destruct (Hs _ I1) as (M1 & N1 & _), (Hs _ I2) as (M2 & N2 & _). rewrite !val_value in *.
  destruct (all_events_nonneg c Hc (val s) (has s) species Hs e He) as (P & P').
  pose proof (HT _ _ I1 I2) as ET. rewrite !val_value in ET.
  unfold change. rewrite !at_key_species.
  assert (EQ : Q12 (val s) e = 0) by (unfold Q12; rewrite ET; lra). rewrite EQ.
  set (w := val s (ev2 e, "velocity") - val s (ev1 e, "velocity")).
  set (D := val s (ev1 e, "AA") + val s (ev2 e, "AA")).
  assert (HD : 0 < D) by (unfold D; lra).
  assert (HF : 0 <= w * F12 (val s) e).
  { unfold F12. fold w. replace (w * (ev_mc e * ev_nu e * val s (ev1 e, "AA") * val s (ev1 e, "density") * w))
      with (ev_mc e * ev_nu e * val s (ev1 e, "AA") * val s (ev1 e, "density") * SQ w) by (unfold SQ; ring).
    nonneg. }
  assert (P1 : 0 <= H1 c (val s) e).
  { unfold H1. rewrite Hf. fold w D. rewrite Rmult_assoc. apply Rmult_le_pos; auto. apply div_nonneg; lra. }
  assert (P2 : 0 <= H2 c (val s) e).
  { unfold H2. rewrite Hf. fold w D. rewrite Rmult_assoc. apply Rmult_le_pos; auto. apply div_nonneg; lra. }
  destruct (String.eqb (ev1 e) (ev2 e)), (String.eqb (ev1 e) sp), (String.eqb (ev2 e) sp); cbn; lra.
Qed.

(** With all velocities equal, a hottest species is not heated and a coldest is not cooled. *)
Theorem heat_flows_to_cold c species (s s' : State * rates) : physical c -> physical_state s species ->
  (forall a b, In a species -> In b species -> value s a "velocity" = value s b "velocity") ->
  finishes (transform c species) s s' tt ->
  forall sp, In sp species ->
  ((forall b, In b species -> value s b "temperature" <= value s sp "temperature") ->
     value s' sp "energy_source" <= value s sp "energy_source") /\
  ((forall b, In b species -> value s sp "temperature" <= value s b "temperature") ->
     value s sp "energy_source" <= value s' sp "energy_source").
Proof.
  intros Hc Hs HV H sp Hsp. apply transform_performs in H as (A & _ & _). rewrite !val_value, A.
  assert (K : forall e, In e (all_events c (val s) (has s) species) -> exists q, 0 <= q /\
     change c (val s) e (sp, "energy_source") =
     if String.eqb (ev1 e) (ev2 e) then 0 else
     (if String.eqb (ev1 e) sp then q * (val s (ev2 e, "temperature") - val s (sp, "temperature")) else 0)
     + (if String.eqb (ev2 e) sp then q * (val s (ev1 e, "temperature") - val s (sp, "temperature")) else 0)).
  { intros e He.
    pose proof (all_events_pair _ _ _ _ _ He) as (I1 & I2).
    destruct (Hs _ I1) as (M1 & N1 & _), (Hs _ I2) as (M2 & N2 & _). rewrite !val_value in *.
    destruct (all_events_nonneg c Hc (val s) (has s) species Hs e He) as (P & P').
    pose proof (HV _ _ I1 I2) as EV. rewrite !val_value in EV.
    assert (EF : F12 (val s) e = 0) by (unfold F12; rewrite EV; lra).
    assert (E1 : H1 c (val s) e = 0) by (unfold H1; rewrite EF; destruct (frictional_heating c); lra).
    assert (E2 : H2 c (val s) e = 0) by (unfold H2; rewrite EF; destruct (frictional_heating c); lra).
    exists (ev_nu e * 3 * val s (ev1 e, "density") * (val s (ev1 e, "AA") / (val s (ev1 e, "AA") + val s (ev2 e, "AA")))).
    split; [nonneg; apply Rplus_lt_0_compat; auto|].
    unfold change. rewrite !at_key_species, E1, E2. cbn.
    destruct (String.eqb_spec (ev1 e) (ev2 e)); [destruct (String.eqb (ev1 e) sp); lra|].
    unfold Q12.
    destruct (String.eqb_spec (ev1 e) sp) as [Q1|]; destruct (String.eqb_spec (ev2 e) sp) as [Q2|];
      try congruence; try rewrite <- Q1; try rewrite <- Q2; lra. }
  split; intros HT.
  - enough (0 <= sumR (fun e => - change c (val s) e (sp, "energy_source"))
                 (all_events c (val s) (has s) species)) by (rewrite sumR_opp in *; lra).
    apply sumR_nonneg. intros e He. destruct (K e He) as (q & Hq & ->).
    pose proof (all_events_pair _ _ _ _ _ He) as (I1 & I2).
    pose proof (HT _ I1) as T1. pose proof (HT _ I2) as T2. rewrite !val_value in *.
    destruct (String.eqb (ev1 e) (ev2 e)), (String.eqb (ev1 e) sp), (String.eqb (ev2 e) sp); try lra; nra.
  - enough (0 <= sumR (fun e => change c (val s) e (sp, "energy_source"))
                 (all_events c (val s) (has s) species)) by lra.
    apply sumR_nonneg. intros e He. destruct (K e He) as (q & Hq & ->).
    pose proof (all_events_pair _ _ _ _ _ He) as (I1 & I2).
    pose proof (HT _ I1) as T1. pose proof (HT _ I2) as T2. rewrite !val_value in *.
    destruct (String.eqb (ev1 e) (ev2 e)), (String.eqb (ev1 e) sp), (String.eqb (ev2 e) sp); try lra; nra.
Qed.

(** ** Coverage and switches *)

Lemma collided_iff c species (s s' : State * rates) a b : snd s = [] -> finishes (transform c species) s s' tt ->
  collided (snd s') a b <-> exists e, In e (all_events c (val s) (has s) species) /\
    ((a = ev1 e /\ b = ev2 e) \/ (a = ev2 e /\ b = ev1 e)).
Proof.
  intros E H. unfold collided. split.
  - intros (nu & Hi). apply (in_rates c species s s' a b nu E H) in Hi as (e & He & Hr).
    exists e. split; auto. apply (pkeys_in (val s)). unfold pkeys. apply in_map_iff. exists (a, b, nu). auto.
  - intros (e & He & Hk). apply (pkeys_in (val s)) in Hk. unfold pkeys in Hk.
    apply in_map_iff in Hk as ([[a' b'] nu] & [= -> ->] & Hr). exists nu.
    apply (in_rates c species s s' a b nu E H). eauto.
Qed.

Lemma pair_events_in c v h l1 a l2 b e :
  In e (partner_events c v h a b) -> a <> "e" -> a <> "ebeam" -> In b (a :: l2) ->
  In e (pair_events c v h (l1 ++ a :: l2)%list).
Proof.
  intros He Ha Ha' Hb. induction l1 as [|x l1 IH]; cbn [app pair_events]; rewrite in_app_iff; [|now right].
  left. rewrite events_from_eq.
  destruct (String.eqb_spec a "e"); [congruence|]. destruct (String.eqb_spec a "ebeam"); [congruence|].
  cbn [orb]. apply in_flat_map. eauto.
Qed.

Theorem all_pairs_collide c species (s s' : State * rates) : snd s = [] -> finishes (transform c species) s s' tt ->
  electron_electron c = true -> electron_ion c = true -> electron_neutral c = true ->
  ion_ion c = true -> ion_neutral c = true -> neutral_neutral c = true ->
  forall a b, In a species -> In b species ->
  a <> "ebeam" -> b <> "ebeam" ->
  (a = "e" -> b <> "e" -> 0 <= value s b "charge") ->
  (b = "e" -> a <> "e" -> 0 <= value s a "charge") ->
  collided (snd s') a b.
Proof.
  intros E H X1 X2 X3 X4 X5 X6.
  assert (El : forall b, In "e" species -> In b species -> (b <> "e" -> 0 <= value s b "charge") ->
     exists e, In e (all_events c (val s) (has s) species) /\ ev1 e = "e" /\ ev2 e = b).
  { intros b I1 I2 Hb.
    assert (exists e, In e (electron_events c (val s) (has s) b)) as (e & He).
    { unfold electron_events. rewrite X1, X2, X3. destruct (String.eqb_spec b "e"); [eexists; now left|].
      destruct (_ && _)%bool; [eexists; now left|].
      assert (Rltb (val s (b, "charge")) 0 = false) as -> by (apply Rltb_false, Hb; auto).
      rewrite andb_false_r. eexists; now left. }
    exists e. split; [|now apply electron_events_pair in He].
    unfold all_events. rewrite in_app_iff. left.
    assert (existsb (String.eqb "e") species = true) as ->.
    { apply existsb_exists. exists "e". split; auto. }
    apply in_flat_map. eauto. }
  assert (Pr : forall l1 a l2 b, species = (l1 ++ a :: l2)%list -> In b (a :: l2) -> a <> "e" -> b <> "e" ->
     a <> "ebeam" -> b <> "ebeam" ->
     exists e, In e (all_events c (val s) (has s) species) /\ ev1 e = a /\ ev2 e = b).
  { intros l1 a l2 b Es Hb Na Nb Na' Nb'.
    assert (exists e, In e (partner_events c (val s) (has s) a b)) as (e & He).
    { unfold partner_events, charged_events, neutral_events. rewrite X4, X5, X6.
      destruct (String.eqb_spec b "e"); [congruence|]. destruct (String.eqb_spec b "ebeam"); [congruence|]. cbn [orb].
      destruct (charged (val s) (has s) a), (charged (val s) (has s) b), (has s (b, "charge")); eexists; now left. }
    exists e. split; [|apply partner_events_pair in He; tauto].
    unfold all_events. rewrite in_app_iff. right. rewrite Es. eapply pair_events_in; eauto. }
  intros a b Ia Ib Na Nb Ca Cb. apply (collided_iff c species s s' a b E H).
  destruct (string_dec a "e") as [->|Ea].
  { destruct (El b Ia Ib) as (e & He & E1 & E2); auto. exists e. split; auto. }
  destruct (string_dec b "e") as [->|Eb].
  { destruct (El a Ib Ia) as (e & He & E1 & E2); auto. exists e. split; auto. }
  apply in_split in Ia as (l1 & l2 & Es).
  rewrite Es in Ib. apply in_app_iff in Ib as [Ib|Ib].
  - apply in_split in Ib as (l3 & l4 & E3). subst l1.
    rewrite <- app_assoc in Es. cbn in Es.
    destruct (Pr _ _ _ a Es) as (e & He & E1 & E2); auto.
    + right. apply in_app_iff. right. now left.
    + exists e. split; auto.
  - destruct (Pr _ _ _ b Es Ib) as (e & He & E1 & E2); auto. exists e. split; auto.
Qed.

Lemma charged_value s sp : charged (val s) (has (P := rates) s) sp = true <-> val s (sp, "charge") <> 0.
Proof.
  unfold charged. rewrite andb_true_iff, negb_true_iff. split.
  - intros [_ H] E. rewrite Reqb_true in H by auto. discriminate.
  - intros H. split; [|now apply Reqb_false]. destruct (has s (sp, "charge")) eqn:E; auto.
    apply unset_zero in E. congruence.
Qed.

Section Switches.
  Variables (c : config) (species : list string) (s s' : State * rates).
  Hypothesis E : snd s = [].
  Hypothesis H : finishes (transform c species) s s' tt.

  Lemma event_cases e : In e (all_events c (val s) (has s) species) ->
    In e (electron_events c (val s) (has s) (ev2 e)) \/
    (In e (partner_events c (val s) (has s) (ev1 e) (ev2 e)) /\ ev1 e <> "e" /\ ev2 e <> "e" /\
     exists l1 l2, species = (l1 ++ ev1 e :: l2)%list /\ In (ev2 e) (ev1 e :: l2)).
  Proof.
    unfold all_events. rewrite in_app_iff. intros [Hi|Hi].
    - left. destruct (existsb _ _); [|destruct Hi].
      apply in_flat_map in Hi as (x & Hx & Hi). pose proof (electron_events_pair _ _ _ _ _ Hi) as (_ & ->). auto.
    - right. revert Hi. generalize species as l. induction l as [|x l IH]; [intros []|].
      cbn [pair_events]. rewrite in_app_iff. intros [Hi|Hi].
      + pose proof (events_from_pair _ _ _ _ _ _ Hi) as (E1 & I2 & Q1 & Q2 & Q3).
        rewrite events_from_eq in Hi. destruct (_ || _)%bool; [destruct Hi|].
        apply in_flat_map in Hi as (y & Hy & Hi). pose proof (partner_events_pair _ _ _ _ _ _ Hi) as (E1' & E2' & _).
        rewrite E1', E2'. split; auto. split; [congruence|]. split; [congruence|].
        exists [], l. rewrite <- E1', E1. cbn. auto.
      + destruct (IH Hi) as (A & B & C & l1 & l2 & D & F). split; auto. split; auto. split; auto.
        exists (x :: l1), l2. cbn. rewrite <- D. auto.
  Qed.

  Lemma ee_off : electron_electron c = false -> ~ collided (snd s') "e" "e".
  Proof.
    intros Off C. apply (collided_iff c species s s' _ _ E H) in C as (e & He & Hk).
    apply event_cases in He as [He|(He & N1 & N2 & _)]; [|intuition congruence].
    pose proof (electron_events_pair _ _ _ _ _ He) as (E1 & _).
    assert (E2 : ev2 e = "e") by intuition congruence.
    rewrite E2 in He. unfold electron_events in He. rewrite Off in He. destruct He.
  Qed.
  Lemma ei_off : electron_ion c = false -> forall sp, is_ion s sp ->
    ~ collided (snd s') "e" sp /\ ~ collided (snd s') sp "e".
  Proof.
    intros Off sp (Ne & Hz).
    assert (N : forall e, In e (all_events c (val s) (has s) species) -> ev1 e = "e" -> ev2 e = sp -> False).
    { intros e He E1 E2. apply event_cases in He as [He|(He & N1 & N2 & _)]; [|congruence].
      rewrite E2 in He. unfold electron_events in He.
      destruct (String.eqb_spec sp "e"); [congruence|]. rewrite Off in He. rewrite val_value in Hz.
      assert (Hh : has s (sp, "charge") = true).
      { destruct (has s (sp, "charge")) eqn:Q; auto. apply unset_zero in Q. congruence. }
      rewrite Hh in He. cbn [andb] in He. pose proof (Rltb_spec 0 (val s (sp, "charge"))) as W.
      destruct (Rltb 0 (val s (sp, "charge"))); [destruct He|].
      rewrite Rltb_true in He by lra. destruct He. }
    assert (N' : forall e, In e (all_events c (val s) (has s) species) -> ev1 e = sp -> ev2 e = "e" -> False).
    { intros e He E1 E2. apply event_cases in He as [He|(He & N1 & N2 & _)]; [|congruence].
      apply electron_events_pair in He. intuition congruence. }
    split; intros C; apply (collided_iff c species s s' _ _ E H) in C as (e & He & [[K1 K2]|[K1 K2]]); eauto.
  Qed.
  Lemma en_off : electron_neutral c = false -> forall sp, is_neutral s sp ->
    ~ collided (snd s') "e" sp /\ ~ collided (snd s') sp "e".
  Proof.
    intros Off sp (Ne & Hz).
    assert (N : forall e, In e (all_events c (val s) (has s) species) -> ev1 e = "e" -> ev2 e = sp -> False).
    { intros e He E1 E2. apply event_cases in He as [He|(He & N1 & N2 & _)]; [|congruence].
      rewrite E2 in He. unfold electron_events in He. rewrite val_value in Hz.
      destruct (String.eqb_spec sp "e"); [congruence|]. rewrite Off, Hz in He.
      rewrite !Rltb_false, !andb_false_r in He by lra. destruct He. }
    assert (N' : forall e, In e (all_events c (val s) (has s) species) -> ev1 e = sp -> ev2 e = "e" -> False).
    { intros e He E1 E2. apply event_cases in He as [He|(He & N1 & N2 & _)]; [|congruence].
      apply electron_events_pair in He. intuition congruence. }
    split; intros C; apply (collided_iff c species s s' _ _ E H) in C as (e & He & [[K1 K2]|[K1 K2]]); eauto.
  Qed.
  Lemma ii_off : ion_ion c = false -> forall a b, is_ion s a -> is_ion s b -> ~ collided (snd s') a b.
  Proof.
    intros Off.
    assert (N : forall e a b, In e (all_events c (val s) (has s) species) -> ev1 e = a -> ev2 e = b ->
       is_ion s a -> is_ion s b -> False).
    { intros e a b He E1 E2 (Na & Za) (Nb & Zb).
      apply event_cases in He as [He|(He & N1 & N2 & _)].
      - apply electron_events_pair in He. intuition congruence.
      - rewrite E1, E2 in He. unfold partner_events in He. rewrite val_value in Za, Zb.
        apply charged_value in Za, Zb. rewrite Za in He. unfold charged_events in He.
        rewrite Zb, Off in He. destruct (_ || _)%bool; destruct He. }
    intros a b Ha Hb C. apply (collided_iff c species s s' _ _ E H) in C as (e & He & [[K1 K2]|[K1 K2]]);
      eapply N; eauto; congruence.
  Qed.
  Lemma nn_off : neutral_neutral c = false -> forall a b, a <> "e" -> b <> "e" ->
    present s a "charge" = false -> present s b "charge" = false -> ~ collided (snd s') a b.
  Proof.
    intros Off.
    assert (N : forall e a b, In e (all_events c (val s) (has s) species) -> ev1 e = a -> ev2 e = b ->
       a <> "e" -> present s a "charge" = false -> present s b "charge" = false -> False).
    { intros e a b He E1 E2 Na Za Zb.
      apply event_cases in He as [He|(He & N1 & N2 & _)].
      - apply electron_events_pair in He. intuition congruence.
      - rewrite E1, E2 in He. unfold partner_events in He.
        rewrite has_present in Za, Zb. unfold charged in He at 1. rewrite Za in He. cbn [andb] in He.
        unfold neutral_events in He. rewrite Zb, Off in He. destruct (String.eqb b "e"); destruct He. }
    intros a b Na Nb Ha Hb C. apply (collided_iff c species s s' _ _ E H) in C as (e & He & [[K1 K2]|[K1 K2]]).
    - apply (N e a b); auto.
    - apply (N e b a); auto.
  Qed.
  (** The ion-neutral switch is only looked at when the neutral comes first. *)
  Lemma in_off : ion_neutral c = false ->
    forall a b, is_ion s a -> is_neutral s b ->
    (forall l1 l2, species = (l1 ++ a :: l2)%list -> ~ In b l2) ->
    ~ collided (snd s') a b /\ ~ collided (snd s') b a.
  Proof.
    intros Off a b (Na & Za) (Nb & Zb) Ord.
    assert (N1 : forall e, In e (all_events c (val s) (has s) species) -> ev1 e = a -> ev2 e = b -> False).
    { intros e He E1 E2. apply event_cases in He as [He|(He & N1 & N2 & l1 & l2 & D & F)].
      - apply electron_events_pair in He. intuition congruence.
      - rewrite E1, E2 in *. destruct F as [->|F]; [|now apply (Ord l1 l2)]. congruence. }
    assert (N2 : forall e, In e (all_events c (val s) (has s) species) -> ev1 e = b -> ev2 e = a -> False).
    { intros e He E1 E2. apply event_cases in He as [He|(He & M1 & M2 & _)].
      - apply electron_events_pair in He. intuition congruence.
      - rewrite E1, E2 in He. unfold partner_events in He. rewrite val_value in Za, Zb.
        destruct (charged (val s) (has s) b) eqn:Cb; [apply charged_value in Cb; congruence|].
        apply charged_value in Za. unfold charged in Za. apply andb_true_iff in Za as [Ha _].
        unfold neutral_events in He. rewrite Ha, Off in He. destruct (String.eqb a "e"); destruct He. }
    split; intros C; apply (collided_iff c species s s' _ _ E H) in C as (e & He & [[K1 K2]|[K1 K2]]); eauto.
  Qed.

  (** Without a recorded rate with another species there is no source. *)
  Lemma no_rate_no_source a : (forall b, b <> a -> ~ collided (snd s') a b) ->
    value s' a "momentum_source" = value s a "momentum_source" /\
    value s' a "energy_source" = value s a "energy_source".
  Proof.
    intros N. pose proof (transform_performs _ _ _ _ H) as (A & _ & _).
    rewrite !val_value, !A.
    assert (Z : forall q, String.eqb cf q = false -> sumR (fun e => change c (val s) e (a, q)) (all_events c (val s) (has s) species) = 0).
    { intros q Hq. apply sumR_zero. intros e He. unfold change. rewrite !at_key_species, Hq.
      assert (K1 : ev1 e <> ev2 e -> ev1 e <> a).
      { intros Ne Ea. apply (N (ev2 e)); [congruence|]. apply (collided_iff c species s s' _ _ E H).
        exists e. split; auto. }
      assert (K2 : ev1 e <> ev2 e -> ev2 e <> a).
      { intros Ne Ea. apply (N (ev1 e)); [congruence|]. apply (collided_iff c species s s' _ _ E H).
        exists e. split; auto. }
      destruct (String.eqb_spec (ev1 e) (ev2 e)); [destruct (String.eqb (ev1 e) a); lra|].
      destruct (String.eqb_spec (ev1 e) a); [exfalso; now apply K1|].
      destruct (String.eqb_spec (ev2 e) a); [exfalso; now apply K2|]. lra. }
    rewrite !Z by reflexivity. split; lra.
  Qed.
End Switches.

Theorem transform_finishes c species s : inputs_set s species ->
  exists s', finishes (transform c species) s s' tt.
Proof.
  intros (A & B). destruct (works_transform species c s) as (s' & [] & F & _); eauto.
  split; auto. intros sp q Hq. apply B. unfold is_source in Hq.
  apply orb_true_iff in Hq as [Hq|Hq]; [apply orb_true_iff in Hq as [Hq|Hq]|];
    apply String.eqb_eq in Hq; unfold cf, mom, en in Hq; auto.
Qed.
