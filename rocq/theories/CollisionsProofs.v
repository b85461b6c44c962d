(** Lemmas on the collisions component. *)

From Coq Require Import List Bool String Reals Lra Lia.
From Verif Require Import OptionsModel OptionsSpec StateMonad StateSpec StateMonadProofs CollisionsModel.
Import ListNotations.
Open Scope R_scope.
Open Scope string_scope.

(** One call of [collide]. *)
Record event := mkEvent { ev1 : string; ev2 : string; ev_nu : R; ev_mc : R }.

Definition cf := "collision_frequency".
Definition mom := "momentum_source".
Definition en := "energy_source".

Definition is_source (q : string) : bool :=
  (String.eqb q cf || String.eqb q mom || String.eqb q en)%bool.

Section E.
  Variable c : config.
  (** Background values. *)
  Variable v : key -> R.

  Definition nu21 (e : event) : R :=
    ev_nu e * (v (ev1 e, "AA") / v (ev2 e, "AA")) * v (ev1 e, "density")
    / rfloor (v (ev2 e, "density")) 1e-5.
  Definition F12 (e : event) : R :=
    ev_mc e * ev_nu e * v (ev1 e, "AA") * v (ev1 e, "density")
    * (v (ev2 e, "velocity") - v (ev1 e, "velocity")).
  Definition H1 (e : event) : R :=
    if frictional_heating c then
      (v (ev2 e, "AA") / (v (ev1 e, "AA") + v (ev2 e, "AA")))
      * (v (ev2 e, "velocity") - v (ev1 e, "velocity")) * F12 e
    else 0.
  Definition H2 (e : event) : R :=
    if frictional_heating c then
      (v (ev1 e, "AA") / (v (ev1 e, "AA") + v (ev2 e, "AA")))
      * (v (ev2 e, "velocity") - v (ev1 e, "velocity")) * F12 e
    else 0.
  Definition Q12 (e : event) : R :=
    ev_nu e * 3 * v (ev1 e, "density") * (v (ev1 e, "AA") / (v (ev1 e, "AA") + v (ev2 e, "AA")))
    * (v (ev2 e, "temperature") - v (ev1 e, "temperature")).

  (** Change of the entries by one event. *)
  Definition change (e : event) (k : key) : R :=
    if String.eqb (ev1 e) (ev2 e) then at_key (ev1 e, cf) (ev_nu e) k
    else at_key (ev1 e, cf) (ev_nu e) k + at_key (ev2 e, cf) (nu21 e) k
         + at_key (ev1 e, mom) (F12 e) k + at_key (ev2 e, mom) (- F12 e) k
         + at_key (ev1 e, en) (H1 e + Q12 e) k + at_key (ev2 e, en) (H2 e - Q12 e) k.

  (** Rates recorded by one event. *)
  Definition recorded (e : event) : rates :=
    if String.eqb (ev1 e) (ev2 e) then [(ev1 e, ev2 e, ev_nu e)]
    else [(ev1 e, ev2 e, ev_nu e); (ev2 e, ev1 e, nu21 e)].
End E.

(** Quantities other than the three sources keep their value. *)
Definition bg (s0 s : State * rates) : Prop :=
  forall sp q, is_source q = false -> val s (sp, q) = val s0 (sp, q) /\ has s (sp, q) = has s0 (sp, q).

Lemma bg_refl s : bg s s.
Proof. intros sp q _. auto. Qed.
Lemma bg_trans s0 s1 s2 : bg s0 s1 -> bg s1 s2 -> bg s0 s2.
Proof. intros A B sp q H. destruct (A sp q H), (B sp q H). split; congruence. Qed.
Lemma bg_same s0 s1 : same s0 s1 -> bg s0 s1.
Proof. intros (A & B & _) sp q _. auto. Qed.
Lemma bg_add s0 s1 sp q x : is_source q = true -> adds s0 s1 (at_key (sp, q) x) ->
  (forall k', has s1 k' = has s0 k' || key_eqb (sp, q) k')%bool -> bg s0 s1.
Proof.
  intros Hq A B sp' q' Hq'. rewrite A, B. unfold at_key.
  assert (q <> q') by congruence.
  rewrite key_eqb_neq by congruence. rewrite orb_false_r. split; auto. lra.
Qed.

Definition performs (c : config) (s0 s s' : State * rates) (evs : list event) : Prop :=
  (forall k, val s' k = val s k + sumR (fun e => change c (val s0) e k) evs) /\
  snd s' = (snd s ++ flat_map (recorded (val s0)) evs)%list /\
  bg s s'.

Lemma performs_nil c s0 s s' : same s s' -> performs c s0 s s' [].
Proof.
  intros H. split; [|split].
  - intros k. cbn. destruct H as (A & _ & _). rewrite A. lra.
  - cbn. rewrite app_nil_r. apply H.
  - now apply bg_same.
Qed.

Lemma performs_app c s0 s s1 s2 e1 e2 :
  performs c s0 s s1 e1 -> performs c s0 s1 s2 e2 -> performs c s0 s s2 (e1 ++ e2).
Proof.
  intros (A & B & C) (A' & B' & C'). split; [|split].
  - intros k. rewrite A', A, sumR_app. lra.
  - rewrite B', B, flat_map_app. now rewrite app_assoc.
  - eapply bg_trans; eauto.
Qed.

Lemma performs_same_l c s0 s s1 s2 e :
  same s s1 -> performs c s0 s1 s2 e -> performs c s0 s s2 e.
Proof. intros H. apply (performs_app c s0 s s1 s2 [] e). now apply performs_nil. Qed.

Lemma get_or_0_finishes sp q s s' x : finishes (get_or_0 sp q) s s' x ->
  same s s' /\ x = val s (sp, q).
Proof.
  unfold get_or_0. intros H. mstep H. apply is_set_finishes in H0 as (S & ->).
  destruct (has s (sp, q)) eqn:E.
  - apply get_nb_finishes in H as (S' & _ & ->). split; [eapply same_trans; eauto|].
    symmetry. apply (proj1 (same_sym _ _ S)).
  - apply ret_finishes in H as [-> ->]. split; auto.
    unfold has, is_set, val in *. destruct (e_val (fst s (sp, q))); [discriminate|reflexivity].
Qed.

Lemma temperature_eV_finishes c sp s s' x : finishes (temperature_eV c sp) s s' x ->
  same s s' /\ x = val s (sp, "temperature") * Tnorm c.
Proof.
  unfold temperature_eV. intros H. mstep H. apply is_set_finishes in H0 as (S & ->).
  destruct (has s (sp, "temperature")) eqn:E.
  - mstep H. apply get_nb_finishes in H0 as (S' & _ & ->).
    apply ret_finishes in H as [-> ->]. split; [eapply same_trans; eauto|].
    f_equal. symmetry. apply (proj1 (same_sym _ _ S)).
  - apply ret_finishes in H as [-> ->]. split; auto.
    unfold has, is_set, val in *. destruct (e_val (fst s (sp, "temperature"))); [discriminate|cbn; lra].
Qed.

Lemma charge_test_finishes sp test s s' b : finishes (charge_test sp test) s s' b ->
  same s s' /\ b = (has s (sp, "charge") && test (val s (sp, "charge")))%bool.
Proof.
  unfold charge_test. intros H. mstep H. apply is_set_finishes in H0 as (S & ->).
  destruct (has s (sp, "charge")) eqn:E; cbn.
  - mstep H. apply get_finishes in H0 as (S' & _ & ->).
    apply ret_finishes in H as [-> ->]. split; [eapply same_trans; eauto|].
    f_equal. symmetry. apply (proj1 (same_sym _ _ S)).
  - apply ret_finishes in H as [-> ->]. auto.
Qed.

Lemma record_rate_finishes a b x s s' u : finishes (record_rate a b x) s s' u ->
  (forall k, val s' k = val s k) /\ (forall k, has s' k = has s k) /\
  snd s' = (snd s ++ [(a, b, x)])%list.
Proof.
  intros H. apply priv_finishes in H as [A B]. unfold val, has. rewrite A. auto.
Qed.

Lemma unset_zero (s : State * rates) k : has s k = false -> val s k = 0.
Proof. unfold has, is_set, val. destruct (e_val (fst s k)); [discriminate|reflexivity]. Qed.

Ltac bgv := unfold is_source; reflexivity.

(** Effect of a piece of a call. *)
Definition eff (s s' : State * rates) (d : key -> R) (l : rates) : Prop :=
  (forall k, val s' k = val s k + d k) /\ snd s' = (snd s ++ l)%list /\ bg s s'.

Lemma eff_same s s' : same s s' -> eff s s' (fun _ => 0) [].
Proof.
  intros S. split; [|split]; [intros k; destruct S as (A & _ & _); rewrite A; lra| |now apply bg_same].
  rewrite app_nil_r. apply S.
Qed.
Lemma eff_trans s s1 s2 d1 l1 d2 l2 :
  eff s s1 d1 l1 -> eff s1 s2 d2 l2 -> eff s s2 (fun k => d1 k + d2 k) (l1 ++ l2)%list.
Proof.
  intros (A & B & C) (A' & B' & C'). split; [|split].
  - intros k. rewrite A', A. lra.
  - rewrite B', B. now rewrite app_assoc.
  - eapply bg_trans; eauto.
Qed.
Lemma eff_add sp q x s s' u : is_source q = true -> finishes (madd (sp, q) x) s s' u ->
  eff s s' (at_key (sp, q) x) [].
Proof.
  intros Hq H. apply add_finishes in H as (A & B & C). split; [exact A|split].
  - rewrite app_nil_r. auto.
  - eapply bg_add; eauto.
Qed.
Lemma eff_sub sp q x s s' u : is_source q = true -> finishes (msub (sp, q) x) s s' u ->
  eff s s' (at_key (sp, q) (- x)) [].
Proof.
  intros Hq H. apply sub_finishes in H as (A & B & C). split; [exact A|split].
  - rewrite app_nil_r. auto.
  - eapply bg_add; eauto.
Qed.
Lemma eff_record a b x s s' u : finishes (record_rate a b x) s s' u ->
  eff s s' (fun _ => 0) [(a, b, x)].
Proof.
  intros H. apply record_rate_finishes in H as (A & B & C). split; [|split]; auto.
  - intros k. rewrite A. lra.
  - intros sp q _. rewrite A, B. auto.
Qed.
Lemma eff_bg s s' d l : eff s s' d l -> bg s s'.
Proof. intros (_ & _ & H). exact H. Qed.

Lemma at_key_plus k x y k' : at_key k (x + y) k' = at_key k x k' + at_key k y k'.
Proof. unfold at_key. destruct (key_eqb k k'); lra. Qed.
Lemma at_key_0 k k' : at_key k 0 k' = 0.
Proof. unfold at_key. destruct (key_eqb k k'); lra. Qed.

Ltac vbg B := (* rewrite background values to those of the first state *)
  repeat match goal with
  | |- context [val ?s (?sp, ?q)] =>
      match type of B with bg ?s0 s => rewrite (proj1 (B sp q eq_refl)) end
  end.

Lemma collide_eff c s1 s2 nu mc s s' :
  finishes (collide c s1 s2 nu mc) s s' tt ->
  exists d, eff s s' d (recorded (val s) (mkEvent s1 s2 nu mc)) /\
            forall k, d k = change c (val s) (mkEvent s1 s2 nu mc) k.
Proof.
  unfold collide, change, recorded. cbn [ev1 ev2 ev_nu ev_mc]. intros H.
  mstep H. apply eff_add in H0; [|reflexivity].
  mstep H. apply eff_record in H3. pose proof (eff_trans _ _ _ _ _ _ _ H0 H3) as E. clear H0 H3.
  destruct (String.eqb_spec s1 s2) as [->|Hne].
  { apply ret_finishes in H as [-> _]. eexists. split; [exact E|]. intros k. cbn beta. unfold cf. lra. }
  mstep H. apply get_finishes in H0 as (S & _ & HA1).
  rewrite (proj1 (eff_bg _ _ _ _ E s1 "AA" eq_refl)) in HA1.
  pose proof (eff_trans _ _ _ _ _ _ _ E (eff_same _ _ S)) as E1. clear E S. rename E1 into E.
  mstep H. apply get_finishes in H0 as (S & _ & HA2).
  rewrite (proj1 (eff_bg _ _ _ _ E s2 "AA" eq_refl)) in HA2.
  pose proof (eff_trans _ _ _ _ _ _ _ E (eff_same _ _ S)) as E1. clear E S. rename E1 into E.
  mstep H. apply get_nb_finishes in H0 as (S & _ & Hn1).
  rewrite (proj1 (eff_bg _ _ _ _ E s1 "density" eq_refl)) in Hn1.
  pose proof (eff_trans _ _ _ _ _ _ _ E (eff_same _ _ S)) as E1. clear E S. rename E1 into E.
  mstep H. apply get_nb_finishes in H0 as (S & _ & Hn2).
  rewrite (proj1 (eff_bg _ _ _ _ E s2 "density" eq_refl)) in Hn2.
  pose proof (eff_trans _ _ _ _ _ _ _ E (eff_same _ _ S)) as E1. clear E S. rename E1 into E.
  mstep H. apply eff_add in H0; [|reflexivity].
  pose proof (eff_trans _ _ _ _ _ _ _ E H0) as E1. clear E H0. rename E1 into E.
  mstep H. apply eff_record in H0.
  pose proof (eff_trans _ _ _ _ _ _ _ E H0) as E1. clear E H0. rename E1 into E.
  mstep H. apply is_set_final_nb_finishes in H0 as (S & Hm1).
  rewrite (proj2 (eff_bg _ _ _ _ E s1 "velocity" eq_refl)) in Hm1.
  pose proof (eff_trans _ _ _ _ _ _ _ E (eff_same _ _ S)) as E1. clear E S. rename E1 into E.
  mstep H.
  match type of H0 with finishes _ ?x ?y ?z => 
    assert (SM : same x y /\ z = (has s (s1, "velocity") || has s (s2, "velocity"))%bool) end.
  { subst a7. destruct (has s (s1, "velocity")).
    - apply ret_finishes in H0 as [-> ->]. split; [apply same_refl|reflexivity].
    - apply is_set_final_nb_finishes in H0 as (S & ->). split; auto.
      apply (eff_bg _ _ _ _ E s2 "velocity" eq_refl). }
  clear H0. destruct SM as (S & Hm).
  pose proof (eff_trans _ _ _ _ _ _ _ E (eff_same _ _ S)) as E1. clear E S. rename E1 into E.
  mstep H.
  set (ev := mkEvent s1 s2 nu mc).
  match type of H0 with finishes _ ?x ?y _ => 
    assert (SM : exists d, eff x y d [] /\ forall k, d k =
       at_key (s1, mom) (F12 (val s) ev) k + at_key (s2, mom) (- F12 (val s) ev) k
       + at_key (s1, en) (H1 c (val s) ev) k + at_key (s2, en) (H2 c (val s) ev) k) end.
  { destruct a8.
    - mstep H0. apply get_or_0_finishes in H3 as (S & Hv1).
      rewrite (proj1 (eff_bg _ _ _ _ E s1 "velocity" eq_refl)) in Hv1.
      pose proof (eff_trans _ _ _ _ _ _ _ E (eff_same _ _ S)) as E1.
      pose proof (eff_same _ _ S) as X. clear S.
      mstep H0. apply get_or_0_finishes in H3 as (S & Hv2).
      rewrite (proj1 (eff_bg _ _ _ _ E1 s2 "velocity" eq_refl)) in Hv2.
      pose proof (eff_trans _ _ _ _ _ _ _ X (eff_same _ _ S)) as X1. clear S X. rename X1 into X.
      mstep H0. apply eff_add in H3; [|reflexivity].
      pose proof (eff_trans _ _ _ _ _ _ _ X H3) as X1. clear H3 X. rename X1 into X.
      mstep H0. apply eff_sub in H3; [|reflexivity].
      pose proof (eff_trans _ _ _ _ _ _ _ X H3) as X1. clear H3 X. rename X1 into X.
      assert (EF : mc * nu * a1 * a3 * (a10 - a8) = F12 (val s) ev).
      { unfold F12, ev. cbn. subst. reflexivity. }
      unfold H1, H2. destruct (frictional_heating c).
      + mstep H0. apply eff_add in H3; [|reflexivity].
        pose proof (eff_trans _ _ _ _ _ _ _ X H3) as X1. clear H3 X. rename X1 into X.
        apply eff_add in H0; [|reflexivity].
        pose proof (eff_trans _ _ _ _ _ _ _ X H0) as X1. clear H0 X. rename X1 into X.
        eexists. split; [exact X|]. intros k. cbn beta. rewrite EF. subst.
        unfold ev, mom, en; cbn [ev1 ev2]. lra.
      + apply ret_finishes in H0 as [-> _].
        eexists. split; [exact X|]. intros k. cbn beta. rewrite EF, !at_key_0. unfold mom. lra.
    - apply ret_finishes in H0 as [-> _]. eexists. split; [apply eff_same, same_refl|].
      intros k. cbn beta. symmetry in Hm. apply orb_false_iff in Hm as [M1 M2].
      apply unset_zero in M1, M2.
      assert (Z : F12 (val s) ev = 0).
      { unfold F12, ev; cbn [ev1 ev2 ev_nu ev_mc]. rewrite M1, M2. lra. }
      assert (Z1 : H1 c (val s) ev = 0) by (unfold H1; rewrite Z; destruct (frictional_heating c); lra).
      assert (Z2 : H2 c (val s) ev = 0) by (unfold H2; rewrite Z; destruct (frictional_heating c); lra).
      rewrite Z1, Z2, Z, Ropp_0, !at_key_0. lra. }
  clear H0. destruct SM as (d1 & S & Hd1).
  pose proof (eff_trans _ _ _ _ _ _ _ E S) as E1. clear E S. rename E1 into E.
  mstep H. apply is_set_finishes in H0 as (S & Hw1).
  rewrite (proj2 (eff_bg _ _ _ _ E s1 "temperature" eq_refl)) in Hw1.
  pose proof (eff_trans _ _ _ _ _ _ _ E (eff_same _ _ S)) as E1. clear E S. rename E1 into E.
  mstep H. apply is_set_finishes in H0 as (S & Hw2).
  rewrite (proj2 (eff_bg _ _ _ _ E s2 "temperature" eq_refl)) in Hw2.
  pose proof (eff_trans _ _ _ _ _ _ _ E (eff_same _ _ S)) as E1. clear E S. rename E1 into E.
  match type of H with finishes _ ?x ?y _ => 
    assert (SM : exists d, eff x y d [] /\ forall k, d k =
       at_key (s1, en) (Q12 (val s) ev) k + at_key (s2, en) (- Q12 (val s) ev) k) end.
  { destruct (a10 || a11)%bool eqn:EO.
    - mstep H. apply get_nb_finishes in H0 as (S & _ & Hv1).
      rewrite (proj1 (eff_bg _ _ _ _ E s1 "temperature" eq_refl)) in Hv1.
      pose proof (eff_trans _ _ _ _ _ _ _ E (eff_same _ _ S)) as E1.
      pose proof (eff_same _ _ S) as X. clear S.
      mstep H. apply get_nb_finishes in H0 as (S & _ & Hv2).
      rewrite (proj1 (eff_bg _ _ _ _ E1 s2 "temperature" eq_refl)) in Hv2.
      pose proof (eff_trans _ _ _ _ _ _ _ X (eff_same _ _ S)) as X1. clear S X. rename X1 into X.
      mstep H. apply eff_add in H0; [|reflexivity].
      pose proof (eff_trans _ _ _ _ _ _ _ X H0) as X1. clear H0 X. rename X1 into X.
      apply eff_sub in H; [|reflexivity].
      pose proof (eff_trans _ _ _ _ _ _ _ X H) as X1. clear H X. rename X1 into X.
      eexists. split; [exact X|]. intros k. cbn beta. subst.
      unfold Q12, ev, en; cbn [ev1 ev2 ev_nu]. lra.
    - apply ret_finishes in H as [-> _]. eexists. split; [apply eff_same, same_refl|].
      intros k. cbn beta. subst a10 a11. apply orb_false_iff in EO as [M1 M2].
      apply unset_zero in M1, M2.
      assert (Z : Q12 (val s) ev = 0).
      { unfold Q12, ev; cbn [ev1 ev2 ev_nu]. rewrite M1, M2. lra. }
      rewrite Z, Ropp_0, !at_key_0. lra. }
  clear H. destruct SM as (d2 & S & Hd2).
  pose proof (eff_trans _ _ _ _ _ _ _ E S) as E1. clear E S. rename E1 into E.
  cbn [app] in E.
  eexists. split.
  - replace (nu21 (val s) ev) with (nu * (a1 / a2) * a3 / rfloor a4 1e-5); [exact E|].
    unfold nu21, ev; cbn. now subst.
  - intros k. cbn beta. rewrite Hd1, Hd2.
    replace (nu21 (val s) ev) with (nu * (a1 / a2) * a3 / rfloor a4 1e-5)
      by (unfold nu21, ev; cbn; now subst).
    unfold Rminus. rewrite !at_key_plus. unfold cf. lra.
Qed.

Lemma change_bg c s0 s e : bg s0 s -> forall k, change c (val s) e k = change c (val s0) e k.
Proof.
  intros B k. unfold change, nu21, H1, H2, Q12, F12.
  rewrite !(fun sp => proj1 (B sp "AA" eq_refl)), !(fun sp => proj1 (B sp "density" eq_refl)),
    !(fun sp => proj1 (B sp "velocity" eq_refl)), !(fun sp => proj1 (B sp "temperature" eq_refl)).
  reflexivity.
Qed.
Lemma recorded_bg s0 s e : bg s0 s -> recorded (val s) e = recorded (val s0) e.
Proof.
  intros B. unfold recorded, nu21.
  now rewrite !(fun sp => proj1 (B sp "AA" eq_refl)), !(fun sp => proj1 (B sp "density" eq_refl)).
Qed.

Lemma collide_performs c s0 s1 s2 nu mc s s' : bg s0 s ->
  finishes (collide c s1 s2 nu mc) s s' tt -> performs c s0 s s' [mkEvent s1 s2 nu mc].
Proof.
  intros B H. apply collide_eff in H as (d & (A & L & G) & Hd). split; [|split]; auto.
  - intros k. rewrite A, Hd. cbn. rewrite (change_bg c s0 s) by auto. lra.
  - rewrite L. cbn. rewrite app_nil_r. now rewrite (recorded_bg s0 s).
Qed.

(** ** The calls of [collide] made by [transform] *)

Section Events.
  Variable c : config.
  (** Background values and presence of entries. *)
  Variable v : key -> R.
  Variable h : key -> bool.

  Definition charged (s : string) : bool := (h (s, "charge") && negb (Reqb (v (s, "charge")) 0))%bool.
  Definition T_eV (s : string) : R := v (s, "temperature") * Tnorm c.
  Definition N_m3 (s : string) : R := v (s, "density") * Nnorm c.

  Definition electron_events (s : string) : list event :=
    if String.eqb s "e" then
      if electron_electron c then [mkEvent "e" "e" (nu_ee c (T_eV "e") (N_m3 "e") / Omega_ci c) 1] else []
    else if (h (s, "charge") && Rltb 0 (v (s, "charge")))%bool then
      if electron_ion c then
        [mkEvent "e" s (nu_ei c (T_eV "e") (N_m3 "e") (T_eV s) (N_m3 s) (v (s, "charge")) (v (s, "AA"))
                        / Omega_ci c) (mom_coeff (v (s, "charge")))]
      else []
    else if (h (s, "charge") && Rltb (v (s, "charge")) 0)%bool then []
    else if electron_neutral c then [mkEvent "e" s (nu_en c (T_eV "e") (v (s, "density"))) 1] else [].

  Definition charged_events (s1 s2 : string) : list event :=
    if (String.eqb s2 "e" || String.eqb s2 "ebeam")%bool then []
    else if charged s2 then
      if ion_ion c then
        [mkEvent s1 s2 (nu_ii c (T_eV s1) (N_m3 s1) (v (s1, "AA")) (v (s1, "charge"))
                          (T_eV s2) (N_m3 s2) (v (s2, "AA")) (v (s2, "charge")) / Omega_ci c) 1]
      else []
    else [mkEvent s1 s2 (nu_neutral c 5e-19 (T_eV s1) (v (s1, "AA")) (T_eV s2) (N_m3 s2) (v (s2, "AA"))) 1].

  Definition neutral_events (s1 s2 : string) : list event :=
    if String.eqb s2 "e" then []
    else if h (s2, "charge") then
      if ion_neutral c then
        [mkEvent s1 s2 (nu_neutral c 5e-19 (T_eV s1) (v (s1, "AA")) (T_eV s2) (N_m3 s2) (v (s2, "AA"))) 1]
      else []
    else if neutral_neutral c then
      [mkEvent s1 s2 (nu_neutral c (PI * SQ 2.8e-10) (T_eV s1) (v (s1, "AA")) (T_eV s2) (N_m3 s2)
                        (v (s2, "AA"))) 1]
    else [].

  Definition events_from (s1 : string) (from1 : list string) : list event :=
    if (String.eqb s1 "e" || String.eqb s1 "ebeam")%bool then []
    else if charged s1 then flat_map (charged_events s1) from1
    else flat_map (neutral_events s1) from1.

  Fixpoint pair_events (l : list string) : list event :=
    match l with [] => [] | s1 :: later => (events_from s1 l ++ pair_events later)%list end.

  Definition all_events (l : list string) : list event :=
    ((if existsb (String.eqb "e") l then flat_map electron_events l else []) ++ pair_events l)%list.
End Events.

Lemma performs_bg c s0 s s' evs : bg s0 s -> performs c s0 s s' evs -> bg s0 s'.
Proof. intros B (_ & _ & C). eapply bg_trans; eauto. Qed.

Lemma mfor_performs c s0 {A} (l : list A) (f : A -> CM unit) (evs : A -> list event) s s' :
  (forall x s s', bg s0 s -> finishes (f x) s s' tt -> performs c s0 s s' (evs x)) ->
  bg s0 s -> finishes (mfor l f) s s' tt -> performs c s0 s s' (flat_map evs l).
Proof.
  intros Hf. revert s. induction l as [|x l IH]; intros s B H; cbn in H |- *.
  - apply ret_finishes in H as [-> _]. apply performs_nil, same_refl.
  - mstep H. destruct a. pose proof (Hf _ _ _ B H0) as P0.
    eapply performs_app; eauto. apply IH; auto. eapply performs_bg; eauto.
Qed.

Ltac bgrw B := rewrite ?(fun sp => proj1 (B sp "AA" eq_refl)), ?(fun sp => proj1 (B sp "density" eq_refl)),
    ?(fun sp => proj1 (B sp "velocity" eq_refl)), ?(fun sp => proj1 (B sp "temperature" eq_refl)),
    ?(fun sp => proj1 (B sp "charge" eq_refl)), ?(fun sp => proj2 (B sp "charge" eq_refl)).
Ltac bgrwin B H := rewrite ?(fun sp => proj1 (B sp "AA" eq_refl)), ?(fun sp => proj1 (B sp "density" eq_refl)),
    ?(fun sp => proj1 (B sp "velocity" eq_refl)), ?(fun sp => proj1 (B sp "temperature" eq_refl)),
    ?(fun sp => proj1 (B sp "charge" eq_refl)), ?(fun sp => proj2 (B sp "charge" eq_refl)) in H.

(** Advance over a reading step: [H1] is the step, [S] its sameness, [B] the background. *)
Ltac advance B S :=
  eapply performs_same_l; [exact S|];
  let B' := fresh "B" in
  pose proof (bg_trans _ _ _ B (bg_same _ _ S)) as B'; clear S B; rename B' into B.

Lemma electron_body_performs c s0 sp s s' : bg s0 s ->
  finishes (electron_body c (T_eV c (val s0) "e") (N_m3 c (val s0) "e") sp) s s' tt ->
  performs c s0 s s' (electron_events c (val s0) (has s0) sp).
Proof.
  intros B H. unfold electron_body in H. unfold electron_events.
  destruct (String.eqb sp "e").
  { destruct (electron_electron c).
    - now apply collide_performs.
    - apply ret_finishes in H as [-> _]. apply performs_nil, same_refl. }
  mstep H. apply charge_test_finishes in H0 as (S & Hp). bgrwin B Hp. rewrite <- Hp. advance B S.
  destruct a.
  { destruct (electron_ion c).
    - mstep H. apply get_nb_finishes in H0 as (S & _ & E1). bgrwin B E1. advance B S.
      mstep H. apply get_nb_finishes in H0 as (S & _ & E2). bgrwin B E2. advance B S.
      mstep H. apply get_finishes in H0 as (S & _ & E3). bgrwin B E3. advance B S.
      mstep H. apply get_finishes in H0 as (S & _ & E4). bgrwin B E4. advance B S.
      subst. apply collide_performs; auto.
    - apply ret_finishes in H as [-> _]. apply performs_nil, same_refl. }
  mstep H. apply charge_test_finishes in H0 as (S & Hn). bgrwin B Hn. rewrite <- Hn. advance B S.
  destruct a.
  { apply ret_finishes in H as [-> _]. apply performs_nil, same_refl. }
  destruct (electron_neutral c).
  - mstep H. apply get_nb_finishes in H0 as (S & _ & E1). bgrwin B E1. advance B S.
    subst. apply collide_performs; auto.
  - apply ret_finishes in H as [-> _]. apply performs_nil, same_refl.
Qed.

Lemma charged_body_performs c s0 s1 sp s s' : bg s0 s ->
  finishes (charged_body c s1 (T_eV c (val s0) s1) (N_m3 c (val s0) s1) (val s0 (s1, "AA"))
              (val s0 (s1, "charge")) sp) s s' tt ->
  performs c s0 s s' (charged_events c (val s0) (has s0) s1 sp).
Proof.
  intros B H. unfold charged_body in H. unfold charged_events, charged.
  destruct (String.eqb sp "e" || String.eqb sp "ebeam")%bool.
  { apply ret_finishes in H as [-> _]. apply performs_nil, same_refl. }
  mstep H. apply temperature_eV_finishes in H0 as (S & E1). bgrwin B E1. advance B S.
  mstep H. apply get_nb_finishes in H0 as (S & _ & E2). bgrwin B E2. advance B S.
  mstep H. apply get_finishes in H0 as (S & _ & E3). bgrwin B E3. advance B S.
  mstep H. apply charge_test_finishes in H0 as (S & E4). bgrwin B E4. rewrite <- E4. advance B S.
  destruct a2.
  - destruct (ion_ion c).
    + mstep H. apply get_finishes in H0 as (S & _ & E5). bgrwin B E5. advance B S.
      subst. apply collide_performs; auto.
    + apply ret_finishes in H as [-> _]. apply performs_nil, same_refl.
  - mstep H. apply get_nb_finishes in H0 as (S & _ & E5). bgrwin B E5. advance B S.
    subst. apply collide_performs; auto.
Qed.

Lemma neutral_body_performs c s0 s1 sp s s' : bg s0 s ->
  finishes (neutral_body c s1 (T_eV c (val s0) s1) (N_m3 c (val s0) s1) (val s0 (s1, "AA")) sp) s s' tt ->
  performs c s0 s s' (neutral_events c (val s0) (has s0) s1 sp).
Proof.
  intros B H. unfold neutral_body in H. unfold neutral_events.
  destruct (String.eqb sp "e").
  { apply ret_finishes in H as [-> _]. apply performs_nil, same_refl. }
  mstep H. apply temperature_eV_finishes in H0 as (S & E1). bgrwin B E1. advance B S.
  mstep H. apply get_finishes in H0 as (S & _ & E3). bgrwin B E3. advance B S.
  mstep H. apply get_nb_finishes in H0 as (S & _ & E2). bgrwin B E2. advance B S.
  mstep H. apply is_set_finishes in H0 as (S & E4). bgrwin B E4. rewrite <- E4. advance B S.
  destruct a2.
  - destruct (ion_neutral c).
    + subst. apply collide_performs; auto.
    + apply ret_finishes in H as [-> _]. apply performs_nil, same_refl.
  - destruct (neutral_neutral c).
    + subst. apply collide_performs; auto.
    + apply ret_finishes in H as [-> _]. apply performs_nil, same_refl.
Qed.

Lemma pair_body_performs c s0 s1 from1 s s' : bg s0 s ->
  finishes (pair_body c s1 from1) s s' tt ->
  performs c s0 s s' (events_from c (val s0) (has s0) s1 from1).
Proof.
  intros B H. unfold pair_body in H. unfold events_from, charged.
  destruct (String.eqb s1 "e" || String.eqb s1 "ebeam")%bool.
  { apply ret_finishes in H as [-> _]. apply performs_nil, same_refl. }
  mstep H. apply temperature_eV_finishes in H0 as (S & E1). bgrwin B E1. advance B S.
  mstep H. apply get_nb_finishes in H0 as (S & _ & E2). bgrwin B E2. advance B S.
  mstep H. apply get_finishes in H0 as (S & _ & E3). bgrwin B E3. advance B S.
  mstep H. apply charge_test_finishes in H0 as (S & E4). bgrwin B E4. rewrite <- E4. advance B S.
  destruct a2.
  - mstep H. apply get_finishes in H0 as (S & _ & E5). bgrwin B E5. advance B S. subst.
    eapply mfor_performs; [|exact B|exact H]. intros. now apply charged_body_performs.
  - subst. eapply mfor_performs; [|exact B|exact H]. intros. now apply neutral_body_performs.
Qed.

Lemma pair_part_performs c s0 l s s' : bg s0 s -> finishes (pair_part c l) s s' tt ->
  performs c s0 s s' (pair_events c (val s0) (has s0) l).
Proof.
  revert s. induction l as [|x l IH]; intros s B H.
  - apply ret_finishes in H as [-> _]. apply performs_nil, same_refl.
  - cbn [pair_part pair_events] in *. mstep H. destruct a.
    pose proof (pair_body_performs _ _ _ _ _ _ B H0) as P0.
    eapply performs_app; eauto. apply IH; auto. eapply performs_bg; eauto.
Qed.

Lemma transform_performs c l s s' : finishes (transform c l) s s' tt ->
  performs c s s s' (all_events c (val s) (has s) l).
Proof.
  unfold transform. intros H. mstep H. destruct a. unfold all_events.
  assert (P0 : performs c s s s0 (if existsb (String.eqb "e") l
            then flat_map (electron_events c (val s) (has s)) l else [])).
  { unfold electron_part in H0. destruct (existsb (String.eqb "e") l).
    - pose proof (bg_refl s) as B. 
      mstep H0. apply get_nb_finishes in H3 as (S & _ & E1). bgrwin B E1. advance B S.
      mstep H0. apply get_nb_finishes in H3 as (S & _ & E2). bgrwin B E2. advance B S. subst.
      eapply mfor_performs; [|exact B|exact H0]. intros. now apply electron_body_performs.
    - apply ret_finishes in H0 as [-> _]. apply performs_nil, same_refl. }
  eapply performs_app; eauto. apply pair_part_performs; auto. eapply performs_bg; eauto.
  apply bg_refl.
Qed.

(** ** When the component finishes *)

Section Ready.
  Variable species : list string.

  Definition ready (s : State * rates) : Prop :=
    (forall sp, In sp species -> has s (sp, "AA") = true /\ has s (sp, "density") = true /\
                                 has s (sp, "temperature") = true) /\
    (forall sp q, is_source q = true ->
       e_final (fst s (sp, q)) = false /\ e_final_dom (fst s (sp, q)) = false).

  Definition works {A} (m : CM A) : Prop :=
    forall s, ready s -> exists s' a, finishes m s s' a /\ ready s'.

  Lemma works_ret {A} (a : A) : works (ret a).
  Proof. intros s H. exists s, a. split; auto. reflexivity. Qed.
  Lemma works_bind {A B} (m : CM A) (f : A -> CM B) : works m -> (forall a, works (f a)) -> works (bind m f).
  Proof.
    intros Hm Hf s R. destruct (Hm s R) as (s1 & a & F & R1).
    destruct (Hf a s1 R1) as (s2 & b & F2 & R2). exists s2, b. split; auto.
    apply bind_finishes. eauto.
  Qed.
  Lemma ready_mark s sp q e : ready s -> is_source q = false ->
    e_val e = e_val (fst s (sp, q)) -> ready (upd key_eqb (fst s) (sp, q) e, snd s).
  Proof.
    intros (A & B) Hq He. split.
    - intros sp' Hi. destruct s as [st p]. pose proof (upd_same_val st p _ _ He) as (_ & X & _). cbn.
      rewrite !X. now apply A.
    - intros sp' q' Hq'. cbn. unfold upd. rewrite key_eqb_neq by congruence. now apply B.
  Qed.
  Lemma works_get_nb sp q : In sp species -> In q ["AA"; "density"; "temperature"] -> works (mget_nb (sp, q)).
  Proof.
    intros Hi Hq s R. pose proof (proj1 R sp Hi) as (R1 & R2 & R3).
    assert (Hs : is_source q = false) by (destruct Hq as [<-|[<-|[<-|[]]]]; reflexivity).
    assert (Hh : has s (sp, q) = true) by (destruct Hq as [<-|[<-|[<-|[]]]]; auto).
    unfold has, is_set in Hh. destruct (e_val (fst s (sp, q))) eqn:E; [|discriminate].
    eexists _, _. split.
    - unfold finishes, mget_nb, call_val, getNoBoundary, getNonFinal. cbn. rewrite E. reflexivity.
    - apply ready_mark; auto.
  Qed.
  Lemma works_get_charge sp s : ready s -> has s (sp, "charge") = true ->
    exists s' a, finishes (mget (sp, "charge")) s s' a /\ ready s'.
  Proof.
    intros R Hh. unfold has, is_set in Hh. destruct (e_val (fst s (sp, "charge"))) eqn:E; [|discriminate].
    eexists _, _. split.
    - unfold finishes, mget, call_val, get, getNonFinal. cbn. rewrite E. reflexivity.
    - apply ready_mark; auto.
  Qed.
  Lemma works_get sp : In sp species -> works (mget (sp, "AA")).
  Proof.
    intros Hi s R. pose proof (proj1 R sp Hi) as (R1 & R2 & R3).
    unfold has, is_set in R1. destruct (e_val (fst s (sp, "AA"))) eqn:E; [|discriminate].
    eexists _, _. split.
    - unfold finishes, mget, call_val, get, getNonFinal. cbn. rewrite E. reflexivity.
    - apply ready_mark; auto.
  Qed.
  Lemma works_is_set k : works (mis_set k).
  Proof. intros s R. eexists _, _. split; [reflexivity|auto]. Qed.
  Lemma works_is_set_final_nb sp : works (mis_set_final_nb (sp, "velocity")).
  Proof. intros s R. eexists _, _. split; [reflexivity|]. now apply ready_mark. Qed.
  Lemma ready_write s sp q e : ready s -> is_source q = true ->
    e_final e = false -> e_final_dom e = false -> ready (upd key_eqb (fst s) (sp, q) e, snd s).
  Proof.
    intros (A & B) Hq He He'. split.
    - intros sp' Hi. unfold has, is_set, upd; cbn [fst].
      rewrite !key_eqb_neq by (intros [= -> ->]; discriminate). now apply A.
    - intros sp' q' Hq'. unfold upd; cbn [fst]. destruct (key_eqb (sp, q) (sp', q')); auto.
  Qed.
  Lemma works_add sp q x : is_source q = true -> works (madd (sp, q) x).
  Proof.
    intros Hq s R. destruct (proj2 R sp q Hq) as (F1 & F2).
    unfold finishes, madd, call_unit, add, set, castR, finiteR.
    destruct (e_val (fst s (sp, q))) eqn:E; rewrite F1, F2; eexists _, _; (split; [reflexivity|]);
      now apply ready_write.
  Qed.
  Lemma works_sub sp q x : is_source q = true -> works (msub (sp, q) x).
  Proof.
    intros Hq s R. destruct (proj2 R sp q Hq) as (F1 & F2).
    unfold finishes, msub, call_unit, subtract, set, castR, finiteR.
    destruct (e_val (fst s (sp, q))) eqn:E; rewrite F1, F2; eexists _, _; (split; [reflexivity|]);
      now apply ready_write.
  Qed.
  Lemma works_record a b x : works (record_rate a b x).
  Proof. intros s R. eexists _, _. split; [reflexivity|]. exact R. Qed.
  Lemma works_get_or_0_velocity sp : works (get_or_0 sp "velocity").
  Proof.
    intros s R. unfold get_or_0. destruct (has s (sp, "velocity")) eqn:E.
    - unfold has, is_set in E. destruct (e_val (fst s (sp, "velocity"))) eqn:E'; [|discriminate].
      eexists _, _. split.
      + unfold finishes, bind, mis_set, is_set. rewrite E'. unfold mget_nb, call_val, getNoBoundary, getNonFinal. cbn. rewrite E'. reflexivity.
      + apply ready_mark; auto.
    - unfold has, is_set in E. exists s, 0. split; auto.
      unfold finishes, bind, mis_set, is_set. destruct (e_val (fst s (sp, "velocity"))); [discriminate|reflexivity].
  Qed.
  Lemma works_charge_test sp t : works (charge_test sp t).
  Proof.
    intros s R. unfold charge_test. destruct (has s (sp, "charge")) eqn:E.
    - destruct (works_get_charge sp s R E) as (s' & a & F & R'). exists s', (t a). split; auto.
      unfold finishes, bind at 1, mis_set. unfold has in E. rewrite E.
      apply bind_finishes. exists s', a. split; auto. reflexivity.
    - exists s, false. split; auto. unfold finishes, bind, mis_set. unfold has in E. now rewrite E.
  Qed.
  Lemma works_temperature c sp : In sp species -> works (temperature_eV c sp).
  Proof.
    intros Hi. apply works_bind; [apply works_is_set|]. intros [|]; [|apply works_ret].
    apply works_bind; [apply works_get_nb; cbn; auto|]. intros a. apply works_ret.
  Qed.

  Lemma works_if {A} (b : bool) (m n : CM A) : works m -> works n -> works (if b then m else n).
  Proof. destruct b; auto. Qed.

  Hint Resolve works_ret works_get works_is_set works_is_set_final_nb works_record
    works_get_or_0_velocity works_charge_test works_temperature : works.

  Ltac wk := repeat match goal with
    | |- works (bind _ _) => apply works_bind; [|intros ?]
    | |- works (if _ then _ else _) => apply works_if
    | |- works (madd _ _) => apply works_add; reflexivity
    | |- works (msub _ _) => apply works_sub; reflexivity
    | |- works (mget_nb _) => apply works_get_nb; [auto|cbn; auto]
    | |- works _ => solve [auto with works]
    end.

  Lemma works_collide c s1 s2 nu mc : In s1 species -> In s2 species -> works (collide c s1 s2 nu mc).
  Proof. intros I1 I2. unfold collide. wk. Qed.

  Lemma works_mfor {A} (l : list A) (f : A -> CM unit) :
    (forall x, In x l -> works (f x)) -> works (mfor l f).
  Proof.
    induction l as [|x l IH]; intros H; cbn; [apply works_ret|].
    apply works_bind; [apply H; now left|]. intros _. apply IH. intros; apply H; now right.
  Qed.

  (** A charge test that answered [true] means that the charge can be read. *)
  Lemma works_charged {A} sp t (f : R -> CM A) (g : CM A) :
    (forall z, works (f z)) -> works g ->
    works (b <- charge_test sp t ;; if b : bool then (z <- mget (sp, "charge") ;; f z) else g).
  Proof.
    intros Hf Hg s R. destruct (works_charge_test sp t s R) as (s1 & b & F & R1).
    pose proof (charge_test_finishes _ _ _ _ _ F) as (S & Hb).
    assert (works_now : exists s' a, finishes (if b : bool then (z <- mget (sp, "charge") ;; f z) else g) s1 s' a /\ ready s').
    { destruct b; [|now apply Hg]. symmetry in Hb. apply andb_true_iff in Hb as [Hb _].
      destruct S as (_ & S & _). rewrite <- S in Hb.
      destruct (works_get_charge sp s1 R1 Hb) as (s2 & z & F2 & R2).
      destruct (Hf z s2 R2) as (s3 & a & F3 & R3). exists s3, a. split; auto.
      apply bind_finishes. eauto. }
    destruct works_now as (s' & a & F' & R'). exists s', a. split; auto.
    apply bind_finishes. eauto.
  Qed.

  Lemma works_electron_body c Te Ne sp : In "e" species -> In sp species -> works (electron_body c Te Ne sp).
  Proof.
    intros He Hi. unfold electron_body. apply works_if.
    { apply works_if; [now apply works_collide|apply works_ret]. }
    intros s R. destruct (works_charge_test sp (fun z => Rltb 0 z) s R) as (s1 & b & F & R1).
    pose proof (charge_test_finishes _ _ _ _ _ F) as (S & Hb).
    match goal with |- exists s' a, finishes (bind _ ?k) _ _ _ /\ _ =>
      assert (N : exists s' a, finishes (k b) s1 s' a /\ ready s') end.
    { destruct b.
      - destruct (electron_ion c); [|now apply works_ret].
        symmetry in Hb. apply andb_true_iff in Hb as [Hb _]. destruct S as (_ & S & _). rewrite <- S in Hb.
        destruct (works_get_nb sp "temperature" Hi ltac:(cbn; auto) s1 R1) as (s2 & a2 & F2 & R2).
        pose proof (get_nb_finishes _ _ _ _ F2) as ((_ & S2 & _) & _). rewrite <- S2 in Hb.
        destruct (works_get_nb sp "density" Hi ltac:(cbn; auto) s2 R2) as (s3 & a3 & F3 & R3).
        pose proof (get_nb_finishes _ _ _ _ F3) as ((_ & S3 & _) & _). rewrite <- S3 in Hb.
        destruct (works_get_charge sp s3 R3 Hb) as (s4 & a4 & F4 & R4).
        destruct (works_get sp Hi s4 R4) as (s5 & a5 & F5 & R5).
        destruct (works_collide c "e" sp (nu_ei c Te Ne (a2 * Tnorm c) (a3 * Nnorm c) a4 a5 / Omega_ci c)
          (mom_coeff a4) He Hi s5 R5) as (s6 & a6 & F6 & R6).
        exists s6, a6. split; auto.
        apply bind_finishes. exists s2, a2. split; auto. apply bind_finishes. exists s3, a3. split; auto.
        apply bind_finishes. exists s4, a4. split; auto. apply bind_finishes. exists s5, a5. split; auto.
      - assert (W : works (negative <- charge_test sp (fun z => Rltb z 0) ;;
                   if negative : bool then ret tt
                   else if electron_neutral c then
                     Nn <- mget_nb (sp, "density") ;; collide c "e" sp (nu_en c Te Nn) 1
                   else ret tt)).
        { apply works_bind; [apply works_charge_test|intros n]. apply works_if; [apply works_ret|].
          apply works_if; [|apply works_ret].
          apply works_bind; [apply works_get_nb; cbn; auto|]. intros. now apply works_collide. }
        now apply W. }
    destruct N as (s' & a & F' & R'). exists s', a. split; auto. apply bind_finishes. eauto.
  Qed.

  Lemma works_charged_body c s1 t n aa z sp : In s1 species -> In sp species ->
    works (charged_body c s1 t n aa z sp).
  Proof.
    intros I1 I2. unfold charged_body. apply works_if; [apply works_ret|].
    apply works_bind; [auto with works|intros t2]. apply works_bind; [apply works_get_nb; cbn; auto|intros n2].
    cbn zeta. apply works_bind; [auto with works|intros aa2].
    destruct (ion_ion c).
    - apply works_charged.
      + intros. now apply works_collide.
      + apply works_bind; [apply works_get_nb; cbn; auto|]. intros; now apply works_collide.
    - apply works_bind; [apply works_charge_test|]. intros [|]; [apply works_ret|].
      apply works_bind; [apply works_get_nb; cbn; auto|]. intros; now apply works_collide.
  Qed.
  Lemma works_neutral_body c s1 t n aa sp : In s1 species -> In sp species ->
    works (neutral_body c s1 t n aa sp).
  Proof.
    intros I1 I2. unfold neutral_body. apply works_if; [apply works_ret|].
    apply works_bind; [auto with works|intros t2]. apply works_bind; [auto with works|intros aa2].
    apply works_bind; [apply works_get_nb; cbn; auto|intros n2]. cbn zeta.
    apply works_bind; [apply works_is_set|intros b].
    repeat apply works_if; try apply works_ret; now apply works_collide.
  Qed.
  Lemma works_pair_body c s1 from1 : In s1 species -> (forall x, In x from1 -> In x species) ->
    works (pair_body c s1 from1).
  Proof.
    intros I1 I2. unfold pair_body. apply works_if; [apply works_ret|].
    apply works_bind; [auto with works|intros t2]. apply works_bind; [apply works_get_nb; cbn; auto|intros n2].
    cbn zeta. apply works_bind; [auto with works|intros aa2].
    apply works_charged.
    - intros z. apply works_mfor. intros. apply works_charged_body; auto.
    - apply works_mfor. intros. apply works_neutral_body; auto.
  Qed.
  Lemma works_pair_part c l : (forall x, In x l -> In x species) -> works (pair_part c l).
  Proof.
    induction l as [|x l IH]; intros H; [apply works_ret|].
    cbn [pair_part]. apply works_bind.
    - apply works_pair_body; auto. apply H; now left.
    - intros _. apply IH. intros; apply H; now right.
  Qed.
  Lemma works_transform c : works (transform c species).
  Proof.
    unfold transform. apply works_bind; [|intros; now apply works_pair_part].
    unfold electron_part. destruct (existsb (String.eqb "e") species) eqn:E; [|apply works_ret].
    apply existsb_exists in E as (x & Hx & Ex). apply String.eqb_eq in Ex. subst x.
    apply works_bind; [apply works_get_nb; cbn; auto|intros te].
    apply works_bind; [apply works_get_nb; cbn; auto|intros ne].
    apply works_mfor. intros. now apply works_electron_body.
  Qed.
End Ready.
