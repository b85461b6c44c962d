(** Concrete states for the collisions component. *)

From Coq Require Import List Bool String Reals Lra.
From Verif Require Import OptionsModel OptionsSpec StateMonad StateSpec StateMonadProofs
  CollisionsModel CollisionsSpec CollisionsProofs CollisionsProofs2.
Import ListNotations.
Open Scope R_scope.
Open Scope string_scope.

Definition ex_config (ee ei ene ii ineu nn : bool) : config :=
  mkConfig 100 1e19 1e-3 1e8 ee ei ene ii ineu nn true 1 1.6e-19 9.1e-31 1.67e-27 8.85e-12.

(** A plasma of deuterium atoms, deuterium ions, electrons and helium atoms. *)
Definition ex_species : list string := ["d"; "d+"; "e"; "he"].
Definition ex_state : State * rates :=
  (state_of
     [(("d", "AA"), 2); (("d", "density"), 1); (("d", "temperature"), 1); (("d", "velocity"), 1);
      (("d+", "AA"), 2); (("d+", "density"), 3); (("d+", "temperature"), 2); (("d+", "velocity"), 5);
      (("d+", "charge"), 1);
      (("e", "AA"), 1 / 1836); (("e", "density"), 3); (("e", "temperature"), 4); (("e", "charge"), -1);
      (("he", "AA"), 4); (("he", "density"), 2); (("he", "temperature"), 1);
      (("d+", "momentum_source"), 7)], []).

Lemma ex_nodup : NoDup ex_species.
Proof. repeat constructor; cbn; intuition discriminate. Qed.

Lemma state_of_unmarked l k : e_final (state_of l k) = false /\ e_final_dom (state_of l k) = false.
Proof. unfold state_of. destruct (find _ l) as [p|]; auto. Qed.

Lemma ex_inputs_set : inputs_set ex_state ex_species.
Proof.
  split.
  - intros sp [<-|[<-|[<-|[<-|[]]]]]; repeat split.
  - intros sp q _. apply state_of_unmarked.
Qed.

Lemma ex_physical_state : physical_state ex_state ex_species.
Proof.
  intros sp [<-|[<-|[<-|[<-|[]]]]];
    unfold value, ex_state, state_of, value_or_0; cbn [fst find key_eqb snd String.eqb Ascii.eqb Bool.eqb andb e_val];
    repeat split; lra.
Qed.

Lemma ex_physical ee ei ene ii ineu nn : physical (ex_config ee ei ene ii ineu nn).
Proof. unfold physical, ex_config; cbn [Tnorm Nnorm rho_s0 Omega_ci qe Me Mp e0 ei_multiplier]. repeat split; lra. Qed.

Lemma ex_finishes c : exists s', finishes (transform c ex_species) ex_state s' tt.
Proof. apply transform_finishes, ex_inputs_set. Qed.

(** "d+" sorts before "he": the ion-neutral switch is not consulted. *)
Lemma ion_neutral_counterexample :
  exists c species (s s' : State * rates) a b,
    NoDup species /\ snd s = [] /\ finishes (transform c species) s s' tt /\
    ion_neutral c = false /\ is_ion s a /\ is_neutral s b /\ collided (snd s') a b.
Proof.
  set (c := ex_config false false false false false false).
  destruct (ex_finishes c) as (s' & F).
  exists c, ex_species, ex_state, s', "d+", "he".
  assert (Zd : value ex_state "d+" "charge" <> 0) by (vm_compute; lra).
  split; [exact ex_nodup|]. split; [reflexivity|]. split; [exact F|]. split; [reflexivity|].
  split; [split; [discriminate|exact Zd]|]. split; [split; [discriminate|reflexivity]|].
  apply (collided_iff c ex_species ex_state s' _ _ eq_refl F).
  rewrite val_value in Zd. apply charged_value in Zd.
  eexists. split.
  - unfold all_events. rewrite in_app_iff. right.
    apply (pair_events_in c _ _ ["d"] "d+" ["e"; "he"] "he"); [|discriminate|discriminate|cbn; auto].
    unfold partner_events. rewrite Zd. unfold charged_events.
    cbn [String.eqb Ascii.eqb Bool.eqb orb].
    assert (charged (val ex_state) (has ex_state) "he" = false) as -> by reflexivity.
    now left.
  - left. split; reflexivity.
Qed.

(** A species whose charge is set to zero counts as charged when it is the second of a
    pair whose first member is neutral. *)
Definition ex_zero_charge : State * rates :=
  (state_of
     [(("d", "AA"), 2); (("d", "density"), 1); (("d", "temperature"), 1);
      (("h", "AA"), 1); (("h", "density"), 1); (("h", "temperature"), 1); (("h", "charge"), 0)], []).

Lemma neutral_neutral_counterexample :
  exists c species (s s' : State * rates) a b,
    NoDup species /\ snd s = [] /\ finishes (transform c species) s s' tt /\
    neutral_neutral c = false /\ is_neutral s a /\ is_neutral s b /\ collided (snd s') a b.
Proof.
  set (c := ex_config true true true true true false).
  destruct (transform_finishes c ["d"; "h"] ex_zero_charge) as (s' & F).
  { split; [intros sp [<-|[<-|[]]]; repeat split|]. intros. apply state_of_unmarked. }
  exists c, ["d"; "h"], ex_zero_charge, s', "d", "h".
  split; [repeat constructor; cbn; intuition discriminate|]. split; [reflexivity|]. split; [exact F|].
  split; [reflexivity|].
  split; [split; [discriminate|reflexivity]|]. split; [split; [discriminate|reflexivity]|].
  apply (collided_iff c ["d"; "h"] ex_zero_charge s' _ _ eq_refl F).
  eexists. split.
  - unfold all_events. rewrite in_app_iff. right.
    apply (pair_events_in c _ _ [] "d" ["h"] "h"); [|discriminate|discriminate|cbn; auto].
    unfold partner_events.
    assert (charged (val ex_zero_charge) (has ex_zero_charge) "d" = false) as -> by reflexivity.
    unfold neutral_events. cbn [String.eqb Ascii.eqb Bool.eqb].
    assert (has ex_zero_charge ("h", "charge") = true) as -> by reflexivity.
    now left.
  - left. split; reflexivity.
Qed.
