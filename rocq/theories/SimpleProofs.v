(** Lemmas on components which prescribe part of the state of a species. *)

From Coq Require Import List Bool String Reals Lra.
From Verif Require Import OptionsModel OptionsSpec StateMonad StateSpec StateMonadProofs SimpleModel SimpleSpec.
Import ListNotations.
Open Scope R_scope.
Open Scope string_scope.

Lemma at_same (st : State) k e : upd key_eqb st k e k = e.
Proof. unfold upd. now rewrite key_eqb_refl. Qed.
Lemma at_other (st : State) k e k' : k <> k' -> upd key_eqb st k e k' = st k'.
Proof. intros H. unfold upd. now rewrite key_eqb_neq. Qed.
Ltac look := repeat (first [rewrite at_same | rewrite at_other by congruence]).
Ltac look_in H := repeat (first [rewrite at_same in H | rewrite at_other in H by congruence]).

Lemma fixed_of (s : State * unit) sp q : e_final_dom (fst s (sp, q)) = true -> fixed s sp q.
Proof.
  destruct s as [st []]. cbn [fst]. intros H v.
  assert (A : forall v, set finiteR v (st (sp, q)) = (st (sp, q), RThrow)).
  { intros w. unfold set. rewrite H. destruct (e_final (st (sp, q))); reflexivity. }
  unfold mset, madd, msub, call_unit, add, subtract. cbn [fst snd].
  split; [|split].
  - rewrite A. cbn [fst snd]. split; [reflexivity|]. unfold value. cbn [fst]. now look.
  - destruct (e_val (st (sp, q))) as [w|] eqn:E; cbn [castR]; rewrite A; cbn [fst snd]; (split; [reflexivity|]); unfold value; cbn [fst]; now look.
  - destruct (e_val (st (sp, q))) as [w|] eqn:E; cbn [castR]; rewrite A; cbn [fst snd]; (split; [reflexivity|]); unfold value; cbn [fst]; now look.
Qed.

(** Setting an entry, by cases on its marks. *)
Lemma set_run (st : State) k v :
  mset (P := unit) k v (st, tt)
  = if (e_final (st k) || e_final_dom (st k))%bool then ((upd key_eqb st k (st k), tt), Exc)
    else ((upd key_eqb st k (mkEntry (Some v) false false), tt), Ok tt).
Proof.
  unfold mset, call_unit, set, finiteR, force. cbn [fst snd].
  destruct (e_final (st k)) eqn:F; [reflexivity|]. destruct (e_final_dom (st k)) eqn:G; [reflexivity|]. cbn [orb fst snd]. now rewrite ?F, ?G.
Qed.
Lemma is_set_nb_run (st : State) k :
  mis_set_final_nb (P := unit) k (st, tt) = ((upd key_eqb st k (mark_final_dom (st k)), tt), Ok (is_set (st k))).
Proof. reflexivity. Qed.
Lemma get_nb_run (st : State) k v : e_val (st k) = Some v ->
  mget_nb (P := unit) k (st, tt) = ((upd key_eqb st k (mark_final_dom (st k)), tt), Ok v).
Proof. intros H. unfold mget_nb, call_val, getNoBoundary, getNonFinal, mark_final_dom. cbn [fst snd e_val]. rewrite H. reflexivity. Qed.
Lemma get_nb_none (st : State) k : e_val (st k) = None ->
  mget_nb (P := unit) k (st, tt) = ((upd key_eqb st k (mark_final_dom (st k)), tt), Exc).
Proof. intros H. unfold mget_nb, call_val, getNoBoundary, getNonFinal, mark_final_dom. cbn [fst snd e_val]. rewrite H. reflexivity. Qed.
Lemma get_run (st : State) k v : e_val (st k) = Some v ->
  mget (P := unit) k (st, tt) = ((upd key_eqb st k (mark_final (st k)), tt), Ok v).
Proof. intros H. unfold mget, call_val, get, getNonFinal, mark_final. cbn [fst snd e_val]. rewrite H. reflexivity. Qed.
Lemma get_none (st : State) k : e_val (st k) = None ->
  mget (P := unit) k (st, tt) = ((upd key_eqb st k (mark_final (st k)), tt), Exc).
Proof. intros H. unfold mget, call_val, get, getNonFinal, mark_final. cbn [fst snd e_val]. rewrite H. reflexivity. Qed.

Lemma bind_ok {A B} (m : SM A) (f : A -> SM B) s s1 a : m s = (s1, Ok a) -> bind m f s = f a s1.
Proof. intros H. unfold bind. now rewrite H. Qed.
Lemma bind_exc {A B} (m : SM A) (f : A -> SM B) s s1 : m s = (s1, Exc) -> bind m f s = (s1, Exc).
Proof. intros H. unfold bind. now rewrite H. Qed.

(** What pressure_from does. *)
Lemma pressure_from_spec name T st st' :
  finishes (pressure_from name T) (st, tt) (st', tt) tt ->
  e_final_dom (st' (name, "density")) = true /\
  e_val (st' (name, "density")) = e_val (st (name, "density")) /\
  (forall k, k <> (name, "density") -> k <> (name, "pressure") -> st' k = st k) /\
  match e_val (st (name, "density")) with
  | Some N => e_val (st' (name, "pressure")) = Some (N * T)
  | None => st' (name, "pressure") = st (name, "pressure")
  end.
Proof.
  unfold finishes, pressure_from. intros H.
  rewrite (bind_ok _ _ _ _ _ (is_set_nb_run st (name, "density"))) in H.
  unfold is_set in H. destruct (e_val (st (name, "density"))) as [N|] eqn:E.
  - erewrite bind_ok in H; [|apply get_nb_run; look; cbn [mark_final_dom e_val]; exact E].
    rewrite set_run in H. look_in H.
    destruct (e_final (st (name, "pressure")) || e_final_dom (st (name, "pressure")))%bool; [discriminate H|].
    injection H as <-. look. split; [reflexivity|]. split; [exact E|]. split; [|reflexivity].
    intros k H1 H2. look. reflexivity.
  - unfold ret in H. injection H as <-. look. split; [reflexivity|]. split; [exact E|]. split; [|reflexivity].
    intros k H1 _. now look.
Qed.

Lemma present_of (st : State) sp q : present (st, tt) sp q = match e_val (st (sp, q)) with Some _ => true | None => false end.
Proof. reflexivity. Qed.

Definition pressure_law (name : string) (T : R) (s s' : State * unit) : Prop :=
  value s' name "temperature" = T /\ present s' name "temperature" = true /\
  value s' name "density" = value s name "density" /\ present s' name "density" = present s name "density" /\
  (present s name "density" = true -> value s' name "pressure" = value s name "density" * T /\ present s' name "pressure" = true) /\
  (present s name "density" = false ->
   value s' name "pressure" = value s name "pressure" /\ present s' name "pressure" = present s name "pressure") /\
  fixed s' name "density" /\ keeps s s' name ["temperature"; "pressure"].

Lemma set_then_pressure name T st st' :
  finishes (mset (name, "temperature") T ;; pressure_from name T) (st, tt) (st', tt) tt ->
  pressure_law name T (st, tt) (st', tt).
Proof.
  unfold finishes. intros H.
  destruct (e_final (st (name, "temperature")) || e_final_dom (st (name, "temperature")))%bool eqn:M.
  - erewrite bind_exc in H by (rewrite set_run, M; reflexivity). discriminate H.
  - erewrite bind_ok in H by (rewrite set_run, M; reflexivity).
    apply pressure_from_spec in H. look_in H. destruct H as (H1 & H2 & H3 & H4).
    assert (Ht : st' (name, "temperature") = mkEntry (Some T) false false) by (rewrite H3 by congruence; now look).
    unfold pressure_law. unfold value, present. cbn [fst]. rewrite Ht, H2. cbn [e_val value_or_0].
    split; [reflexivity|]. split; [reflexivity|]. split; [reflexivity|]. split; [reflexivity|].
    split; [|split; [|split]].
    + destruct (e_val (st (name, "density"))) as [N|]; [|discriminate]. intros _. rewrite H4. cbn [value_or_0]. auto.
    + destruct (e_val (st (name, "density"))) as [N|]; [discriminate|]. intros _. rewrite H4. auto.
    + now apply fixed_of.
    + intros sp' q Hn. unfold value, present. cbn [fst].
      destruct (String.eqb_spec sp' name) as [->|Ns].
      * destruct (String.eqb_spec q "density") as [->|Nq]; [rewrite H2; auto|].
        assert (q <> "temperature" /\ q <> "pressure") as [N1 N2].
        { split; intros ->; destruct Hn as [Hn|Hn]; try (now apply Hn); apply Hn; cbn [List.In]; auto. }
        rewrite H3 by congruence. look. auto.
      * rewrite H3 by congruence. look. auto.
Qed.
Lemma pressure_law_eqv name T s s1 s' :
  (forall sp q, value s1 sp q = value s sp q /\ present s1 sp q = present s sp q) -> pressure_law name T s1 s' -> pressure_law name T s s'.
Proof.
  intros K (P1 & P2 & P3 & P4 & P5 & P6 & P7 & P8). unfold pressure_law.
  destruct (K name "density") as [K1 K2]. destruct (K name "pressure") as [K3 K4]. rewrite <- K1, <- K2, <- K3, <- K4.
  repeat (split; [assumption|]). intros sp q Hn. destruct (K sp q) as [K5 K6]. rewrite <- K5, <- K6. exact (P8 sp q Hn).
Qed.
Lemma unit_state (s : State * unit) : s = (fst s, tt).
Proof. destruct s as [st []]. reflexivity. Qed.

Lemma isothermal_law name T s s' : finishes (isothermal name T) s s' tt -> pressure_law name T s s'.
Proof. rewrite (unit_state s), (unit_state s'). apply set_then_pressure. Qed.
Lemma fixed_temperature_law name T s s' : finishes (fixed_temperature name T) s s' tt -> pressure_law name T s s'.
Proof. rewrite (unit_state s), (unit_state s'). apply set_then_pressure. Qed.

Lemma set_temperature_law name other s s' : finishes (set_temperature name other) s s' tt ->
  name <> other /\ present s other "temperature" = true /\
  value s' other "temperature" = value s other "temperature" /\ fixed s' other "temperature" /\
  pressure_law name (value s other "temperature") s s'.
Proof.
  rewrite (unit_state s), (unit_state s'). set (st := fst s). set (st' := fst s'). clearbody st st'. unfold finishes, set_temperature. intros H.
  destruct (e_val (st (other, "temperature"))) as [T|] eqn:E.
  - rewrite (bind_ok _ _ _ _ _ (get_nb_run st (other, "temperature") T E)) in H.
    destruct (String.eqb_spec name other) as [->|Nn].
    + exfalso. erewrite bind_exc in H.
      2:{ rewrite set_run. look. cbn [mark_final_dom e_final_dom]. rewrite orb_true_r. reflexivity. }
      discriminate H.
    + pose proof H as H0. apply set_then_pressure in H.
      assert (Eo : value (st', tt) other "temperature" = T /\ fixed (st', tt) other "temperature").
      { unfold finishes in H0.
        destruct (e_final (upd key_eqb st (other, "temperature") (mark_final_dom (st (other, "temperature"))) (name, "temperature"))
          || e_final_dom (upd key_eqb st (other, "temperature") (mark_final_dom (st (other, "temperature"))) (name, "temperature")))%bool eqn:M.
        - erewrite bind_exc in H0 by (rewrite set_run, M; reflexivity). discriminate H0.
        - erewrite bind_ok in H0 by (rewrite set_run, M; reflexivity).
          apply pressure_from_spec in H0. destruct H0 as (_ & _ & H3 & _).
          assert (A : st' (other, "temperature") = mark_final_dom (st (other, "temperature"))).
          { rewrite H3 by congruence. look. reflexivity. }
          split; [unfold value; cbn [fst]; rewrite A; cbn [mark_final_dom e_val]; now rewrite E|].
          apply fixed_of. cbn [fst]. now rewrite A. }
      destruct Eo as [Eo1 Eo2].
      assert (V : value (st, tt) other "temperature" = T) by (unfold value; cbn [fst]; now rewrite E).
      split; [assumption|]. split; [unfold present; cbn [fst]; now rewrite E|]. split; [congruence|]. split; [assumption|].
      rewrite V. revert H. apply pressure_law_eqv.
      intros sp q. unfold value, present. cbn [fst]. unfold upd. destruct (key_eqb (other, "temperature") (sp, q)) eqn:KE; [|auto].
      apply key_eqb_eq in KE. injection KE as <- <-. auto.
  - rewrite (bind_exc _ _ _ _ (get_nb_none st (other, "temperature") E)) in H. discriminate H.
Qed.

(** After set_temperature a boundary value of the other species can still change. *)
Lemma guard_differs : exists name other s s1 s2 v,
  finishes (set_temperature name other) s s1 tt /\ finishes (mset_boundary (other, "temperature") v) s1 s2 tt /\
  value s2 name "temperature" <> value s2 other "temperature".
Proof.
  set (st := state_of [(("e", "temperature"), 1)]).
  exists "d", "e", (st, tt).
  assert (E : e_val (st ("e", "temperature")) = Some 1) by reflexivity.
  eexists. eexists. exists 2. split; [|split].
  - unfold finishes, set_temperature. rewrite (bind_ok _ _ _ _ _ (get_nb_run st _ 1 E)).
    erewrite bind_ok by (rewrite set_run; look; reflexivity).
    unfold pressure_from. erewrite bind_ok by apply is_set_nb_run. look.
    change (is_set (st ("d", "density"))) with false. reflexivity.
  - unfold finishes, mset_boundary, call_unit, setBoundary. cbn [fst snd]. look. cbn [mark_final_dom e_final].
    change (e_final (st ("e", "temperature"))) with false. cbv iota. reflexivity.
  - unfold value. cbn [fst]. look. cbn [force e_val value_or_0]. lra.
Qed.

(** fixed_velocity *)
Lemma fixed_velocity_law name V s s' : finishes (fixed_velocity name V) s s' tt ->
  value s' name "velocity" = V /\ present s' name "velocity" = true /\
  (present s name "density" = true ->
   present s name "AA" = true /\ value s' name "momentum" = value s name "AA" * value s name "density" * V /\ present s' name "momentum" = true /\
   fixed s' name "AA") /\
  (present s name "density" = false ->
   value s' name "momentum" = value s name "momentum" /\ present s' name "momentum" = present s name "momentum") /\
  fixed s' name "density" /\ keeps s s' name ["velocity"; "momentum"].
Proof.
  rewrite (unit_state s), (unit_state s'). set (st := fst s). set (st' := fst s'). clearbody st st'. unfold finishes, fixed_velocity. intros H.
  destruct (e_final (st (name, "velocity")) || e_final_dom (st (name, "velocity")))%bool eqn:M.
  { erewrite bind_exc in H by (rewrite set_run, M; reflexivity). discriminate H. }
  erewrite bind_ok in H by (rewrite set_run, M; reflexivity).
  erewrite bind_ok in H by apply is_set_nb_run. look_in H.
  unfold value, present, keeps. cbn [fst].
  unfold is_set in H. destruct (e_val (st (name, "density"))) as [N|] eqn:E.
  - erewrite bind_ok in H; [|apply get_nb_run; look; cbn [mark_final_dom e_val]; exact E].
    destruct (e_val (st (name, "AA"))) as [A|] eqn:EA.
    2:{ erewrite bind_exc in H; [|apply get_none; look; exact EA]. discriminate H. }
    erewrite bind_ok in H; [|apply get_run; look; exact EA].
    rewrite set_run in H. look_in H.
    destruct (e_final (st (name, "momentum")) || e_final_dom (st (name, "momentum")))%bool; [discriminate H|].
    injection H as <-. look. cbn [mark_final mark_final_dom e_val value_or_0].
    split; [reflexivity|]. split; [reflexivity|]. split; [|split; [|split]].
    + intros _. split; [reflexivity|]. split; [reflexivity|]. split; [reflexivity|].
      apply fixed_of. cbn [fst]. look. reflexivity.
    + discriminate.
    + apply fixed_of. cbn [fst]. look. reflexivity.
    + intros sp q Hn. unfold value, present. cbn [fst]. destruct (String.eqb_spec sp name) as [->|Ns].
      * destruct (String.eqb_spec q "density") as [->|Nq]; [look; cbn [mark_final_dom e_val]; auto|].
        destruct (String.eqb_spec q "AA") as [->|Na]; [look; cbn [mark_final e_val]; auto|].
        assert (q <> "velocity" /\ q <> "momentum") as [N1 N2].
        { split; intros ->; destruct Hn as [Hn|Hn]; try (now apply Hn); apply Hn; cbn [List.In]; auto. }
        look. auto.
      * look. auto.
  - unfold ret in H. injection H as <-. look. cbn [mark_final_dom e_val value_or_0].
    split; [reflexivity|]. split; [reflexivity|]. split; [discriminate|]. split; [auto|]. split.
    + apply fixed_of. cbn [fst]. look. reflexivity.
    + intros sp q Hn. unfold value, present. cbn [fst]. destruct (String.eqb_spec sp name) as [->|Ns].
      * destruct (String.eqb_spec q "density") as [->|Nq]; [look; cbn [mark_final_dom e_val]; rewrite ?E; auto|].
        assert (q <> "velocity" /\ q <> "momentum") as [N1 N2].
        { split; intros ->; destruct Hn as [Hn|Hn]; try (now apply Hn); apply Hn; cbn [List.In]; auto. }
        look. auto.
      * look. auto.
Qed.

(** Order *)
Lemma density_too_late (m : SM unit) name N q A s s' :
  (forall s s', finishes m s s' tt -> fixed s' name "density") ->
  ~ finishes (m ;; fixed_density name N q A) s s' tt.
Proof.
  intros Hm F. apply bind_finishes in F as (s1 & [] & F1 & F2). specialize (Hm _ _ F1).
  unfold fixed_density in F2. 
  assert (Keep : forall qq v (s2 s3 : State * unit), qq <> "density" -> fixed s2 name "density" -> finishes (mset (name, qq) v) s2 s3 tt ->
            orb (e_final_dom (fst s3 (name, "density"))) (e_final (fst s3 (name, "density"))) = true).
  { intros qq v s2 s3 Hq Hf F. rewrite (unit_state s2) in F, Hf. unfold finishes in F. rewrite set_run in F.
    destruct (e_final (fst s2 (name, qq)) || e_final_dom (fst s2 (name, qq)))%bool; [discriminate F|].
    injection F as <-. cbn [fst]. rewrite at_other by congruence.
    destruct (Hf 0) as [[Hx _] _]. rewrite set_run in Hx.
    destruct (e_final (fst s2 (name, "density"))), (e_final_dom (fst s2 (name, "density"))); cbn in Hx |- *; try reflexivity; discriminate Hx. }
  assert (Again : forall s2 : State * unit, (e_final_dom (fst s2 (name, "density")) || e_final (fst s2 (name, "density")) = true)%bool -> 
            forall s3 v, ~ finishes (mset (name, "density") v) s2 s3 tt).
  { intros s2 Hs s3 v F. rewrite (unit_state s2) in F. unfold finishes in F. rewrite set_run in F. rewrite orb_comm, Hs in F. discriminate F. }
  assert (Fix : forall s2 : State * unit, (e_final_dom (fst s2 (name, "density")) || e_final (fst s2 (name, "density")) = true)%bool ->
            forall qq v s3, qq <> "density" -> finishes (mset (name, qq) v) s2 s3 tt ->
            (e_final_dom (fst s3 (name, "density")) || e_final (fst s3 (name, "density")) = true)%bool).
  { intros s2 Hs qq v s3 Hq F. rewrite (unit_state s2) in F. unfold finishes in F. rewrite set_run in F.
    destruct (e_final (fst s2 (name, qq)) || e_final_dom (fst s2 (name, qq)))%bool; [discriminate F|].
    injection F as <-. cbn [fst]. rewrite at_other by congruence. exact Hs. }
  apply bind_finishes in F2 as (s2 & [] & F2 & F3).
  apply bind_finishes in F3 as (s3 & [] & F3 & F4).
  destruct (negb (Reqb q 0)).
  - apply (Again s3) in F4; [exact F4|]. apply (Fix s2 (Keep "charge" q s1 s2 ltac:(congruence) Hm F2) "AA" A s3 ltac:(congruence) F3).
  - apply ret_finishes in F2 as [-> _]. apply (Again s3) in F4; [exact F4|].
    apply (Keep "AA" A s1 s3 ltac:(congruence) Hm F3).
Qed.

(** All three on an untouched species. *)
Lemma together name N q A T V s : untouched s name ->
  exists s', finishes (fixed_density name N q A ;; isothermal name T ;; fixed_velocity name V) s s' tt /\
    value s' name "density" = N /\ value s' name "temperature" = T /\ value s' name "velocity" = V /\
    value s' name "pressure" = N * T /\ value s' name "momentum" = A * N * V /\ value s' name "AA" = A /\
    present s' name "charge" = negb (Reqb q 0) /\ value s' name "charge" = q.
Proof.
  rewrite (unit_state s). set (st := fst s). clearbody st. unfold untouched. cbn [fst]. intros U.
  destruct (negb (Reqb q 0)) eqn:Q.
  - eexists. split.
    + unfold finishes. erewrite bind_ok.
      2:{ unfold fixed_density. rewrite Q. erewrite bind_ok by (rewrite set_run; look; rewrite !U; reflexivity).
          erewrite bind_ok by (rewrite set_run; look; rewrite !U; reflexivity). rewrite set_run; look; rewrite !U. reflexivity. }
      erewrite bind_ok.
      2:{ unfold isothermal. erewrite bind_ok by (rewrite set_run; look; rewrite !U; reflexivity).
          unfold pressure_from. erewrite bind_ok by apply is_set_nb_run. look. cbn [is_set e_val]. cbv iota.
          erewrite bind_ok by (apply get_nb_run; look; reflexivity). rewrite set_run; look; rewrite !U. reflexivity. }
      unfold fixed_velocity. erewrite bind_ok by (rewrite set_run; look; rewrite !U; reflexivity).
      erewrite bind_ok by apply is_set_nb_run. look. cbn [mark_final_dom is_set e_val]. cbv iota.
      erewrite bind_ok by (apply get_nb_run; look; reflexivity).
      erewrite bind_ok by (apply get_run; look; reflexivity). rewrite set_run; look; rewrite !U. reflexivity.
    + unfold value, present. cbn [fst]. look. cbn [mark_final mark_final_dom e_val value_or_0].
      repeat (split; [reflexivity|]). reflexivity.
  - assert (q = 0) as -> by (apply Reqb_eq; now apply negb_false_iff).
    eexists. split.
    + unfold finishes. erewrite bind_ok.
      2:{ unfold fixed_density. rewrite Q. erewrite bind_ok by reflexivity.
          erewrite bind_ok by (rewrite set_run; look; rewrite !U; reflexivity). rewrite set_run; look; rewrite !U. reflexivity. }
      erewrite bind_ok.
      2:{ unfold isothermal. erewrite bind_ok by (rewrite set_run; look; rewrite !U; reflexivity).
          unfold pressure_from. erewrite bind_ok by apply is_set_nb_run. look. cbn [is_set e_val]. cbv iota.
          erewrite bind_ok by (apply get_nb_run; look; reflexivity). rewrite set_run; look; rewrite !U. reflexivity. }
      unfold fixed_velocity. erewrite bind_ok by (rewrite set_run; look; rewrite !U; reflexivity).
      erewrite bind_ok by apply is_set_nb_run. look. cbn [mark_final_dom is_set e_val]. cbv iota.
      erewrite bind_ok by (apply get_nb_run; look; reflexivity).
      erewrite bind_ok by (apply get_run; look; reflexivity). rewrite set_run; look; rewrite !U. reflexivity.
    + unfold value, present. cbn [fst]. look. rewrite !U. cbn [mark_final mark_final_dom e_val value_or_0 fresh].
      repeat (split; [reflexivity|]). reflexivity.
Qed.

Lemma pressure_both name T s s' :
  finishes (isothermal name T) s s' tt \/ finishes (fixed_temperature name T) s s' tt -> pressure_law name T s s'.
Proof. intros [F|F]; [exact (isothermal_law _ _ _ _ F)|exact (fixed_temperature_law _ _ _ _ F)]. Qed.
Lemma same_temperature name other s s' : finishes (set_temperature name other) s s' tt ->
  name <> other /\ present s other "temperature" = true /\
  value s' name "temperature" = value s' other "temperature" /\ value s' other "temperature" = value s other "temperature" /\
  fixed s' other "temperature" /\
  (present s name "density" = true -> value s' name "pressure" = value s name "density" * value s other "temperature").
Proof.
  intros F. apply set_temperature_law in F as (H1 & H2 & H3 & H4 & P1 & P2 & P3 & P4 & P5 & _).
  repeat (split; [first [assumption|congruence]|]). intros Hd. exact (proj1 (P5 Hd)).
Qed.
Lemma order_refused name other T V N q A s s' :
  ~ finishes (isothermal name T ;; fixed_density name N q A) s s' tt /\
  ~ finishes (fixed_temperature name T ;; fixed_density name N q A) s s' tt /\
  ~ finishes (set_temperature name other ;; fixed_density name N q A) s s' tt /\
  ~ finishes (fixed_velocity name V ;; fixed_density name N q A) s s' tt.
Proof.
  repeat split; apply density_too_late; intros s0 s1 F.
  - now apply isothermal_law in F as (_ & _ & _ & _ & _ & _ & F & _).
  - now apply fixed_temperature_law in F as (_ & _ & _ & _ & _ & _ & F & _).
  - now apply set_temperature_law in F as (_ & _ & _ & _ & _ & _ & _ & _ & _ & _ & F & _).
  - now apply fixed_velocity_law in F as (_ & _ & _ & _ & F & _).
Qed.
Lemma together_si u name N q A T V s :
  u_eV u <> 0 -> u_inv_meters_cubed u <> 0 -> u_meters u <> 0 -> u_seconds u <> 0 -> untouched s name ->
  exists s', finishes (fixed_density name (normalised_density u N) q A ;; isothermal name (normalised_temperature u T) ;;
                       fixed_velocity name (normalised_velocity u V)) s s' tt /\
    value s' name "density" * u_inv_meters_cubed u = N /\ value s' name "temperature" * u_eV u = T /\
    value s' name "velocity" * (u_meters u / u_seconds u) = V /\
    value s' name "pressure" * (u_inv_meters_cubed u * u_eV u) = N * T /\
    value s' name "momentum" * (u_inv_meters_cubed u * (u_meters u / u_seconds u)) = A * N * V /\
    value s' name "AA" = A /\ value s' name "charge" = q /\ (present s' name "charge" = true <-> q <> 0).
Proof.
  intros H1 H2 H3 H4 U.
  destruct (together name (normalised_density u N) q A (normalised_temperature u T) (normalised_velocity u V) s U)
    as (s' & F & E1 & E2 & E3 & E4 & E5 & E6 & E7 & E8).
  exists s'. rewrite E1, E2, E3, E4, E5, E6, E7, E8.
  unfold normalised_density, normalised_temperature, normalised_velocity.
  split; [exact F|]. split; [field; assumption|]. split; [field; assumption|]. split; [field; auto|]. split; [field; auto|]. split; [field; auto|].
  split; [reflexivity|]. split; [reflexivity|].
  split; intros H.
  - intros ->. rewrite Reqb_true in H by reflexivity. discriminate H.
  - now rewrite Reqb_false.
Qed.

Lemma simple_cases :
  (exists s', finishes (isothermal "d" 3) (state_of [(("d", "density"), 2)], tt) s' tt /\ value s' "d" "pressure" = 6) /\
  (exists s', finishes (set_temperature "d" "e") (state_of [(("d", "density"), 2); (("e", "temperature"), 3)], tt) s' tt /\ value s' "d" "pressure" = 6) /\
  (exists s', finishes (fixed_velocity "d" 5) (state_of [(("d", "density"), 2); (("d", "AA"), 4)], tt) s' tt /\ value s' "d" "momentum" = 40) /\
  untouched (state_of [(("e", "temperature"), 3)], tt) "d".
Proof.
  split; [|split; [|split]].
  - eexists. split; [|].
    + unfold finishes, isothermal. erewrite bind_ok by (rewrite set_run; reflexivity).
      unfold pressure_from. erewrite bind_ok by apply is_set_nb_run. look. match goal with |- context [is_set ?e] => change (is_set e) with true end. cbv iota.
      erewrite bind_ok by (apply (get_nb_run _ _ 2); look; reflexivity). rewrite set_run; look. reflexivity.
    + unfold value. cbn [fst]. look. cbn [e_val value_or_0]. lra.
  - eexists. split; [|].
    + unfold finishes, set_temperature. erewrite bind_ok by (apply (get_nb_run _ _ 3); reflexivity). erewrite bind_ok by (rewrite set_run; look; reflexivity).
      unfold pressure_from. erewrite bind_ok by apply is_set_nb_run. look. match goal with |- context [is_set ?e] => change (is_set e) with true end. cbv iota.
      erewrite bind_ok by (apply (get_nb_run _ _ 2); look; reflexivity). rewrite set_run; look. reflexivity.
    + unfold value. cbn [fst]. look. cbn [e_val value_or_0]. lra.
  - eexists. split; [|].
    + unfold finishes, fixed_velocity. erewrite bind_ok by (rewrite set_run; reflexivity).
      erewrite bind_ok by apply is_set_nb_run. look. match goal with |- context [is_set ?e] => change (is_set e) with true end. cbv iota.
      erewrite bind_ok by (apply (get_nb_run _ _ 2); look; reflexivity).
      erewrite bind_ok by (apply (get_run _ _ 4); look; reflexivity). rewrite set_run; look. reflexivity.
    + unfold value. cbn [fst]. look. cbn [e_val value_or_0]. lra.
  - intros q. cbn [fst]. unfold state_of. cbn [find fst]. reflexivity.
Qed.
