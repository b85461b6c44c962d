(** Symbolic execution of component methods: the effect of a sequence of calls on
    the values in the state, when the quantities read ([W q = false]) are different
    from the quantities written ([W q = true]). *)

From Coq Require Import List Bool String Reals Lra.
From Verif Require Import OptionsModel OptionsSpec StateMonad StateSpec StateMonadProofs.
Import ListNotations.
Open Scope R_scope.

Section Eff.
  Context {P : Type}.
  Variable W : string -> bool.
  Implicit Types s : State * P.

  Definition frame s0 s : Prop :=
    forall sp q, W q = false -> val s (sp, q) = val s0 (sp, q) /\ has s (sp, q) = has s0 (sp, q).

  (** Since [s0], the values have changed by [d] and only written quantities are touched. *)
  Definition effect s0 s (d : key -> R) : Prop :=
    (forall k, val s k = val s0 k + d k) /\ frame s0 s.

  Lemma effect_start s : effect s s (fun _ => 0).
  Proof. split; [intros; lra|]. intros sp q _; auto. Qed.

  Lemma effect_ext s0 s d d' : (forall k, d k = d' k) -> effect s0 s d -> effect s0 s d'.
  Proof. intros E (A & B). split; auto. intros k. rewrite A, E. lra. Qed.

  Lemma effect_same s0 s s1 d : effect s0 s d -> same s s1 -> effect s0 s1 d.
  Proof.
    intros (A & B) (C & D & _). split.
    - intros k. rewrite C. apply A.
    - intros sp q Hq. rewrite C, D. now apply B.
  Qed.

  Lemma effect_add s0 s s1 d sp q x : effect s0 s d -> W q = true ->
    adds s s1 (at_key (sp, q) x) -> (forall k', has s1 k' = has s k' || key_eqb (sp, q) k')%bool ->
    effect s0 s1 (fun k => d k + at_key (sp, q) x k).
  Proof.
    intros (A & B) Hq C D. split.
    - intros k. rewrite C, A. lra.
    - intros sp' q' Hq'. rewrite C, D. unfold at_key.
      rewrite key_eqb_neq by congruence. rewrite orb_false_r, Rplus_0_r. now apply B.
  Qed.

  Section Steps.
    Context {B : Type}.
    Variables (s0 s s' : State * P) (d : key -> R) (b : B).
    Hypothesis E : effect s0 s d.

    Lemma step_get sp q (f : R -> M P B) : W q = false ->
      finishes (bind (mget (sp, q)) f) s s' b ->
      has s0 (sp, q) = true /\ exists s1, effect s0 s1 d /\ finishes (f (val s0 (sp, q))) s1 s' b.
    Proof.
      intros Hq H. mstep H. apply get_finishes in H0 as (S & Hh & ->).
      destruct (proj2 E sp q Hq) as (V & Hh'). rewrite V in H. rewrite Hh' in Hh.
      split; auto. eexists. split; [|exact H]. eapply effect_same; eauto.
    Qed.
    Lemma step_get_nb sp q (f : R -> M P B) : W q = false ->
      finishes (bind (mget_nb (sp, q)) f) s s' b ->
      has s0 (sp, q) = true /\ exists s1, effect s0 s1 d /\ finishes (f (val s0 (sp, q))) s1 s' b.
    Proof.
      intros Hq H. mstep H. apply get_nb_finishes in H0 as (S & Hh & ->).
      destruct (proj2 E sp q Hq) as (V & Hh'). rewrite V in H. rewrite Hh' in Hh.
      split; auto. eexists. split; [|exact H]. eapply effect_same; eauto.
    Qed.
    Lemma step_get_nonfinal sp q (f : R -> M P B) : W q = false ->
      finishes (bind (mget_nonfinal (sp, q)) f) s s' b ->
      has s0 (sp, q) = true /\ exists s1, effect s0 s1 d /\ finishes (f (val s0 (sp, q))) s1 s' b.
    Proof.
      intros Hq H. mstep H. apply get_nonfinal_finishes in H0 as (S & Hh & ->).
      destruct (proj2 E sp q Hq) as (V & Hh'). rewrite V in H. rewrite Hh' in Hh.
      split; auto. eexists. split; [|exact H]. eapply effect_same; eauto.
    Qed.
    Lemma step_is_set sp q (f : bool -> M P B) : W q = false ->
      finishes (bind (mis_set (sp, q)) f) s s' b ->
      exists s1, effect s0 s1 d /\ finishes (f (has s0 (sp, q))) s1 s' b.
    Proof.
      intros Hq H. mstep H. apply is_set_finishes in H0 as (S & ->).
      destruct (proj2 E sp q Hq) as (_ & Hh'). rewrite Hh' in H.
      eexists. split; [|exact H]. eapply effect_same; eauto.
    Qed.
    Lemma step_is_set_final sp q (f : bool -> M P B) : W q = false ->
      finishes (bind (mis_set_final (sp, q)) f) s s' b ->
      exists s1, effect s0 s1 d /\ finishes (f (has s0 (sp, q))) s1 s' b.
    Proof.
      intros Hq H. mstep H. apply is_set_final_finishes in H0 as (S & ->).
      destruct (proj2 E sp q Hq) as (_ & Hh'). rewrite Hh' in H.
      eexists. split; [|exact H]. eapply effect_same; eauto.
    Qed.
    Lemma step_is_set_final_nb sp q (f : bool -> M P B) : W q = false ->
      finishes (bind (mis_set_final_nb (sp, q)) f) s s' b ->
      exists s1, effect s0 s1 d /\ finishes (f (has s0 (sp, q))) s1 s' b.
    Proof.
      intros Hq H. mstep H. apply is_set_final_nb_finishes in H0 as (S & ->).
      destruct (proj2 E sp q Hq) as (_ & Hh'). rewrite Hh' in H.
      eexists. split; [|exact H]. eapply effect_same; eauto.
    Qed.
    Lemma step_add sp q x (f : unit -> M P B) : W q = true ->
      finishes (bind (madd (sp, q) x) f) s s' b ->
      exists s1, effect s0 s1 (fun k => d k + at_key (sp, q) x k) /\ finishes (f tt) s1 s' b.
    Proof.
      intros Hq H. mstep H. destruct a. apply add_finishes in H0 as (A & C & _).
      eexists. split; [|exact H]. eapply effect_add; eauto.
    Qed.
    Lemma step_sub sp q x (f : unit -> M P B) : W q = true ->
      finishes (bind (msub (sp, q) x) f) s s' b ->
      exists s1, effect s0 s1 (fun k => d k + at_key (sp, q) (- x) k) /\ finishes (f tt) s1 s' b.
    Proof.
      intros Hq H. mstep H. destruct a. apply sub_finishes in H0 as (A & C & _).
      eexists. split; [|exact H]. eapply effect_add; eauto.
    Qed.
    Lemma step_ret {A} (a : A) (f : A -> M P B) : finishes (bind (ret a) f) s s' b -> finishes (f a) s s' b.
    Proof. intros H. mstep H. apply ret_finishes in H0 as [-> ->]. exact H. Qed.
    Lemma step_throw {A} (f : A -> M P B) : finishes (bind throw f) s s' b -> False.
    Proof. intros H. mstep H. now apply throw_finishes in H0. Qed.
  End Steps.

  Lemma last_add s0 s s' d u sp q x : effect s0 s d -> W q = true ->
    finishes (madd (sp, q) x) s s' u -> effect s0 s' (fun k => d k + at_key (sp, q) x k).
  Proof.
    intros E Hq H. apply add_finishes in H as (A & C & _). eapply effect_add; eauto.
  Qed.
  Lemma last_sub s0 s s' d u sp q x : effect s0 s d -> W q = true ->
    finishes (msub (sp, q) x) s s' u -> effect s0 s' (fun k => d k + at_key (sp, q) (- x) k).
  Proof.
    intros E Hq H. apply sub_finishes in H as (A & C & _). eapply effect_add; eauto.
  Qed.
  Lemma last_ret {A} s0 s s' d (a b : A) : effect s0 s d -> finishes (ret a) s s' b ->
    effect s0 s' d /\ b = a.
  Proof. intros E H. apply ret_finishes in H as [-> ->]. auto. Qed.

  Lemma bind_assoc {A B C} (m : M P A) (f : A -> M P B) (g : B -> M P C) s :
    bind (bind m f) g s = bind m (fun a => bind (f a) g) s.
  Proof. unfold bind. destruct (m s) as [s1 [a| |]]; auto. Qed.
  Lemma bind_assoc_finishes {A B C} (m : M P A) (f : A -> M P B) (g : B -> M P C) s s' c :
    finishes (bind (bind m f) g) s s' c -> finishes (bind m (fun a => bind (f a) g)) s s' c.
  Proof. unfold finishes. now rewrite bind_assoc. Qed.

  (** A loop whose body has effect [D x]. *)
  Lemma mfor_effect {A} (l : list A) (body : A -> M P unit) (D : A -> key -> R) s0 :
    (forall x s s' d, In x l -> effect s0 s d -> finishes (body x) s s' tt ->
       effect s0 s' (fun k => d k + D x k)) ->
    forall s s' d, effect s0 s d -> finishes (mfor l body) s s' tt ->
    effect s0 s' (fun k => d k + sumR (fun x => D x k) l).
  Proof.
    induction l as [|x l IH]; intros Hb s s' d E H.
    - apply ret_finishes in H as [-> _]. eapply effect_ext; [|exact E]. intros; cbn; lra.
    - cbn [mfor] in H. mstep H. destruct a.
      pose proof (Hb x s s1 d (or_introl eq_refl) E H0) as E1.
      eapply effect_ext; [|eapply IH; [|exact E1|exact H]].
      + intros k. cbn. lra.
      + intros. eapply Hb; eauto. now right.
  Qed.
End Eff.

Arguments step_get {P W B s0 s s' d b} E {sp q f}.
Arguments step_get_nb {P W B s0 s s' d b} E {sp q f}.
Arguments step_get_nonfinal {P W B s0 s s' d b} E {sp q f}.
Arguments step_is_set {P W B s0 s s' d b} E {sp q f}.
Arguments step_is_set_final {P W B s0 s s' d b} E {sp q f}.
Arguments step_is_set_final_nb {P W B s0 s s' d b} E {sp q f}.
Arguments step_add {P W B s0 s s' d b} E {sp q x f}.
Arguments step_sub {P W B s0 s s' d b} E {sp q x f}.

Ltac done_read H E :=
  let Hs := fresh "Hset" in let s1 := fresh "st" in let E1 := fresh "E1" in
  destruct H as (Hs & s1 & E1 & H); clear E; rename E1 into E.
Ltac done_step H E :=
  let s1 := fresh "st" in let E1 := fresh "E1" in
  destruct H as (s1 & E1 & H); clear E; rename E1 into E.

(** One step of [H : finishes m s s' b] from [E : effect W s0 s d]. *)
Ltac exec1 H E :=
  lazymatch type of H with
  | finishes (bind (bind _ _) _) _ _ _ => apply bind_assoc_finishes in H
  | finishes (bind (ret _) _) _ _ _ => apply step_ret in H
  | finishes (bind throw _) _ _ _ => exfalso; exact (step_throw _ _ _ _ H)
  | finishes (bind (mget _) _) _ _ _ => apply (step_get E) in H; [done_read H E|reflexivity]
  | finishes (bind (mget_nb _) _) _ _ _ => apply (step_get_nb E) in H; [done_read H E|reflexivity]
  | finishes (bind (mget_nonfinal _) _) _ _ _ => apply (step_get_nonfinal E) in H; [done_read H E|reflexivity]
  | finishes (bind (mis_set _) _) _ _ _ => apply (step_is_set E) in H; [done_step H E|reflexivity]
  | finishes (bind (mis_set_final _) _) _ _ _ => apply (step_is_set_final E) in H; [done_step H E|reflexivity]
  | finishes (bind (mis_set_final_nb _) _) _ _ _ => apply (step_is_set_final_nb E) in H; [done_step H E|reflexivity]
  | finishes (bind (madd _ _) _) _ _ _ => apply (step_add E) in H; [done_step H E|reflexivity]
  | finishes (bind (msub _ _) _) _ _ _ => apply (step_sub E) in H; [done_step H E|reflexivity]
  | finishes (madd _ _) _ _ _ => apply (last_add _ _ _ _ _ _ _ _ _ E) in H; [clear E; rename H into E|reflexivity]
  | finishes (msub _ _) _ _ _ => apply (last_sub _ _ _ _ _ _ _ _ _ E) in H; [clear E; rename H into E|reflexivity]
  | finishes throw _ _ _ => exfalso; exact (throw_finishes _ _ _ H)
  | finishes undefined _ _ _ => exfalso; exact (undefined_finishes _ _ _ H)
  end; cbv beta zeta in *.
Ltac exec H E := repeat (exec1 H E).

(** ** Showing that a method finishes, from a given initial state *)

Section Halts.
  Context {P : Type}.
  Variable W : string -> bool.
  Implicit Types s : State * P.

  Definition halts {A} (m : M P A) s : Prop := exists s' a, finishes m s s' a.

  (** Reads see the values of [s0]; the written quantities have not been read. *)
  Definition ready s0 s : Prop :=
    frame W s0 s /\
    (forall sp q, W q = true -> e_final (fst s (sp, q)) = false /\ e_final_dom (fst s (sp, q)) = false).

  Lemma ready_start s0 :
    (forall k, e_final (fst s0 k) = false /\ e_final_dom (fst s0 k) = false) -> ready s0 s0.
  Proof. intros H. split; [intros sp q _; auto|]. intros sp q _. apply H. Qed.

  Lemma ready_mark_entry s0 s sp q e : ready s0 s -> W q = false ->
    e_val e = e_val (fst s (sp, q)) -> ready s0 (upd key_eqb (fst s) (sp, q) e, snd s).
  Proof.
    intros (F & U) Hq He. split.
    - intros sp' q' Hq'. destruct (F sp' q' Hq') as (V & Hh). unfold val, has, is_set, upd in *. cbn [fst] in *.
      destruct (key_eqb (sp, q) (sp', q')) eqn:E; auto. apply key_eqb_eq in E. injection E as <- <-.
      rewrite He. auto.
    - intros sp' q' Hq'. unfold upd. cbn [fst]. rewrite key_eqb_neq by congruence. now apply U.
  Qed.
  Lemma ready_write_entry s0 s sp q e : ready s0 s -> W q = true ->
    e_final e = false -> e_final_dom e = false -> ready s0 (upd key_eqb (fst s) (sp, q) e, snd s).
  Proof.
    intros (F & U) Hq H1 H2. split.
    - intros sp' q' Hq'. destruct (F sp' q' Hq') as (V & Hh). unfold val, has, upd in *. cbn [fst] in *.
      rewrite key_eqb_neq by congruence. auto.
    - intros sp' q' Hq'. unfold upd. cbn [fst].
      destruct (key_eqb (sp, q) (sp', q')); auto.
  Qed.

  Lemma has_val s k : has s k = true -> exists v, e_val (fst s k) = Some v /\ val s k = v.
  Proof. unfold has, val, is_set. destruct (e_val (fst s k)) as [v|]; [eauto|discriminate]. Qed.

  Section Steps.
    Context {B : Type}.
    Variables (s0 s : State * P).
    Hypothesis R0 : ready s0 s.

    Lemma halts_get sp q (f : R -> M P B) : W q = false -> has s0 (sp, q) = true ->
      (forall s1, ready s0 s1 -> halts (f (val s0 (sp, q))) s1) -> halts (bind (mget (sp, q)) f) s.
    Proof.
      intros Hq Hh H. destruct (proj1 R0 sp q Hq) as (V & Hs). rewrite <- Hs in Hh.
      destruct (has_val _ _ Hh) as (v & E & Ev).
      unfold halts, finishes, bind, mget, call_val, get, getNonFinal, castR.
      cbn [mark_final mark_final_dom e_val]. rewrite E. cbn.
      rewrite <- V, Ev in H. apply H. apply ready_mark_entry; auto; cbn; congruence.
    Qed.
    Lemma halts_get_nb sp q (f : R -> M P B) : W q = false -> has s0 (sp, q) = true ->
      (forall s1, ready s0 s1 -> halts (f (val s0 (sp, q))) s1) -> halts (bind (mget_nb (sp, q)) f) s.
    Proof.
      intros Hq Hh H. destruct (proj1 R0 sp q Hq) as (V & Hs). rewrite <- Hs in Hh.
      destruct (has_val _ _ Hh) as (v & E & Ev).
      unfold halts, finishes, bind, mget_nb, call_val, getNoBoundary, getNonFinal, castR.
      cbn [mark_final mark_final_dom e_val]. rewrite E. cbn.
      rewrite <- V, Ev in H. apply H. apply ready_mark_entry; auto; cbn; congruence.
    Qed.
    Lemma halts_get_nonfinal sp q (f : R -> M P B) : W q = false -> has s0 (sp, q) = true ->
      (forall s1, ready s0 s1 -> halts (f (val s0 (sp, q))) s1) -> halts (bind (mget_nonfinal (sp, q)) f) s.
    Proof.
      intros Hq Hh H. destruct (proj1 R0 sp q Hq) as (V & Hs). rewrite <- Hs in Hh.
      destruct (has_val _ _ Hh) as (v & E & Ev).
      unfold halts, finishes, bind, mget_nonfinal, call_val, getNonFinal, castR.
      cbn [mark_final mark_final_dom e_val]. rewrite E. cbn.
      rewrite <- V, Ev in H. apply H. apply ready_mark_entry; auto; cbn; congruence.
    Qed.
    Lemma halts_is_set sp q (f : bool -> M P B) : W q = false ->
      halts (f (has s0 (sp, q))) s -> halts (bind (mis_set (sp, q)) f) s.
    Proof.
      intros Hq H. destruct (proj1 R0 sp q Hq) as (V & Hs). unfold has in *.
      unfold halts, finishes, bind, mis_set. rewrite Hs. apply H.
    Qed.
    Lemma halts_is_set_final sp q (f : bool -> M P B) : W q = false ->
      (forall s1, ready s0 s1 -> halts (f (has s0 (sp, q))) s1) -> halts (bind (mis_set_final (sp, q)) f) s.
    Proof.
      intros Hq H. destruct (proj1 R0 sp q Hq) as (V & Hs). unfold has in *.
      unfold halts, finishes, bind, mis_set_final, call_bool, isSetFinal. cbn. rewrite Hs. apply H.
      apply ready_mark_entry; auto.
    Qed.
    Lemma halts_is_set_final_nb sp q (f : bool -> M P B) : W q = false ->
      (forall s1, ready s0 s1 -> halts (f (has s0 (sp, q))) s1) -> halts (bind (mis_set_final_nb (sp, q)) f) s.
    Proof.
      intros Hq H. destruct (proj1 R0 sp q Hq) as (V & Hs). unfold has in *.
      unfold halts, finishes, bind, mis_set_final_nb, call_bool, isSetFinalNoBoundary. cbn. rewrite Hs. apply H.
      apply ready_mark_entry; auto.
    Qed.
    Lemma halts_add sp q x (f : unit -> M P B) : W q = true ->
      (forall s1, ready s0 s1 -> halts (f tt) s1) -> halts (bind (madd (sp, q) x) f) s.
    Proof.
      intros Hq H. destruct (proj2 R0 sp q Hq) as (U1 & U2).
      unfold halts, finishes, bind, madd, call_unit, add.
      unfold set, castR, finiteR.
      destruct (e_val (fst s (sp, q))) eqn:Ev; rewrite U1, U2; apply H; now apply ready_write_entry.
    Qed.
    Lemma halts_sub sp q x (f : unit -> M P B) : W q = true ->
      (forall s1, ready s0 s1 -> halts (f tt) s1) -> halts (bind (msub (sp, q) x) f) s.
    Proof.
      intros Hq H. destruct (proj2 R0 sp q Hq) as (U1 & U2).
      unfold halts, finishes, bind, msub, call_unit, subtract.
      unfold set, castR, finiteR.
      destruct (e_val (fst s (sp, q))) eqn:Ev; rewrite U1, U2; apply H; now apply ready_write_entry.
    Qed.
    Lemma halts_set sp q x (f : unit -> M P B) : W q = true ->
      (forall s1, ready s0 s1 -> halts (f tt) s1) -> halts (bind (mset (sp, q) x) f) s.
    Proof.
      intros Hq H. destruct (proj2 R0 sp q Hq) as (U1 & U2).
      unfold halts, finishes, bind, mset, call_unit, set, finiteR. rewrite ?U1, ?U2. cbn.
      apply H; apply ready_write_entry; auto.
    Qed.
  End Steps.

  Lemma halts_ret_bind {A B} (a : A) (f : A -> M P B) s : halts (f a) s -> halts (bind (ret a) f) s.
  Proof. auto. Qed.
  Lemma halts_ret {A} (a : A) s : halts (ret a) s.
  Proof. unfold halts, finishes, ret. eauto. Qed.
  Lemma halts_assoc {A B C} (m : M P A) (f : A -> M P B) (g : B -> M P C) s :
    halts (bind m (fun a => bind (f a) g)) s -> halts (bind (bind m f) g) s.
  Proof. intros (s' & a & H). exists s', a. unfold finishes. rewrite bind_assoc. exact H. Qed.
  Lemma halts_priv {B} (h : P -> P) (f : unit -> M P B) s :
    halts (f tt) (fst s, h (snd s)) -> halts (bind (mpriv h) f) s.
  Proof. auto. Qed.
  Lemma halts_tail (m : M P unit) s : halts (bind m (fun _ => ret tt)) s -> halts m s.
  Proof.
    intros (s' & a & H). unfold finishes, bind in H. destruct (m s) as [s1 [u| |]] eqn:E; try discriminate.
    exists s1, u. exact E.
  Qed.
End Halts.

Lemma halts_unit {P} (m : M P unit) s : halts m s -> exists s', finishes m s s' tt.
Proof. intros (s' & [] & H). eauto. Qed.

(** One step of a goal [halts m s] from [R0 : ready W s0 s]; [fact] proves the tests. *)
Ltac run1 R0 fact :=
  lazymatch goal with
  | |- halts (bind (bind _ _) _) _ => apply halts_assoc
  | |- halts (bind (ret _) _) _ => apply halts_ret_bind
  | |- halts (bind (mget _) _) _ =>
      eapply (halts_get _ _ _ R0); [reflexivity|fact|clear R0; intros ? R0]
  | |- halts (bind (mget_nb _) _) _ =>
      eapply (halts_get_nb _ _ _ R0); [reflexivity|fact|clear R0; intros ? R0]
  | |- halts (bind (mget_nonfinal _) _) _ =>
      eapply (halts_get_nonfinal _ _ _ R0); [reflexivity|fact|clear R0; intros ? R0]
  | |- halts (bind (mis_set _) _) _ => eapply (halts_is_set _ _ _ R0); [reflexivity|]
  | |- halts (bind (mis_set_final _) _) _ =>
      eapply (halts_is_set_final _ _ _ R0); [reflexivity|clear R0; intros ? R0]
  | |- halts (bind (mis_set_final_nb _) _) _ =>
      eapply (halts_is_set_final_nb _ _ _ R0); [reflexivity|clear R0; intros ? R0]
  | |- halts (bind (madd _ _) _) _ => eapply (halts_add _ _ _ R0); [reflexivity|clear R0; intros ? R0]
  | |- halts (bind (msub _ _) _) _ => eapply (halts_sub _ _ _ R0); [reflexivity|clear R0; intros ? R0]
  | |- halts (bind (mset _ _) _) _ => eapply (halts_set _ _ _ R0); [reflexivity|clear R0; intros ? R0]
  | |- halts (ret _) _ => apply halts_ret
  | |- halts (mfor (_ :: _) _) _ => cbn [mfor]
  | |- halts (bind (mfor (_ :: _) _) _) _ => cbn [mfor]
  | |- halts (bind (mfor [] _) _) _ => cbn [mfor]
  | |- halts (mfor [] _) _ => cbn [mfor]
  | |- halts (madd _ _) _ => apply halts_tail
  | |- halts (msub _ _) _ => apply halts_tail
  | |- halts (mset _ _) _ => apply halts_tail
  end; cbv beta zeta.

(** Evaluate the tests on a concrete state [st]. *)
Ltac simp_tests st :=
  repeat match goal with
  | |- context [has st ?k] => let b := eval lazy in (has st k) in change (has st k) with b
  | |- context [String.eqb ?a ?b] =>
      let r := eval lazy in (String.eqb a b) in
      lazymatch r with true => idtac | false => idtac end; change (String.eqb a b) with r
  end; cbv iota beta zeta.
(** Run a method on a concrete state; [unf] unfolds the model, [tests] decides the comparisons. *)
Ltac run_all st R0 unf tests :=
  repeat (unf; simp_tests st; tests; cbv iota beta zeta; first [run1 R0 ltac:(reflexivity)]).
