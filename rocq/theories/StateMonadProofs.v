(** Facts about the state monad. *)

From Coq Require Import List Bool String Reals Lra.
From Verif Require Import OptionsModel OptionsSpec StateMonad StateSpec.
Import ListNotations.
Open Scope R_scope.

Lemma key_eqb_refl k : key_eqb k k = true.
Proof. destruct k; unfold key_eqb; cbn. now rewrite !String.eqb_refl. Qed.

Lemma key_eqb_eq a b : key_eqb a b = true <-> a = b.
Proof.
  destruct a as [a1 a2], b as [b1 b2]; unfold key_eqb; cbn.
  rewrite andb_true_iff, !String.eqb_eq. split; [intros [-> ->]|intros [= -> ->]]; auto.
Qed.

Lemma key_eqb_neq a b : a <> b -> key_eqb a b = false.
Proof.
  intros H. destruct (key_eqb a b) eqn:E; auto. now apply key_eqb_eq in E.
Qed.

Lemma Rltb_true x y : x < y -> Rltb x y = true.
Proof. unfold Rltb. destruct (Rlt_dec x y); lra. Qed.
Lemma Rltb_false x y : y <= x -> Rltb x y = false.
Proof. unfold Rltb. destruct (Rlt_dec x y); lra. Qed.
Lemma Rltb_spec x y : if Rltb x y then x < y else y <= x.
Proof. unfold Rltb. destruct (Rlt_dec x y); lra. Qed.
Lemma Rleb_true x y : x <= y -> Rleb x y = true.
Proof. unfold Rleb. destruct (Rle_dec x y); lra. Qed.
Lemma Rleb_false x y : y < x -> Rleb x y = false.
Proof. unfold Rleb. destruct (Rle_dec x y); lra. Qed.
Lemma Reqb_true x y : x = y -> Reqb x y = true.
Proof. unfold Reqb. destruct (Req_EM_T x y); auto; tauto. Qed.
Lemma Reqb_false x y : x <> y -> Reqb x y = false.
Proof. unfold Reqb. destruct (Req_EM_T x y); auto; tauto. Qed.
Lemma Reqb_eq x y : Reqb x y = true <-> x = y.
Proof. unfold Reqb. destruct (Req_EM_T x y); intuition congruence. Qed.

Lemma rfloor_id x m : m <= x -> rfloor x m = x.
Proof. intros. unfold rfloor. now rewrite Rltb_false. Qed.
Lemma rfloor_ge x m : m <= rfloor x m.
Proof. unfold rfloor. pose proof (Rltb_spec x m). destruct (Rltb x m); lra. Qed.
Lemma rfloor_low x m : x <= m -> rfloor x m = m.
Proof. unfold rfloor. pose proof (Rltb_spec x m). destruct (Rltb x m); lra. Qed.
Lemma rfloor_ge_self x m : x <= rfloor x m.
Proof. unfold rfloor. pose proof (Rltb_spec x m). destruct (Rltb x m); lra. Qed.
Lemma rfloor_Rmax x m : rfloor x m = Rmax x m.
Proof. unfold rfloor, Rmax, Rltb. destruct (Rlt_dec x m), (Rle_dec x m); lra. Qed.

Section Effects.
  Context {P : Type}.
  Implicit Types s : State * P.

  (** Value of an entry addressed by its key. *)
  Definition val s (k : key) : R := value_or_0 (e_val (fst s k)).
  Definition has s (k : key) : bool := is_set (fst s k).

  Lemma val_value s sp q : value s sp q = val s (sp, q).
  Proof. reflexivity. Qed.
  Lemma has_present s sp q : present s sp q = has s (sp, q).
  Proof. reflexivity. Qed.

  Definition at_key (k : key) (v : R) : key -> R := fun k' => if key_eqb k k' then v else 0.

  (** Same values, same private data. *)
  Definition same s s' : Prop :=
    (forall k, val s' k = val s k) /\ (forall k, has s' k = has s k) /\ snd s' = snd s.

  Lemma same_refl s : same s s.
  Proof. repeat split. Qed.
  Lemma same_trans s s1 s2 : same s s1 -> same s1 s2 -> same s s2.
  Proof.
    intros (A & B & C) (D & E & F). split; [|split].
    - intros k. now rewrite D.
    - intros k. now rewrite E.
    - congruence.
  Qed.
  Lemma same_sym s s' : same s s' -> same s' s.
  Proof. intros (A & B & C). split; [|split]; auto. Qed.

  Lemma bind_finishes {A B} (m : M P A) (f : A -> M P B) s s' b :
    finishes (bind m f) s s' b <-> exists s1 a, finishes m s s1 a /\ finishes (f a) s1 s' b.
  Proof.
    unfold finishes, bind. split.
    - destruct (m s) as [s1 [a| |]]; intros H; try discriminate. eauto.
    - intros (s1 & a & -> & H). exact H.
  Qed.

  Lemma ret_finishes {A} (a b : A) s s' : finishes (P := P) (ret a) s s' b <-> s' = s /\ b = a.
  Proof. unfold finishes, ret. split; [intros [= <- <-]|intros [-> ->]]; auto. Qed.

  Lemma throw_finishes {A} (a : A) s s' : ~ finishes (P := P) throw s s' a.
  Proof. unfold finishes, throw. discriminate. Qed.

  Lemma undefined_finishes {A} (a : A) s s' : ~ finishes (P := P) undefined s s' a.
  Proof. unfold finishes, undefined. discriminate. Qed.

  Lemma upd_val (st : State) (p : P) k e k' :
    val (upd key_eqb st k e, p) k' =
    if key_eqb k k' then value_or_0 (e_val e) else val (st, p) k'.
  Proof. unfold val, upd; cbn. destruct (key_eqb k k'); auto. Qed.
  Lemma upd_has (st : State) (p : P) k e k' :
    has (upd key_eqb st k e, p) k' = if key_eqb k k' then is_set e else has (st, p) k'.
  Proof. unfold has, upd; cbn. destruct (key_eqb k k'); auto. Qed.

  Lemma upd_same_val (st : State) (p : P) k e :
    e_val e = e_val (st k) -> same (st, p) (upd key_eqb st k e, p).
  Proof.
    intros H. split; [|split]; auto.
    - intros k'. rewrite upd_val. destruct (key_eqb k k') eqn:E; auto.
      apply key_eqb_eq in E. subst. unfold val; cbn. now rewrite H.
    - intros k'. rewrite upd_has. destruct (key_eqb k k') eqn:E; auto.
      apply key_eqb_eq in E. subst. unfold has, is_set; cbn. now rewrite H.
  Qed.

  Lemma read_finishes (f : entry R -> entry R) k s s' v :
    (forall e, e_val (f e) = e_val e) ->
    finishes (call_val (P := P) k (fun e => getNonFinal castR tt (f e))) s s' v ->
    same s s' /\ has s k = true /\ v = val s k.
  Proof.
    intros Hf. destruct s as [st p]. unfold finishes, call_val, getNonFinal, castR; cbn.
    rewrite Hf. destruct (e_val (st k)) as [w|] eqn:E; intros H; inversion H; subst; clear H.
    split; [apply upd_same_val; apply Hf|].
    unfold has, val, is_set; cbn. now rewrite E.
  Qed.

  Lemma get_finishes k s s' v : finishes (mget (P := P) k) s s' v ->
    same s s' /\ has s k = true /\ v = val s k.
  Proof. apply (read_finishes mark_final); reflexivity. Qed.
  Lemma get_nb_finishes k s s' v : finishes (mget_nb (P := P) k) s s' v ->
    same s s' /\ has s k = true /\ v = val s k.
  Proof. apply (read_finishes mark_final_dom); reflexivity. Qed.
  Lemma get_nonfinal_finishes k s s' v : finishes (mget_nonfinal (P := P) k) s s' v ->
    same s s' /\ has s k = true /\ v = val s k.
  Proof. apply (read_finishes (fun e => e)); reflexivity. Qed.

  Lemma is_set_finishes k s s' b : finishes (mis_set (P := P) k) s s' b ->
    same s s' /\ b = has s k.
  Proof. unfold finishes, mis_set. intros [= <- <-]. split; [apply same_refl|reflexivity]. Qed.
  Lemma is_set_final_finishes k s s' b : finishes (mis_set_final (P := P) k) s s' b ->
    same s s' /\ b = has s k.
  Proof.
    destruct s as [st p]. unfold finishes, mis_set_final, call_bool, isSetFinal; cbn.
    intros [= <- <-]. split; [now apply upd_same_val|reflexivity].
  Qed.
  Lemma is_set_final_nb_finishes k s s' b : finishes (mis_set_final_nb (P := P) k) s s' b ->
    same s s' /\ b = has s k.
  Proof.
    destruct s as [st p]. unfold finishes, mis_set_final_nb, call_bool, isSetFinalNoBoundary; cbn.
    intros [= <- <-]. split; [now apply upd_same_val|reflexivity].
  Qed.

  Definition adds s s' (d : key -> R) : Prop := forall k, val s' k = val s k + d k.

  Lemma add_finishes k v s s' u : finishes (madd (P := P) k v) s s' u ->
    adds s s' (at_key k v) /\ (forall k', has s' k' = has s k' || key_eqb k k')%bool /\
    snd s' = snd s.
  Proof.
    destruct s as [st p], u.
    unfold finishes, madd, call_unit, add, castR; cbn.
    destruct (e_val (st k)) as [w|] eqn:E; unfold set, finiteR;
      destruct (e_final (st k)); try discriminate;
      destruct (e_final_dom (st k)); try discriminate; intros [= <-]; (split; [|split; [|reflexivity]]).
    all: intros k'; rewrite ?upd_val, ?upd_has; unfold at_key;
      destruct (key_eqb k k') eqn:K.
    all: try (apply key_eqb_eq in K; subst k'); unfold val, has, is_set; cbn; rewrite ?E; cbn; try lra;
      rewrite ?orb_true_r, ?orb_false_r; auto.
  Qed.

  Lemma sub_finishes k v s s' u : finishes (msub (P := P) k v) s s' u ->
    adds s s' (at_key k (- v)) /\ (forall k', has s' k' = has s k' || key_eqb k k')%bool /\
    snd s' = snd s.
  Proof.
    destruct s as [st p], u.
    unfold finishes, msub, call_unit, subtract, castR; cbn.
    destruct (e_val (st k)) as [w|] eqn:E; unfold set, finiteR;
      destruct (e_final (st k)); try discriminate;
      destruct (e_final_dom (st k)); try discriminate; intros [= <-]; (split; [|split; [|reflexivity]]).
    all: intros k'; rewrite ?upd_val, ?upd_has; unfold at_key;
      destruct (key_eqb k k') eqn:K.
    all: try (apply key_eqb_eq in K; subst k'); unfold val, has, is_set; cbn; rewrite ?E; cbn; try lra;
      rewrite ?orb_true_r, ?orb_false_r; auto.
  Qed.

  Lemma set_finishes k v s s' u : finishes (mset (P := P) k v) s s' u ->
    (forall k', val s' k' = if key_eqb k k' then v else val s k') /\
    (forall k', has s' k' = has s k' || key_eqb k k')%bool /\ snd s' = snd s.
  Proof.
    destruct s as [st p], u. unfold finishes, mset, call_unit, set, finiteR; cbn.
    destruct (e_final (st k)); try discriminate.
    destruct (e_final_dom (st k)); try discriminate. intros [= <-].
    split; [|split; [|reflexivity]]; intros k'; rewrite ?upd_val, ?upd_has; cbn;
      destruct (key_eqb k k'); rewrite ?orb_true_r, ?orb_false_r; auto.
  Qed.

  Lemma set_boundary_finishes k v s s' u : finishes (mset_boundary (P := P) k v) s s' u ->
    (forall k', val s' k' = if key_eqb k k' then v else val s k') /\
    (forall k', has s' k' = has s k' || key_eqb k k')%bool /\ snd s' = snd s.
  Proof.
    destruct s as [st p], u. unfold finishes, mset_boundary, call_unit, setBoundary; cbn.
    destruct (e_final (st k)); try discriminate. intros [= <-].
    split; [|split; [|reflexivity]]; intros k'; rewrite ?upd_val, ?upd_has; cbn;
      destruct (key_eqb k k'); rewrite ?orb_true_r, ?orb_false_r; auto.
  Qed.

  Lemma priv_finishes (f : P -> P) s s' u : finishes (mpriv f) s s' u ->
    fst s' = fst s /\ snd s' = f (snd s).
  Proof. unfold finishes, mpriv. intros [= <-]. auto. Qed.

  Lemma mfor_app {A} (l1 l2 : list A) (f : A -> M P unit) s s' :
    finishes (mfor (l1 ++ l2) f) s s' tt <->
    exists s1, finishes (mfor l1 f) s s1 tt /\ finishes (mfor l2 f) s1 s' tt.
  Proof.
    revert s. induction l1 as [|a l1 IH]; intros s; cbn [mfor app].
    - split.
      + intros H. exists s. split; auto. now apply ret_finishes.
      + intros (s1 & H1 & H2). apply ret_finishes in H1 as [-> _]. exact H2.
    - rewrite bind_finishes. split.
      + intros (s1 & [] & H1 & H2). apply IH in H2 as (s2 & H2 & H3).
        exists s2. split; auto. apply bind_finishes. eauto.
      + intros (s2 & H1 & H3). apply bind_finishes in H1 as (s1 & [] & H1 & H2).
        exists s1, tt. split; auto. apply IH. eauto.
  Qed.
End Effects.

(** ** Sums *)

Lemma sumR_ext {A} (f g : A -> R) l : (forall x, In x l -> f x = g x) -> sumR f l = sumR g l.
Proof.
  induction l as [|x l IH]; intros H; cbn; auto.
  rewrite H by now left. rewrite IH; auto. intros y Hy. apply H. now right.
Qed.

Lemma sumR_plus {A} (f g : A -> R) l : sumR (fun x => f x + g x) l = sumR f l + sumR g l.
Proof. induction l as [|x l IH]; cbn; lra. Qed.

Lemma sumR_opp {A} (f : A -> R) l : sumR (fun x => - f x) l = - sumR f l.
Proof. induction l as [|x l IH]; cbn; lra. Qed.

Lemma sumR_scal {A} (f : A -> R) c l : sumR (fun x => c * f x) l = c * sumR f l.
Proof. induction l as [|x l IH]; cbn; lra. Qed.

Lemma sumR_zero {A} (f : A -> R) l : (forall x, In x l -> f x = 0) -> sumR f l = 0.
Proof.
  intros H. rewrite (sumR_ext f (fun _ => 0)); auto. induction l; cbn; auto.
  rewrite IHl; [lra|]. intros; apply H. now right.
Qed.

Lemma sumR_app {A} (f : A -> R) l1 l2 : sumR f (l1 ++ l2) = sumR f l1 + sumR f l2.
Proof. induction l1; cbn; lra. Qed.

Lemma sumR_nonneg {A} (f : A -> R) l : (forall x, In x l -> 0 <= f x) -> 0 <= sumR f l.
Proof.
  induction l as [|x l IH]; cbn; intros H; [lra|].
  assert (0 <= f x) by (apply H; auto).
  assert (0 <= sumR f l) by (apply IH; intros; apply H; auto). lra.
Qed.

Lemma sumR_map {A B} (g : A -> B) (f : B -> R) l : sumR f (map g l) = sumR (fun x => f (g x)) l.
Proof. induction l; cbn; auto. now rewrite IHl. Qed.

Lemma sumR_swap {A B} (f : A -> B -> R) la lb :
  sumR (fun a => sumR (fun b => f a b) lb) la = sumR (fun b => sumR (fun a => f a b) la) lb.
Proof.
  induction la as [|a la IH]; cbn.
  - symmetry. now apply sumR_zero.
  - rewrite IH. symmetry. apply sumR_plus.
Qed.

(** A sum with one non-zero term. *)
Lemma sumR_one (l : list string) (a : string) (x : string -> R) :
  NoDup l -> In a l -> sumR (fun s => if String.eqb a s then x s else 0) l = x a.
Proof.
  induction l as [|b l IH]; intros Hd Hi; [destruct Hi|].
  inversion Hd as [|b' l' Hn Hd']; subst. cbn.
  destruct (String.eqb_spec a b) as [->|Hab].
  - rewrite sumR_zero; [lra|]. intros y Hy.
    destruct (String.eqb_spec b y) as [->|]; auto. contradiction.
  - destruct Hi as [->|Hi]; [congruence|]. rewrite IH; auto. lra.
Qed.

Lemma at_key_species (a q : string) v s q' :
  at_key (a, q) v (s, q') = if String.eqb a s then (if String.eqb q q' then v else 0) else 0.
Proof.
  unfold at_key, key_eqb; cbn. destruct (String.eqb a s), (String.eqb q q'); auto.
Qed.

Lemma sumR_at (l : list string) a q v q' :
  NoDup l -> In a l ->
  sumR (fun s => at_key (a, q) v (s, q')) l = if String.eqb q q' then v else 0.
Proof.
  intros Hd Hi. rewrite (sumR_ext _ (fun s => if String.eqb a s then (fun _ => if String.eqb q q' then v else 0) s else 0)).
  - now rewrite sumR_one.
  - intros x _. apply at_key_species.
Qed.

(** ** Tactics *)

(** Split a finished sequence into finished steps. *)
Ltac mstep H :=
  match type of H with
  | finishes (bind _ _) _ _ _ =>
      let s := fresh "s" in let a := fresh "a" in let H1 := fresh "H" in
      apply bind_finishes in H; destruct H as (s & a & H1 & H)
  end.
