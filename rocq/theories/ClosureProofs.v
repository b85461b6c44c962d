(** Closures: lemmas. *)

From Coq Require Import List Bool ZArith Reals String Ascii Lra Lia.
From Verif Require Import StateMonad StateMonadProofs StrModel SchedulerSpec SchedulerProofs TransformProofs ParallelModel ClosureModel ClosureSpec.
Import ListNotations.
Open Scope R_scope.

Lemma floor_ge x f : f <= rfloor x f.
Proof. unfold rfloor. pose proof (Rltb_spec x f). destruct (Rltb x f); lra. Qed.
Lemma floor_above x f : f <= x -> rfloor x f = x.
Proof. intros H. unfold rfloor. pose proof (Rltb_spec x f). destruct (Rltb x f); lra. Qed.
Lemma floor_below x f : x <= f -> rfloor x f = f.
Proof. intros H. unfold rfloor. pose proof (Rltb_spec x f). destruct (Rltb x f); lra. Qed.

Lemma rsum_app {A} (f : A -> R) a b : rsum f (a ++ b)%list = rsum f a + rsum f b.
Proof. induction a as [|x a IH]; cbn [app rsum]; [ring|]. rewrite IH. ring. Qed.
Lemma rsum_ext {A} (f g : A -> R) l : (forall s, In s l -> f s = g s) -> rsum f l = rsum g l.
Proof. induction l as [|x l IH]; intros H; [reflexivity|]. cbn [rsum]. rewrite (H x (or_introl eq_refl)). f_equal. apply IH. intros s Hs. apply H. right. exact Hs. Qed.
Lemma rsum_scal {A} (f : A -> R) c l : rsum (fun s => c * f s) l = c * rsum f l.
Proof. induction l as [|x l IH]; cbn [rsum]; [ring|]. rewrite IH. ring. Qed.

Lemma others_absent name l : ~ In name (map s_name l) -> others name l = l.
Proof.
  induction l as [|s l IH]; intros H; [reflexivity|]. cbn [others filter]. destruct (String.eqb_spec (s_name s) name) as [E|E].
  - exfalso. apply H. left. exact E.
  - cbn [negb]. f_equal. apply IH. intros H'. apply H. right. exact H'.
Qed.

(** What modify does. *)
Section Modify.
  Variables (name : string) (f : species -> species).
  Hypothesis Hf : forall s, s_name (f s) = s_name s.
  Lemma modify_split l : unique l -> exists old, (find_species name l = Some old \/ find_species name l = None /\ old = empty_species name) /\
    s_name old = name /\ find_species name (modify name f l) = Some (f old) /\ others name (modify name f l) = others name l /\
    (forall g : species -> R, rsum g (modify name f l) = rsum g (others name l) + g (f old)) /\
    (forall g : species -> R, find_species name l = Some old -> rsum g l = rsum g (others name l) + g old).
  Proof using Hf.
    induction l as [|s l IH]; intros U.
    - exists (empty_species name). cbn [find_species modify others filter rsum]. rewrite !Hf. cbn [s_name empty_species]. rewrite String.eqb_refl. cbn [negb].
      split; [right; auto|]. repeat split; auto; try (intros; ring). intros g E. discriminate.
    - inversion U as [|? ? N U' E]. subst. cbn [find_species modify others filter]. destruct (String.eqb_spec (s_name s) name) as [E|E].
      + exists s. subst name. cbn [find_species filter]. rewrite !Hf, String.eqb_refl. cbn [negb rsum]. split; [left; reflexivity|]. split; [reflexivity|]. split; [reflexivity|]. split; [reflexivity|].
        fold (others (s_name s) l). rewrite (others_absent _ l N). split; intros g; [|intros _]; ring.
      + destruct (IH U') as (old & H1 & H2 & H3 & H4 & H5 & H6). exists old. cbn [find_species filter]. rewrite (proj2 (String.eqb_neq _ _) E). cbn [negb].
        unfold others in *. rewrite H4. split; [exact H1|]. split; [exact H2|]. split; [exact H3|]. split; [reflexivity|].
        split; intros g; cbn [rsum]; [rewrite (H5 g); ring|].
        intros Ef. rewrite (H6 g Ef). ring.
  Qed.
End Modify.

(** ** C48 *)

Lemma quasineutral_rho_sum name l : quasineutral_rho name l = rsum charge_density (others name l).
Proof.
  unfold quasineutral_rho. assert (G : forall a, fold_left (fun value s =>
    if negb (String.eqb (s_name s) name) then
      match s_charge s, s_density s with Some q, Some n => value + n * q | _, _ => value end
    else value) l a = a + rsum charge_density (others name l)).
  { induction l as [|s l IH]; intros a; cbn [fold_left others filter]; [cbn; ring|]. rewrite IH. destruct (negb (String.eqb (s_name s) name)); [|reflexivity].
    cbn [rsum]. fold (others name l).
    unfold charge_density at 2. destruct (s_charge s), (s_density s); ring. }
  rewrite G. ring.
Qed.

Lemma quasineutral_ok name q A l : unique l -> q <> 0 ->
  let after := quasineutral name q A l in
  let rho := rsum charge_density (others name l) in
  others name after = others name l /\
  exists s d, find_species name after = Some s /\ s_charge s = Some q /\ s_AA s = Some A /\ s_density s = Some d /\ 0 <= d /\
  (rsum charge_density after = 0 <-> 0 <= rho / - q) /\ (rho / - q < 0 -> d = 0 /\ rsum charge_density after = rho).
Proof.
  intros U Hq after rho. unfold after, quasineutral. rewrite quasineutral_rho_sum. fold rho. set (d := rfloor (rho / - q) 0).
  set (f := fun s => mkSpecies _ _ _ _ _ _ _ _ _ _). destruct (modify_split name f (fun s => eq_refl) l U) as (old & _ & H2 & H3 & H4 & H5 & _).
  split; [exact H4|]. exists (f old), d. split; [exact H3|]. split; [reflexivity|]. split; [reflexivity|]. split; [reflexivity|]. split; [apply floor_ge|].
  rewrite H5. fold rho. change (charge_density (f old)) with (q * d).
  assert (Hd : rho / - q < 0 -> d = 0) by (intros H; unfold d; apply floor_below; lra).
  assert (Hd' : 0 <= rho / - q -> rho + q * d = 0) by (intros H; unfold d; rewrite floor_above by exact H; field; exact Hq).
  split; [split|].
  - intros E. destruct (Rle_or_lt 0 (rho / - q)) as [H|H]; [exact H|]. rewrite (Hd H) in E. replace rho with 0 by lra. unfold Rdiv. lra.
  - exact Hd'.
  - intros H. rewrite (Hd H). split; [reflexivity|ring].
Qed.

(** ** C49 *)

Definition carries (name : string) (s : species) : Prop := s_name s <> name /\ s_density s <> None /\ s_charge s <> None /\ s_velocity s <> None.
Lemma zero_current_sum_ok name l :
  match zero_current_sum name l with
  | Some c => c = rsum current (others name l) /\ List.Exists (carries name) l
  | None => ~ List.Exists (carries name) l
  end.
Proof.
  unfold zero_current_sum. assert (G : forall a, match fold_left (fun current s =>
    if String.eqb (s_name s) name then current else
    match s_density s, s_charge s, s_velocity s with
    | Some N, Some charge, Some V => match current with None => Some (charge * N * V) | Some c => Some (c + charge * N * V) end
    | _, _, _ => current
    end) l a with
    | Some c => c = or_zero a + rsum current (others name l) /\ (a <> None \/ List.Exists (carries name) l)
    | None => a = None /\ ~ List.Exists (carries name) l end).
  { induction l as [|s l IH]; intros a; cbn [fold_left others filter].
    - destruct a; cbn; [split; [ring|left; discriminate]|]. split; [reflexivity|]. intros H. inversion H.
    - destruct (String.eqb_spec (s_name s) name) as [E|E]; cbn [negb].
      + specialize (IH a). destruct (fold_left _ l a); destruct IH as [I1 I2].
        * split; [exact I1|]. destruct I2 as [I2|I2]; [left; exact I2|right; right; exact I2].
        * split; [exact I1|]. intros H. inversion H as [? ? (H' & _)|? ? H']; subst; [exact (H' eq_refl)|exact (I2 H')].
      + cbn [rsum]. fold (others name l).
        assert (D : forall b, current s = or_zero b - or_zero a -> (b <> None -> a <> None \/ carries name s) -> (b = None -> a = None /\ ~ carries name s) ->
          match fold_left (fun current s =>
            if String.eqb (s_name s) name then current else
            match s_density s, s_charge s, s_velocity s with
            | Some N, Some charge, Some V => match current with None => Some (charge * N * V) | Some c => Some (c + charge * N * V) end
            | _, _, _ => current
            end) l b with
            | Some c => c = or_zero a + (current s + rsum current (others name l)) /\ (a <> None \/ List.Exists (carries name) (s :: l))
            | None => a = None /\ ~ List.Exists (carries name) (s :: l) end).
        { intros b Eb Hb Hb'. specialize (IH b). destruct (fold_left _ l b); destruct IH as [I1 I2].
          - split; [rewrite I1, Eb; ring|]. destruct I2 as [I2|I2]; [|right; right; exact I2]. destruct (Hb I2) as [H|H]; [left; exact H|right; left; exact H].
          - destruct (Hb' I1) as [H1 H2]. split; [exact H1|]. intros H. inversion H; subst; tauto. }
        unfold current at 2. unfold current in D at 1. unfold carries in D at 1 2.
        destruct (s_density s) eqn:E1, (s_charge s) eqn:E2, (s_velocity s) eqn:E3;
          try (apply D; [ring|tauto|intros ->; split; [reflexivity|]; rewrite ?E1, ?E2, ?E3; intros (_ & X1 & X2 & X3); congruence]).
        apply D.
        * destruct a; cbn [or_zero]; ring.
        * intros _. right. repeat split; congruence.
        * destruct a; discriminate. }
  specialize (G None). destruct (fold_left _ l None); destruct G as [G1 G2].
  - split; [rewrite G1; cbn [or_zero]; ring|]. destruct G2; congruence.
  - exact G2.
Qed.
