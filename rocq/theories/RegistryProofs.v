(** Lemmas on the registered reactions. *)

From Coq Require Import List Bool Ascii String ZArith Reals Lra Lia.
From Verif Require Import OptionsModel OptionsSpec StateMonad StateSpec StateMonadProofs StateEffects LimitersModel LimitersProofs
  RadiationModel ReactionsModel AmjuelTables ReactionsSpec ReactionsProofs ReactionsAdasProofs ReactionsCxProofs ReactionsTableProofs
  RegistryModel RegistrySpec.
Import ListNotations.
Open Scope R_scope.
Open Scope string_scope.

(** ** Formulas *)

Definition impact (fr to : string) (k : nat) : side * side :=
  ([(1%nat, fr); (1%nat, "e")], (1%nat, to) :: match k with O => [] | _ => [(k, "e")] end).
Definition exchange (a b c d : string) : side * side := ([(1%nat, a); (1%nat, b)], [(1%nat, c); (1%nat, d)]).
Definition expected (r : reaction) : side * side :=
  match r with
  | Hyd_ionisation i => impact i (i ++ "+") 2
  | Hyd_recombination i => impact (i ++ "+") i 0
  | He_ionisation => impact "he" "he+" 2
  | He_recombination => impact "he+" "he" 0
  | Hyd_cx i j => exchange i (j ++ "+") (i ++ "+") j
  | Solkit_cx i => exchange i (i ++ "+") (i ++ "+") i
  | Adas_ionisation el l => impact (species_name el l) (species_name el (l + 1)) 2
  | Adas_recombination el l => impact (species_name el (l + 1)) (species_name el l) 0
  | Adas_cx el l i => exchange (species_name el (l + 1)) i (species_name el l) (i ++ "+")
  end.

Fixpoint side_eqb (a b : side) : bool :=
  match a, b with
  | [], [] => true
  | (n, x) :: a, (m, y) :: b => (Nat.eqb n m && String.eqb x y && side_eqb a b)%bool
  | _, _ => false
  end.
Lemma side_eqb_eq a : forall b, side_eqb a b = true -> a = b.
Proof.
  induction a as [|[n x] a IH]; intros [|[m y] b]; cbn [side_eqb]; intros H; try discriminate; auto.
  apply andb_true_iff in H as [H H3]. apply andb_true_iff in H as [H1 H2].
  apply Nat.eqb_eq in H1. apply String.eqb_eq in H2. apply IH in H3. now subst.
Qed.

Definition entry_ok (p : string * reaction) : bool :=
  match formula (fst p) with
  | Some f => (side_eqb (fst f) (fst (expected (snd p))) && side_eqb (snd f) (snd (expected (snd p))))%bool
  | None => false
  end.
Lemma entries_ok : forallb entry_ok registry = true.
Proof. vm_compute. reflexivity. Qed.
Lemma formula_of name r : List.In (name, r) registry -> formula name = Some (expected r).
Proof.
  intros H. pose proof entries_ok as E. rewrite forallb_forall in E. specialize (E _ H).
  unfold entry_ok in E. cbn [fst snd] in E. destruct (formula name) as [[l r']|]; [|discriminate].
  apply andb_true_iff in E as [E1 E2]. cbn [fst snd] in *. apply side_eqb_eq in E1, E2. subst.
  destruct (expected r); reflexivity.
Qed.

(** Names which differ, and the charges which the names denote. *)
Definition charges_ok (p : string * reaction) : bool :=
  match expected (snd p) with
  | ([(_, a); (_, b)], (_, c) :: _) =>
      match snd p with
      | Hyd_cx _ _ | Solkit_cx _ | Adas_cx _ _ _ => true
      | Hyd_ionisation _ | He_ionisation | Adas_ionisation _ _ =>
          (Z.eqb (charge c) (charge a + 1) && negb (String.eqb a "e") && negb (String.eqb c "e"))%bool
      | _ => (Z.eqb (charge c) (charge a - 1) && negb (String.eqb a "e") && negb (String.eqb c "e"))%bool
      end
  | _ => false
  end.
Lemma all_charges_ok : forallb charges_ok registry = true.
Proof. vm_compute. reflexivity. Qed.

Definition balanced (f : side * side) : bool :=
  (Z.eqb (total_charge (fst f)) (total_charge (snd f))
   && forallb (fun k => Z.eqb (nuclei k (fst f)) (nuclei k (snd f)))
        (filter (fun k => negb (String.eqb k "e")) (map (fun p => nucleus (snd p)) (fst f ++ snd f))))%bool.
Lemma all_balanced : forallb (fun p => balanced (expected (snd p))) registry = true.
Proof. vm_compute. reflexivity. Qed.

Lemma nuclei_absent k l : (forall n sp, List.In (n, sp) l -> nucleus sp <> k) -> nuclei k l = 0%Z.
Proof.
  induction l as [|[n x] l IH]; intros H; cbn [nuclei]; auto.
  destruct (String.eqb_spec (nucleus x) k) as [E|_].
  - exfalso. apply (H n x); cbn [List.In]; auto.
  - rewrite IH; auto. intros m sp Hi. apply (H m). now right.
Qed.

Lemma formulas_balance name r : List.In (name, r) registry ->
  exists l r', formula name = Some (l, r') /\ total_charge l = total_charge r' /\
    (forall k, k <> "e" -> nuclei k l = nuclei k r').
Proof.
  intros H. exists (fst (expected r)), (snd (expected r)). rewrite (formula_of name r H).
  split; [destruct (expected r); reflexivity|].
  pose proof all_balanced as B. rewrite forallb_forall in B. specialize (B _ H). cbn [snd] in B.
  unfold balanced in B. apply andb_true_iff in B as [B1 B2]. apply Z.eqb_eq in B1. split; auto.
  intros k Hk. rewrite forallb_forall in B2.
  destruct (in_dec string_dec k (map (fun p => nucleus (snd p)) (fst (expected r) ++ snd (expected r)))) as [Hi|Hi].
  - apply Z.eqb_eq. apply B2. apply filter_In. split; auto. apply negb_true_iff. now apply String.eqb_neq.
  - assert (A : forall n sp, List.In (n, sp) (fst (expected r) ++ snd (expected r)) -> nucleus sp <> k).
    { intros n sp Hin E. apply Hi. apply in_map_iff. exists (n, sp). auto. }
    rewrite !nuclei_absent; auto; intros n sp Hin; apply (A n); apply in_or_app; auto.
Qed.

(** Distinct names. *)
Fixpoint distinct (l : list string) : bool :=
  match l with [] => true | x :: l => (negb (existsb (String.eqb x) l) && distinct l)%bool end.
Lemma distinct_NoDup l : distinct l = true -> NoDup l.
Proof.
  induction l as [|x l IH]; intros H; [constructor|]. cbn [distinct] in H. apply andb_true_iff in H as [H1 H2].
  constructor; auto. intros Hi. apply negb_true_iff in H1.
  assert (existsb (String.eqb x) l = true) as E by (apply existsb_exists; exists x; split; auto; apply String.eqb_refl).
  congruence.
Qed.
Lemma names_distinct : NoDup (map fst registry).
Proof. apply distinct_NoDup. vm_compute. reflexivity. Qed.

(** ** Sources *)

Lemma made_impact fr to k sp :
  IZR (made (impact fr to k) sp)
  = (if String.eqb to sp then 1 else 0) - (if String.eqb fr sp then 1 else 0)
    + (if String.eqb "e" sp then INR k - 1 else 0).
Proof.
  unfold made, impact. cbn [fst snd]. destruct k as [|k]; cbn [count].
  - destruct (String.eqb to sp), (String.eqb fr sp), (String.eqb "e" sp); rewrite minus_IZR, !plus_IZR; cbn [Z.of_nat Pos.of_succ_nat INR]; lra.
  - rewrite INR_IZR_INZ. set (z := Z.of_nat (S k)). clearbody z.
    destruct (String.eqb to sp), (String.eqb fr sp), (String.eqb "e" sp); rewrite minus_IZR, !plus_IZR; cbn [Z.of_nat Pos.of_succ_nat]; lra.
Qed.
Lemma made_exchange a b c d sp :
  IZR (made (exchange a b c d) sp)
  = (if String.eqb c sp then 1 else 0) + (if String.eqb d sp then 1 else 0)
    - (if String.eqb a sp then 1 else 0) - (if String.eqb b sp then 1 else 0).
Proof.
  unfold made, exchange. cbn [fst snd count].
  destruct (String.eqb a sp), (String.eqb b sp), (String.eqb c sp), (String.eqb d sp); rewrite minus_IZR, !plus_IZR; cbn [Z.of_nat Pos.of_succ_nat]; lra.
Qed.

Ltac density E sp :=
  unfold change; rewrite !val_value, (proj1 E); cbv beta; rewrite !at_key_species; names; cbv iota.

Lemma impact_made fr to k sp (rate d Zt Zf : R) :
  Zt - Zf = INR k - 1 ->
  d = (if String.eqb fr sp then - rate else 0) + (if String.eqb to sp then rate else 0) + (if String.eqb "e" sp then (Zt - Zf) * rate else 0) ->
  d = IZR (made (impact fr to k) sp) * rate.
Proof.
  intros HZ ->. rewrite made_impact, HZ.
  destruct (String.eqb to sp), (String.eqb fr sp), (String.eqb "e" sp); ring.
Qed.

Lemma amjuel_made nm c fr to rows cols rt rad h m1 m2 (s s' : State * unit) out k sp :
  val s (to, "charge") - val s (fr, "charge") = INR k - 1 ->
  finishes (electron_reaction nm c "e" fr to rows cols rt rad h m1 m2) s s' out ->
  change s s' sp "density_source" = IZR (made (impact fr to k) sp) * amjuel_rate nm c "e" fr rows cols rt m1 s.
Proof.
  intros HZ F. destruct (amjuel_effect nm c "e" fr to rows cols rt rad h m1 m2 s s' out F) as (_ & _ & _ & _ & E).
  apply (impact_made fr to k sp _ _ _ _ HZ).
  density E sp.
  destruct (String.eqb fr sp), (String.eqb to sp), (String.eqb "e" sp); lra.
Qed.
Lemma adas_made nm c rc radc h fr to (s s' : State * unit) k sp :
  val s (to, "charge") - val s (fr, "charge") = INR k - 1 ->
  finishes (adas_rates nm c rc radc h "e" fr to) s s' tt ->
  change s s' sp "density_source" = IZR (made (impact fr to k) sp) * adas_rate nm c rc "e" fr s.
Proof.
  intros HZ F. destruct (adas_effect nm c rc radc h "e" fr to s s' F) as (_ & E).
  apply (impact_made fr to k sp _ _ _ _ HZ).
  density E sp.
  destruct (String.eqb fr sp), (String.eqb to sp), (String.eqb "e" sp); lra.
Qed.
Lemma adas_cx_made nm c rc fA fB tA tB (s s' : State * unit) sp :
  finishes (adas_cx nm c rc "e" fA fB tA tB) s s' tt ->
  change s s' sp "density_source" = IZR (made (exchange fA fB tA tB) sp) * adas_cx_rate nm c rc "e" fA fB s.
Proof.
  intros F. destruct (adas_cx_effect nm c rc "e" fA fB tA tB s s' F) as (_ & _ & E).
  rewrite made_exchange. unfold cx_move in E. density E sp.
  destruct (String.eqb fA sp), (String.eqb tA sp), (String.eqb fB sp), (String.eqb tB sp); lra.
Qed.
Lemma hyd_cx_made nm a1 i1 a2 i2 m g (s s' : State * unit) sp :
  finishes (hydrogen_cx nm a1 i1 a2 i2 m g) s s' tt ->
  change s s' sp "density_source" = IZR (made (exchange a1 i1 i2 a2) sp) * hcx_swap nm a1 i1 a2 i2 m s.
Proof.
  intros F. destruct (hydrogen_cx_effect nm a1 i1 a2 i2 m g s s' F) as (_ & _ & E).
  rewrite made_exchange. density E sp.
  destruct (String.eqb a1 sp), (String.eqb i1 sp), (String.eqb a2 sp), (String.eqb i2 sp); lra.
Qed.

(** SOL-KiT charge exchange makes nothing. *)
Lemma step_velocity {B} s0 s s' d (b : B) sp (f : R -> RM B) :
  effect W s0 s d -> finishes (bind (velocity_or_0 sp) f) s s' b ->
  exists s1, effect W s0 s1 d /\ finishes (f (val s0 (sp, "velocity"))) s1 s' b.
Proof.
  intros E H. unfold velocity_or_0 in H. apply bind_assoc_finishes in H. exec1 H E.
  destruct (has s0 (sp, "velocity")) eqn:Hc.
  - exec1 H E. eauto.
  - exec1 H E. rewrite value_0 by auto. eauto.
Qed.
Ltac velocity_step H E :=
  let s1 := fresh "st" in let E1 := fresh "E1" in
  apply (step_velocity _ _ _ _ _ _ _ E) in H; destruct H as (s1 & E1 & H); clear E; rename E1 into E; cbv beta in H.

Lemma solkit_effect su atom ion (s s' : State * unit) :
  finishes (solkit_cx su atom ion) s s' tt ->
  exists friction, effect W s s' (fun k => at_key (ion, "momentum_source") (- friction) k + at_key (atom, "momentum_source") friction k).
Proof.
  intros H. pose proof (effect_start W s) as E. unfold solkit_cx in H.
  exec H E.
  destruct (Reqb (val s (atom, "AA")) (val s (ion, "AA"))) eqn:EA; cbn [negb] in H; [|exec H E].
  exec1 H E. exec1 H E. velocity_step H E. velocity_step H E. cbv zeta in H.
  match type of H with context [msub _ ?x] => set (friction := x) in H end.
  exec H E. exists friction. eapply effect_ext; [|exact E]. intros k. cbv beta. lra.
Qed.
Lemma solkit_made su atom ion (s s' : State * unit) sp :
  finishes (solkit_cx su atom ion) s s' tt -> change s s' sp "density_source" = 0.
Proof.
  intros F. destruct (solkit_effect su atom ion s s' F) as (fr & E). density E sp.
  destruct (String.eqb ion sp), (String.eqb atom sp); lra.
Qed.
