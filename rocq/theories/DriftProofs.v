(** Lemmas about drifts. *)

From Coq Require Import List Bool ZArith Reals Lra Lia.
From Verif Require Import StateMonad StateMonadProofs MetricModel MetricProofs ParallelSpec ParallelProofs DriftModel DriftSpec.
Import ListNotations.
Open Scope R_scope.

(** * Tools *)
Lemma lin_0 op : linear op -> forall f i, same f (fun _ => 0) -> op f i = 0.
Proof.
  intros (_ & S & E) f i H. rewrite (E f (fun k => 0 * f k)).
  - rewrite S. ring.
  - intros k. rewrite H. ring.
Qed.
Lemma lin_scal op : linear op -> forall c f g i, same f (fun k => c * g k) -> op f i = c * op g i.
Proof. intros (_ & S & E) c f g i H. rewrite (E f (fun k => c * g k) H). apply S. Qed.
Lemma lin_add op : linear op -> forall f g h i, same f (fun k => g k + h k) -> op f i = op g i + op h i.
Proof. intros (A & _ & E) f g h i H. rewrite (E f (fun k => g k + h k) H). apply A. Qed.
Lemma lin_ext op : linear op -> forall f g i, same f g -> op f i = op g i.
Proof. intros (_ & _ & E) f g i H. exact (E f g H i). Qed.
Lemma lin_sum op : linear op -> forall A (l : list A) (F : A -> Z -> R) i, sum_over l (fun s => op (F s) i) = op (fun k => sum_over l (fun s => F s k)) i.
Proof.
  intros L A l F i. unfold sum_over. induction l as [ | s l IH ]; cbn [map fold_right].
  - symmetry. apply (lin_0 op L). intros k. reflexivity.
  - rewrite IH. symmetry. apply (lin_add op L). intros k. reflexivity.
Qed.
Lemma sum_scal {A} (l : list A) c f : sum_over l (fun s => c * f s) = c * sum_over l f.
Proof. unfold sum_over. induction l as [ | s l IH ]; cbn [map fold_right]; [ ring | rewrite IH; ring ]. Qed.
Lemma sum_plus {A} (l : list A) f g : sum_over l (fun s => f s + g s) = sum_over l f + sum_over l g.
Proof. unfold sum_over. induction l as [ | s l IH ]; cbn [map fold_right]; [ ring | rewrite IH; ring ]. Qed.
Lemma sum_ext {A} (l : list A) f g : (forall s, List.In s l -> f s = g s) -> sum_over l f = sum_over l g.
Proof.
  unfold sum_over. induction l as [ | s l IH ]; intros H; cbn [map fold_right]; [ reflexivity | ].
  rewrite (H s (or_introl eq_refl)), IH; [ reflexivity | ]. intros x Hx. apply H. right. exact Hx.
Qed.
Lemma sum_map {A B} (l : list A) (h : A -> B) f : sum_over (map h l) f = sum_over l (fun s => f (h s)).
Proof. unfold sum_over. rewrite map_map. reflexivity. Qed.
Lemma charged_set s q : charge s = Some q -> 1e-5 <= Rabs q -> charged s = Some q.
Proof. intros E H. unfold charged. rewrite E, Rltb_false by lra. reflexivity. Qed.
Lemma charged_inv s q : charged s = Some q -> charge s = Some q /\ 1e-5 <= Rabs q.
Proof.
  unfold charged. destruct (charge s) as [ c | ]; [ | discriminate ]. pose proof (Rltb_spec (Rabs c) 1e-5) as S. destruct (Rltb (Rabs c) 1e-5); intros H; [ discriminate | ].
  assert (c = q) by congruence. subst c. split; [ reflexivity | exact S ].
Qed.
Lemma charged_none s : charge s = None \/ (exists q, charge s = Some q /\ Rabs q < 1e-5) -> charged s = None.
Proof. unfold charged. intros [ E | (q & E & H) ]; rewrite E; [ reflexivity | ]. rewrite Rltb_true by exact H. reflexivity. Qed.
Lemma charged_nonzero s q : charged s = Some q -> q <> 0.
Proof. intros H E. apply charged_inv in H. destruct H as (_ & H). subst q. rewrite Rabs_R0 in H. lra. Qed.

Lemma number_charged s : match charged s with Some q => charge_number s = q /\ q <> 0 | None => charge_number s = 0 end.
Proof.
  destruct (charged s) as [ q | ] eqn:E.
  - pose proof (charged_nonzero s q E). destruct (charged_inv s q E) as (E1 & H1). split; [ | assumption ]. unfold charge_number. rewrite E1. destruct (Rlt_dec (Rabs q) 1e-5); lra.
  - unfold charged in E. unfold charge_number. destruct (charge s) as [ q | ]; [ | reflexivity ]. pose proof (Rltb_spec (Rabs q) 1e-5) as S.
    destruct (Rltb (Rabs q) 1e-5); [ | discriminate ]. destruct (Rlt_dec (Rabs q) 1e-5); [ reflexivity | lra ].
Qed.

(** * Diamagnetic drift *)
Section Dia.
  Context (div_f_v : field -> field -> field) (curl_grad : field -> field) (form : field).
  Lemma drift_scal q T f g c : (forall w, linear (fun f => div_f_v f w)) -> linear curl_grad -> same f (fun i => c * g i) ->
    same (drift_of div_f_v curl_grad form q T f) (fun i => c * drift_of div_f_v curl_grad form q T g i).
  Proof.
    intros LD LG H i. unfold drift_of. rewrite (lin_scal _ (LD (fun i => T i / q)) c f g i H), (lin_scal _ LG c _ (fun k => g k * T k / q) i).
    - ring.
    - intros k. rewrite H. unfold Rdiv. ring.
  Qed.
  Lemma dia_isothermal s q T N P NV T0 A V0 : (forall w, linear (fun f => div_f_v f w)) -> linear curl_grad ->
    charge s = Some q -> 1e-5 <= Rabs q -> temperature s = Some T -> density s = Some N -> pressure s = Some P -> momentum s = Some NV ->
    same P (fun i => N i * T0) -> same NV (fun i => A * N i * V0) ->
    let out := diamagnetic_drift div_f_v curl_grad form s in
    same (energy_source out) (fun i => 5 / 2 * T0 * density_source out i) /\ same (momentum_source out) (fun i => A * V0 * density_source out i).
  Proof.
    intros LD LG EC HC ET EN EP EM HP HM out. unfold out, diamagnetic_drift. rewrite (charged_set s q EC HC), ET, EN, EP, EM.
    cbn [density_source energy_source momentum_source]. split; intros i.
    - rewrite (drift_scal q T P N T0 LD LG); [ ring | ]. intros k. rewrite HP. ring.
    - rewrite (drift_scal q T NV N (A * V0) LD LG); [ ring | ]. intros k. rewrite HM. ring.
  Qed.
  Lemma dia_untouched s : charge s = None \/ (exists q, charge s = Some q /\ Rabs q < 1e-5) \/ temperature s = None ->
    diamagnetic_drift div_f_v curl_grad form s = no_sources.
  Proof.
    intros H. unfold diamagnetic_drift.
    destruct H as [ H | [ H | H ] ]; [ rewrite (charged_none s (or_introl H)) | rewrite (charged_none s (or_intror H)) | rewrite H; destruct (charged s) ]; reflexivity.
  Qed.
  (** Every charged species has a temperature and a density. *)
  Lemma dia_current l : linear curl_grad -> same form (fun _ => 0) ->
    List.Forall (fun s => exists q T N, charge s = Some q /\ 1e-5 <= Rabs q /\ temperature s = Some T /\ density s = Some N) l ->
    forall i, sum_over l (fun s => value (charge s) * density_source (diamagnetic_drift div_f_v curl_grad form s) i)
      = - curl_grad (fun k => sum_over l (fun s => fvalue (density s) k * fvalue (temperature s) k)) i.
  Proof.
    intros LG F0 HF i. rewrite <- (lin_sum curl_grad LG). replace (- _) with (-1 * sum_over l (fun s => curl_grad (fun k => fvalue (density s) k * fvalue (temperature s) k) i)) by ring. rewrite <- sum_scal. apply sum_ext. intros s Hs.
    rewrite List.Forall_forall in HF. destruct (HF s Hs) as (q & T & N & EC & HC & ET & EN).
    pose proof (charged_nonzero s q (charged_set s q EC HC)) as Q.
    unfold diamagnetic_drift. rewrite (charged_set s q EC HC), ET, EN, EC. cbn [density_source value fvalue]. unfold drift_of. rewrite F0.
    rewrite (lin_scal _ LG (/ q) (fun k => N k * T k / q) (fun k => N k * T k) i) by (intros k; unfold Rdiv; ring). field. exact Q.
  Qed.
End Dia.

(** * Polarisation drift *)
(** A species carries polarisation current if it is charged and has a mass; [weight] is what it adds to the mass density. *)
Definition polarised (s : species) : Prop := exists q A N, charge s = Some q /\ 1e-5 <= Rabs q /\ AA s = Some A /\ density s = Some N.
Definition bystander (s : species) : Prop := charge s = None \/ (exists q, charge s = Some q /\ Rabs q < 1e-5) \/ AA s = None.

Lemma add_mass_sum l : forall acc m, fold_left add_mass l (Some acc) = Some m ->
  List.Forall (fun s => polarised s \/ bystander s) l ->
  same m (fun i => acc i + sum_over l (fun s => match charged s, AA s with Some _, Some A => A * fvalue (density s) i | _, _ => 0 end)).
Proof.
  induction l as [ | s l IH ]; intros acc m E HF i; cbn [fold_left] in E.
  - assert (m = acc) by congruence. subst m. unfold sum_over. cbn [map fold_right]. ring.
  - pose proof (List.Forall_inv HF) as Hs. pose proof (List.Forall_inv_tail HF) as HT.
    unfold sum_over. cbn [map fold_right]. fold (sum_over l (fun s => match charged s, AA s with Some _, Some A => A * fvalue (density s) i | _, _ => 0 end)).
    unfold add_mass at 2 in E. destruct (charged s) as [ q | ]; [ destruct (AA s) as [ A | ]; [ destruct (density s) as [ N | ] eqn:EN | ] | ].
    + rewrite (IH _ _ E HT i). cbn [fvalue]. ring.
    + exfalso. clear -E. induction l as [ | x l IH ]; cbn [fold_left] in E; [ discriminate | ]. apply IH. exact E.
    + rewrite (IH _ _ E HT i). ring.
    + rewrite (IH _ _ E HT i). ring.
Qed.
Lemma par_current_none div_par l : fold_left (par_current div_par) l None = None.
Proof. induction l as [ | s l IH ]; cbn [fold_left]; [ reflexivity | exact IH ]. Qed.
Lemma par_current_sum div_par l : forall acc j, fold_left (par_current div_par) l (Some acc) = Some j ->
  same j (fun i => acc i + sum_over l (fun s => match charged s, momentum s with Some Z, Some NV => div_par (fun k => Z / value (AA s) * NV k) i | _, _ => 0 end)).
Proof.
  induction l as [ | s l IH ]; intros acc j E i; cbn [fold_left] in E.
  - assert (j = acc) by congruence. subst j. unfold sum_over. cbn [map fold_right]. ring.
  - unfold sum_over. cbn [map fold_right].
    fold (sum_over l (fun s => match charged s, momentum s with Some Z, Some NV => div_par (fun k => Z / value (AA s) * NV k) i | _, _ => 0 end)).
    unfold par_current at 2 in E. destruct (charged s) as [ q | ]; [ destruct (momentum s) as [ NV | ]; [ destruct (AA s) as [ A | ] eqn:EA | ] | ].
    + rewrite (IH _ _ E i). cbn [value]. ring.
    + rewrite par_current_none in E. discriminate.
    + rewrite (IH _ _ E i). ring.
    + rewrite (IH _ _ E i). ring.
Qed.
Lemma plus_opt_value f g i : plus_opt f g i = f i + fvalue g i.
Proof. destruct g; cbn [plus_opt fvalue]; ring. Qed.

(** Divergence of the parallel current of a species, and of all currents but the polarisation current. *)
Definition par_of (div_par : field -> field) (s : species) (i : Z) : R :=
  match charged s, momentum s with Some Z, Some NV => div_par (fun k => Z / value (AA s) * NV k) i | _, _ => 0 end.
Definition all_div_j (div_par : field -> field) (jd je jc : option field) (l : list species) (i : Z) : R :=
  fvalue jd i + sum_over l (fun s => par_of div_par s i) + fvalue je i + fvalue jc i.
(** Mass density of all species which take part. *)
Definition mass_of (s : species) (i : Z) : R := match charged s, AA s with Some _, Some A => A * fvalue (density s) i | _, _ => 0 end.

Lemma pol_charge_one div_a_grad Bsq phi s i : (forall f, linear (fun a => div_a_grad a f)) -> (forall k, Bsq k <> 0) ->
  value (charge s) * density_source (polarisation_of div_a_grad Bsq phi s) i = div_a_grad (fun k => mass_of s k / Bsq k) phi i.
Proof.
  intros L HB. unfold polarisation_of, mass_of. destruct (charged s) as [ q | ] eqn:EC.
  - pose proof (charged_nonzero s q EC) as Q. destruct (charged_inv s q EC) as (E & _). rewrite E. cbn [value].
    destruct (AA s) as [ A | ].
    + cbn [density_source]. destruct (density s) as [ N | ]; cbn [fvalue].
      * symmetry. apply (lin_scal _ (L phi)). intros k. field. split; [ exact Q | apply HB ].
      * unfold zero. rewrite Rmult_0_r. symmetry. apply (lin_0 _ (L phi)). intros k. unfold Rdiv. ring.
    + cbn [no_sources density_source]. unfold zero. rewrite Rmult_0_r. symmetry. apply (lin_0 _ (L phi)). intros k. unfold Rdiv. ring.
  - cbn [no_sources density_source]. unfold zero. rewrite Rmult_0_r. symmetry. apply (lin_0 _ (L phi)). intros k. unfold Rdiv. ring.
Qed.
Lemma pol_charge div_a_grad Bsq phi l i : (forall f, linear (fun a => div_a_grad a f)) -> (forall k, Bsq k <> 0) ->
  sum_over l (fun s => value (charge s) * density_source (polarisation_of div_a_grad Bsq phi s) i)
  = div_a_grad (fun k => sum_over l (fun s => mass_of s k) / Bsq k) phi i.
Proof.
  intros L HB. rewrite (sum_ext l _ (fun s => div_a_grad (fun k => mass_of s k / Bsq k) phi i)) by (intros s _; apply pol_charge_one; assumption).
  rewrite (lin_sum _ (L phi) _ l (fun s k => mass_of s k / Bsq k) i). apply (lin_ext _ (L phi)). intros k.
  unfold Rdiv. rewrite (sum_ext l _ (fun s => / Bsq k * mass_of s k)) by (intros; ring). rewrite sum_scal. ring.
Qed.

(** The current divergence used in the solve and the sources, opened up. *)
Lemma pol_open set div_par div_a_grad solve Bsq jd je jc l out :
  polarisation_drift set div_par div_a_grad solve Bsq jd je jc l = Some out -> advection set = true ->
  exists rho J, mass_density set l = Some rho /\ same J (all_div_j div_par jd je jc l)
    /\ map snd out = map (polarisation_of div_a_grad Bsq (solve (fun i => rho i / Bsq i) (fun i => J i * Bsq i / rho i))) l.
Proof.
  unfold polarisation_drift. destruct (div_j div_par jd l) as [ DivJ | ] eqn:EJ; [ | discriminate ].
  destruct (diamagnetic_polarisation set && negb (boussinesq set))%bool; [ discriminate | ]. intros E EA. rewrite EA in E.
  destruct (mass_density set l) as [ rho | ]; [ | discriminate ].
  exists rho, (plus_opt (plus_opt DivJ je) jc). split; [ reflexivity | ]. split.
  - intros i. rewrite !plus_opt_value. unfold all_div_j. rewrite (par_current_sum div_par l _ DivJ EJ i). unfold par_of. destruct jd; reflexivity.
  - injection E as <-. rewrite map_map. apply map_ext. intros s. reflexivity.
Qed.
Lemma pol_neutral set div_par div_a_grad solve Bsq jd je jc l out :
  boussinesq set = false -> advection set = true -> 0 < density_floor set -> (forall f, linear (fun a => div_a_grad a f)) -> (forall k, 0 < Bsq k) ->
  List.Forall (fun s => polarised s \/ bystander s) l -> (forall k, density_floor set <= sum_over l (fun s => mass_of s k)) ->
  (forall C rhs, (forall k, 0 < C k) -> solves div_a_grad C rhs (solve C rhs)) ->
  polarisation_drift set div_par div_a_grad solve Bsq jd je jc l = Some out ->
  forall i, sum_over (combine l out) (fun so => value (charge (fst so)) * density_source (snd (snd so)) i) = all_div_j div_par jd je jc l i.
Proof.
  intros EB EA HF L HB HS HM HS' E i. destruct (pol_open _ _ _ _ _ _ _ _ _ _ E EA) as (rho & J & ER & HJ & EO).
  assert (HR : same rho (fun k => sum_over l (fun s => mass_of s k))).
  { unfold mass_density in ER. rewrite EB in ER. destruct (fold_left add_mass l (Some zero)) as [ m | ] eqn:EM; [ | discriminate ].
    injection ER as <-. intros k. pose proof (add_mass_sum l zero m EM HS k) as Hm. unfold zero in Hm. rewrite Rplus_0_l in Hm. fold (mass_of) in Hm.
    assert (H : m k = sum_over l (fun s => mass_of s k)) by exact Hm. unfold rfloor. pose proof (HM k). rewrite Rltb_false by lra. exact H. }
  assert (HP : forall k, 0 < rho k) by (intros k; rewrite (HR k); specialize (HM k); lra).
  set (phi := solve (fun i => rho i / Bsq i) (fun i => J i * Bsq i / rho i)) in EO.
  assert (EQ : sum_over (combine l out) (fun so => value (charge (fst so)) * density_source (snd (snd so)) i)
             = sum_over l (fun s => value (charge s) * density_source (polarisation_of div_a_grad Bsq phi s) i)).
  { clear -EO. revert out EO. induction l as [ | s l IH ]; intros out EO; [ reflexivity | ]. destruct out as [ | o out ]; [ discriminate | ].
    cbn [map] in EO. injection EO as E1 E2. unfold sum_over in *. cbn [combine map fold_right fst snd]. rewrite E1. f_equal. apply IH. exact E2. }
  rewrite EQ, pol_charge; [ | exact L | intros k; pose proof (HB k); lra ].
  rewrite (lin_ext _ (L phi) _ (fun k => rho k / Bsq k) i) by (intros k; rewrite (HR k); reflexivity).
  unfold phi. rewrite (HS' (fun i => rho i / Bsq i)).
  - rewrite <- (HJ i). specialize (HP i). specialize (HB i). field. lra.
  - intros k. apply Rdiv_lt_0_compat; [ apply HP | apply HB ].
Qed.

(** With the Boussinesq approximation the species carry the current scaled by their mass density over the assumed one. *)
Lemma pol_boussinesq set div_par div_a_grad solve Bsq jd je jc l out m :
  boussinesq set = true -> advection set = true -> 0 < average_atomic_mass set -> (forall f, linear (fun a => div_a_grad a f)) -> (forall k, 0 < Bsq k) ->
  (forall k, sum_over l (fun s => mass_of s k) = m) ->
  (forall C rhs, (forall k, 0 < C k) -> solves div_a_grad C rhs (solve C rhs)) ->
  polarisation_drift set div_par div_a_grad solve Bsq jd je jc l = Some out ->
  forall i, sum_over (combine l out) (fun so => value (charge (fst so)) * density_source (snd (snd so)) i)
    = m / average_atomic_mass set * all_div_j div_par jd je jc l i.
Proof.
  intros EB EA HF L HB HM HS' E i. destruct (pol_open _ _ _ _ _ _ _ _ _ _ E EA) as (rho & J & ER & HJ & EO).
  unfold mass_density in ER. rewrite EB in ER. injection ER as <-.
  set (phi := solve _ _) in EO.
  assert (EQ : sum_over (combine l out) (fun so => value (charge (fst so)) * density_source (snd (snd so)) i)
             = sum_over l (fun s => value (charge s) * density_source (polarisation_of div_a_grad Bsq phi s) i)).
  { clear -EO. revert out EO. induction l as [ | s l IH ]; intros out EO; [ reflexivity | ]. destruct out as [ | o out ]; [ discriminate | ].
    cbn [map] in EO. injection EO as E1 E2. unfold sum_over in *. cbn [combine map fold_right fst snd]. rewrite E1. f_equal. apply IH. exact E2. }
  rewrite EQ, pol_charge; [ | exact L | intros k; pose proof (HB k); lra ].
  rewrite (lin_scal _ (L phi) (m / average_atomic_mass set) _ (fun k => average_atomic_mass set / Bsq k) i).
  - f_equal. unfold phi. rewrite (HS' (fun i => average_atomic_mass set / Bsq i)).
    + rewrite <- (HJ i). specialize (HB i). field. lra.
    + intros k. apply Rdiv_lt_0_compat; [ exact HF | apply HB ].
  - intros k. rewrite (HM k). specialize (HB k). field. lra.
Qed.
Lemma pol_throws avg fl adv div_par div_a_grad solve Bsq jd je jc l :
  polarisation_drift (mkPol false avg fl adv true) div_par div_a_grad solve Bsq jd je jc l = None.
Proof. unfold polarisation_drift. destruct (div_j div_par jd l); reflexivity. Qed.
Lemma pol_isothermal div_a_grad Bsq phi s q M N P NV T0 V0 : (forall f, linear (fun a => div_a_grad a f)) ->
  charge s = Some q -> 1e-5 <= Rabs q -> AA s = Some M -> density s = Some N -> pressure s = Some P -> momentum s = Some NV ->
  same P (fun i => N i * T0) -> same NV (fun i => M * N i * V0) ->
  let out := polarisation_of div_a_grad Bsq phi s in
  same (energy_source out) (fun i => 5 / 2 * T0 * density_source out i) /\ same (momentum_source out) (fun i => M * V0 * density_source out i).
Proof.
  intros L EC HC EA EN EP EM HP HM out. unfold out, polarisation_of. rewrite (charged_set s q EC HC), EA, EN, EP, EM.
  cbn [density_source energy_source momentum_source]. split; intros i.
  - rewrite (lin_scal _ (L phi) T0 (fun k => P k * (M / q / Bsq k)) (fun k => N k * (M / q / Bsq k)) i); [ ring | ]. intros k. rewrite HP. ring.
  - rewrite (lin_scal _ (L phi) (M * V0) (fun k => NV k * (M / q / Bsq k)) (fun k => N k * (M / q / Bsq k)) i); [ ring | ]. intros k. rewrite HM. ring.
Qed.

(** The operator on a line and its solver: they meet the assumptions. *)
Lemma cum_step g i : cum g (i + 1) - cum g i = g i.
Proof.
  unfold cum. destruct (Z.leb_spec 0 i) as [ H | H ].
  - destruct (Z.leb_spec 0 (i + 1)) as [ H1 | H1 ]; [ | lia ].
    replace (Z.to_nat (i + 1)) with (S (Z.to_nat i)) by lia. cbn [zsum]. rewrite Z2Nat.id by lia. change (0 + i)%Z with i. ring.
  - destruct (Z.leb_spec 0 (i + 1)) as [ H1 | H1 ].
    + assert (i = -1)%Z by lia. subst i. change (Z.to_nat (-1 + 1)) with 0%nat. change (Z.to_nat (- -1)) with 1%nat. cbn [zsum]. change (-1 + Z.of_nat 0)%Z with (-1)%Z. ring.
    + replace (Z.to_nat (- i)) with (S (Z.to_nat (- (i + 1)))) by lia.
      assert (F : forall lo n, zsum lo (S n) g = g lo + zsum (lo + 1) n g).
      { intros lo n. revert lo. induction n as [ | n IH ]; intros lo; [ cbn [zsum]; change (Z.of_nat 0) with 0%Z; rewrite Z.add_0_r; ring | ].
        change (zsum lo (S (S n)) g) with (zsum lo (S n) g + g (lo + Z.of_nat (S n))%Z). rewrite IH.
        change (zsum (lo + 1) (S n) g) with (zsum (lo + 1) n g + g (lo + 1 + Z.of_nat n)%Z).
        replace (lo + 1 + Z.of_nat n)%Z with (lo + Z.of_nat (S n))%Z by lia. ring. }
      rewrite F. ring.
Qed.
Lemma line_solves C rhs : (forall k, 0 < C k) -> solves line_div C rhs (line_solve C rhs).
Proof.
  intros HC i. unfold line_div, line_solve.
  assert (P : forall k, 0 < line_face C k) by (intros k; unfold line_face; pose proof (HC k); pose proof (HC (k - 1)%Z); lra).
  rewrite cum_step. replace (cum _ i - cum _ (i - 1)%Z) with (cum (fun k => C k * rhs k) i / line_face C i).
  - transitivity (cum (fun k => C k * rhs k) (i + 1)%Z - cum (fun k => C k * rhs k) i); [ | apply cum_step ].
    pose proof (P i). pose proof (P (i + 1)%Z). field. split; lra.
  - pose proof (cum_step (fun i0 => cum (fun k => C k * rhs k) (i0 + 1)%Z / line_face C (i0 + 1)%Z) (i - 1)) as S. cbv beta in S. replace (i - 1 + 1)%Z with i in S by lia. symmetry. exact S.
Qed.
Lemma line_bilinear : bilinear line_div.
Proof.
  split; [ | split ].
  - intros f. split; [ | split ].
    + intros a b i. unfold line_div, line_face. field.
    + intros c a i. unfold line_div, line_face. field.
    + intros a b H i. unfold line_div, line_face. rewrite !H. reflexivity.
  - intros a. split; [ | split ].
    + intros f g i. unfold line_div. ring.
    + intros c f i. unfold line_div. ring.
    + intros f g H i. unfold line_div. rewrite !H. reflexivity.
  - intros c a f i. unfold line_div, line_face. field.
Qed.

(** * Energy exchange with the diamagnetic current *)
Lemma Jdia_sum curl l i : Jdia curl l i = sum_over l (fun s => Jdia_of curl s i).
Proof.
  unfold Jdia, sum_over. assert (G : forall l a, fold_left (fun acc s => acc + Jdia_of curl s i) l a = a + fold_right Rplus 0 (map (fun s => Jdia_of curl s i) l)).
  { clear l. induction l as [ | s l IH ]; intros a; cbn [fold_left map fold_right]; [ ring | rewrite IH; ring ]. }
  rewrite G. ring.
Qed.
(** Power through the face between cells i and i + 1. *)
Definition dia_power (J curl phi : field) (l : list species) (i : Z) : R :=
  (J i * Jdia curl l i * phi (i + 1)%Z + phi i * (J (i + 1)%Z * Jdia curl l (i + 1)%Z)) / 2.
Lemma dia_energy J curl d phi l lo n : (forall i, J i <> 0) -> (forall i, d i <> 0) ->
  zsum lo n (fun i => J i * d i * sum_over l (fun s => dia_heat curl d phi s i)) - zsum lo n (fun i => J i * d i * (phi i * div_jdia J curl d l i))
  = dia_power J curl phi l (lo - 1) - dia_power J curl phi l (lo + Z.of_nat n - 1).
Proof.
  intros HJ Hd.
  assert (T : zsum lo n (fun i => J i * d i * sum_over l (fun s => dia_heat curl d phi s i)) - zsum lo n (fun i => J i * d i * (phi i * div_jdia J curl d l i))
            = zsum lo n (fun i => dia_power J curl phi l (i - 1) - dia_power J curl phi l i)).
  { assert (S : forall f g, zsum lo n f - zsum lo n g = zsum lo n (fun i => f i + -1 * g i)) by (intros f g; rewrite zsum_plus, zsum_scal; ring).
    rewrite S. apply zsum_ext. intros i _. unfold dia_heat.
    rewrite (sum_ext l _ (fun s => (- DD d phi i) * Jdia_of curl s i)) by (intros; ring). rewrite sum_scal, <- Jdia_sum.
    unfold div_jdia, DD, dia_power. replace (i - 1 + 1)%Z with i by lia. specialize (HJ i). specialize (Hd i). field. split; assumption. }
  rewrite T. clear T. induction n as [ | n IH ]; [ cbn [zsum]; change (Z.of_nat 0) with 0%Z; rewrite Z.add_0_r; ring | ].
  cbn [zsum]. rewrite IH. replace (lo + Z.of_nat (S n) - 1)%Z with (lo + Z.of_nat n)%Z by lia. ring.
Qed.

(** * The relaxing potential *)
Definition pressure_part (s : species) (k : Z) : R := match charged s, pressure s with Some _, Some P => value (AA s) * P k | _, _ => 0 end.
Lemma relax_none div_a_grad l1 Bsq l : fold_left (relax_dia div_a_grad l1 Bsq) l None = None.
Proof. induction l as [ | s l IH ]; cbn [fold_left]; [ reflexivity | exact IH ]. Qed.
Lemma relax_sum div_a_grad l1 Bsq avg l : bilinear div_a_grad -> avg <> 0 -> forall acc r, fold_left (relax_dia div_a_grad l1 Bsq) l (Some acc) = Some r ->
  same r (fun i => acc i + l1 * div_a_grad (fun k => avg / Bsq k) (fun k => sum_over l (fun s => pressure_part s k) / avg) i).
Proof.
  intros (LA & LF & SW) HA. induction l as [ | s l IH ]; intros acc r E i; cbn [fold_left] in E.
  - assert (r = acc) by congruence. subst r. rewrite (lin_0 _ (LF (fun k => avg / Bsq k))); [ ring | ]. intros k. unfold sum_over. cbn [map fold_right]. unfold Rdiv. ring.
  - assert (Z0 : pressure_part s = (fun _ => 0) \/ True) by (right; exact I). clear Z0.
    unfold relax_dia at 2 in E. unfold sum_over. cbn [map fold_right].
    assert (K : forall a0 r0, r0 = r -> fold_left (relax_dia div_a_grad l1 Bsq) l (Some a0) = Some r0 ->
      (forall k, a0 k = acc k + l1 * div_a_grad (fun k => avg / Bsq k) (fun k => pressure_part s k / avg) k) ->
      r i = acc i + l1 * div_a_grad (fun k => avg / Bsq k) (fun k => (pressure_part s k + fold_right Rplus 0 (map (fun s => pressure_part s k) l)) / avg) i).
    { intros a0 r0 Er E0 HA0. subst r0. rewrite (IH a0 r E0 i), HA0.
      rewrite (lin_add _ (LF (fun k => avg / Bsq k)) (fun k => (pressure_part s k + fold_right Rplus 0 (map (fun s => pressure_part s k) l)) / avg)
                 (fun k => pressure_part s k / avg) (fun k => sum_over l (fun s => pressure_part s k) / avg) i).
      - ring.
      - intros k. unfold sum_over, Rdiv. ring. }
    unfold pressure_part in K at 1. unfold pressure_part at 1.
    destruct (charged s) as [ q | ] eqn:EC; [ destruct (pressure s) as [ P | ] eqn:EP; [ destruct (AA s) as [ A | ] eqn:EA | ] | ].
    + cbn [value]. refine (eq_trans (K _ r eq_refl E _) _).
      * intros k. cbn [value]. f_equal. f_equal. transitivity (div_a_grad (fun k0 => (A / avg) * (avg / Bsq k0)) P k).
        { apply (lin_ext _ (LA P)). intros j. unfold Rdiv. rewrite <- (Rmult_1_l (/ Bsq j)) at 1. transitivity (A * (avg * / avg) * / Bsq j); [ rewrite Rinv_r by exact HA; ring | ring ]. }
        rewrite SW. apply (lin_ext _ (LF _)). intros j. unfold Rdiv. ring.
      * unfold pressure_part at 1. rewrite EC, EP, EA. reflexivity.
    + rewrite relax_none in E. discriminate.
    + refine (eq_trans (K _ r eq_refl E _) _); [ | unfold pressure_part at 1; rewrite EC, EP; reflexivity ].
      intros k. rewrite (lin_0 _ (LF (fun k => avg / Bsq k))); [ ring | ]. intros j. unfold Rdiv. ring.
    + refine (eq_trans (K _ r eq_refl E _) _); [ | unfold pressure_part at 1; rewrite EC; reflexivity ].
      intros k. rewrite (lin_0 _ (LF (fun k => avg / Bsq k))); [ ring | ]. intros j. unfold Rdiv. ring.
Qed.
Lemma pi_sum avg l : forall acc i, fold_left (add_pi avg) l acc i
  = acc i + sum_over l (fun s => match pressure s, charged s, AA s with Some P, Some q, Some A => P i * (A / avg / q) | _, _, _ => 0 end).
Proof.
  induction l as [ | s l IH ]; intros acc i; unfold sum_over; cbn [fold_left map fold_right]; [ ring | ]. rewrite IH. unfold sum_over, add_pi.
  destruct (pressure s); [ destruct (charged s); [ destruct (AA s) | ] | ]; ring.
Qed.
Lemma relax_steady div_a_grad l1 avg Bsq phi Vort l r : bilinear div_a_grad -> avg <> 0 ->
  List.Forall (fun s => charge s = Some 1 \/ pressure s = None \/ charged s = None) l ->
  ddt_phi1 div_a_grad l1 avg true Bsq phi Vort l = Some r ->
  same r (fun i => l1 * (div_a_grad (fun k => avg / Bsq k) (fun k => phi k + Pi_hat avg l k) i - Vort i)).
Proof.
  intros B HA HZ E i. unfold ddt_phi1 in E. rewrite (relax_sum div_a_grad l1 Bsq avg l B HA _ r E i).
  destruct B as (LA & LF & SW). rewrite (lin_add _ (LF _) (fun k => phi k + Pi_hat avg l k) phi (fun k => sum_over l (fun s => pressure_part s k) / avg) i); [ ring | ].
  intros k. f_equal. unfold Pi_hat. rewrite pi_sum. unfold zero. rewrite Rplus_0_l. replace (sum_over l (fun s => pressure_part s k) / avg) with (/ avg * sum_over l (fun s => pressure_part s k)) by (unfold Rdiv; ring). rewrite <- sum_scal. apply sum_ext.
  intros s Hs. rewrite List.Forall_forall in HZ. unfold pressure_part. destruct (charged s) as [ q | ] eqn:EC.
  - destruct (pressure s) as [ P | ] eqn:EP; [ | ring ]. destruct (HZ s Hs) as [ H | [ H | H ] ]; [ | congruence | congruence ].
    destruct (charged_inv s q EC) as (E1 & _). assert (q = 1) by congruence. subst q. destruct (AA s) as [ A | ]; cbn [value]; [ field; exact HA | ring ].
  - destruct (pressure s); ring.
Qed.

(** * Friction and damping *)
Lemma friction_none i l : fold_left (add_friction i) l None = None.
Proof. induction l as [ | s l IH ]; cbn [fold_left]; [ reflexivity | exact IH ]. Qed.
Lemma friction_bounds i lo hi l : List.Forall (within i lo hi) l -> forall a b a' b', fold_left (add_friction i) l (Some (a, b)) = Some (a', b') ->
  lo * b <= a <= hi * b -> lo * b' <= a' <= hi * b'.
Proof.
  intros HF. induction l as [ | s l IH ]; intros a b a' b' E H; cbn [fold_left] in E.
  - injection E as <- <-. exact H.
  - pose proof (List.Forall_inv HF) as (H1 & H2 & H3). pose proof (List.Forall_inv_tail HF) as HT. unfold add_friction at 2 in E.
    destruct (charged s) as [ q | ] eqn:ECH; [ | exact (IH HT _ _ _ _ E H) ]. destruct (AA s) as [ A | ]; [ | exact (IH HT _ _ _ _ E H) ].
    destruct (density s) as [ N | ]; [ | rewrite friction_none in E; discriminate ].
    pose proof (number_charged s) as NC. rewrite ECH in NC. specialize (H3 ltac:(intros Q0; lra)). cbn [value fvalue] in H1, H2, H3.
    assert (P : 0 <= A * N i) by (apply Rmult_le_pos; assumption).
    apply (IH HT _ _ _ _ E). destruct (collision_frequency s) as [ nu | ]; cbn [fvalue] in H3.
    + assert (lo * (A * N i) <= A * N i * nu i <= hi * (A * N i)).
      { split; [ rewrite (Rmult_comm lo) | rewrite (Rmult_comm hi) ]; apply Rmult_le_compat_l; lra. }
      lra.
    + assert (lo * (A * N i) <= 0 <= hi * (A * N i)).
      { split; [ | apply Rmult_le_pos; lra ]. rewrite <- (Rmult_0_l (A * N i)). apply Rmult_le_compat_r; lra. }
      lra.
Qed.
Lemma friction_mean i lo hi l nu : List.Forall (within i lo hi) l -> weighted_collision_frequency i l = Some nu -> lo <= nu <= hi.
Proof.
  intros HF E. unfold weighted_collision_frequency in E. destruct (friction_sums i l) as [ (a, b) | ] eqn:ES; [ | discriminate ].
  assert (B : 0 <= b).
  { unfold friction_sums in ES. assert (G : forall l a0 b0, List.Forall (within i lo hi) l -> fold_left (add_friction i) l (Some (a0, b0)) = Some (a, b) -> 0 <= b0 -> 0 <= b).
    { clear. induction l as [ | s l IH ]; intros a0 b0 HF E H; cbn [fold_left] in E; [ injection E as <- <-; exact H | ].
      pose proof (List.Forall_inv HF) as (H1 & H2 & H3). pose proof (List.Forall_inv_tail HF) as HT. unfold add_friction at 2 in E.
      destruct (charged s) as [ q | ]; [ | exact (IH _ _ HT E H) ]. destruct (AA s) as [ A | ]; [ | exact (IH _ _ HT E H) ].
      destruct (density s) as [ N | ]; [ | rewrite friction_none in E; discriminate ]. cbn [value fvalue] in H1, H2.
      apply (IH _ _ HT E). pose proof (Rmult_le_pos _ _ H1 H2). lra. }
    apply (G l 0 0 HF ES). lra. }
  pose proof (friction_bounds i lo hi l HF 0 0 a b ES ltac:(lra)) as H.
  assert (S : Reqb b 0 = false -> b <> 0) by (unfold Reqb; destruct (Req_EM_T b 0); [ discriminate | intros _; assumption ]). destruct (Reqb b 0); [ discriminate | ]. specialize (S eq_refl). injection E as <-.
  assert (0 < b) by lra. split; [ apply (Rmult_le_reg_r b) | apply (Rmult_le_reg_r b) ]; try lra; unfold Rdiv; rewrite Rmult_assoc, Rinv_l by lra; lra.
Qed.
Lemma sheath_dissipation_min phi g : sheath_dissipation phi g = Rmin ((phi + g) / 2) 0.
Proof.
  unfold sheath_dissipation. replace (0.5 * (phi + g)) with ((phi + g) / 2) by lra. unfold rfloor. set (x := (phi + g) / 2). pose proof (Rltb_spec (- x) 0) as S.
  destruct (Rltb (- x) 0); [ rewrite Rmin_right by lra | rewrite Rmin_left by lra ]; lra.
Qed.
Lemma damp_core_mean Nz Vort ddt : (0 < Nz)%nat ->
  z_sum Nz (damp_core Nz Vort ddt) = z_sum Nz ddt - 0.01 * z_sum Nz Vort
  /\ forall j k, damp_core Nz Vort ddt j - damp_core Nz Vort ddt k = ddt j - ddt k.
Proof.
  intros HN. split; [ | intros j k; unfold damp_core; ring ].
  assert (N0 : INR Nz <> 0) by (apply not_0_INR; lia).
  unfold damp_core. set (a := 0.01 * (z_sum Nz Vort / INR Nz)).
  rewrite (z_sum_ext Nz _ (fun z => 1 * ddt z + (- a) * 1)) by (intros; ring). rewrite z_sum_linear, z_sum_const. unfold a. field. exact N0.
Qed.

(** * The same in terms of the specification *)
Lemma mass_spec s i : mass_of s i = charged_mass s i.
Proof.
  unfold mass_of, charged_mass. pose proof (number_charged s) as N. destruct (charged s) as [ q | ].
  - destruct N as (-> & N). destruct (Req_EM_T q 0); [ lra | ]. destruct (AA s); cbn [value]; [ reflexivity | ring ].
  - rewrite N. destruct (Req_EM_T 0 0); [ reflexivity | lra ].
Qed.
Lemma par_spec div_par l i : linear div_par ->
  sum_over l (fun s => par_of div_par s i) = div_par (fun k => sum_over l (fun s => parallel_current s k)) i.
Proof.
  intros L. rewrite <- (lin_sum div_par L _ l parallel_current i). apply sum_ext. intros s _. unfold par_of. pose proof (number_charged s) as N.
  destruct (charged s) as [ q | ].
  - destruct N as (N & _). destruct (momentum s) as [ NV | ] eqn:EM.
    + apply (lin_ext _ L). intros k. unfold parallel_current. rewrite N, EM. reflexivity.
    + symmetry. apply (lin_0 _ L). intros k. unfold parallel_current. rewrite EM. cbn [fvalue]. ring.
  - symmetry. apply (lin_0 _ L). intros k. unfold parallel_current. rewrite N. unfold Rdiv. ring.
Qed.
Lemma other_spec div_par jd je jc l i : linear div_par -> all_div_j div_par jd je jc l i = other_currents div_par jd je jc l i.
Proof. intros L. unfold all_div_j, other_currents. rewrite par_spec by exact L. reflexivity. Qed.
Lemma rate_spec div_a_grad Bsq phi l i :
  charge_rate (map (fun s => (s, polarisation_of div_a_grad Bsq phi s)) l) i
  = sum_over l (fun s => value (charge s) * density_source (polarisation_of div_a_grad Bsq phi s) i).
Proof.
  unfold charge_rate. rewrite sum_map. apply sum_ext. intros s _. cbn [fst snd]. pose proof (number_charged s) as N. unfold polarisation_of.
  destruct (charged s) as [ q | ] eqn:E.
  - destruct N as (N & _). rewrite N. destruct (charged_inv s q E) as (E1 & _). rewrite E1. reflexivity.
  - cbn [no_sources density_source]. unfold zero. ring.
Qed.
Lemma combine_map {A B} (l : list A) (out : list B) (f : A -> B) : out = map f l -> combine l out = map (fun s => (s, f s)) l.
Proof. intros ->. induction l as [ | s l IH ]; cbn [map combine]; [ reflexivity | rewrite IH; reflexivity ]. Qed.
Lemma complete_kind s : complete s -> polarised s \/ bystander s.
Proof.
  intros H. pose proof (number_charged s) as N. destruct (charged s) as [ q | ] eqn:E.
  - destruct N as (N & Q). destruct H as (H1 & H2); [ rewrite N; exact Q | ]. destruct (charged_inv s q E). destruct (AA s) as [ A | ] eqn:EA; [ | congruence ].
    destruct (density s) as [ D | ] eqn:ED; [ | congruence ]. left. exists q, A, D. repeat split; assumption.
  - right. unfold charged in E. destruct (charge s) as [ q | ] eqn:EC; [ | left; exact EC ]. right. left. exists q. split; [ exact EC | ].
    pose proof (Rltb_spec (Rabs q) 1e-5) as S. destruct (Rltb (Rabs q) 1e-5); [ exact S | discriminate ].
Qed.
Lemma polarisation_neutral set div_par div_a_grad solve Bsq jd je jc l out :
  boussinesq set = false -> advection set = true -> 0 < density_floor set -> linear div_par -> (forall f, linear (fun a => div_a_grad a f)) -> (forall k, 0 < Bsq k) ->
  List.Forall complete l -> (forall k, density_floor set <= sum_over l (fun s => charged_mass s k)) ->
  (forall C rhs, (forall k, 0 < C k) -> solves div_a_grad C rhs (solve C rhs)) ->
  polarisation_drift set div_par div_a_grad solve Bsq jd je jc l = Some out ->
  same (charge_rate (combine l (map snd out))) (other_currents div_par jd je jc l).
Proof.
  intros EB EA HF LP L HB HS HM HS' E i.
  destruct (pol_open _ _ _ _ _ _ _ _ _ _ E EA) as (rho & J & ER & HJ & EO).
  rewrite (combine_map l _ _ EO), rate_spec. rewrite <- other_spec by exact LP.
  assert (HM' : forall k, density_floor set <= sum_over l (fun s => mass_of s k)) by (intros k; rewrite (sum_ext l _ (fun s => charged_mass s k)) by (intros; apply mass_spec); apply HM).
  assert (HS2 : List.Forall (fun s => polarised s \/ bystander s) l) by (eapply List.Forall_impl; [ exact complete_kind | exact HS ]).
  rewrite <- (pol_neutral set div_par div_a_grad solve Bsq jd je jc l out EB EA HF L HB HS2 HM' HS' E i).
  clear -EO. revert out EO. set (P := polarisation_of div_a_grad Bsq _). clearbody P. induction l as [ | s l IH ]; intros out EO; [ reflexivity | ].
  destruct out as [ | o out ]; [ discriminate | ]. cbn [map] in EO. injection EO as E1 E2. unfold sum_over in *. cbn [combine map fold_right fst snd]. rewrite E1. f_equal. apply IH. exact E2.
Qed.
Lemma polarisation_boussinesq set div_par div_a_grad solve Bsq jd je jc l out m :
  boussinesq set = true -> advection set = true -> 0 < average_atomic_mass set -> linear div_par -> (forall f, linear (fun a => div_a_grad a f)) -> (forall k, 0 < Bsq k) ->
  (forall k, sum_over l (fun s => charged_mass s k) = m) ->
  (forall C rhs, (forall k, 0 < C k) -> solves div_a_grad C rhs (solve C rhs)) ->
  polarisation_drift set div_par div_a_grad solve Bsq jd je jc l = Some out ->
  same (charge_rate (combine l (map snd out))) (fun i => m / average_atomic_mass set * other_currents div_par jd je jc l i).
Proof.
  intros EB EA HF LP L HB HM HS' E i.
  destruct (pol_open _ _ _ _ _ _ _ _ _ _ E EA) as (rho & J & ER & HJ & EO).
  rewrite (combine_map l _ _ EO), rate_spec. rewrite <- other_spec by exact LP.
  assert (HM' : forall k, sum_over l (fun s => mass_of s k) = m) by (intros k; rewrite (sum_ext l _ (fun s => charged_mass s k)) by (intros; apply mass_spec); apply HM).
  rewrite <- (pol_boussinesq set div_par div_a_grad solve Bsq jd je jc l out m EB EA HF L HB HM' HS' E i).
  clear -EO. revert out EO. set (P := polarisation_of div_a_grad Bsq _). clearbody P. induction l as [ | s l IH ]; intros out EO; [ reflexivity | ].
  destruct out as [ | o out ]; [ discriminate | ]. cbn [map] in EO. injection EO as E1 E2. unfold sum_over in *. cbn [combine map fold_right fst snd]. rewrite E1. f_equal. apply IH. exact E2.
Qed.
Lemma Jdia_spec curl l i : Jdia curl l i = diamagnetic_current curl l i.
Proof.
  rewrite Jdia_sum. apply sum_ext. intros s _. unfold Jdia_of. pose proof (number_charged s) as N. destruct (charged s) as [ q | ].
  - destruct N as (-> & N). destruct (Req_EM_T q 0); [ lra | ]. destruct (pressure s); cbn [fvalue]; [ reflexivity | unfold zero; ring ].
  - rewrite N. destruct (Req_EM_T 0 0); [ | lra ]. destruct (pressure s); reflexivity.
Qed.
Lemma exchange J curl d phi l lo n : (forall i, J i <> 0) -> (forall i, d i <> 0) ->
  zsum lo n (fun i => J i * d i * sum_over l (fun s => dia_heat curl d phi s i)) - zsum lo n (fun i => J i * d i * (phi i * div_jdia J curl d l i))
  = power_through J curl phi l (lo - 1) - power_through J curl phi l (lo + Z.of_nat n - 1).
Proof. intros HJ Hd. rewrite dia_energy by assumption. unfold dia_power, power_through. rewrite !Jdia_spec. reflexivity. Qed.
Lemma exchange_periodic J curl d phi l lo n : (forall i, J i <> 0) -> (forall i, d i <> 0) ->
  (forall i, J (i + Z.of_nat n)%Z = J i) -> (forall i, curl (i + Z.of_nat n)%Z = curl i) -> (forall i, phi (i + Z.of_nat n)%Z = phi i) ->
  (forall s P, List.In s l -> pressure s = Some P -> forall i, P (i + Z.of_nat n)%Z = P i) ->
  zsum lo n (fun i => J i * d i * sum_over l (fun s => dia_heat curl d phi s i)) = zsum lo n (fun i => J i * d i * (phi i * div_jdia J curl d l i)).
Proof.
  intros HJ Hd PJ PC PP PS. pose proof (exchange J curl d phi l lo n HJ Hd) as E.
  assert (D : forall i, diamagnetic_current curl l (i + Z.of_nat n) = diamagnetic_current curl l i).
  { intros i. apply sum_ext. intros s Hs. rewrite PC. destruct (Req_EM_T (charge_number s) 0); [ reflexivity | ].
    destruct (pressure s) as [ P | ] eqn:EP; cbn [fvalue]; [ rewrite (PS s P Hs EP) | ]; reflexivity. }
  assert (Q : power_through J curl phi l (lo + Z.of_nat n - 1) = power_through J curl phi l (lo - 1)).
  { unfold power_through. replace (lo + Z.of_nat n - 1)%Z with (lo - 1 + Z.of_nat n)%Z by lia. replace (lo - 1 + Z.of_nat n + 1)%Z with (lo - 1 + 1 + Z.of_nat n)%Z by lia.
    rewrite !PJ, !PP, !D. reflexivity. }
  rewrite Q in E. lra.
Qed.
Lemma Pi_spec average l i : average <> 0 -> Pi_hat average l i = weighted_pressure average l i.
Proof.
  intros HA. unfold Pi_hat. rewrite pi_sum. unfold zero. rewrite Rplus_0_l. apply sum_ext. intros s _. pose proof (number_charged s) as N. destruct (charged s) as [ q | ].
  - destruct N as (-> & N). destruct (Req_EM_T q 0); [ lra | ]. destruct (pressure s); cbn [fvalue]; [ | field; auto ].
    destruct (AA s); cbn [value]; [ field; auto | field; auto ].
  - rewrite N. destruct (Req_EM_T 0 0); [ | lra ]. destruct (pressure s); reflexivity.
Qed.

(** With complete species and settings which are implemented no exception is thrown. *)
Lemma polarisation_defined set div_par div_a_grad solve Bsq jd je jc l : (diamagnetic_polarisation set = true -> boussinesq set = true) ->
  List.Forall complete l -> exists out, polarisation_drift set div_par div_a_grad solve Bsq jd je jc l = Some out /\ List.length out = List.length l.
Proof.
  intros HD HF. unfold polarisation_drift.
  assert (G : forall acc, exists j, fold_left (par_current div_par) l (Some acc) = Some j).
  { clear -HF. induction l as [ | s l IH ]; intros acc; cbn [fold_left]; [ eexists; reflexivity | ]. pose proof (List.Forall_inv HF) as C. specialize (IH (List.Forall_inv_tail HF)).
    unfold par_current at 2. pose proof (number_charged s) as N. destruct (charged s) as [ q | ]; [ | apply IH ]. destruct (momentum s); [ | apply IH ].
    destruct N as (N & Q). destruct C as (C1 & _); [ rewrite N; exact Q | ]. destruct (AA s); [ apply IH | congruence ]. }
  assert (M : forall acc, exists j, fold_left add_mass l (Some acc) = Some j).
  { clear -HF. induction l as [ | s l IH ]; intros acc; cbn [fold_left]; [ eexists; reflexivity | ]. pose proof (List.Forall_inv HF) as C. specialize (IH (List.Forall_inv_tail HF)).
    unfold add_mass at 2. pose proof (number_charged s) as N. destruct (charged s) as [ q | ]; [ | apply IH ]. destruct (AA s); [ | apply IH ].
    destruct N as (N & Q). destruct C as (_ & C2); [ rewrite N; exact Q | ]. destruct (density s); [ apply IH | congruence ]. }
  unfold div_j. destruct (G (match jd with Some j => j | None => zero end)) as (j & ->).
  replace (diamagnetic_polarisation set && negb (boussinesq set))%bool with false.
  2: { destruct (diamagnetic_polarisation set); [ rewrite HD by reflexivity | ]; reflexivity. }
  unfold mass_density. destruct (M zero) as (m & ->).
  destruct (advection set); [ | eexists; split; [ reflexivity | apply map_length ] ].
  destruct (boussinesq set); eexists; (split; [ reflexivity | apply map_length ]).
Qed.
Lemma zero_uncharged : Rabs 0 < 1e-5.
Proof. rewrite Rabs_R0. lra. Qed.
Lemma heats_differ set DivJ P A : 0 < A -> average_atomic_mass set = A ->
  let s := mkSpecies (Some 1) (Some A) None None (Some P) None None in
  forall i, relax_heat DivJ s i = 3 / 2 * polarisation_heat set DivJ s i /\ polarisation_heat set DivJ s i = P i * DivJ i.
Proof.
  intros HA EA s i. unfold relax_heat, polarisation_heat. rewrite (charged_set s 1 eq_refl) by (rewrite Rabs_R1; lra). cbn [s pressure charge AA]. rewrite EA.
  split; field; lra.
Qed.
Lemma relax_fold_scale div_a_grad l1 l2 Bsq l : l2 <> 0 -> forall acc acc' r, same (scaled_phi l2 acc) acc' ->
  fold_left (relax_dia div_a_grad l1 Bsq) l (Some acc) = Some r ->
  exists r', fold_left (relax_dia div_a_grad (l1 / l2) Bsq) l (Some acc') = Some r' /\ same (scaled_phi l2 r) r'.
Proof.
  intros H2. induction l as [ | s l IH ]; intros acc acc' r H E; cbn [fold_left] in *.
  - exists acc'. split; [ reflexivity | ]. assert (acc = r) by congruence. subst. exact H.
  - unfold relax_dia at 2 in E. unfold relax_dia at 2. destruct (charged s); [ | exact (IH _ _ _ H E) ]. destruct (pressure s); [ | exact (IH _ _ _ H E) ].
    destruct (AA s); [ | rewrite relax_none in E; discriminate ]. refine (IH _ _ _ _ E). intros i. rewrite <- (H i). unfold scaled_phi. field. exact H2.
Qed.
Lemma relax_rate div_a_grad l1 l2 average dia_pol Bsq phi1 Vort l r : l2 <> 0 -> bilinear div_a_grad ->
  ddt_phi1 div_a_grad l1 average dia_pol Bsq (scaled_phi l2 phi1) Vort l = Some r ->
  exists r', ddt_phi1 div_a_grad (l1 / l2) average dia_pol Bsq (scaled_phi 1 (scaled_phi l2 phi1)) Vort l = Some r' /\ same (scaled_phi l2 r) r'.
Proof.
  intros H2 (LA & LF & SW) E. unfold ddt_phi1 in *.
  assert (S : same (scaled_phi l2 (fun i => l1 * (div_a_grad (fun k => average / Bsq k) (scaled_phi l2 phi1) i - Vort i)))
                   (fun i => l1 / l2 * (div_a_grad (fun k => average / Bsq k) (scaled_phi 1 (scaled_phi l2 phi1)) i - Vort i))).
  { intros i. unfold scaled_phi at 1. rewrite (lin_ext _ (LF _) (scaled_phi 1 (scaled_phi l2 phi1)) (scaled_phi l2 phi1) i).
    - field. exact H2.
    - intros k. unfold scaled_phi. field. exact H2. }
  destruct dia_pol.
  - exact (relax_fold_scale div_a_grad l1 l2 Bsq l H2 _ _ r S E).
  - assert (r = (fun i => l1 * (div_a_grad (fun k => average / Bsq k) (scaled_phi l2 phi1) i - Vort i))) by congruence. subst r. eexists. split; [ reflexivity | exact S ].
Qed.
Lemma relax_steady_spec div_a_grad l1 avg Bsq phi Vort l r : bilinear div_a_grad -> avg <> 0 ->
  List.Forall (fun s => charge_number s = 1 \/ pressure s = None \/ charge_number s = 0) l ->
  ddt_phi1 div_a_grad l1 avg true Bsq phi Vort l = Some r ->
  same r (fun i => l1 * (div_a_grad (fun k => avg / Bsq k) (fun k => phi k + weighted_pressure avg l k) i - Vort i)).
Proof.
  intros B HA HZ E i. rewrite (relax_steady div_a_grad l1 avg Bsq phi Vort l r B HA) with (i := i); [ | | exact E ].
  - f_equal. f_equal. apply (lin_ext _ (proj1 (proj2 B) _)). intros k. rewrite Pi_spec by exact HA. reflexivity.
  - eapply List.Forall_impl; [ | exact HZ ]. intros s H. pose proof (number_charged s) as N. destruct (charged s) as [ q | ] eqn:EC; [ | right; right; reflexivity ].
    destruct N as (N & Q). destruct H as [ H | [ H | H ] ]; [ left | right; left; exact H | lra ]. destruct (charged_inv s q EC) as (E1 & _). rewrite E1. f_equal. lra.
Qed.
Lemma wall_drift q curl T_last T_guard : q <> 0 -> curl <> 0 ->
  (mean (drift_y_last q curl T_last) (drift_y_guard q curl T_guard) = 0 <-> T_last = T_guard).
Proof.
  intros Hq Hc. assert (E : mean (drift_y_last q curl T_last) (drift_y_guard q curl T_guard) = curl / q / 2 * (T_last - T_guard)).
  { unfold mean, drift_y_last, drift_y_guard. field. exact Hq. }
  rewrite E. split; intros H; [ | subst; ring ]. apply Rmult_integral in H. destruct H as [ H | H ]; [ | lra ].
  exfalso. apply Hc. replace curl with (curl / q / 2 * (2 * q)) by (field; exact Hq). rewrite H. ring.
Qed.
