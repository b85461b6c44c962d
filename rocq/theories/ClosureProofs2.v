(** Closures: lemmas, continued. *)

From Coq Require Import List Bool ZArith Reals String Ascii Lra Lia.
From Verif Require Import StateMonad StateMonadProofs StrModel SchedulerSpec SchedulerProofs TransformProofs ParallelModel ClosureModel ClosureSpec ClosureProofs.
Import ListNotations.
Open Scope R_scope.

Lemma find_name name l s : find_species name l = Some s -> s_name s = name /\ In s l.
Proof.
  induction l as [|x l IH]; cbn [find_species]; [discriminate|]. destruct (String.eqb_spec (s_name x) name) as [E|E].
  - intros H. injection H as <-. split; [exact E|left; reflexivity].
  - intros H. destruct (IH H). split; [assumption|right; assumption].
Qed.
Lemma find_sum name l s (g : species -> R) : unique l -> find_species name l = Some s -> rsum g l = rsum g (others name l) + g s.
Proof.
  intros U E. destruct (modify_split name (fun s => s) (fun s => eq_refl) l U) as (old & H1 & _ & _ & _ & _ & H6).
  destruct H1 as [H1|[H1 _]]; rewrite E in H1; [|discriminate]. injection H1 as <-. exact (H6 g E).
Qed.

(** ** C49 *)
Lemma zero_current_ok name q l after : unique l -> q <> 0 -> zero_current name q l = Some after ->
  exists s N V, find_species name l = Some s /\ s_velocity s = None /\ s_density s = Some N /\
  others name after = others name l /\
  (exists s', find_species name after = Some s' /\ s_velocity s' = Some V /\ s_density s' = Some N /\ s_charge s' = s_charge s) /\
  (s_charge s = Some q ->
     (1e-5 <= N -> rsum current after = 0) /\
     (0 <= N -> Rabs (rsum current after) <= Rabs (rsum current (others name l)))).
Proof.
  intros U Hq. unfold zero_current. pose proof (zero_current_sum_ok name l) as Z. destruct (zero_current_sum name l) as [c|]; [|discriminate]. destruct Z as [Hc _].
  destruct (find_species name l) as [s|] eqn:Ef; [|discriminate]. destruct (s_velocity s) eqn:Ev; [discriminate|]. destruct (s_density s) as [N|] eqn:En; [|discriminate].
  intros E. set (V := c / (- q * rfloor N 1e-5)) in E. exists s, N, V. split; [reflexivity|]. split; [exact Ev|]. split; [exact En|].
  set (f := fun s => mkSpecies _ _ _ _ _ _ _ _ _ _) in E. destruct (modify_split name f (fun s => eq_refl) l U) as (old & H1 & H2 & H3 & H4 & H5 & _).
  assert (old = s) as ->. { destruct H1 as [H1|[H1 _]]; congruence. }
  assert (after = modify name f l) as -> by congruence.
  split; [exact H4|]. split; [exists (f s); repeat split; auto|]. intros Eq. rewrite H5. rewrite <- Hc.
  assert (C : current (f s) = q * N * V) by (unfold current, f; cbn [s_charge s_density s_velocity]; rewrite Eq, En; reflexivity). rewrite C.
  pose proof (floor_ge N 1e-5) as F. set (L := rfloor N 1e-5) in *.
  assert (Hs : c + q * N * V = c * (1 - N / L)) by (unfold V; field; lra). rewrite Hs. split.
  - intros HN. unfold L. rewrite floor_above by exact HN. field. lra.
  - intros HN. assert (0 <= N / L <= 1).
    { split; [apply Rmult_le_pos; [exact HN|left; apply Rinv_0_lt_compat; lra]|]. apply Rmult_le_reg_r with L; [lra|]. unfold Rdiv. rewrite Rmult_assoc, Rinv_l by lra.
      unfold L, rfloor. pose proof (Rltb_spec N 1e-5). destruct (Rltb N 1e-5); lra. }
    rewrite Rabs_mult, (Rabs_right (1 - N / L)) by lra. rewrite <- (Rmult_1_r (Rabs c)) at 2. apply Rmult_le_compat_l; [apply Rabs_pos|lra].
Qed.
Lemma zero_current_defined name q l :
  zero_current name q l <> None <-> List.Exists (carries name) l /\ exists s N, find_species name l = Some s /\ s_velocity s = None /\ s_density s = Some N.
Proof.
  unfold zero_current. pose proof (zero_current_sum_ok name l) as Z. destruct (zero_current_sum name l) as [c|].
  - destruct Z as [_ Z]. destruct (find_species name l) as [s|].
    + destruct (s_velocity s) eqn:E1; [|destruct (s_density s) eqn:E2].
      * split; [congruence|]. intros (_ & s0 & N & H1 & H2 & _). congruence.
      * split; [|discriminate]. intros _. split; [exact Z|]. exists s, r. auto.
      * split; [congruence|]. intros (_ & s0 & N & H1 & _ & H2). congruence.
    + split; [congruence|]. intros (_ & s0 & N & H1 & _). discriminate.
  - split; [congruence|]. intros (H & _). tauto.
Qed.

(** ** C50 *)
Definition force (before after : species) : R := or_zero (s_momentum_source after) - or_zero (s_momentum_source before).
Lemma force_on_value E s : s_name s <> "e"%string -> force s (force_on E s) = E * charge_density s.
Proof.
  intros H. unfold force, force_on, charge_density. rewrite (proj2 (String.eqb_neq _ _) H). destruct (s_density s) as [n|], (s_charge s) as [q|]; try (ring). cbn [s_momentum_source].
  destruct (s_momentum_source s); cbn [add_opt or_zero]; ring.
Qed.
Lemma force_on_e E s : s_name s = "e"%string -> force_on E s = s.
Proof. intros H. unfold force_on. rewrite H. reflexivity. Qed.
Lemma force_on_rest E s : s_charge (force_on E s) = s_charge s /\ s_density (force_on E s) = s_density s /\ s_name (force_on E s) = s_name s /\
  s_density_source (force_on E s) = s_density_source s /\ s_energy_source (force_on E s) = s_energy_source s.
Proof. unfold force_on. destruct (String.eqb (s_name s) "e"); [repeat split|]. destruct (s_density s) eqn:E1, (s_charge s) eqn:E2; cbn; auto. Qed.

Lemma force_balance_ok gradP l after : unique l -> electron_force_balance false gradP l = Some after ->
  exists e Ne, find_species "e" l = Some e /\ s_density e = Some Ne /\ after = map (force_on (force_balance_Epar gradP (s_momentum_source e) Ne)) l /\
  (forall s, In s (others "e" l) -> In (force_on (force_balance_Epar gradP (s_momentum_source e) Ne) s) after) /\
  (s_charge e = Some (-1) -> rsum charge_density l = 0 -> 1e-5 <= Ne ->
     rsum (fun s => force s (force_on (force_balance_Epar gradP (s_momentum_source e) Ne) s)) l = - gradP + or_zero (s_momentum_source e)).
Proof.
  intros U. unfold electron_force_balance. destruct (find_species "e" l) as [e|] eqn:Ef; [|discriminate]. destruct (s_pressure e); [|discriminate]. destruct (s_density e) as [Ne|] eqn:En; [|discriminate].
  intros E. injection E as <-. exists e, Ne. set (Ep := force_balance_Epar gradP (s_momentum_source e) Ne). split; [reflexivity|]. split; [exact En|]. split; [reflexivity|]. split.
  - intros s Hs. apply in_map. unfold others in Hs. apply filter_In in Hs. apply Hs.
  - intros Hq Hz HN. rewrite (find_sum "e" l e _ U Ef). destruct (find_name "e" l e Ef) as [Hname _]. rewrite (force_on_e Ep e Hname). 
    rewrite (find_sum "e" l e _ U Ef) in Hz. unfold charge_density at 2 in Hz. rewrite Hq, En in Hz.
    assert (S : rsum (fun s => force s (force_on Ep s)) (others "e" l) = Ep * rsum charge_density (others "e" l)).
    { rewrite <- rsum_scal. apply rsum_ext. intros s Hs. apply force_on_value. unfold others in Hs. apply filter_In in Hs. destruct Hs as [_ Hs]. intros X. rewrite X in Hs. discriminate. }
    rewrite S. replace (rsum charge_density (others "e" l)) with Ne by lra. unfold force. replace (or_zero (s_momentum_source e) - or_zero (s_momentum_source e)) with 0 by ring.
    unfold Ep, force_balance_Epar. cbv zeta. rewrite (floor_above Ne 1e-5 HN). destruct (s_momentum_source e); cbn [or_zero]; field; lra.
Qed.

(** ** C51 *)
Lemma parse_fraction_spec real_of text name x :
  parse_fraction real_of text = Some (name, x) <->
  exists a b b', ~ In at_char a /\ ~ In at_char b /\ stripped blanks a name /\ stripped blanks b b' /\ real_of b' = Some x /\
    (text = (a ++ at_char :: b)%list /\ b <> [] \/ text = (a ++ at_char :: b ++ [at_char])%list).
Proof.
  unfold parse_fraction, strsplit. split.
  - intros H. destruct (drop_last_empty (pieces at_char text)) as [|a [|b [|c l]]] eqn:E; try discriminate H.
    destruct (real_of (trim blanks b)) as [y|] eqn:Er; [|discriminate]. assert (name = trim blanks a) as -> by congruence. assert (x = y) as -> by congruence. exists a, b, (trim blanks b).
    apply drop_last_empty_two in E. pose proof (pieces_join at_char text) as J. pose proof (pieces_nodelim at_char text) as N.
    assert (In a (pieces at_char text) /\ In b (pieces at_char text)) as [Ia Ib] by (destruct E as [[-> _] | ->]; cbn; auto).
    split; [apply N; exact Ia|]. split; [apply N; exact Ib|]. split; [apply trim_stripped|]. split; [apply trim_stripped|]. split; [exact Er|].
    destruct E as [[E Hne] | E]; rewrite E in J; cbn in J.
    + left. split; [symmetry; exact J | exact Hne].
    + right. symmetry. exact J.
  - intros (a & b & b' & Na & Nb & Sa & Sb & Er & Hs).
    assert (drop_last_empty (pieces at_char text) = [a; b]) as ->.
    { apply drop_last_empty_two. destruct Hs as [[-> Hr] | ->].
      - left. split; [|exact Hr]. rewrite pieces_field by exact Na. rewrite pieces_last by exact Nb. reflexivity.
      - right. rewrite pieces_field by exact Na. rewrite pieces_field by exact Nb. reflexivity. }
    rewrite (stripped_trim _ _ _ Sa), (stripped_trim _ _ _ Sb), Er. reflexivity.
Qed.
Lemma parse_list_spec real_of l r : parse_fraction_list real_of l = Some r <-> List.Forall2 (fun t p => parse_fraction real_of t = Some p) l r.
Proof.
  revert r. induction l as [|t l IH]; intros r; cbn [parse_fraction_list].
  - split; intros H; [injection H as <-; constructor|inversion H; reflexivity].
  - destruct (parse_fraction real_of t) as [p|] eqn:E.
    + destruct (parse_fraction_list real_of l) as [q|] eqn:E2.
      * split; intros H.
        -- injection H as <-. constructor; [exact E|]. apply IH. reflexivity.
        -- inversion H as [|? p' ? q' H1 H2]. subst. apply IH in H2. congruence.
      * split; intros H; [discriminate|]. inversion H as [|? p' ? q' H1 H2]. subst. apply IH in H2. congruence.
    + split; intros H; [discriminate|]. inversion H as [|? p' ? q' H1 H2]. congruence.
Qed.
Lemma parse_fractions_spec real_of text r :
  parse_fractions real_of text = Some r <-> r <> [] /\ List.Forall2 (fun t p => parse_fraction real_of t = Some p) (strsplit comma text) r.
Proof.
  unfold parse_fractions. rewrite <- parse_list_spec. destruct (parse_fraction_list real_of (strsplit comma text)) as [[|p l]|]; split; intros H; try discriminate; try (destruct H; congruence).
  split; congruence.
Qed.
Lemma fraction_densities fractions Ne old : NoDup (map fst fractions) ->
  (forall name x, In (name, x) fractions -> fixed_fraction_density fractions Ne old name = Some (Ne * x)) /\
  (forall name, ~ In name (map fst fractions) -> fixed_fraction_density fractions Ne old name = old name).
Proof.
  unfold fixed_fraction_density. revert old. induction fractions as [|[n y] l IH]; intros old ND; cbn [fold_left map fst snd].
  - split; [intros ? ? []|reflexivity].
  - inversion ND as [|? ? N1 N2]. subst. destruct (IH (fun name => if str_eqb name n then Some (Ne * y) else old name) N2) as [I1 I2]. split.
    + intros name x [E|Hin]; [|exact (I1 name x Hin)]. injection E as <- <-. rewrite (I2 n N1). rewrite str_eqb_refl. reflexivity.
    + intros name Hn. rewrite I2 by (intros H; apply Hn; right; exact H). destruct (str_eqb name n) eqn:E; [|reflexivity]. apply str_eqb_spec in E. exfalso. apply Hn. left. symmetry. exact E.
Qed.

(** ** C52 *)
Definition counted (o : sound_options) (s : species) : bool := negb (String.eqb (s_name s) "e" && negb (electron_dynamics o)).
Definition mass_density (o : sound_options) (s : species) : R :=
  if counted o s then match s_AA s, s_density s with Some A, Some n => A * n | _, _ => 0 end else 0.
Lemma sound_fold o inside l a : 
  let '(p, rho, w) := fold_left (sound_step o inside) l a in
  p = fst (fst a) + rsum (fun s => or_zero (s_pressure s)) l /\ rho = snd (fst a) + rsum (mass_density o) l /\
  snd a <= w /\ (inside = false -> w = snd a) /\
  (inside = true -> forall s A T, In s l -> counted o s = true -> s_AA s = Some A -> s_temperature s = Some T -> sqrt (rfloor T (temperature_floor o) / A) <= w).
Proof.
  revert a. induction l as [|s l IH]; intros a.
  - cbn [fold_left rsum]. destruct a as [[p rho] w]. cbn [fst snd]. repeat split; try ring; try lra. intros _ s A T [].
  - cbn [fold_left]. specialize (IH (sound_step o inside a s)). destruct (fold_left (sound_step o inside) l (sound_step o inside a s)) as [[p rho] w].
    destruct a as [[p0 rho0] w0]. cbn [fst snd rsum]. destruct IH as (I1 & I2 & I3 & I4 & I5).
    assert (St : fst (fst (sound_step o inside (p0, rho0, w0) s)) = p0 + or_zero (s_pressure s) /\ snd (fst (sound_step o inside (p0, rho0, w0) s)) = rho0 + mass_density o s /\
      w0 <= snd (sound_step o inside (p0, rho0, w0) s) /\ (inside = false -> snd (sound_step o inside (p0, rho0, w0) s) = w0) /\
      (inside = true -> forall A T, counted o s = true -> s_AA s = Some A -> s_temperature s = Some T -> sqrt (rfloor T (temperature_floor o) / A) <= snd (sound_step o inside (p0, rho0, w0) s))).
    { unfold sound_step, mass_density, counted. destruct (String.eqb (s_name s) "e" && negb (electron_dynamics o))%bool; cbn [negb].
      - destruct (s_pressure s); cbn [fst snd or_zero]; repeat split; try ring; try lra; intros; discriminate.
      - destruct (s_pressure s), (s_AA s), (s_density s), (s_temperature s), inside; cbn [fst snd or_zero]; repeat split; try ring; try lra; try (apply Rmax_l); intros; try discriminate;
          match goal with H1 : Some _ = Some ?A, H2 : Some _ = Some ?T |- _ => injection H1 as <-; injection H2 as <-; apply Rmax_r end. }
    destruct St as (S1 & S2 & S3 & S4 & S5). rewrite S1 in I1. rewrite S2 in I2. repeat split.
    + rewrite I1. ring.
    + rewrite I2. ring.
    + lra.
    + intros E. rewrite (I4 E), (S4 E). reflexivity.
    + intros E s' A T [<-|Hin] HC HA HT; [|exact (I5 E s' A T Hin HC HA HT)]. apply Rle_trans with (2 := I3). exact (S5 E A T HC HA HT).
Qed.

Lemma sound_speed_ok o inside Bxy l :
  let p := rsum (fun s => or_zero (s_pressure s)) l in let rho := rsum (mass_density o) l in
  let '(cs, w) := sound_speed o inside Bxy l in
  cs = sqrt (p / Rmax rho 1e-10) /\
  (inside = true -> 1 <= fastest_wave_factor o ->
     cs <= w /\ (forall s A T, In s l -> counted o s = true -> s_AA s = Some A -> s_temperature s = Some T -> sqrt (rfloor T (temperature_floor o) / A) <= w) /\
     (alfven_wave o = true -> beta_norm o * Bxy / sqrt (Rmax rho 1e-10) <= w)) /\
  (inside = false -> w = 0).
Proof.
  cbv zeta. unfold sound_speed. pose proof (sound_fold o inside l (0, 0, 0)) as H. destruct (fold_left (sound_step o inside) l (0, 0, 0)) as [[p rho] w]. destruct H as (H1 & H2 & H3 & H4 & H5).
  cbn [fst snd] in *. rewrite Rplus_0_l in H1, H2. rewrite <- H1, <- H2.
  assert (F : rfloor rho 1e-10 = Rmax rho 1e-10). { unfold rfloor, Rmax. pose proof (Rltb_spec rho 1e-10). destruct (Rltb rho 1e-10), (Rle_dec rho 1e-10); lra. }
  rewrite F. split; [reflexivity|]. split.
  - intros -> Hf. rewrite andb_true_r. set (cs := sqrt _). pose proof (sqrt_pos (p / Rmax rho 1e-10)) as Hcs. fold cs in Hcs.
    set (w' := if alfven_wave o then _ else _). 
    assert (W : Rmax w cs <= w' /\ (alfven_wave o = true -> beta_norm o * Bxy / sqrt (Rmax rho 1e-10) <= w')).
    { unfold w'. destruct (alfven_wave o); [split; [apply Rmax_l|intros _; apply Rmax_r]|split; [lra|discriminate]]. }
    destruct W as [W1 W2]. pose proof (Rmax_l w cs). pose proof (Rmax_r w cs).
    assert (Hw : w' <= w' * fastest_wave_factor o). { rewrite <- (Rmult_1_r w') at 1. apply Rmult_le_compat_l; lra. }
    split; [lra|]. split; [|intros E; specialize (W2 E); lra].
    intros s A T Hin HC HA HT. pose proof (H5 eq_refl s A T Hin HC HA HT). lra.
  - intros ->. rewrite andb_false_r, (H4 eq_refl). ring.
Qed.
Lemma default_fastest_wave inside Bxy l : snd (sound_speed sound_defaults inside Bxy l) = 0.
Proof. unfold sound_speed. destruct (fold_left _ l (0, 0, 0)) as [[p rho] w]. cbn [snd sound_defaults fastest_wave_factor]. ring. Qed.

(** ** C53 *)
Lemma classical_ambipolar (F : Type) (diffuse : F -> R) (zero : F) (plus : F -> F -> F) (scale : R -> F -> F)
  (Hz : diffuse zero = 0) (Hp : forall a b, diffuse (plus a b) = diffuse a + diffuse b) (Hs : forall q a, diffuse (scale q a) = q * diffuse a)
  (l : list (option R * option F)) : 
  (forall q n, In (Some q, Some n) l -> q = 0 \/ 1e-5 <= Rabs q) ->
  rsum (fun s => or_zero (fst s) * classical_source F diffuse (fst s) (snd s)) l
  = diffuse (fold_right (fun s acc => match s with (Some q, Some n) => plus (scale q n) acc | _ => acc end) zero l).
Proof.
  induction l as [|[[q|] [n|]] l IH]; intros H; cbn [rsum fold_right fst snd classical_source or_zero]; try (rewrite IH by (intros; eapply H; right; eassumption); ring).
  - symmetry. exact Hz.
  - rewrite Hp, Hs, IH by (intros; eapply H; right; eassumption). destruct (H q n (or_introl eq_refl)) as [->|Hq].
    + ring.
    + rewrite Rltb_false by exact Hq. ring.
Qed.
Lemma classical_D_nonneg custom inside l me Ne nu Bsq : 0 <= me -> 0 < Bsq -> 0 <= classical_D custom inside l me Ne nu Bsq.
Proof.
  intros Hm HB. unfold classical_D. destruct inside; [|lra]. pose proof (Rltb_spec 0 custom). destruct (Rltb 0 custom); [lra|].
  pose proof (floor_ge (classical_pressure l) 1e-5). pose proof (floor_ge nu 1e-10). pose proof (floor_ge Ne 1e-5).
  set (a := rfloor _ 1e-5) in *. set (b := rfloor nu 1e-10) in *. set (d := rfloor Ne 1e-5) in *.
  assert (0 < d * Bsq) by (apply Rmult_lt_0_compat; lra). assert (0 <= / (d * Bsq)) by (left; apply Rinv_0_lt_compat; assumption).
  unfold Rdiv. apply Rmult_le_pos; [|assumption]. apply Rmult_le_pos; [|lra]. apply Rmult_le_pos; lra.
Qed.

(** ** C57 *)
Lemma list_max_ge x l : x <= list_max x l /\ (forall y, In y l -> y <= list_max x l) /\ (list_max x l = x \/ In (list_max x l) l).
Proof.
  revert x. induction l as [|z l IH]; intros x; cbn [list_max]; [repeat split; [lra|intros y []|left; reflexivity]|].
  destruct (IH (Rmax x z)) as (H1 & H2 & H3). pose proof (Rmax_l x z). pose proof (Rmax_r x z). split; [lra|]. split.
  - intros y [<-|Hy]; [lra|apply H2; exact Hy].
  - destruct H3 as [H3|H3]; [|right; right; exact H3]. rewrite H3. unfold Rmax. destruct (Rle_dec x z); [right; left; reflexivity|left; reflexivity].
Qed.
Lemma scaling_ok dts : dts <> [] -> (forall dt, In dt dts -> 0 < dt) ->
  List.length (scaling dts) = List.length dts /\ (forall s, In s (scaling dts) -> 0 < s <= 1) /\ In 1 (scaling dts) /\
  (forall i dt, nth_error dts i = Some dt -> (forall dt', In dt' dts -> dt' <= dt) -> nth_error (scaling dts) i = Some 1).
Proof.
  intros Hne Hpos. destruct dts as [|x l]; [congruence|]. unfold scaling. destruct (list_max_ge x l) as (H1 & H2 & H3). set (M := list_max x l) in *.
  assert (Hm : forall y, In y (x :: l) -> y <= M) by (intros y [<-|Hy]; auto). assert (Hin : In M (x :: l)) by (destruct H3 as [->|H3]; [left; reflexivity|right; exact H3]).
  pose proof (Hpos M Hin) as HM. split; [apply map_length|]. split; [|split].
  - intros s Hs. apply in_map_iff in Hs. destruct Hs as (dt & <- & Hdt). pose proof (Hpos dt Hdt). split; [apply Rdiv_lt_0_compat; lra|].
    apply Rmult_le_reg_r with M; [lra|]. unfold Rdiv. rewrite Rmult_assoc, Rinv_l by lra. specialize (Hm dt Hdt). lra.
  - apply in_map_iff. exists M. split; [field; lra|exact Hin].
  - intros i dt Hi Hmax. rewrite (map_nth_error (fun dt => dt / M) _ _ Hi). f_equal. assert (dt = M) as ->; [|field; lra].
    apply Rle_antisym; [apply Hm; apply nth_error_In with (1 := Hi)|apply Hmax; exact Hin].
Qed.
Lemma cfl_dt_pos g dy T : 0 < g -> dy <> 0 -> 0 < cfl_dt g dy T.
Proof.
  intros Hg Hd. unfold cfl_dt, SQ. apply Rdiv_lt_0_compat; [|unfold Rpower; apply exp_pos]. apply Rmult_lt_0_compat; [exact Hg|]. apply Rsqr_pos_lt in Hd. exact Hd.
Qed.

(** ** C65 *)
Lemma pump_ok tau om shape n : 0 < tau -> 0 < om ->
  simple_pump tau om shape n = - (shape * n) / (tau * om) /\ (0 <= shape -> 0 <= n -> simple_pump tau om shape n <= 0) /\ (shape = 0 -> simple_pump tau om shape n = 0).
Proof.
  intros Ht Ho. assert (0 < tau * om) by now apply Rmult_lt_0_compat. assert (E : simple_pump tau om shape n = - (shape * n) / (tau * om)) by (unfold simple_pump; field; lra).
  split; [exact E|]. rewrite E. split.
  - intros Hs Hn. unfold Rdiv. rewrite Ropp_mult_distr_l_reverse. apply Rge_le, Ropp_0_le_ge_contravar. apply Rmult_le_pos; [apply Rmult_le_pos; assumption|left; apply Rinv_0_lt_compat; assumption].
  - intros ->. unfold Rdiv. ring.
Qed.
Lemma closure_sinks_ok o l : 0 < L_par o -> 0 <= gamma_i o ->
  List.Forall2 (fun (s : string * (R * (R * R))) (r : string * (R * R)) => fst r = fst s /\ fst (snd r) <= 0 /\ snd (snd r) <= 0) l (closure_sinks o l).
Proof.
  intros HL Hg. unfold closure_sinks. set (cs := sqrt _). clearbody cs. match goal with |- List.Forall2 _ _ (map ?f _) => set (F := f) end.
  assert (P : forall s, fst (F s) = fst s /\ fst (snd (F s)) <= 0 /\ snd (snd (F s)) <= 0).
  { intros s. unfold F. cbn [fst snd]. assert (0 < / L_par o) by (apply Rinv_0_lt_compat; exact HL). set (k := / L_par o) in *.
    pose proof (floor_ge (fst (snd (snd s)) * cs) 0) as H1. set (fl := rfloor (fst (snd (snd s)) * cs) 0) in *. pose proof (floor_ge (gamma_i o * snd (snd (snd s)) * fl) 0) as H2.
    assert (Q : forall x, 0 <= x -> - (x / L_par o) <= 0). { intros x Hx. change (x / L_par o) with (x * k). assert (0 <= x * k) by (apply Rmult_le_pos; lra). lra. }
    split; [reflexivity|]. split; [exact (Q _ H1)|]. destruct (String.eqb (fst s) "e"); [lra|exact (Q _ H2)]. }
  clearbody F. induction l as [|s l IH]; cbn [map]; constructor; auto.
Qed.
(** Net charge removed by the sinks, for charges q by name. *)
Lemma closure_sinks_neutral o (q : string -> R) l : L_par o <> 0 -> (forall s, In s l -> 0 <= fst (snd (snd s))) ->
  rsum (fun s => q (fst s) * fst (snd (snd s))) l = 0 ->
  rsum (fun r => q (fst r) * fst (snd r)) (closure_sinks o l) = 0.
Proof.
  intros HL Hn Hq. unfold closure_sinks. set (cs := sqrt _). assert (Hc : 0 <= cs) by apply sqrt_pos. clearbody cs.
  transitivity (- (cs / L_par o) * rsum (fun s => q (fst s) * fst (snd (snd s))) l); [|rewrite Hq; ring]. clear Hq.
  induction l as [|s l IH]; cbn [map rsum]; [ring|]. rewrite IH by (intros; apply Hn; right; assumption). cbn [fst snd].
  rewrite floor_above by (apply Rmult_le_pos; [apply Hn; left; reflexivity|exact Hc]). field. exact HL.
Qed.
