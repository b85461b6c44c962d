(** Property theorems for the closures. *)

From Coq Require Import List Bool ZArith Reals String Ascii Lra Lia.
From Verif Require Import StateMonad StateMonadProofs StrModel SchedulerSpec ParallelModel ParallelSpec ParallelHeating LimitersModel ClosureModel ClosureSpec ClosureProofs ClosureProofs2 ClosureLaws.
Import ListNotations.
Open Scope R_scope.

(** ** C48 *)

(** For any number of species: the others are left alone; the density set is not negative; the total charge vanishes exactly when the
    density needed is not negative, and otherwise the density is zero. *)
Theorem C48_quasineutral : forall name q A l, unique l -> q <> 0 ->
  let after := quasineutral name q A l in
  let rho := rsum charge_density (others name l) in
  others name after = others name l /\
  exists s d, find_species name after = Some s /\ s_charge s = Some q /\ s_AA s = Some A /\ s_density s = Some d /\ 0 <= d /\
  (rsum charge_density after = 0 <-> 0 <= rho / - q) /\ (rho / - q < 0 -> d = 0 /\ rsum charge_density after = rho).
Proof. exact quasineutral_ok. Qed.
Print Assumptions C48_quasineutral.
Example C48_case : unique two_ions /\ rsum charge_density (others "e" two_ions) = 5 /\ rsum charge_density (quasineutral "e" (-1) (1 / 1836) two_ions) = 0.
Proof.
  split; [exact (proj1 two_ions_unique)|]. split; [exact (proj1 two_ions_charge)|].
  destruct (C48_quasineutral "e" (-1) (1 / 1836) two_ions (proj1 two_ions_unique) ltac:(lra)) as (_ & s & d & _ & _ & _ & _ & _ & H & _). apply H. rewrite (proj1 two_ions_charge). replace (5 / - -1) with 5 by field. lra.
Qed.

(** ** C49 *)

(** The velocity set makes the total current vanish where the density is at or above 1e-5, and never increases it below; the others are
    left alone. *)
Theorem C49_zero_current : forall name q l after, unique l -> q <> 0 -> zero_current name q l = Some after ->
  exists s N V, find_species name l = Some s /\ s_velocity s = None /\ s_density s = Some N /\
  others name after = others name l /\
  (exists s', find_species name after = Some s' /\ s_velocity s' = Some V /\ s_density s' = Some N /\ s_charge s' = s_charge s) /\
  (s_charge s = Some q ->
     (1e-5 <= N -> rsum current after = 0) /\
     (0 <= N -> Rabs (rsum current after) <= Rabs (rsum current (others name l)))).
Proof. exact zero_current_ok. Qed.
Print Assumptions C49_zero_current.
(** It throws unless another species has density, charge and velocity, and its own has a density and no velocity. *)
Theorem C49_zero_current_defined : forall name q l,
  zero_current name q l <> None <-> List.Exists (carries name) l /\ exists s N, find_species name l = Some s /\ s_velocity s = None /\ s_density s = Some N.
Proof. exact zero_current_defined. Qed.
Print Assumptions C49_zero_current_defined.
Example C49_case : zero_current "e" (-1) (electron 5 1 :: two_ions) <> None.
Proof.
  apply C49_zero_current_defined. split.
  - apply List.Exists_cons_tl. apply List.Exists_cons_hd. unfold carries. cbn. repeat split; discriminate.
  - exists (electron 5 1), 5. repeat split.
Qed.

(** ** C50 *)

(** In a quasineutral plasma the forces on all species (none on the electrons) add up to what acts on the electrons. *)
Theorem C50_force_balance : forall gradP l after, unique l -> electron_force_balance false gradP l = Some after ->
  exists e Ne, find_species "e" l = Some e /\ s_density e = Some Ne /\ after = map (force_on (force_balance_Epar gradP (s_momentum_source e) Ne)) l /\
  (forall s, In s (others "e" l) -> In (force_on (force_balance_Epar gradP (s_momentum_source e) Ne) s) after) /\
  (s_charge e = Some (-1) -> rsum charge_density l = 0 -> 1e-5 <= Ne ->
     rsum (fun s => force s (force_on (force_balance_Epar gradP (s_momentum_source e) Ne) s)) l = - gradP + or_zero (s_momentum_source e)).
Proof. exact force_balance_ok. Qed.
Print Assumptions C50_force_balance.
Theorem C50_nothing_else_changes : forall E s, s_charge (force_on E s) = s_charge s /\ s_density (force_on E s) = s_density s /\ s_name (force_on E s) = s_name s /\
  s_density_source (force_on E s) = s_density_source s /\ s_energy_source (force_on E s) = s_energy_source s.
Proof. exact force_on_rest. Qed.
Print Assumptions C50_nothing_else_changes.
Example C50_case : unique (electron 5 1 :: two_ions) /\ rsum charge_density (electron 5 1 :: two_ions) = 0 /\ electron_force_balance false 7 (electron 5 1 :: two_ions) <> None.
Proof. split; [exact (proj2 two_ions_unique)|]. split; [exact (proj2 two_ions_charge)|discriminate]. Qed.
(** ** C51 *)

(** Which texts are accepted as one entry: species, '@', number, with a non-empty text for the number, or the same with '@' at the end. *)
Theorem C51_accepted_entries_partial : forall real_of text name x,
  parse_fraction real_of text = Some (name, x) <->
  exists a b b', ~ In at_char a /\ ~ In at_char b /\ stripped blanks a name /\ stripped blanks b b' /\ real_of b' = Some x /\
    (text = (a ++ at_char :: b)%list /\ b <> [] \/ text = (a ++ at_char :: b ++ [at_char])%list).
Proof. exact parse_fraction_spec. Qed.
Print Assumptions C51_accepted_entries_partial.
(** The list is accepted if all entries are and there is one. *)
Theorem C51_accepted_lists : forall real_of text r,
  parse_fractions real_of text = Some r <-> r <> [] /\ List.Forall2 (fun t p => parse_fraction real_of t = Some p) (strsplit comma text) r.
Proof. exact parse_fractions_spec. Qed.
Print Assumptions C51_accepted_lists.
Definition half (s : str) : option R := if str_eqb s (lit "0.5") then Some (1 / 2) else None.
Example C51_case : parse_fractions half (lit "c+6 @ 0.5, ne@0.5") = Some [(lit "c+6", 1 / 2); (lit "ne", 1 / 2)].
Proof. reflexivity. Qed.
(** So an entry with two '@' is accepted. *)
Theorem C51_one_at_sign_refuted : exists text r, count_occ Ascii.ascii_dec text at_char = 2%nat /\ parse_fractions half text = Some r.
Proof. exists (lit "c@0.5@"), [(lit "c", 1 / 2)]. split; reflexivity. Qed.
Print Assumptions C51_one_at_sign_refuted.
(** Every listed species gets its fraction of the electron density, and no other is changed, if none is listed twice. *)
Theorem C51_densities : forall fractions Ne old, NoDup (map fst fractions) ->
  (forall name x, In (name, x) fractions -> fixed_fraction_density fractions Ne old name = Some (Ne * x)) /\
  (forall name, ~ In name (map fst fractions) -> fixed_fraction_density fractions Ne old name = old name).
Proof. exact fraction_densities. Qed.
Print Assumptions C51_densities.
Example C51_densities_case : NoDup (map fst [(lit "c", 1 / 100); (lit "ne", 1 / 50)]).
Proof. repeat constructor; cbn; intuition discriminate. Qed.
(** Listed twice, only the last counts. *)
Theorem C51_listed_twice_refuted : exists fractions Ne name x, In (name, x) fractions /\ fixed_fraction_density fractions Ne (fun _ => None) name <> Some (Ne * x).
Proof.
  exists [(lit "c", 1); (lit "c", 2)], 1, (lit "c"), 1. split; [left; reflexivity|]. unfold fixed_fraction_density. cbn [fold_left fst snd]. change (str_eqb (lit "c") (lit "c")) with true. cbv iota.
  intros H. assert (1 * 2 = 1 * 1) by congruence. lra.
Qed.
Print Assumptions C51_listed_twice_refuted.

(** ** C52 *)

(** The sound speed is that of the total pressure and the mass density of the species counted (at least 1e-10).  With a factor of at least
    one, inside the domain, the fastest wave is at least that and every thermal speed (and the Alfven speed).  In guard cells it is zero. *)
Theorem C52_sound_speed : forall o inside Bxy l,
  let p := rsum (fun s => or_zero (s_pressure s)) l in let rho := rsum (mass_density o) l in
  let '(cs, w) := sound_speed o inside Bxy l in
  cs = sqrt (p / Rmax rho 1e-10) /\
  (inside = true -> 1 <= fastest_wave_factor o ->
     cs <= w /\ (forall s A T, In s l -> counted o s = true -> s_AA s = Some A -> s_temperature s = Some T -> sqrt (rfloor T (temperature_floor o) / A) <= w) /\
     (alfven_wave o = true -> beta_norm o * Bxy / sqrt (Rmax rho 1e-10) <= w)) /\
  (inside = false -> w = 0).
Proof. exact sound_speed_ok. Qed.
Print Assumptions C52_sound_speed.
Example C52_case : 1 <= fastest_wave_factor factor1 /\ snd (sound_speed factor1 true 1 (warm 4)) = 2.
Proof. split; [cbn; lra|]. rewrite warm_wave by lra. replace 4 with (2 * 2) by lra. apply sqrt_square. lra. Qed.
(** With the default options the factor is zero, and so is the fastest wave, always. *)
Theorem C52_default_options : forall inside Bxy l, snd (sound_speed sound_defaults inside Bxy l) = 0.
Proof. exact default_fastest_wave. Qed.
Print Assumptions C52_default_options.
Theorem C52_default_options_refuted : exists l s A T, In s l /\ s_AA s = Some A /\ s_temperature s = Some T /\
  snd (sound_speed sound_defaults true 1 l) < sqrt (T / A).
Proof.
  exists (warm 1), (hd (empty_species "") (warm 1)), 1, 1. split; [left; reflexivity|]. split; [reflexivity|]. split; [reflexivity|]. rewrite C52_default_options.
  replace (1 / 1) with 1 by lra. rewrite sqrt_1. lra.
Qed.
Print Assumptions C52_default_options_refuted.

(** ** C26, with the wave speed of SoundSpeed *)

(** On two processors the guard cells hold no wave speed, the processors use different speeds at the face they share, and a line without
    flow loses particles; on one it does not. *)
Theorem C26_sound_speed_across_processors_refuted :
  (exists r0 w0 r1 w1, proc_run 0 = Some (r0, w0) /\ proc_run 1 = Some (r1, w1) /\ integral unit_coords 2 1 r0 = 1 / 2 /\ integral unit_coords 2 1 r1 = - 1) /\
  (exists r w, Div_par_mod upwind_edges (piece 2 false 2 0 2) unit_coords (local 2 0 line_n) (fun _ => 0)
    (fastest_wave_line factor1 (piece 2 false 2 0 2) (fun _ => 1) (fun j => warm (line_T (j - 2)))) true = Some (r, w) /\ integral unit_coords 2 2 r = 0).
Proof. split; [exact processors_disagree|exact one_processor_conserves]. Qed.
Print Assumptions C26_sound_speed_across_processors_refuted.

(** ** C53 *)

(** Whatever the (linear) diffusion operator, the charge created by classical diffusion is the diffusion of the charge density: none in a
    quasineutral plasma.  (Charges are zero or at least 1e-5.) *)
Theorem C53_ambipolar : forall (F : Type) (diffuse : F -> R) (zero : F) (plus : F -> F -> F) (scale : R -> F -> F),
  diffuse zero = 0 -> (forall a b, diffuse (plus a b) = diffuse a + diffuse b) -> (forall q a, diffuse (scale q a) = q * diffuse a) ->
  forall l : list (option R * option F), (forall q n, In (Some q, Some n) l -> q = 0 \/ 1e-5 <= Rabs q) ->
  rsum (fun s => or_zero (fst s) * classical_source F diffuse (fst s) (snd s)) l
  = diffuse (fold_right (fun s acc => match s with (Some q, Some n) => plus (scale q n) acc | _ => acc end) zero l).
Proof. exact classical_ambipolar. Qed.
Print Assumptions C53_ambipolar.
Example C53_case : let l := [(Some 1, Some (fun _ : Z => 2)); (Some (-1), Some (fun _ => 2)); (None, Some (fun _ => 5))] in
  forall q n, In (Some q, Some n) l -> q = 0 \/ 1e-5 <= Rabs q.
Proof. intros l q n [E|[E|[E|[]]]]; right; try discriminate. all: assert (Eq : Rabs q = 1) by (injection E as <- <-; unfold Rabs; destruct (Rcase_abs _); lra); rewrite Eq; lra. Qed.
Theorem C53_neutrals : forall (F : Type) (diffuse : F -> R) (n : option F), classical_source F diffuse (Some 0) n = 0 /\ classical_source F diffuse None n = 0.
Proof. intros F diffuse n. unfold classical_source. rewrite Rabs_R0, (Rltb_true 0 1e-5) by lra. destruct n; split; reflexivity. Qed.
Print Assumptions C53_neutrals.
Theorem C53_coefficient : forall custom inside l me Ne nu Bsq, 0 <= me -> 0 < Bsq -> 0 <= classical_D custom inside l me Ne nu Bsq.
Proof. exact classical_D_nonneg. Qed.
Print Assumptions C53_coefficient.
Example C53_coefficient_case : classical_D 3 true [] (1 / 1836) 1 1 1 = 3.
Proof. unfold classical_D. rewrite Rltb_true by lra. reflexivity. Qed.
(** Diffusion calculated from collisions comes with heat conduction - except for custom_D = 0. *)
Theorem C53_conduction_refuted : exists custom_D, classical_calculated custom_D = true /\ classical_conducts custom_D = false.
Proof. exists 0. unfold classical_calculated, classical_conducts. rewrite Rltb_false by lra. split; reflexivity. Qed.
Print Assumptions C53_conduction_refuted.

(** ** C57 *)

(** Any number of cells: factors in (0, 1], and 1 in the cell (or cells) with the longest time scale. *)
Theorem C57_scaling : forall dts, dts <> [] -> (forall dt, In dt dts -> 0 < dt) ->
  List.length (scaling dts) = List.length dts /\ (forall s, In s (scaling dts) -> 0 < s <= 1) /\ In 1 (scaling dts) /\
  (forall i dt, nth_error dts i = Some dt -> (forall dt', In dt' dts -> dt' <= dt) -> nth_error (scaling dts) i = Some 1).
Proof. exact scaling_ok. Qed.
Print Assumptions C57_scaling.
(** The time scales are positive whatever the temperature. *)
Theorem C57_time_scale : forall g dy T, 0 < g -> dy <> 0 -> 0 < cfl_dt g dy T.
Proof. exact cfl_dt_pos. Qed.
Print Assumptions C57_time_scale.
Example C57_case : forall dt, In dt [cfl_dt 1 2 3; cfl_dt 1 1 (-5)] -> 0 < dt.
Proof. intros dt [<-|[<-|[]]]; apply C57_time_scale; lra. Qed.
(** So a scaled time derivative vanishes just when the derivative does, and keeps its sign. *)
Theorem C57_steady_states : forall dts s ddt, dts <> [] -> (forall dt, In dt dts -> 0 < dt) -> In s (scaling dts) ->
  (ddt * s = 0 <-> ddt = 0) /\ Rabs (ddt * s) <= Rabs ddt.
Proof.
  intros dts s ddt Hne Hpos Hin. destruct (C57_scaling dts Hne Hpos) as (_ & H & _). specialize (H s Hin). split.
  - split; [intros E; apply Rmult_integral in E; destruct E; lra|intros ->; ring].
  - rewrite Rabs_mult, (Rabs_right s) by lra. rewrite <- (Rmult_1_r (Rabs ddt)) at 2. apply Rmult_le_compat_l; [apply Rabs_pos|lra].
Qed.
Print Assumptions C57_steady_states.

(** ** C65 *)

(** The pump. *)
Theorem C65_pump : forall tau om shape n, 0 < tau -> 0 < om ->
  simple_pump tau om shape n = - (shape * n) / (tau * om) /\ (0 <= shape -> 0 <= n -> simple_pump tau om shape n <= 0) /\ (shape = 0 -> simple_pump tau om shape n = 0).
Proof. exact pump_ok. Qed.
Print Assumptions C65_pump.
Example C65_pump_case : simple_pump 2 1 1 4 = - 2.
Proof. unfold simple_pump. lra. Qed.
(** Sheath closure: the charge given to the electrons (charge -1) balances the divergence of the current given to the vorticity. *)
Theorem C65_closure_current : forall o n phi, let '(divJ, sn) := closure_current o n phi in divJ + -1 * sn = 0 /\ (phi = offset o -> divJ = 0).
Proof. intros o n phi. unfold closure_current. split; [ring|]. intros ->. unfold Rdiv. ring. Qed.
Print Assumptions C65_closure_current.
(** Its sinks only remove, and remove no net charge from a quasineutral plasma. *)
Theorem C65_closure_sinks : forall o l, 0 < L_par o -> 0 <= gamma_i o ->
  List.Forall2 (fun (s : string * (R * (R * R))) (r : string * (R * R)) => fst r = fst s /\ fst (snd r) <= 0 /\ snd (snd r) <= 0) l (closure_sinks o l).
Proof. exact closure_sinks_ok. Qed.
Print Assumptions C65_closure_sinks.
Theorem C65_closure_sinks_neutral : forall o (q : string -> R) l, L_par o <> 0 -> (forall s, In s l -> 0 <= fst (snd (snd s))) ->
  rsum (fun s => q (fst s) * fst (snd (snd s))) l = 0 ->
  rsum (fun r => q (fst r) * fst (snd r)) (closure_sinks o l) = 0.
Proof. exact closure_sinks_neutral. Qed.
Print Assumptions C65_closure_sinks_neutral.
Theorem C65_closure_heat : forall o n T, 0 < L_par o -> 0 <= closure_electron_heat o n T.
Proof. intros o n T H. unfold closure_electron_heat. apply Rmult_le_pos; [apply floor_ge|left; apply Rinv_0_lt_compat; exact H]. Qed.
Print Assumptions C65_closure_heat.
Definition hydrogen : list (string * (R * (R * R))) := [("e"%string, (0, (1, 1))); ("h+"%string, (1, (1, 1))); ("h"%string, (1, (1, 1)))].
Example C65_closure_case : forall s, In s hydrogen -> 0 <= fst (snd (snd s)).
Proof. intros s [<-|[<-|[<-|[]]]]; cbn; lra. Qed.
(** But the sheath sinks also take the neutrals, which have no sheath. *)
Theorem C65_neutrals_lost_refuted : exists o sn se, 0 < L_par o /\ In ("h"%string, (sn, se)) (closure_sinks o hydrogen) /\ sn < 0.
Proof.
  exists (mkClosure 1 1 1 0 true). unfold closure_sinks, hydrogen. set (cs := sqrt _). assert (H : 0 < cs).
  { unfold cs. apply sqrt_lt_R0. cbn [fold_left fst snd]. lra. }
  clearbody cs. cbn [map fst snd L_par gamma_i String.eqb Ascii.eqb Bool.eqb]. do 2 eexists. split; [lra|]. split; [right; right; left; reflexivity|]. rewrite floor_above by lra. lra.
Qed.
Print Assumptions C65_neutrals_lost_refuted.
