(** Neutral boundaries and recycling: whole domains, settings, and cases. *)

From Coq Require Import List Bool ZArith Reals String Lra Lia.
From Verif Require Import StateMonad StateMonadProofs ParallelModel ParallelSpec ParallelProofs ParallelLaws ParallelHeating LimitersModel LimitersProofs WallsModel WallsSpec WallsProofs.
Import ListNotations.
Open Scope R_scope.

(** ** Neutral boundaries over a line *)

Definition power_lost (w : wall) (Tnorm A : R) (c : coords) (i g : Z) (s : neutrals) : R :=
  full_area c i g * heat_to_wall A (energy_refl_factor w) (fast_refl_fraction w) (3 / Tnorm) (Nn s i) (Tn s i).

Lemma total_change c lo n r r' j : (lo <= j < lo + Z.of_nat n)%Z -> (forall i, i <> j -> r' i = r i) ->
  total c lo n r' = total c lo n r + full_volume c j * (r' j - r j).
Proof.
  intros Hj H. rewrite <- (total_upd c lo n r j (r' j - r j) Hj). unfold total. apply zsum_ext. intros i _. f_equal.
  destruct (Z.eq_dec i j) as [->|Hne]; [rewrite upd_same; ring|rewrite upd_other by exact Hne; apply H; exact Hne].
Qed.

Lemma neutral_targets_energy w lower upper Tnorm A m c n s : positive_cells c -> mesh_ok m n -> 0 < A -> (forall j, 0 <= Tn s j) ->
  let s' := neutral_targets w lower upper Tnorm A m c s in
  total c (ystart m) n (nE s') = total c (ystart m) n (nE s)
    - (if (lower && closed_low m)%bool then power_lost w Tnorm A c (ystart m) (ystart m - 1) s else 0)
    - (if (upper && closed_high m)%bool then power_lost w Tnorm A c (yend m) (yend m + 1) s else 0) /\
  (forall j, (ystart m <= j <= yend m)%Z -> Nn s' j = Nn s j /\ Pn s' j = Pn s j /\ Tn s' j = Tn s j /\ Vn s' j = Vn s j /\ NVn s' j = NVn s j) /\
  (forall j, j <> ystart m -> j <> yend m -> nE s' j = nE s j) /\
  (forall j, target_E s' j = nE s' j - nE s j).
Proof.
  intros P M HA HT s'. unfold s', neutral_targets, closed_low, closed_high. fold (at_lower m) (at_upper m).
  assert (Hs : (ystart m <= ystart m < ystart m + Z.of_nat n)%Z /\ (ystart m <= yend m < ystart m + Z.of_nat n)%Z) by (destruct M as (H1 & H2 & _); lia).
  set (s0 := mkNeutrals (Nn s) (Pn s) (Tn s) (Vn s) (NVn s) (nE s) (fun _ => 0)).
  assert (Z0 : forall j, target_E s0 j = nE s0 j - nE s j) by (intros j; unfold s0; cbn [target_E nE]; ring).
  assert (S0 : forall j, (ystart m <= j <= yend m)%Z -> Nn s0 j = Nn s j /\ Pn s0 j = Pn s j /\ Tn s0 j = Tn s j /\ Vn s0 j = Vn s j /\ NVn s0 j = NVn s j) by (intros j _; repeat split).
  set (s1 := if (lower && at_lower m)%bool then neutral_target w Tnorm A c (ystart m) (ystart m - 1) s0 else s0).
  assert (A1 : total c (ystart m) n (nE s1) = total c (ystart m) n (nE s) - (if (lower && at_lower m)%bool then power_lost w Tnorm A c (ystart m) (ystart m - 1) s else 0) /\
    (forall j, (ystart m <= j <= yend m)%Z -> Nn s1 j = Nn s j /\ Pn s1 j = Pn s j /\ Tn s1 j = Tn s j /\ Vn s1 j = Vn s j /\ NVn s1 j = NVn s j) /\
    (forall j, j <> ystart m -> nE s1 j = nE s j) /\ (forall j, target_E s1 j = nE s1 j - nE s j)).
  { unfold s1. destruct (lower && at_lower m)%bool.
    - destruct (neutral_target_effect w Tnorm A c (ystart m) (ystart m - 1) s0 P ltac:(lia) (HT _) HA) as (_ & _ & _ & _ & _ & F & G & H & K).
      split; [|split; [|split]].
      + rewrite (total_change c (ystart m) n (nE s) _ (ystart m)) by (try tauto; intros i Hi; apply (proj1 (G i Hi))).
        change (nE s (ystart m)) with (nE s0 (ystart m)). rewrite H. unfold power_lost. cbn [s0 Nn Tn]. ring.
      + intros j Hj. destruct (F j ltac:(lia)) as (-> & -> & -> & -> & ->). apply S0; exact Hj.
      + intros j Hj. exact (proj1 (G j Hj)).
      + intros j. destruct (Z.eq_dec j (ystart m)) as [->|Hne].
        * unfold s0 in K at 2 4. cbn [target_E nE] in K. lra.
        * destruct (G j Hne) as [-> ->]. apply Z0.
    - split; [cbn [s0 nE]; ring|]. split; [exact S0|]. split; [reflexivity|exact Z0]. }
  destruct A1 as (A1 & B1 & C1 & D1). destruct (upper && at_upper m)%bool.
  - destruct (B1 (yend m) ltac:(lia)) as (EN & _ & ET & _).
    destruct (neutral_target_effect w Tnorm A c (yend m) (yend m + 1) s1 P ltac:(lia) ltac:(rewrite ET; apply HT) HA) as (_ & _ & _ & _ & _ & F & G & H & K).
    split; [|split; [|split]].
    + rewrite (total_change c (ystart m) n (nE s1) _ (yend m)) by (try tauto; intros i Hi; apply (proj1 (G i Hi))).
      rewrite H, A1. unfold power_lost. rewrite EN, ET. ring.
    + intros j Hj. destruct (F j ltac:(lia)) as (-> & -> & -> & -> & ->). apply B1; exact Hj.
    + intros j H1 H2. rewrite (proj1 (G j H2)). apply C1; exact H1.
    + intros j. destruct (Z.eq_dec j (yend m)) as [->|Hne]; [specialize (D1 (yend m)); lra|].
      destruct (G j Hne) as [-> ->]. apply D1.
  - split; [lra|]. split; [exact B1|]. split; [intros j H1 _; apply C1; exact H1|exact D1].
Qed.

(** No neutrals pass through the targets. *)
Lemma neutral_targets_are_noflow w lower upper Tnorm A m c s :
  let s' := neutral_targets w lower upper Tnorm A m c s in
  (ystart m <= yend m)%Z ->
  (forall j, Nn s' j = noflow_scalar m lower upper (Nn s) j) /\ (forall j, Vn s' j = noflow_flow m lower upper (Vn s) j) /\ (forall j, NVn s' j = noflow_flow m lower upper (NVn s) j).
Proof.
  intros s' Hy. unfold s', neutral_targets, noflow_scalar, noflow_flow.
  destruct (lower && at_lower m)%bool, (upper && at_upper m)%bool; unfold neutral_target; cbn [Nn Vn NVn]; repeat split; reflexivity.
Qed.

(** ** Settings *)

Lemma in_unit_iff x : in_unit x = true <-> unit_interval x.
Proof.
  unfold in_unit, unit_interval. pose proof (Rltb_spec x 0) as S. pose proof (Rltb_spec 1 x) as S'.
  destruct (Rltb x 0), (Rltb 1 x); cbn [orb negb]; split; intros; try discriminate; try lra; reflexivity.
Qed.

Definition multipliers_ok (o : recycle_options) : Prop :=
  unit_interval (target_recycle_multiplier o) /\ unit_interval (sol_recycle_multiplier o) /\ unit_interval (pfr_recycle_multiplier o) /\ unit_interval (pump_recycle_multiplier o).
Definition channel_of (Tnorm : R) (so : string * recycle_options) : channel :=
  let '(f, o) := so in
  mkChannel f (recycle_as o) (target_recycle_multiplier o) (sol_recycle_multiplier o)
    (pfr_recycle_multiplier o) (pump_recycle_multiplier o) (target_recycle_energy o / Tnorm) (sol_recycle_energy o / Tnorm)
    (pfr_recycle_energy o / Tnorm) (target_fast_recycle_fraction o) (pfr_fast_recycle_fraction o) (sol_fast_recycle_fraction o)
    (target_fast_recycle_energy_factor o) (sol_fast_recycle_energy_factor o) (pfr_fast_recycle_energy_factor o).
Definition switches_of (o : recycle_options) : flags := mkFlags (opt_target o) (opt_sol o) (opt_pfr o) (opt_pump o).
Definition named (so : string * recycle_options) : bool := negb (String.eqb (fst so) "").

Lemma multipliers_ok_iff o :
  (in_unit (target_recycle_multiplier o) && in_unit (sol_recycle_multiplier o) && in_unit (pfr_recycle_multiplier o) && in_unit (pump_recycle_multiplier o))%bool = true <-> multipliers_ok o.
Proof. unfold multipliers_ok. rewrite !andb_true_iff, !in_unit_iff. tauto. Qed.

Definition construct_from (Tnorm : R) (species : list (string * recycle_options)) (st : option (list channel * option flags)) : option (list channel * option flags) :=
  fold_left (fun st so =>
    match st with
    | None => None
    | Some (channels, fl) =>
        let '(from, o) := so in
        if String.eqb from "" then Some (channels, fl)
        else if (in_unit (target_recycle_multiplier o) && in_unit (sol_recycle_multiplier o) && in_unit (pfr_recycle_multiplier o)
                 && in_unit (pump_recycle_multiplier o))%bool
        then Some (channels ++ [mkChannel from (recycle_as o) (target_recycle_multiplier o) (sol_recycle_multiplier o)
                     (pfr_recycle_multiplier o) (pump_recycle_multiplier o) (target_recycle_energy o / Tnorm) (sol_recycle_energy o / Tnorm)
                     (pfr_recycle_energy o / Tnorm) (target_fast_recycle_fraction o) (pfr_fast_recycle_fraction o) (sol_fast_recycle_fraction o)
                     (target_fast_recycle_energy_factor o) (sol_fast_recycle_energy_factor o) (pfr_fast_recycle_energy_factor o)],
                   Some (mkFlags (opt_target o) (opt_sol o) (opt_pfr o) (opt_pump o)))
        else None
    end)%list species st.
Lemma construct_none Tnorm species : construct_from Tnorm species None = None.
Proof. induction species; [reflexivity|assumption]. Qed.

Fixpoint last_switches (species : list (string * recycle_options)) (fl : option flags) : option flags :=
  match species with
  | [] => fl
  | so :: rest => last_switches rest (if named so then Some (switches_of (snd so)) else fl)
  end.

Lemma construct_from_result Tnorm species : forall chs fl,
  ((forall so, In so species -> named so = true -> multipliers_ok (snd so)) ->
     construct_from Tnorm species (Some (chs, fl)) = Some ((chs ++ map (channel_of Tnorm) (filter named species))%list, last_switches species fl)) /\
  (~ (forall so, In so species -> named so = true -> multipliers_ok (snd so)) -> construct_from Tnorm species (Some (chs, fl)) = None).
Proof.
  induction species as [|[f o] species IH]; intros chs fl.
  - split; [intros _; cbn; now rewrite app_nil_r|]. intros H. exfalso. apply H. intros so [].
  - unfold construct_from. cbn [fold_left]. cbn [filter last_switches]. change (named (f, o)) with (negb (String.eqb f "")). change (snd (f, o)) with o.
    destruct (String.eqb f "") eqn:Ef; cbn [negb].
    + destruct (IH chs fl) as [I1 I2]. split; intros H.
      * apply I1. intros so Hin. apply H. now right.
      * apply I2. intros K. apply H. intros so [<-|Hin] Hn; [unfold named in Hn; cbn [fst] in Hn; rewrite Ef in Hn; discriminate|]. now apply K.
    + destruct (in_unit (target_recycle_multiplier o) && in_unit (sol_recycle_multiplier o) && in_unit (pfr_recycle_multiplier o) && in_unit (pump_recycle_multiplier o))%bool eqn:Eu.
      * set (ch := mkChannel _ _ _ _ _ _ _ _ _ _ _ _ _ _ _). destruct (IH (chs ++ [ch])%list (Some (switches_of o))) as [I1 I2]. split; intros H.
        -- unfold construct_from in I1. unfold switches_of in I1 at 1. rewrite I1; [|intros so Hin; apply H; now right]. cbn [map]. rewrite <- app_assoc. reflexivity.
        -- apply I2. intros K. apply H. intros so [<-|Hin] Hn; [cbn [snd]; now apply multipliers_ok_iff|now apply K].
      * split; intros H.
        -- exfalso. assert (K : multipliers_ok o) by (apply (H (f, o)); [now left|unfold named; cbn [fst]; now rewrite Ef]). apply multipliers_ok_iff in K. congruence.
        -- apply construct_none.
Qed.

Lemma construct_result Tnorm species :
  ((forall so, In so species -> named so = true -> multipliers_ok (snd so)) ->
     construct Tnorm species = Some (map (channel_of Tnorm) (filter named species), last_switches species None)) /\
  (~ (forall so, In so species -> named so = true -> multipliers_ok (snd so)) -> construct Tnorm species = None).
Proof. exact (construct_from_result Tnorm species [] None). Qed.

Lemma last_switches_same species fl : (forall so, In so species -> switches_of (snd so) = fl) -> forall st,
  last_switches species st = (if existsb named species then Some fl else st).
Proof.
  induction species as [|so species IH]; intros H st; [reflexivity|]. cbn [last_switches existsb]. rewrite IH by (intros so' Hin; apply H; now right).
  rewrite (H so) by now left. destruct (named so); cbn [orb]; [|reflexivity]. destruct (existsb named species); reflexivity.
Qed.

(** Two species, the first with recycling at the targets, the second without. *)
Definition plain_options (t : bool) : recycle_options :=
  mkRecycleOptions "d"%string 1 1 1 1 0 0 0 0 0 0 0 0 0 t false false false.
Lemma second_switches_off Tnorm : construct Tnorm [("d+"%string, plain_options true); ("t+"%string, plain_options false)]
  = Some ([channel_of Tnorm ("d+"%string, plain_options true); channel_of Tnorm ("t+"%string, plain_options false)], Some (mkFlags false false false false)).
Proof.
  destruct (construct_result Tnorm [("d+", plain_options true); ("t+", plain_options false)]%string) as [H _]. apply H.
  intros so Hin _. assert (U : unit_interval 1) by (unfold unit_interval; lra). destruct Hin as [<-|[<-|[]]]; unfold multipliers_ok, plain_options; cbn [snd target_recycle_multiplier sol_recycle_multiplier pfr_recycle_multiplier pump_recycle_multiplier]; auto.
Qed.

(** ** Energy of the recycled neutrals *)

Lemma target_energy_gain c m ch N V e : positive_cells c ->
  (closed_low m = true -> full_volume c (ystart m) * snd (target_lower c m ch N V e)
     = target_multiplier ch * (target_fast_factor ch * target_fast_fraction ch * - e (ystart m) + (1 - target_fast_fraction ch) * target_energy ch * lower_outflow c m N V)) /\
  (closed_high m = true -> full_volume c (yend m) * snd (target_upper c m ch N V e)
     = target_multiplier ch * (target_fast_factor ch * target_fast_fraction ch * e (yend m + 1)%Z + (1 - target_fast_fraction ch) * target_energy ch * upper_outflow c m N V)).
Proof.
  intros P. split; intros C.
  - pose proof (target_lower_gain c m ch N V e P C) as G. unfold target_lower in *. cbn [fst snd] in *. set (fl := target_flow _ _ _ _ _) in *.
    pose proof (full_volume_pos c (ystart m) P) as HV. assert (Efl : fl = target_multiplier ch * lower_outflow c m N V).
    { rewrite <- G. change (y_volume c) with (full_volume c). field. lra. }
    unfold target_energy_flow, y_volume. fold (full_volume c (ystart m)). rewrite Efl. field. lra.
  - pose proof (target_upper_gain c m ch N V e P C) as G. unfold target_upper in *. cbn [fst snd] in *. set (fl := target_flow _ _ _ _ _) in *.
    pose proof (full_volume_pos c (yend m) P) as HV. assert (Efl : fl = target_multiplier ch * upper_outflow c m N V).
    { rewrite <- G. change (y_volume c) with (full_volume c). field. lra. }
    unfold target_energy_flow, y_volume. fold (full_volume c (yend m)). rewrite Efl. field. lra.
Qed.

Lemma mixed_energy mult fac frac cold flow e : unit_interval mult -> unit_interval fac -> unit_interval frac -> 0 <= cold -> 0 <= flow -> cold * flow <= e ->
  0 <= mult * (fac * frac * e + (1 - frac) * cold * flow) <= e.
Proof.
  unfold unit_interval. intros Hm Hf Hr Hc Hl He. assert (H0 : 0 <= cold * flow) by now apply Rmult_le_pos. set (x := cold * flow) in *.
  rewrite (Rmult_assoc (1 - frac)). fold x.
  assert (B1 : 0 <= fac * frac * e) by (repeat apply Rmult_le_pos; lra). assert (B2 : 0 <= (1 - frac) * x) by (apply Rmult_le_pos; lra).
  assert (B3 : fac * frac * e <= frac * e) by (rewrite Rmult_assoc; rewrite <- (Rmult_1_l (frac * e)) at 2; apply Rmult_le_compat_r; [apply Rmult_le_pos|]; lra).
  assert (B4 : (1 - frac) * x <= (1 - frac) * e) by (apply Rmult_le_compat_l; lra).
  set (y := fac * frac * e + (1 - frac) * x) in *. assert (Hy : 0 <= y <= e) by (unfold y; split; lra). split; [apply Rmult_le_pos; lra|].
  apply Rle_trans with (1 * y); [apply Rmult_le_compat_r|]; lra.
Qed.

(** ** Cases *)

Definition ch0 : channel := mkChannel "d+"%string "d"%string 1 1 1 0 0 0 0 1 1 1 1 1 1.
Lemma unit_cells : positive_cells unit_coords.
Proof. split; [exact unit_positive|]. intros j. cbn [unit_coords c_dx c_dz]. lra. Qed.
Lemma unit_full_area i g : full_area unit_coords i g = 1.
Proof. unfold full_area. cbn [unit_coords c_J c_g22 c_dx c_dz]. rewrite sqrt_1. field. Qed.
Lemma unit_full_volume i : full_volume unit_coords i = 1.
Proof. unfold full_volume. cbn [unit_coords c_J c_dx c_dy c_dz]. ring. Qed.

(** Plasma flowing in from the target: negative energy for the neutrals. *)
Lemma inflow_cools : snd (target_upper unit_coords mesh1 ch0 (fun _ => 1) (fun _ => -1) (fun _ => -2)) = -2.
Proof.
  destruct (target_energy_gain unit_coords mesh1 ch0 (fun _ => 1) (fun _ => -1) (fun _ => -2) unit_cells) as [_ G]. specialize (G eq_refl).
  rewrite unit_full_volume in G. cbn [ch0 target_multiplier target_fast_factor target_fast_fraction target_energy] in G. lra.
Qed.

(** dx in the guard cell three times that of the cell. *)
Definition wide_guard : coords := mkCoords (fun _ => 1) (fun _ => 1) (fun _ => 1) (fun j => if Z.eqb j 1 then 1 else 3) (fun _ => 1).
Lemma wide_guard_ok : positive_cells wide_guard.
Proof. split; [intros j; cbn; lra|]. intros j. cbn [wide_guard c_dx c_dz]. destruct (Z.eqb j 1); lra. Qed.
Lemma wide_guard_gains :
  lower_outflow wide_guard mesh1 (fun _ => 1) (values [-1; 0; 1]) + upper_outflow wide_guard mesh1 (fun _ => 1) (values [-1; 0; 1]) = 2 /\
  exists r w, Div_par_mod upwind_edges mesh1 wide_guard (fun _ => 1) (values [-1; 0; 1]) (fun _ => 0) true = Some (r, w) /\ total wide_guard (ystart mesh1) 1 r = 1.
Proof.
  split.
  - unfold lower_outflow, upper_outflow, closed_low, closed_high, full_area, end_particle_flux, face_value, wide_guard. cbn [mesh1 firstY lastY periodicY negb andb ystart yend c_J c_g22 c_dx c_dz].
    zify_idx. cbn [Z.eqb Pos.eqb]. vals. rewrite sqrt_1. rewrite !Rmax_right by lra. lra.
  - destruct (mod_closed upwind_edges mesh1 wide_guard 1 (fun _ => 1) (values [-1; 0; 1]) (fun _ => 0) mesh1_ok (proj1 wide_guard_ok) eq_refl eq_refl) as (r & w & E & H).
    exists r, w. split; [exact E|].
    assert (T : total wide_guard (ystart mesh1) 1 r = integral wide_guard (ystart mesh1) 1 r).
    { unfold total, integral. apply zsum_ext. cbn [mesh1 ystart Z.of_nat]. intros j Hj. assert (j = 1%Z) as -> by lia. unfold full_volume, cell_volume, wide_guard. cbn [c_J c_dx c_dy c_dz Z.eqb Pos.eqb]. ring. }
    rewrite T, H. unfold face_area, end_particle_flux, face_value, wide_guard. cbn [mesh1 ystart c_J c_g22 Z.of_nat]. zify_idx. vals. rewrite sqrt_1. field.
Qed.

(** A perfect pump heats the neutrals. *)
Definition unit_x : xcoords := mkXcoords (fun _ => 1) (fun _ => 1) (fun _ => 1) (fun _ => 1) (fun _ => 1) (fun _ => 1).
Definition hydrogen_like : xspecies := mkXspecies (fun _ => 1) (fun _ => 1) (8 / PI) None None (fun _ => 0) (fun _ => 0).
Lemma unit_radial i g : radial_area unit_x i g = 1.
Proof. unfold radial_area, unit_x. cbn [x_dy x_dz x_g22up x_g33]. rewrite sqrt_1. lra. Qed.
Lemma v_th_unit : v_th 1 (8 / PI) = 0.25.
Proof. unfold v_th. replace (8 * 1 / (PI * (8 / PI))) with 1 by (field; apply PI_neq0). rewrite sqrt_1. ring. Qed.
Lemma pump_heats :
  recycle_wall unit_x true 0 1 0 1 1 hydrogen_like 1 0 2 1 1 = (- 0.25, 0.5).
Proof.
  unfold recycle_wall. rewrite unit_radial. unfold x_volume, unit_x, hydrogen_like, SQ. cbn [x_J x_dx x_dy x_dz xN xT xAA].
  replace (0.5 * (1 + 1 * 1 / 1)) with 1 by lra. rewrite v_th_unit. pose proof (Rltb_spec 0 1) as S. destruct (Rltb 0 1); [|exfalso; lra].
  f_equal; lra.
Qed.

(** A second species without a flow of its own recycles the first one's. *)
Definition quiet (to_ : string) (f : string) : channel := mkChannel f to_ 1 1 1 1 0 0 0 0 0 0 0 0 0.
Definition xw0 : xworld := fun k => if String.eqb k "d+"%string then mkXspecies (fun _ => 1) (fun _ => 1) 2 (Some (fun _ => 1)) (Some (fun _ => 1)) (fun _ => 0) (fun _ => 0)
  else mkXspecies (fun _ => 1) (fun _ => 1) 2 None None (fun _ => 0) (fun _ => 0).
Definition xm0 : xmesh := mkXmesh 1 3 false true false.
Definition sol_only : flags := mkFlags false true false false.
Lemma stale_flow : exists w' ms, recycle_walls sol_only xm0 unit_x (fun _ => 0) [quiet "d" "d+"; quiet "t" "t+"]%string (xw0, (None, None)) = Ok (w', ms) /\
  x_particle_flow (xw0 "t+"%string) = None /\ x_density_source (w' "t"%string) 3%Z = 1.
Proof.
  assert (L0 : Rltb 0 0 = false) by (pose proof (Rltb_spec 0 0); destruct (Rltb 0 0); [exfalso; lra|reflexivity]).
  assert (L1 : Rltb 0 1 = true) by (pose proof (Rltb_spec 0 1); destruct (Rltb 0 1); [reflexivity|exfalso; lra]).
  assert (W : forall o, recycle_wall unit_x false 1 1 0 0 0 o 3 (3 - 1) (3 + 1) 1 1 = (1, 0)).
  { intros o. unfold recycle_wall. rewrite L1. unfold x_volume, unit_x. cbn [x_J x_dx x_dy x_dz]. f_equal; field. }
  eexists. eexists. split.
  - unfold recycle_walls. cbn [fold_left]. unfold recycle_walls1. cbn [quiet from to sol_fast_fraction pfr_fast_fraction]. rewrite L0.
    unfold xw0, sol_only, xm0, is_pumped, xset. cbn [orb sol_recycle pfr_recycle neutral_pump firstX lastX periodic_xstart andb negb String.eqb Ascii.eqb Bool.eqb x_energy_flow x_particle_flow xstart xend
      pump_multiplier sol_multiplier pfr_multiplier sol_energy pfr_energy sol_fast_factor pfr_fast_factor quiet sol_fast_fraction from to x_density_source x_energy_source xN xT xAA].
    rewrite !andb_false_r. rewrite !W. reflexivity.
  - split; [reflexivity|]. cbn [String.eqb Ascii.eqb Bool.eqb x_density_source]. unfold upd. cbn [Z.eqb Pos.eqb]. rewrite L1. unfold x_volume, unit_x. cbn [x_J x_dx x_dy x_dz]. lra.
Qed.
