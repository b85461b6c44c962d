(** Proofs for the whole line. *)

From Coq Require Import List Bool ZArith Reals String Lra Lia Permutation.
From Verif Require Import OptionsModel OptionsSpec StateMonad StateSpec StateMonadProofs LimitersModel ReactionsModel ReactionsSpec ReactionsProofs ReactionsAdasProofs ReactionsCxProofs ReactionsLaws.
From Verif Require Import ParallelModel ParallelSpec ParallelProofs ParallelLaws WallsModel WallsSpec WallsProofs EvolveModel SystemModel SystemSpec.
Import ListNotations.
Open Scope R_scope.
Open Scope string_scope.

Lemma sumR_perm {A} (f : A -> R) l l' : Permutation l l' -> sumR f l = sumR f l'.
Proof. induction 1; cbn [sumR]; lra. Qed.

(** Sum over a list of a function which vanishes outside another. *)
Lemma sumR_support {A} (f : A -> R) : forall T L : list A, NoDup T -> NoDup L -> incl T L -> (forall x, List.In x L -> ~ List.In x T -> f x = 0) -> sumR f L = sumR f T.
Proof.
  induction T as [|a T IH]; intros L NT NL I Z.
  - cbn [sumR]. apply sumR_zero. intros x Hx. apply (Z x Hx). intros [].
  - destruct (in_split a L (I a (or_introl eq_refl))) as (l1 & l2 & ->).
    rewrite (sumR_perm f (l1 ++ a :: l2)%list (a :: (l1 ++ l2)%list)) by (symmetry; apply Permutation_middle). cbn [sumR].
    pose proof (NoDup_remove _ _ _ NL) as [N1 N2]. inversion NT as [|? ? HnT HT]; subst.
    rewrite (IH (l1 ++ l2)%list HT N1); [reflexivity| |].
    + intros x Hx. pose proof (I x (or_intror Hx)) as Hi. apply in_app_or in Hi. apply in_or_app. destruct Hi as [Hi|[<-|Hi]]; [left; exact Hi|contradiction|right; exact Hi].
    + intros x Hx Hn. apply Z.
      * apply in_app_or in Hx. apply in_or_app. destruct Hx; [left|right; right]; assumption.
      * intros [<-|H]; [contradiction|exact (Hn H)].
Qed.

Lemma change_trans s1 s2 s3 k q : change s1 s3 k q = change s1 s2 k q + change s2 s3 k q.
Proof. unfold change. lra. Qed.

(** One reaction. *)
Lemma react_keeps L W r (s s' : State * unit) : NoDup L -> keeps L W (charges s) r -> finishes (react r) s s' tt ->
  sumR (fun k => W k * change s s' k "density_source") L = 0 /\
  (forall k q, ~ List.In q ["density_source"; "momentum_source"; "energy_source"; "collision_frequency"] -> value s' k q = value s k q).
Proof.
  intros NL K F. destruct r as [nm c el fr to rows cols rt rad heating m1 m2|nm c rt rad heating el fr to|nm c rt el fA fB tA tB|nm a1 i1 a2 i2 mult g]; cbn [react keeps] in *.
  - apply bind_finishes in F. destruct F as (s1 & out & F & F2). apply ret_finishes in F2. destruct F2 as [-> _].
    destruct K as (ND & I & E). destruct (amjuel_particles _ _ _ _ _ _ _ _ _ _ _ _ _ _ _ ND F) as (H1 & H2 & H3).
    split; [|intros k q Hq; apply H3; right; exact Hq].
    rewrite (sumR_support _ [el; fr; to] L ND NL I); [|intros x _ Hx; unfold change; rewrite (H3 x "density_source" (or_introl Hx)); ring].
    cbn [sumR]. fold (charges s fr) (charges s to) in H2. set (a := change s s1 fr _) in *. set (b := change s s1 to _) in *. set (d := change s s1 el _) in *.
    assert (a = - b) by lra. assert (d = (charges s to - charges s fr) * b) by (subst a; nra). subst d. rewrite H0, H, E. ring.
  - destruct K as (ND & I & E). destruct (adas_laws _ _ _ _ _ _ _ _ _ _ ND F) as (H1 & H2 & _ & _ & _ & H3).
    split; [|intros k q Hq; apply H3; right; exact Hq].
    rewrite (sumR_support _ [el; fr; to] L ND NL I); [|intros x _ Hx; unfold change; rewrite (H3 x "density_source" (or_introl Hx)); ring].
    cbn [sumR]. fold (charges s fr) (charges s to) in H2. set (a := change s s' fr _) in *. set (b := change s s' to _) in *. set (d := change s s' el _) in *.
    assert (a = - b) by lra. assert (d = (charges s to - charges s fr) * b) by (subst a; nra). subst d. rewrite H0, H, E. ring.
  - destruct K as (ND & I & E). destruct (adas_cx_laws _ _ _ _ _ _ _ _ _ _ ND F) as (H1 & H2 & H4 & _ & _ & _ & H3).
    split; [|intros k q Hq; apply H3; right; exact Hq].
    rewrite (sumR_support _ [fA; fB; tA; tB] L ND NL I); [|intros x _ Hx; unfold change; rewrite (H3 x "density_source" (or_introl Hx)); ring].
    cbn [sumR]. set (a := change s s' fA _) in *. set (b := change s s' fB _) in *. set (d := change s s' tA _) in *. set (e := change s s' tB _) in *.
    replace d with (- a) by lra. replace e with (- a) by lra. replace b with a by lra.
    transitivity (a * (W fA + W fB - (W tA + W tB))); [ring|rewrite E; ring].
  - destruct K as (I & E). pose proof (hcx_only _ _ _ _ _ _ _ _ _ F) as H3. split; [|intros k q Hq; apply H3; right; exact Hq].
    rewrite (hcx_density nm a1 i1 a2 i2 mult g s s' L NL (I a1 ltac:(cbn; tauto)) (I i1 ltac:(cbn; tauto)) (I a2 ltac:(cbn; tauto)) (I i2 ltac:(cbn; tauto)) F W).
    replace (W i2 - W a1 + (W a2 - W i1)) with 0 by lra. ring.
Qed.

(** All of them. *)
Lemma reactions_keep L W : NoDup L -> forall l (s s' : State * unit), List.Forall (keeps L W (charges s)) l -> finishes (reactions l) s s' tt ->
  sumR (fun k => W k * change s s' k "density_source") L = 0 /\
  (forall k q, ~ List.In q ["density_source"; "momentum_source"; "energy_source"; "collision_frequency"] -> value s' k q = value s k q).
Proof.
  intros NL. induction l as [|r l IH]; intros s s' K F.
  - apply ret_finishes in F. destruct F as [-> _]. split; [|reflexivity]. apply sumR_zero. intros x _. unfold change. ring.
  - unfold reactions in F. cbn [mfor] in F. apply bind_finishes in F. destruct F as (s1 & [] & F1 & F2).
    inversion K as [|? ? K1 K2]; subst. destruct (react_keeps L W r s s1 NL K1 F1) as (A1 & B1).
    assert (K3 : List.Forall (keeps L W (charges s1)) l).
    { eapply List.Forall_impl; [|exact K2]. intros x Hx. destruct x; cbn [keeps] in *; unfold charges in *; rewrite ?B1 by (cbn; intuition discriminate); exact Hx. }
    destruct (IH s1 s' K3 F2) as (A2 & B2). split.
    + rewrite <- A1. transitivity (sumR (fun k => W k * change s s1 k "density_source") L + sumR (fun k => W k * change s1 s' k "density_source") L); [|rewrite A2; ring].
      rewrite <- sumR_plus. apply sumR_ext. intros k _. rewrite (change_trans s s1 s'). ring.
    + intros k q Hq. rewrite (B2 k q Hq). apply B1. exact Hq.
Qed.

(** Transport: what leaves. *)
Lemma transport_outflow edges c m n N V ws dx0 dz0 : positive_cells c -> mesh_ok m n -> closed_low m = true -> closed_high m = true ->
  (forall j, c_dx c j = dx0) -> (forall j, c_dz c j = dz0) ->
  exists r w, Div_par_mod edges m c N V ws true = Some (r, w) /\ total c (ystart m) n r = net_outflow c m N V.
Proof.
  intros P M CL CH Hdx Hdz. destruct P as [P Q].
  destruct (mod_closed edges m c n N V ws M P CL CH) as (r & w & E & H). exists r, w. split; [exact E|].
  assert (Ee : (yend m + 1 = ystart m + Z.of_nat n)%Z) by (destruct M as (_ & HH & _); lia).
  assert (T : total c (ystart m) n r = dx0 * dz0 * integral c (ystart m) n r).
  { unfold total, integral. rewrite <- zsum_scal. apply zsum_ext. intros j _. unfold full_volume, cell_volume. rewrite Hdx, Hdz. ring. }
  rewrite T, H. unfold net_outflow.
  assert (A1 : full_area c (ystart m) (ystart m - 1) = dx0 * dz0 * face_area (c_J c) (c_g22 c) (ystart m)).
  { unfold full_area, face_area. rewrite !Hdx, !Hdz. rewrite (Rplus_comm (c_J c (ystart m - 1)%Z)), (Rplus_comm (sqrt (c_g22 c (ystart m - 1)%Z))). field.
    destruct (P (ystart m)) as (_ & G1 & _), (P (ystart m - 1)%Z) as (_ & G2 & _). pose proof (sqrt_lt_R0 _ G1). pose proof (sqrt_lt_R0 _ G2). lra. }
  assert (A2 : full_area c (yend m) (yend m + 1) = dx0 * dz0 * face_area (c_J c) (c_g22 c) (yend m + 1)).
  { unfold full_area, face_area. rewrite !Hdx, !Hdz. replace (yend m + 1 - 1)%Z with (yend m) by lia. field.
    destruct (P (yend m)) as (_ & G1 & _), (P (yend m + 1)%Z) as (_ & G2 & _). pose proof (sqrt_lt_R0 _ G1). pose proof (sqrt_lt_R0 _ G2). lra. }
  rewrite A1, A2, Ee. ring.
Qed.
Lemma full_area_pos c i g : positive_cells c -> 0 < full_area c i g.
Proof.
  intros [P Q]. unfold full_area. destruct (P i) as (J1 & G1 & _), (P g) as (J2 & G2 & _). destruct (Q i), (Q g).
  pose proof (sqrt_lt_R0 _ G1). pose proof (sqrt_lt_R0 _ G2).
  apply Rmult_lt_0_compat; [apply Rmult_lt_0_compat; [apply Rdiv_lt_0_compat|]|]; lra.
Qed.
Lemma outflow_arrives c m N V : positive_cells c -> closed_low m = true -> closed_high m = true ->
  end_particle_flux N V (ystart m) <= 0 <= end_particle_flux N V (yend m + 1) -> arriving c m N V = net_outflow c m N V.
Proof.
  intros P CL CH [H1 H2]. unfold arriving, net_outflow, lower_outflow, upper_outflow. rewrite CL, CH.
  pose proof (full_area_pos c (ystart m) (ystart m - 1) P). pose proof (full_area_pos c (yend m) (yend m + 1) P).
  rewrite !Rmax_right; [lra| |]; nra.
Qed.

(** The evolved density meets the state's at the end faces. *)
Lemma boundary_face m n N f : mesh_ok m n -> closed_low m = true -> closed_high m = true ->
  face_value (set_boundary_to m N f) (ystart m) = face_value f (ystart m) /\ face_value (set_boundary_to m N f) (yend m + 1) = face_value f (yend m + 1).
Proof.
  intros (Hn & He & G) CL CH. unfold set_boundary_to. change (at_lower m) with (closed_low m). change (at_upper m) with (closed_high m). rewrite CL, CH.
  unfold face_value, upd. replace (yend m + 1 - 1)%Z with (yend m) by lia.
  rewrite !Z.eqb_refl. rewrite !(proj2 (Z.eqb_neq _ _)) by lia. split; lra.
Qed.

Lemma gains_total c m w chs L W : NoDup L -> (forall ch, List.In ch chs -> List.In (to ch) L) ->
  sumR (fun k => W k * gains c m w chs k) L
  = sumR (fun ch => W (to ch) * (target_multiplier ch * arriving c m (yN (w (from ch))) (yV (w (from ch))))) chs.
Proof.
  intros NL. induction chs as [|ch chs IH]; intros H.
  - cbn [gains sumR]. apply sumR_zero. intros; ring.
  - cbn [sumR]. rewrite <- IH by (intros x Hx; apply H; right; exact Hx). cbn [gains].
    rewrite (sumR_ext _ (fun k => W k * (if String.eqb k (to ch) then target_multiplier ch * arriving c m (yN (w (from ch))) (yV (w (from ch))) else 0) + W k * gains c m w chs k))
      by (intros; unfold arriving; ring).
    rewrite sumR_plus. f_equal.
    rewrite (sumR_support _ [to ch] L); [cbn [sumR]; rewrite String.eqb_refl; ring| | exact NL| |].
    + repeat constructor. intros [].
    + intros x [<-|[]]. apply H. left. reflexivity.
    + intros x _ Hx. replace (String.eqb x (to ch)) with false; [ring|]. symmetry. apply String.eqb_neq. intros ->. apply Hx. left. reflexivity.
Qed.

Lemma recycled_unchanged fl c m n chs : positive_cells c -> mesh_ok m n -> target_recycle fl = true -> forall w w',
  recycle_targets fl c m chs w = Some w' -> forall k, yN (w' k) = yN (w k) /\ yV (w' k) = yV (w k).
Proof.
  intros P M F. induction chs as [|ch chs IH]; intros w w' H k.
  - cbn [recycle_targets fold_left] in H. injection H as <-. split; reflexivity.
  - unfold recycle_targets in H. cbn [fold_left] in H. destruct (recycle_targets1 fl c m w ch) as [w1|] eqn:E1; [|rewrite fold_targets_none in H; discriminate].
    pose proof (recycle_targets1_effect fl c m n w ch w1 P M F E1) as EF. destruct (IH w1 w' H k) as [-> ->]. destruct (EF k) as (-> & -> & _). split; reflexivity.
Qed.

Lemma total_plus c lo n f g : total c lo n (fun j => f j + g j) = total c lo n f + total c lo n g.
Proof. unfold total. rewrite <- zsum_plus. apply zsum_ext. intros. ring. Qed.
Lemma total_sum c lo n {A} (L : list A) (W : A -> R) (f : A -> Z -> R) :
  sumR (fun k => W k * total c lo n (f k)) L = total c lo n (fun j => sumR (fun k => W k * f k j) L).
Proof.
  induction L as [|k L IH]; cbn [sumR].
  - unfold total. symmetry. transitivity (zsum lo n (fun _ => 0 * 0)); [apply zsum_ext; intros; ring|]. rewrite zsum_scal. ring.
  - rewrite IH. rewrite (total_plus c lo n (fun j => W k * f k j)). f_equal. unfold total. rewrite <- zsum_scal. apply zsum_ext. intros. ring.
Qed.
Lemma total_ext c lo n f g : (forall j, (lo <= j < lo + Z.of_nat n)%Z -> f j = g j) -> total c lo n f = total c lo n g.
Proof. intros H. unfold total. apply zsum_ext. intros j Hj. rewrite (H j Hj). reflexivity. Qed.

Section Line.
  Variables (edges : R -> R -> R -> R * R) (c : coords) (m : mesh) (n : nat) (fl : flags) (chs : list channel).
  Variables (eflow : string -> option (Z -> R)) (own ws : string -> Z -> R) (rs : Z -> list reaction) (s s' : Z -> State * unit).
  Variables (L : list string) (W : string -> R) (dx0 dz0 : R) (ddt : string -> option (Z -> R)).
  Hypotheses (P : positive_cells c) (M : mesh_ok m n) (CL : closed_low m = true) (CH : closed_high m = true).
  Hypotheses (Hdx : forall j, c_dx c j = dx0) (Hdz : forall j, c_dz c j = dz0).
  Hypotheses (NL : NoDup L) (TR : target_recycle fl = true) (TO : forall ch, List.In ch chs -> List.In (to ch) L).
  Hypothesis RS : forall j, finishes (reactions (rs j)) (s j) (s' j) tt /\ List.Forall (keeps L W (charges (s j))) (rs j).
  Hypothesis RHS : line_rhs edges m c fl chs eflow own ws s' = Some ddt.

  Lemma flux_same k j : end_particle_flux (density_of s' k) (velocity_of s' k) j = end_particle_flux (density_of s k) (velocity_of s k) j.
  Proof.
    unfold end_particle_flux, face_value, density_of, velocity_of.
    rewrite !(fun j => proj2 (reactions_keep L W NL (rs j) (s j) (s' j) (proj2 (RS j)) (proj1 (RS j)))) by (cbn; intuition discriminate). reflexivity.
  Qed.
  Lemma net_same k : net_outflow c m (density_of s' k) (velocity_of s' k) = net_outflow c m (density_of s k) (velocity_of s k).
  Proof. unfold net_outflow. rewrite !flux_same. reflexivity. Qed.
  Lemma arriving_same k : arriving c m (density_of s' k) (velocity_of s' k) = arriving c m (density_of s k) (velocity_of s k).
  Proof. unfold arriving, lower_outflow, upper_outflow. rewrite !flux_same. reflexivity. Qed.

  Lemma line_balance : exists d : string -> Z -> R, (forall k, ddt k = Some (d k)) /\
    sumR (fun k => W k * total c (ystart m) n (d k)) L
    = sumR (fun k => W k * total c (ystart m) n (source_of s k)) L
      - sumR (fun k => W k * net_outflow c m (density_of s k) (velocity_of s k)) L
      + sumR (fun ch => W (to ch) * (target_multiplier ch * arriving c m (density_of s (from ch)) (velocity_of s (from ch)))) chs.
  Proof.
    unfold line_rhs in RHS. destruct (recycle_targets fl c m chs (line_world eflow s')) as [w|] eqn:EW; [|discriminate].
    apply (f_equal (fun o => match o with Some v => v | None => fun _ => None end)) in RHS. cbv beta iota in RHS.
    set (w0 := line_world eflow s') in *.
    pose proof (recycled_unchanged fl c m n chs P M TR w0 w EW) as U.
    pose proof (recycle_targets_total fl c m n chs P M TR w0 w EW) as G.
    assert (TRN : forall k, exists r v, Div_par_mod edges m c (set_boundary_to m (own k) (yN (w k))) (yV (w k)) (ws k) true = Some (r, v) /\
              total c (ystart m) n r = net_outflow c m (density_of s k) (velocity_of s k)).
    { intros k. destruct (transport_outflow edges c m n (set_boundary_to m (own k) (yN (w k))) (yV (w k)) (ws k) dx0 dz0 P M CL CH Hdx Hdz) as (r & v & E1 & E2).
      exists r, v. split; [exact E1|]. rewrite E2, <- net_same. destruct (U k) as [-> ->].
      destruct (boundary_face m n (own k) (yN (w0 k)) M CL CH) as [B1 B2].
      unfold net_outflow, end_particle_flux. rewrite B1, B2. reflexivity. }
    exists (fun k j => match ddt k with Some d => d j | None => 0 end). split.
    - intros k. rewrite <- RHS. destruct (TRN k) as (r & v & E1 & _). rewrite E1. reflexivity.
    - transitivity (sumR (fun k => (W k * total c (ystart m) n (y_density_source (w k))) + - (W k * net_outflow c m (density_of s k) (velocity_of s k))) L).
      { apply sumR_ext. intros k _. rewrite <- RHS. destruct (TRN k) as (r & v & E1 & E2). rewrite E1. rewrite <- E2.
        transitivity (W k * (total c (ystart m) n (y_density_source (w k)) + -1 * total c (ystart m) n r)); [|ring]. f_equal.
        unfold total. rewrite <- zsum_scal, <- zsum_plus. apply zsum_ext. intros j _. unfold ddt_N. ring. }
      rewrite sumR_plus, sumR_opp.
      rewrite (sumR_ext _ (fun k => W k * total c (ystart m) n (source_of s' k) + W k * gains c m w0 chs k)) by (intros k _; rewrite (G k); unfold w0, line_world, source_of; cbn [y_density_source]; ring).
      rewrite sumR_plus, (gains_total c m w0 chs L W NL TO).
      assert (E : sumR (fun k => W k * total c (ystart m) n (source_of s' k)) L = sumR (fun k => W k * total c (ystart m) n (source_of s k)) L).
      { rewrite !total_sum. apply total_ext. intros j _.
        pose proof (proj1 (reactions_keep L W NL (rs j) (s j) (s' j) (proj2 (RS j)) (proj1 (RS j)))) as K.
        rewrite (sumR_ext (fun k => W k * source_of s' k j) (fun k => W k * source_of s k j + W k * change (s j) (s' j) k "density_source")) by (intros; unfold source_of, change; ring).
        rewrite sumR_plus, K. ring. }
      rewrite E. rewrite (sumR_ext (fun ch => W (to ch) * (target_multiplier ch * arriving c m (yN (w0 (from ch))) (yV (w0 (from ch)))))
        (fun ch => W (to ch) * (target_multiplier ch * arriving c m (density_of s (from ch)) (velocity_of s (from ch))))); [ring|].
      intros ch _. rewrite <- arriving_same. reflexivity.
  Qed.

  (** Every species which flows out has one channel, to a species of the same weight. *)
  Hypotheses (NF : NoDup (map from chs)) (FR : forall ch, List.In ch chs -> List.In (from ch) L /\ W (to ch) = W (from ch)).
  Hypothesis OUT : forall ch, List.In ch chs -> flows_out s m (from ch).
  Hypothesis ALL : forall k, List.In k L -> List.In k (map from chs) \/ W k = 0 \/ net_outflow c m (density_of s k) (velocity_of s k) = 0.

  Lemma line_pumped : exists d : string -> Z -> R, (forall k, ddt k = Some (d k)) /\
    sumR (fun k => W k * total c (ystart m) n (d k)) L
    = sumR (fun k => W k * total c (ystart m) n (source_of s k)) L
      - sumR (fun ch => W (from ch) * ((1 - target_multiplier ch) * net_outflow c m (density_of s (from ch)) (velocity_of s (from ch)))) chs.
  Proof.
    destruct line_balance as (d & D & E). exists d. split; [exact D|]. rewrite E.
    assert (I : incl (map from chs) L) by (intros x Hx; apply in_map_iff in Hx; destruct Hx as (ch & <- & Hc); apply FR; exact Hc).
    rewrite (sumR_support (fun k => W k * net_outflow c m (density_of s k) (velocity_of s k)) (map from chs) L NF NL I).
    2:{ intros k Hk Hn. destruct (ALL k Hk) as [H|[ -> | -> ]]; [contradiction|ring|ring]. }
    rewrite sumR_map.
    rewrite (sumR_ext (fun ch => W (to ch) * (target_multiplier ch * arriving c m (density_of s (from ch)) (velocity_of s (from ch))))
       (fun ch => W (from ch) * net_outflow c m (density_of s (from ch)) (velocity_of s (from ch))
                  + - (W (from ch) * ((1 - target_multiplier ch) * net_outflow c m (density_of s (from ch)) (velocity_of s (from ch)))))).
    - rewrite sumR_plus, sumR_opp. ring.
    - intros ch Hc. destruct (FR ch Hc) as [F1 F2]. rewrite F2, (outflow_arrives c m _ _ P CL CH (OUT _ Hc)). ring.
  Qed.
End Line.
