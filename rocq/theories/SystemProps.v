(** C100: particles on a whole field line. *)

From Coq Require Import List Bool ZArith Reals String Lra Lia.
From Verif Require Import OptionsModel OptionsSpec StateMonad StateSpec LimitersModel ReactionsModel AmjuelTables ReactionsSpec ReactionsExamples.
From Verif Require Import ParallelModel ParallelSpec ParallelHeating WallsModel WallsSpec WallsLaws EvolveModel SystemModel SystemSpec SystemProofs SystemWit.
Import ListNotations.
Open Scope R_scope.
Open Scope string_scope.

(** Any sequence of reactions at a point: what each keeps, all keep together; densities, velocities and charges are left alone. *)
Theorem C100_reactions : forall L W l (s s' : State * unit), NoDup L -> List.Forall (keeps L W (charges s)) l -> finishes (reactions l) s s' tt ->
  sumR (fun k => W k * change s s' k "density_source") L = 0 /\
  (forall k q, ~ List.In q ["density_source"; "momentum_source"; "energy_source"; "collision_frequency"] -> value s' k q = value s k q).
Proof. intros L W l s s' NL. exact (reactions_keep L W NL l s s'). Qed.
Print Assumptions C100_reactions.
(** Ionisation, recombination and charge exchange of hydrogen, one after the other: nuclei are a weight kept, and so is charge. *)
Example C100_reactions_case : (exists s', finishes (reactions (ex_reactions 1)) ex_state s' tt) /\ NoDup ehp /\
  List.Forall (keeps ehp nuclei (charges ex_state)) (ex_reactions 1) /\
  List.Forall (keeps ehp (fun k => if String.eqb k "e" then -1 else charges ex_state k) (charges ex_state)) (ex_reactions 1).
Proof.
  split; [destruct ex_runs as (s' & [] & F); exists s'; exact F|]. split; [exact nodup_eh|]. split; apply ex_keeps.
  - unfold nuclei. cbn [String.eqb Ascii.eqb Bool.eqb]. ring.
  - cbn [String.eqb Ascii.eqb Bool.eqb]. ring.
Qed.

(** The whole line: the content changes by the sources, what leaves through the ends, and what the targets return. *)
Theorem C100_line : forall edges c m n fl chs eflow own ws rs (s s' : Z -> State * unit) L W dx0 dz0 ddt,
  positive_cells c -> mesh_ok m n -> closed_low m = true -> closed_high m = true ->
  (forall j, c_dx c j = dx0) -> (forall j, c_dz c j = dz0) ->
  NoDup L -> target_recycle fl = true -> (forall ch, List.In ch chs -> List.In (to ch) L) ->
  (forall j, finishes (reactions (rs j)) (s j) (s' j) tt /\ List.Forall (keeps L W (charges (s j))) (rs j)) ->
  line_rhs edges m c fl chs eflow own ws s' = Some ddt ->
  exists d, (forall k, ddt k = Some (d k)) /\
  sumR (fun k => W k * total c (ystart m) n (d k)) L
  = sumR (fun k => W k * total c (ystart m) n (source_of s k)) L
    - sumR (fun k => W k * net_outflow c m (density_of s k) (velocity_of s k)) L
    + sumR (fun ch => W (to ch) * (target_multiplier ch * arriving c m (density_of s (from ch)) (velocity_of s (from ch)))) chs.
Proof. intros edges c m n fl chs eflow own ws rs s s' L W dx0 dz0 ddt. exact (line_balance edges c m n fl chs eflow own ws rs s s' L W dx0 dz0 ddt). Qed.
Print Assumptions C100_line.

(** If every species which flows out is recycled into one with the same nuclei, only the part not recycled is lost; with multipliers 1,
    nothing.  (Partial: for flow out of the line, see below.) *)
Theorem C100_recycled_partial : forall edges c m n fl chs eflow own ws rs (s s' : Z -> State * unit) L W dx0 dz0 ddt,
  positive_cells c -> mesh_ok m n -> closed_low m = true -> closed_high m = true ->
  (forall j, c_dx c j = dx0) -> (forall j, c_dz c j = dz0) ->
  NoDup L -> target_recycle fl = true -> (forall ch, List.In ch chs -> List.In (to ch) L) ->
  (forall j, finishes (reactions (rs j)) (s j) (s' j) tt /\ List.Forall (keeps L W (charges (s j))) (rs j)) ->
  line_rhs edges m c fl chs eflow own ws s' = Some ddt ->
  NoDup (map from chs) -> (forall ch, List.In ch chs -> List.In (from ch) L /\ W (to ch) = W (from ch)) ->
  (forall ch, List.In ch chs -> flows_out s m (from ch)) ->
  (forall k, List.In k L -> List.In k (map from chs) \/ W k = 0 \/ net_outflow c m (density_of s k) (velocity_of s k) = 0) ->
  exists d, (forall k, ddt k = Some (d k)) /\
  sumR (fun k => W k * total c (ystart m) n (d k)) L
  = sumR (fun k => W k * total c (ystart m) n (source_of s k)) L
    - sumR (fun ch => W (from ch) * ((1 - target_multiplier ch) * net_outflow c m (density_of s (from ch)) (velocity_of s (from ch)))) chs.
Proof. intros edges c m n fl chs eflow own ws rs s s' L W dx0 dz0 ddt. exact (line_pumped edges c m n fl chs eflow own ws rs s s' L W dx0 dz0 ddt). Qed.
Print Assumptions C100_recycled_partial.
(** Hydrogen between two targets, with reactions in the cell: ions flow out at both, atoms at none. *)
Example C100_case : exists s' ddt,
  (forall j, finishes (reactions (ex_reactions j)) (ex_line j) (s' j) tt /\ List.Forall (keeps ehp nuclei (charges (ex_line j))) (ex_reactions j)) /\
  line_rhs upwind_edges mesh1 unit_coords targets_on [quiet "h" "h+"] (fun _ => None) (density_of ex_line) (fun _ _ => 1) s' = Some ddt /\
  flows_out ex_line mesh1 "h+" /\ net_outflow unit_coords mesh1 (density_of ex_line "h+") (velocity_of ex_line "h+") = 20 /\
  nuclei "h" = nuclei "h+" /\ nuclei "e" = 0 /\ net_outflow unit_coords mesh1 (density_of ex_line "h") (velocity_of ex_line "h") = 0.
Proof.
  destruct ex_line_runs as (s' & R1 & R2). destruct (ex_line_rhs s' (density_of ex_line) (fun _ _ => 1)) as [ddt E]. exists s', ddt.
  destruct ex_flux as (F1 & F2 & F3 & F4 & _). split; [intros j; split; [apply R1|apply R2]|]. split; [exact E|].
  unfold flows_out, net_outflow. cbn [mesh1 ystart yend]. rewrite !unit_full_area. change (1 + 1)%Z with 2%Z. rewrite F1, F2, F3, F4.
  split; [lra|]. split; [lra|]. unfold nuclei. cbn [String.eqb Ascii.eqb Bool.eqb]. repeat split; lra.
Qed.
(** Ions flowing in through a target are not taken from the neutrals (or anything else): nuclei come out of the wall. *)
Theorem C100_inflow_refuted : exists own ws ddt d, line_rhs upwind_edges mesh1 unit_coords targets_on [quiet "h" "h+"] (fun _ => None) own ws in_line = Some ddt /\
  (forall k, ddt k = Some (d k)) /\ (forall k j, source_of in_line k j = 0) /\ target_multiplier (quiet "h" "h+") = 1 /\
  sumR (fun k => nuclei k * total unit_coords 1 1 (d k)) ["h"; "h+"] > 0.
Proof.
  destruct (inflow_gains (fun _ _ => 1) (fun _ _ => 1)) as (ddt & d & E & D & B). exists (fun _ _ => 1), (fun _ _ => 1), ddt, d.
  split; [exact E|]. split; [exact D|]. split; [exact in_source|]. split; [reflexivity|]. rewrite B. lra.
Qed.
Print Assumptions C100_inflow_refuted.
