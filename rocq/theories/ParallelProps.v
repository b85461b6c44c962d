(** Theorems about the parallel advection operators: C21, C22, C26, C29. *)

From Coq Require Import List Bool ZArith Reals Lra Lia.
From Verif Require Import StateMonad LimitersModel LimitersSpec LimitersProofs ParallelModel ParallelSpec ParallelProofs
  ParallelLaws ParallelSplit ParallelHeating.
Import ListNotations.
Open Scope R_scope.

(** ** C21 *)

(** In every cell the result is the divergence of one flux per face, the Lax-Friedrichs flux of the
    reconstructed values (face-centred values at closed ends with fixflux), and flow_ylow is that
    flux times the face area. *)
Theorem C21_divergence_of_face_fluxes : forall edges m c n f v ws fixflux,
  mesh_ok m n -> positive_metric c ->
  exists r w, Div_par_mod edges m c f v ws fixflux = Some (r, w) /\
    (forall j, (ystart m <= j < ystart m + Z.of_nat n)%Z ->
       divergence_of (c_J c) (c_g22 c) (c_dy c) (mod_line edges m fixflux f v ws n) r j) /\
    (forall j, (ystart m <= j <= ystart m + Z.of_nat n)%Z ->
       w j = flow_through (c_J c) (c_g22 c) (c_dx c) (c_dz c) (mod_line edges m fixflux f v ws n) j).
Proof. exact mod_divergence. Qed.
Print Assumptions C21_divergence_of_face_fluxes.

(** Interior fluxes cancel: the integral over the cells of this processor is what leaves through its ends. *)
Theorem C21_integral_is_end_flux : forall edges m c n f v ws fixflux,
  mesh_ok m n -> positive_metric c ->
  exists r w, Div_par_mod edges m c f v ws fixflux = Some (r, w) /\
    integral c (ystart m) n r
    = face_area (c_J c) (c_g22 c) (ystart m + Z.of_nat n) * mod_line edges m fixflux f v ws n (ystart m + Z.of_nat n)
      - face_area (c_J c) (c_g22 c) (ystart m) * mod_line edges m fixflux f v ws n (ystart m).
Proof. exact mod_integral. Qed.
Print Assumptions C21_integral_is_end_flux.

(** Closed ends, fixed flux: only face-centred density times face-centred velocity leaves. *)
Theorem C21_closed_line : forall edges m c n f v ws,
  mesh_ok m n -> positive_metric c -> closed_low m = true -> closed_high m = true ->
  exists r w, Div_par_mod edges m c f v ws true = Some (r, w) /\
    integral c (ystart m) n r
    = face_area (c_J c) (c_g22 c) (ystart m + Z.of_nat n) * end_particle_flux f v (ystart m + Z.of_nat n)
      - face_area (c_J c) (c_g22 c) (ystart m) * end_particle_flux f v (ystart m).
Proof. exact mod_closed. Qed.
Print Assumptions C21_closed_line.

(** Periodic line: nothing leaves. *)
Theorem C21_periodic_line : forall edges m c n f v ws fixflux,
  mesh_ok m n -> positive_metric c -> periodicY m = true ->
  periodic n (c_J c) -> periodic n (c_g22 c) -> periodic n f -> periodic n v -> periodic n ws ->
  exists r w, Div_par_mod edges m c f v ws fixflux = Some (r, w) /\ integral c (ystart m) n r = 0.
Proof. exact mod_periodic. Qed.
Print Assumptions C21_periodic_line.

(** The flow diagnostic is the flow that changes each cell's content (when dx and dz do not vary
    along the line). *)
Theorem C21_flow_diagnostic : forall edges m c n f v ws fixflux,
  mesh_ok m n -> positive_metric c ->
  (forall j, c_dx c (j + 1)%Z = c_dx c j) -> (forall j, c_dz c (j + 1)%Z = c_dz c j) ->
  exists r w, Div_par_mod edges m c f v ws fixflux = Some (r, w) /\
    forall j, (ystart m <= j < ystart m + Z.of_nat n)%Z ->
      cell_volume (c_J c) (c_dy c) j * c_dx c j * c_dz c j * r j = w (j + 1)%Z - w j.
Proof. exact mod_flow. Qed.
Print Assumptions C21_flow_diagnostic.

(** Advection never takes particles out of an empty cell (away from closed ends). *)
Theorem C21_empty_cell_not_drained : forall edges m c n f v ws fixflux j,
  mesh_ok m n -> positive_metric c ->
  bounded_by_neighbours edges -> flat_at_extrema edges ->
  (forall i, 0 <= f i) -> f j = 0 ->
  (ystart m <= j < ystart m + Z.of_nat n)%Z ->
  (closed_low m = true -> j <> ystart m) -> (closed_high m = true -> j <> (ystart m + Z.of_nat n - 1)%Z) ->
  exists r w, Div_par_mod edges m c f v ws fixflux = Some (r, w) /\ r j <= 0.
Proof. exact mod_empty_cell. Qed.
Print Assumptions C21_empty_cell_not_drained.

(** A uniform flow in a flux tube of constant area has no divergence (nor its momentum). *)
Theorem C21_C22_uniform_flow : forall edges m c n a b ws,
  mesh_ok m n -> positive_metric c -> (forall x, edges x x x = (x, x)) ->
  (forall j, face_area (c_J c) (c_g22 c) (j + 1) = face_area (c_J c) (c_g22 c) j) ->
  exists r w q, Div_par_mod edges m c (fun _ => a) (fun _ => b) ws true = Some (r, w) /\
    Div_par_fvv edges m c (fun _ => a) (fun _ => b) ws true = Some q /\
    forall j, (ystart m <= j < ystart m + Z.of_nat n)%Z -> r j = 0 /\ q j = 0.
Proof. exact mod_uniform. Qed.
Print Assumptions C21_C22_uniform_flow.

(** A stretched grid of three cells with closed ends meets the hypotheses. *)
Example C21_hypotheses_met :
  mesh_ok (mkMesh 2 4 7 true true false) 3 /\
  positive_metric (mkCoords (fun _ => 2) (fun j => 1 + IZR (j * j)) (fun j => 1 + IZR (j * j)) (fun _ => 1) (fun _ => 1)) /\
  closed_low (mkMesh 2 4 7 true true false) = true /\ closed_high (mkMesh 2 4 7 true true false) = true /\
  bounded_by_neighbours mc_edges /\ flat_at_extrema mc_edges /\ (forall x, mc_edges x x x = (x, x)) /\
  periodic 3 (fun j => IZR (Z.modulo j 3)) /\ mesh_ok (mkMesh 2 4 7 true true true) 3.
Proof.
  assert (S : forall j, 0 < 1 + IZR (j * j)).
  { intros j. rewrite mult_IZR. pose proof (Rle_0_sqr (IZR j)). unfold Rsqr in *. lra. }
  split; [unfold mesh_ok, guards_ok; cbn; lia|]. split; [intros j; cbn [c_J c_g22 c_dy]; repeat split; auto; lra|].
  do 2 (split; [reflexivity|]). split; [exact mc_bounded|]. split; [exact mc_flat|].
  split; [intros x; apply mc_flat; lra|]. split; [|unfold mesh_ok, guards_ok; cbn; lia].
  intros j. f_equal. replace (j + Z.of_nat 3)%Z with (j + 1 * 3)%Z by lia. apply Z_mod_plus_full.
Qed.

(** ** C22 *)

Theorem C22_divergence_of_face_fluxes : forall edges m c n f v ws fixflux,
  mesh_ok m n -> positive_metric c ->
  exists r, Div_par_fvv edges m c f v ws fixflux = Some r /\
    (forall j, (ystart m <= j < ystart m + Z.of_nat n)%Z ->
       divergence_of (c_J c) (c_g22 c) (c_dy c) (fvv_line edges m fixflux f v ws n) r j).
Proof. exact fvv_divergence. Qed.
Print Assumptions C22_divergence_of_face_fluxes.

Theorem C22_integral_is_end_flux : forall edges m c n f v ws fixflux,
  mesh_ok m n -> positive_metric c ->
  exists r, Div_par_fvv edges m c f v ws fixflux = Some r /\
    integral c (ystart m) n r
    = face_area (c_J c) (c_g22 c) (ystart m + Z.of_nat n) * fvv_line edges m fixflux f v ws n (ystart m + Z.of_nat n)
      - face_area (c_J c) (c_g22 c) (ystart m) * fvv_line edges m fixflux f v ws n (ystart m).
Proof. exact fvv_integral. Qed.
Print Assumptions C22_integral_is_end_flux.

Theorem C22_closed_line : forall edges m c n f v ws,
  mesh_ok m n -> positive_metric c -> closed_low m = true -> closed_high m = true ->
  exists r, Div_par_fvv edges m c f v ws true = Some r /\
    integral c (ystart m) n r
    = face_area (c_J c) (c_g22 c) (ystart m + Z.of_nat n) * end_momentum_flux f v (ystart m + Z.of_nat n)
      - face_area (c_J c) (c_g22 c) (ystart m) * end_momentum_flux f v (ystart m).
Proof. exact fvv_closed. Qed.
Print Assumptions C22_closed_line.

Theorem C22_periodic_line : forall edges m c n f v ws fixflux,
  mesh_ok m n -> positive_metric c -> periodicY m = true ->
  periodic n (c_J c) -> periodic n (c_g22 c) -> periodic n f -> periodic n v -> periodic n ws ->
  exists r, Div_par_fvv edges m c f v ws fixflux = Some r /\ integral c (ystart m) n r = 0.
Proof. exact fvv_periodic. Qed.
Print Assumptions C22_periodic_line.

(** ** C26 *)

(** For every way to cut the line into processors (list of sizes), with at least two guard cells: what the
    processors compute, one after the other, is what a single processor computes. *)
Theorem C26_any_split_of_Div_par_mod : forall edges per g c f v ws fixflux sizes,
  (2 <= g)%Z -> sizes <> [] -> Forall (fun n => (0 < n)%nat) sizes -> positive_metric c ->
  let N := Z.of_nat (list_sum sizes) in
  gather (map (fun p => mod_cells edges N per g c f v ws fixflux (fst p) (snd p)) (pieces 0 sizes))
  = mod_cells edges N per g c f v ws fixflux 0 (list_sum sizes) /\
  mod_cells edges N per g c f v ws fixflux 0 (list_sum sizes) <> None.
Proof. exact mod_split. Qed.
Print Assumptions C26_any_split_of_Div_par_mod.

Theorem C26_any_split_of_Div_par_fvv : forall edges per g c f v ws fixflux sizes,
  (2 <= g)%Z -> sizes <> [] -> Forall (fun n => (0 < n)%nat) sizes -> positive_metric c ->
  let N := Z.of_nat (list_sum sizes) in
  gather (map (fun p => fvv_cells edges N per g c f v ws fixflux (fst p) (snd p)) (pieces 0 sizes))
  = fvv_cells edges N per g c f v ws fixflux 0 (list_sum sizes) /\
  fvv_cells edges N per g c f v ws fixflux 0 (list_sum sizes) <> None.
Proof. exact fvv_split. Qed.
Print Assumptions C26_any_split_of_Div_par_fvv.

Example C26_three_processors :
  (2 <= 2)%Z /\ [4%nat; 1%nat; 2%nat] <> [] /\ Forall (fun n => (0 < n)%nat) [4%nat; 1%nat; 2%nat] /\ positive_metric unit_coords /\
  pieces 0 [4%nat; 1%nat; 2%nat] = [(0%Z, 4%nat); (4%Z, 1%nat); (5%Z, 2%nat)].
Proof.
  split; [lia|]. split; [discriminate|]. split; [repeat constructor|]. split; [exact unit_positive|reflexivity].
Qed.

(** The operators stay inside their arrays exactly if an end shared with another processor (or
    periodic) has two guard cells; "only need one guard cell" (include/div_ops.hxx 146, 303, 529) does not hold. *)
Theorem C26_two_guard_cells_needed : forall edges m n c f v ws fixflux,
  (0 < n)%nat -> yend m = (ystart m + Z.of_nat n - 1)%Z -> positive_metric c ->
  ((Div_par_mod edges m c f v ws fixflux <> None <-> guards_ok m) /\
   (Div_par_fvv edges m c f v ws fixflux <> None <-> guards_ok m)).
Proof. exact mod_defined. Qed.
Print Assumptions C26_two_guard_cells_needed.

Example C26_one_guard_cell : (* one guard cell, a neighbouring processor below *)
  let m := mkMesh 1 3 6 false true false in
  yend m = (ystart m + Z.of_nat 3 - 1)%Z /\ ~ guards_ok m.
Proof. split; [reflexivity|]. unfold guards_ok. cbn. lia. Qed.

(** ** C29 *)

(** Energy balance on a closed line: kinetic energy lost by the density and momentum operators, plus the
    heating, is what leaves through the ends, except for an excess heating at each interior face. *)
Theorem C29_kinetic_energy_balance : forall edges m c n f v ws,
  mesh_ok m n -> positive_metric c -> closed_low m = true -> closed_high m = true ->
  exists rn wn rm h wh,
    Div_par_mod edges m c f v ws true = Some (rn, wn) /\
    Div_par_fvv edges m c f v ws true = Some rm /\
    Div_par_fvv_heating edges m c f v ws true = Some (h, wh) /\
    integral c (ystart m) n (fun j => kinetic_rate (v j) (- rn j) (- rm j) + h j)
    = face_area (c_J c) (c_g22 c) (ystart m) * end_kinetic_flux f v (ystart m)
      - face_area (c_J c) (c_g22 c) (ystart m + Z.of_nat n) * end_kinetic_flux f v (ystart m + Z.of_nat n)
      + zsum (ystart m + 1) (n - 1) (fun j => face_area (c_J c) (c_g22 c) j * heating_excess edges f v ws j).
Proof. exact kinetic_balance. Qed.
Print Assumptions C29_kinetic_energy_balance.

(** The excess is never negative for limiters that do not pass the face centre (Upwind, MinMod). *)
Theorem C29_excess_nonnegative : forall edges f v ws j,
  bounded_by_neighbours edges -> within_half edges -> (forall i, 0 <= f i) -> 0 <= heating_excess edges f v ws j.
Proof. exact excess_nonneg. Qed.
Print Assumptions C29_excess_nonnegative.

(** Refuted: the heating is not the kinetic energy dissipated.  Two cells moving towards each other: nothing
    leaves through the ends, yet energy is created. *)
Theorem C29_heating_equals_dissipation_refuted :
  exists m n f v ws rn wn rm h wh,
    mesh_ok m n /\ closed_low m = true /\ closed_high m = true /\ (forall j, 0 < f j) /\ (forall j, 0 <= ws j) /\
    Div_par_mod upwind_edges m unit_coords f v ws true = Some (rn, wn) /\
    Div_par_fvv upwind_edges m unit_coords f v ws true = Some rm /\
    Div_par_fvv_heating upwind_edges m unit_coords f v ws true = Some (h, wh) /\
    integral unit_coords (ystart m) n (fun j => kinetic_rate (v j) (- rn j) (- rm j) + h j)
    = face_area (c_J unit_coords) (c_g22 unit_coords) (ystart m) * end_kinetic_flux f v (ystart m)
      - face_area (c_J unit_coords) (c_g22 unit_coords) (ystart m + Z.of_nat n) * end_kinetic_flux f v (ystart m + Z.of_nat n) + 2.
Proof.
  destruct (kinetic_balance upwind_edges mesh2 unit_coords 2 (fun _ => 1) (values [0; 1; -1; 0]) (fun _ => 0)
              mesh2_ok unit_positive eq_refl eq_refl) as (rn & wn & rm & h & wh & E1 & E2 & E3 & B).
  rewrite excess_witness in B.
  exists mesh2, 2%nat, (fun _ => 1), (values [0; 1; -1; 0]), (fun _ => 0), rn, wn, rm, h, wh.
  split; [exact mesh2_ok|]. do 2 (split; [reflexivity|]). split; [intros; lra|]. split; [intros; lra|]. repeat (split; [assumption|]). exact B.
Qed.
Print Assumptions C29_heating_equals_dissipation_refuted.

(** Heating is never negative away from closed ends for limiters that do not pass the face centre ... *)
Theorem C29_heating_nonnegative_partial : forall edges m c n f v ws fixflux j,
  mesh_ok m n -> positive_metric c -> bounded_by_neighbours edges -> within_half edges -> (forall i, 0 <= f i) ->
  (ystart m <= j < ystart m + Z.of_nat n)%Z ->
  (closed_low m = true -> j <> ystart m) -> (closed_high m = true -> j <> (ystart m + Z.of_nat n - 1)%Z) ->
  exists h w, Div_par_fvv_heating edges m c f v ws fixflux = Some (h, w) /\ 0 <= h j.
Proof. exact heating_nonneg. Qed.
Print Assumptions C29_heating_nonnegative_partial.

Example C29_limiters : bounded_by_neighbours upwind_edges /\ within_half upwind_edges /\
  bounded_by_neighbours minmod_edges /\ within_half minmod_edges.
Proof. repeat split; try apply upwind_bounded; try apply upwind_half; try apply minmod_bounded; try apply minmod_half. Qed.

(** ... refuted for MC, the limiter that the pressure equation always uses ... *)
Theorem C29_heating_nonnegative_MC_refuted :
  exists m n v h w, mesh_ok m n /\ closed_low m = false /\ closed_high m = false /\
    Div_par_fvv_heating mc_edges m unit_coords (fun _ => 1) v (fun _ => 0) true = Some (h, w) /\ h (ystart m) < 0.
Proof.
  destruct mc_heating_negative as (h & w & E & H).
  exists mesh_open1, 1%nat, (values [88; 88; 100; 110; 110]), h, w. split; [exact mesh_open1_ok|]. auto.
Qed.
Print Assumptions C29_heating_nonnegative_MC_refuted.

(** ... and in cells next to a closed end with outflow, for any limiter: there it is exactly
    - n v (v_cell - v)^2 / 2 per unit area, for v the outward velocity at the face. *)
Theorem C29_heating_at_closed_ends : forall edges m f v ws,
  (closed_high m = true ->
   heat_right edges m true f v ws (yend m)
   = - (face_value f (yend m + 1) * face_value v (yend m + 1) / 2) * ((v (yend m) - face_value v (yend m + 1)) * (v (yend m) - face_value v (yend m + 1)))) /\
  (closed_low m = true ->
   heat_left edges m true f v ws (ystart m)
   = face_value f (ystart m) * face_value v (ystart m) / 2 * ((v (ystart m) - face_value v (ystart m)) * (v (ystart m) - face_value v (ystart m)))).
Proof. exact end_heating. Qed.
Print Assumptions C29_heating_at_closed_ends.

Theorem C29_heating_nonnegative_at_ends_refuted :
  exists m n v h w, mesh_ok m n /\ closed_low m = true /\ closed_high m = true /\
    Div_par_fvv_heating mc_edges m unit_coords (fun _ => 1) v (fun _ => 0) true = Some (h, w) /\ h (ystart m) < 0.
Proof.
  destruct end_heating_negative as (h & w & E & H).
  exists mesh1, 1%nat, (values [0; 0; 2]), h, w. split; [exact mesh1_ok|]. do 2 (split; [reflexivity|]). split; [exact E|].
  cbn [ystart mesh1]. rewrite H. lra.
Qed.
Print Assumptions C29_heating_nonnegative_at_ends_refuted.

(** Refuted: with fix_momentum_boundary_flux = false the heating corrects for another momentum
    flux than Div_par_fvv applies: the balance fails with a single cell (no interior faces). *)
Theorem C29_free_boundary_balance_refuted :
  exists m f rn wn rm h wh,
    mesh_ok m 1 /\ closed_low m = true /\ closed_high m = true /\
    Div_par_mod upwind_edges m unit_coords f (fun _ => 1) (fun _ => 0) true = Some (rn, wn) /\
    Div_par_fvv upwind_edges m unit_coords f (fun _ => 1) (fun _ => 0) false = Some rm /\
    Div_par_fvv_heating upwind_edges m unit_coords f (fun _ => 1) (fun _ => 0) false = Some (h, wh) /\
    integral unit_coords (ystart m) 1 (fun j => kinetic_rate 1 (- rn j) (- rm j) + h j)
    <> face_area (c_J unit_coords) (c_g22 unit_coords) (ystart m) * end_kinetic_flux f (fun _ => 1) (ystart m)
      - face_area (c_J unit_coords) (c_g22 unit_coords) (ystart m + 1) * end_kinetic_flux f (fun _ => 1) (ystart m + 1).
Proof.
  destruct free_end_witness as (rn & wn & rm & h & wh & E1 & E2 & E3 & B).
  exists mesh1, (values [1; 1; 3]), rn, wn, rm, h, wh. split; [exact mesh1_ok|]. do 2 (split; [reflexivity|]).
  do 3 (split; [assumption|]). cbn [ystart mesh1]. rewrite B, !unit_area. unfold end_kinetic_flux, face_value. zify_idx. vals. lra.
Qed.
Print Assumptions C29_free_boundary_balance_refuted.

(** Refuted: the diagnostic written for the heating is not the energy source (3/2 of the pressure source) but
    15 times the pressure source. *)
Theorem C29_diagnostic_refuted : exists AA heating,
  E_nvh (Sp_nvh AA heating) = 10 * (AA * heating) /\ E_nvh (Sp_nvh AA heating) <> AA * heating.
Proof. exists 1, 1. unfold E_nvh, Sp_nvh. split; lra. Qed.
Print Assumptions C29_diagnostic_refuted.
