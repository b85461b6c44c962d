(** Theorems about advection with the ExB drift: C27 (and C68: cells without density). *)

From Coq Require Import List Bool ZArith Reals Lra Lia.
From Verif Require Import StateMonad LimitersModel LimitersSpec LimitersProofs ParallelModel ParallelSpec ParallelHeating DiffusionModel DiffusionSpec
  DiffusionProofs2 ExBModel ExBSpec ExBProofs ExBLaws ExBLaws2.
Import ListNotations.
Open Scope R_scope.

(** ** C27: the X-Z part *)

Theorem C27_divergence_of_face_fluxes : forall edges nzn J dx dz h n f bndry_flux sizes N i k,
  xz_domain nzn J dx dz h sizes N -> (0 <= i < N)%Z -> (0 <= k < Z.of_nat nzn)%Z ->
  let nz := Z.of_nat nzn in
  let X := x_line edges nz J h n one_faces f bndry_flux N in
  let Z := z_flux_exb edges nz J dx n one_faces f in
  XPPM_XZ edges (processors 0 sizes) N nz J dx dz n f bndry_flux i k
  = (X (i + 1)%Z k - X i k) / (dx i * J i) + (Z i (zplus nz k) - Z i k) / (J i * h).
Proof. exact xppm_divergence. Qed.
Print Assumptions C27_divergence_of_face_fluxes.

Theorem C27_divergence_of_face_fluxes_with_g : forall edges nzn J dx dz h n g f bndry_flux sizes N i k,
  xz_domain nzn J dx dz h sizes N -> (0 <= i < N)%Z -> (0 <= k < Z.of_nat nzn)%Z ->
  let nz := Z.of_nat nzn in
  let X := x_line edges nz J h n (mean_x g) f bndry_flux N in
  let Z := z_flux_exb edges nz J dx n (mean_z nz g) f in
  Div_n_g_bxGrad_f_B_XZ edges (processors 0 sizes) N nz J dx dz n g f bndry_flux i k
  = (X (i + 1)%Z k - X i k) / (dx i * J i) + (Z i (zplus nz k) - Z i k) / (J i * h).
Proof. exact xzg_divergence. Qed.
Print Assumptions C27_divergence_of_face_fluxes_with_g.

Theorem C27_integral_is_radial_flux : forall edges nzn J dx dz h n f bndry_flux sizes N,
  xz_domain nzn J dx dz h sizes N ->
  let nz := Z.of_nat nzn in
  total2 (fun i _ => J i * dx i) 0 (list_sum sizes) 0 nzn (XPPM_XZ edges (processors 0 sizes) N nz J dx dz n f bndry_flux)
  = zsum 0 nzn (fun k => x_line edges nz J h n one_faces f bndry_flux N N k - x_line edges nz J h n one_faces f bndry_flux N 0 k).
Proof. exact xppm_total. Qed.
Print Assumptions C27_integral_is_radial_flux.

Theorem C27_integral_is_radial_flux_with_g : forall edges nzn J dx dz h n g f bndry_flux sizes N,
  xz_domain nzn J dx dz h sizes N ->
  let nz := Z.of_nat nzn in
  total2 (fun i _ => J i * dx i) 0 (list_sum sizes) 0 nzn (Div_n_g_bxGrad_f_B_XZ edges (processors 0 sizes) N nz J dx dz n g f bndry_flux)
  = zsum 0 nzn (fun k => x_line edges nz J h n (mean_x g) f bndry_flux N N k - x_line edges nz J h n (mean_x g) f bndry_flux N 0 k).
Proof. exact xzg_total. Qed.
Print Assumptions C27_integral_is_radial_flux_with_g.

Theorem C27_closed_boundary : forall edges nzn J dx dz h n f sizes N,
  xz_domain nzn J dx dz h sizes N ->
  total2 (fun i _ => J i * dx i) 0 (list_sum sizes) 0 nzn (XPPM_XZ edges (processors 0 sizes) N (Z.of_nat nzn) J dx dz n f false) = 0.
Proof. exact xppm_closed. Qed.
Print Assumptions C27_closed_boundary.

Theorem C27_closed_boundary_with_g : forall edges nzn J dx dz h n g f sizes N,
  xz_domain nzn J dx dz h sizes N ->
  total2 (fun i _ => J i * dx i) 0 (list_sum sizes) 0 nzn (Div_n_g_bxGrad_f_B_XZ edges (processors 0 sizes) N (Z.of_nat nzn) J dx dz n g f false) = 0.
Proof. exact xzg_closed. Qed.
Print Assumptions C27_closed_boundary_with_g.

(** However the X direction is split between processors, the result is that of one processor. *)
Theorem C27_processors : forall edges N nz J dx dz n g f bndry_flux sizes,
  Forall (fun s => (0 < s)%nat) sizes -> N = Z.of_nat (list_sum sizes) -> (0 < list_sum sizes)%nat ->
  XPPM_XZ edges (processors 0 sizes) N nz J dx dz n f bndry_flux
  = XPPM_XZ edges (processors 0 [list_sum sizes]) N nz J dx dz n f bndry_flux /\
  Div_n_g_bxGrad_f_B_XZ edges (processors 0 sizes) N nz J dx dz n g f bndry_flux
  = Div_n_g_bxGrad_f_B_XZ edges (processors 0 [list_sum sizes]) N nz J dx dz n g f bndry_flux.
Proof.
  intros edges N nz J dx dz n g f bndry_flux sizes Hs HN Hp.
  exact (conj (xz_split edges N nz J dx dz n g_none f bndry_flux sizes Hs HN Hp)
              (xz_split edges N nz J dx dz n (g_mean nz g) f bndry_flux sizes Hs HN Hp)).
Qed.
Print Assumptions C27_processors.

(** Divergence of the flow itself: the gradient of J times the radial velocity, so zero if J is uniform. *)
Theorem C27_divergence_of_flow : forall edges nzn J dx dz h c f sizes N i k,
  xz_domain nzn J dx dz h sizes N -> (forall x, edges x x x = (x, x)) -> (0 <= i < N)%Z -> (0 <= k < Z.of_nat nzn)%Z ->
  let nz := Z.of_nat nzn in
  XPPM_XZ edges (processors 0 sizes) N nz J dx dz (fun _ _ => c) f true i k
  = c * ((J (i + 1)%Z - J i) / 2 * ((corner nz f (i + 1) (zplus nz k) - corner nz f (i + 1) k) / h)
         + (J i - J (i - 1)%Z) / 2 * ((corner nz f i (zplus nz k) - corner nz f i k) / h)) / (dx i * J i).
Proof. exact xppm_uniform. Qed.
Print Assumptions C27_divergence_of_flow.

Theorem C27_divergence_free_partial : forall edges nzn J dx dz h c f sizes N i k,
  xz_domain nzn J dx dz h sizes N -> (forall x, edges x x x = (x, x)) -> (0 <= i < N)%Z -> (0 <= k < Z.of_nat nzn)%Z ->
  (forall i, J (i + 1)%Z = J i) ->
  XPPM_XZ edges (processors 0 sizes) N (Z.of_nat nzn) J dx dz (fun _ _ => c) f true i k = 0.
Proof. exact xppm_uniform_J. Qed.
Print Assumptions C27_divergence_free_partial.

(** With J varying radially it is not free of divergence. *)
Theorem C27_divergence_free_refuted : exists nzn J dx dz h f sizes N i k,
  xz_domain nzn J dx dz h sizes N /\ (0 <= i < N)%Z /\ (0 <= k < Z.of_nat nzn)%Z /\
  XPPM_XZ mc_edges (processors 0 sizes) N (Z.of_nat nzn) J dx dz (fun _ _ => 1) f true i k <> 0.
Proof. exact xppm_compressible. Qed.
Print Assumptions C27_divergence_free_refuted.

(** ** C27: the poloidal parts *)

Theorem C27_poloidal_x : forall m c J dx q d n bndry_flux positive,
  xmesh_ok m c -> (forall i, 0 < J i) -> (forall i, 0 < dx i) ->
  (forall i, (xstart m <= i < xstart m + Z.of_nat c)%Z ->
     J i * dx i * pol_x m J dx q d n bndry_flux positive i
     = pol_x_line m J q d n bndry_flux positive (i + 1) - pol_x_line m J q d n bndry_flux positive i) /\
  total (fun i => J i * dx i) (xstart m) c (pol_x m J dx q d n bndry_flux positive)
  = pol_x_line m J q d n bndry_flux positive (xstart m + Z.of_nat c) - pol_x_line m J q d n bndry_flux positive (xstart m).
Proof.
  intros m c J dx q d n bf p M HJ Hdx.
  exact (conj (fun i Hi => pol_x_cell m c J dx q d n bf p i M HJ Hdx Hi) (pol_x_total m c J dx q d n bf p M HJ Hdx)).
Qed.
Print Assumptions C27_poloidal_x.

Theorem C27_poloidal_y : forall m c J dy q d n bndry_flux positive,
  mesh_ok m c -> (forall j, 0 < J j) -> (forall j, 0 < dy j) ->
  (forall j, (ystart m <= j < ystart m + Z.of_nat c)%Z ->
     J j * dy j * pol_y m J dy q d n bndry_flux positive j
     = pol_y_line m J q d n bndry_flux positive (j + 1) - pol_y_line m J q d n bndry_flux positive j) /\
  total (fun j => J j * dy j) (ystart m) c (pol_y m J dy q d n bndry_flux positive)
  = pol_y_line m J q d n bndry_flux positive (ystart m + Z.of_nat c) - pol_y_line m J q d n bndry_flux positive (ystart m).
Proof.
  intros m c J dy q d n bf p M HJ Hdy.
  exact (conj (fun j Hj => pol_y_cell m c J dy q d n bf p j M HJ Hdy Hj) (pol_y_total m c J dy q d n bf p M HJ Hdy)).
Qed.
Print Assumptions C27_poloidal_y.

(** Nothing comes in through the ends of a closed field line. *)
Theorem C27_poloidal_outflow : forall m c J q d n bndry_flux,
  mesh_ok m c -> closed_low m = true -> closed_high m = true ->
  pol_y_line m J q d n bndry_flux true (ystart m) <= 0 /\ 0 <= pol_y_line m J q d n bndry_flux true (ystart m + Z.of_nat c).
Proof. exact pol_y_outflow. Qed.
Print Assumptions C27_poloidal_outflow.

(** The hypotheses hold on 3 processors with 2, 1 and 3 cells and 4 points in Z. *)
Example C27_case : xz_domain 4 varying_J one one 1 [2; 1; 3]%nat 6 /\ (forall x, mc_edges x x x = (x, x)) /\
  bounded_by_neighbours mc_edges /\ flat_at_extrema mc_edges /\
  xmesh_ok (mkXmesh 2 4 7 true true) 3 /\ mesh_ok mesh1 1.
Proof. exact (conj exb_domain (conj mc_const (conj mc_bounded (conj mc_flat (conj exb_xmesh mesh1_ok))))). Qed.

(** ** C68: cells without density *)

Theorem C68_exb_empty_cell : forall edges nzn J dx dz h n f bndry_flux sizes N i k,
  xz_domain nzn J dx dz h sizes N -> bounded_by_neighbours edges -> flat_at_extrema edges ->
  (forall i k, 0 <= n i k) -> n i k = 0 -> (0 <= i < N)%Z -> (0 <= k < Z.of_nat nzn)%Z ->
  XPPM_XZ edges (processors 0 sizes) N (Z.of_nat nzn) J dx dz n f bndry_flux i k <= 0.
Proof. exact xppm_empty. Qed.
Print Assumptions C68_exb_empty_cell.

(** The poloidal part takes particles from an empty cell, even with positive set. *)
Theorem C68_exb_poloidal_refuted : exists m c J dx q d n i,
  xmesh_ok m c /\ (forall i, 0 < J i) /\ (forall i, 0 < dx i) /\ (forall i, 0 <= n i) /\ n i = 0 /\
  (xstart m <= i < xstart m + Z.of_nat c)%Z /\ 0 < pol_x m J dx q d n false true i.
Proof.
  exists (mkXmesh 2 4 7 true true), 3%nat, one, one, one, one, (values [0; 0; 0; 0; 4; 4; 4]), 3%Z.
  refine (conj exb_xmesh (conj (fun _ => Rlt_0_1) (conj (fun _ => Rlt_0_1) (conj _ (conj _ (conj _ pol_x_drains_empty_cell)))))).
  - exact values_step_nonneg.
  - reflexivity.
  - cbn. lia.
Qed.
Print Assumptions C68_exb_poloidal_refuted.
