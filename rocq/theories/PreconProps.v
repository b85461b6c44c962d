(** C95: preconditioners. *)

From Coq Require Import List Bool ZArith Reals.
From Verif Require Import StateMonad ParallelModel DiffusionModel ParallelSpec DiffusionSpec PreconModel PreconSpec PreconProofs.
Import ListNotations.
Open Scope R_scope.

(** Switched off, nothing changes. *)
Theorem C95_disabled :
  forall enable conduction solve bc gamma floor N kappa scale d, (enable && conduction)%bool = false ->
    pressure_precon enable conduction solve bc gamma floor N kappa scale d = d.
Proof. exact disabled. Qed.
Print Assumptions C95_disabled.

(** With uniform density and scaling of the time derivatives, the preconditioner of the pressure is one implicit step of heat conduction. *)
Theorem C95_pressure :
  forall m c solve bc gamma floor N kappa scale n s d, guards_only m bc -> (forall j, N j = n) -> (forall j, scale_of scale j = s) ->
    (let B := pressure_coef gamma floor N kappa scale in solves m c B (bc (ddt_P d)) (solve B (bc (ddt_P d)))) ->
    implicit_step m gamma (conduction_P m c kappa N floor (scale_of scale)) (seen_P false d)
      (seen_P false (pressure_precon true true solve bc gamma floor N kappa scale d)).
Proof. exact pressure_law. Qed.
Print Assumptions C95_pressure.
Example C95_solution_case : exists rhs, solves two unit_coords (pressure_coef 1 0.01 ones ones None) rhs step_up /\ rhs 1%Z = 1 / 3.
Proof. exact solution_case. Qed.

(** The equation given to the solver has at most one solution, whatever the density; the solution is not larger than the right hand side, has the
    same volume integral, and a constant stays as it is. *)
Theorem C95_well_posed :
  forall m n c gamma floor N kappa scale, mesh_ok m n -> positive_metric c -> closed_low m = true -> closed_high m = true ->
    0 <= gamma -> 0 < floor -> (forall j, 0 <= kappa j) -> (forall j, 0 <= scale_of scale j) ->
    let B := pressure_coef gamma floor N kappa scale in let W := cell_volume (c_J c) (c_dy c) in
    (forall rhs x y, solves m c B rhs x -> solves m c B rhs y -> forall j, inside m j -> x j = y j) /\
    (forall rhs x, solves m c B rhs x -> total W (ystart m) n (fun j => x j * x j) <= total W (ystart m) n (fun j => rhs j * rhs j)) /\
    (forall rhs x, solves m c B rhs x -> total W (ystart m) n x = total W (ystart m) n rhs) /\
    (forall a x, solves m c B (fun _ => a) x -> forall j, inside m j -> x j = a).
Proof. exact well_posed. Qed.
Print Assumptions C95_well_posed.
Example C95_mesh_case : mesh_ok two 2 /\ positive_metric unit_coords /\ closed_low two = true /\ closed_high two = true.
Proof. exact two_ok. Qed.

(** Where the density varies it is not an implicit step of conduction: the density is inside the divergence but outside of the gradient. *)
Theorem C95_density_refuted :
  exists m n c gamma floor N kappa rhs x, mesh_ok m n /\ positive_metric c /\ 0 < gamma /\ 0 < floor /\ (forall j, floor <= N j /\ 0 < kappa j) /\
    solves m c (pressure_coef gamma floor N kappa None) rhs x /\ ~ implicit_step m gamma (conduction_P m c kappa N floor ones) rhs x.
Proof. exact density_witness. Qed.
Print Assumptions C95_density_refuted.

(** Where the scaling of time derivatives varies it is not either: the scaling is put inside the divergence. *)
Theorem C95_scale_refuted :
  exists m n c gamma floor N kappa s rhs x, mesh_ok m n /\ positive_metric c /\ 0 < gamma /\ 0 < floor /\ (forall j, N j = 1 /\ 0 < kappa j /\ 0 < s j) /\
    solves m c (pressure_coef gamma floor N kappa (Some s)) rhs x /\ ~ implicit_step m gamma (conduction_P m c kappa N floor s) rhs x.
Proof. exact scale_witness. Qed.
Print Assumptions C95_scale_refuted.

(** With evolve_log the preconditioner acts on ddt(P), which the solver does not read, whatever the coefficients: ddt(logP) stays as it is. *)
Theorem C95_log_refuted :
  exists m c gamma floor N kappa d, 0 < gamma /\ (forall j, N j = 1) /\ (forall j, kappa j = 1) /\
    forall solve bc, ~ implicit_step m gamma (conduction_P m c kappa N floor ones) (seen_P true d) (seen_P true (pressure_precon true true solve bc gamma floor N kappa None d)).
Proof. exact log_witness. Qed.
Print Assumptions C95_log_refuted.
Theorem C95_log_untouched :
  forall enable conduction solve bc gamma floor N kappa scale d,
    seen_P true (pressure_precon enable conduction solve bc gamma floor N kappa scale d) = seen_P true d.
Proof. exact log_untouched. Qed.
Print Assumptions C95_log_untouched.

(** evolve_energy: the preconditioner changes ddt(P), while E or logE is the variable of the solver. *)
Theorem C95_energy_untouched :
  forall enable conduction solve bc gamma floor N kappa scale evolve_log d,
    seen_E evolve_log (energy_precon enable conduction solve bc gamma floor N kappa scale d) = seen_E evolve_log d.
Proof. exact energy_untouched. Qed.
Print Assumptions C95_energy_untouched.

(** So it is not an implicit step of conduction, even of uniform gas. *)
Theorem C95_energy_refuted :
  exists m c gamma floor N kappa d, 0 < gamma /\ (forall j, N j = 1) /\ (forall j, kappa j = 1) /\
    forall solve bc, ~ implicit_step m gamma (conduction_E m c kappa N floor ones) (seen_E false d) (seen_E false (energy_precon true true solve bc gamma floor N kappa None d)).
Proof. exact energy_witness. Qed.
Print Assumptions C95_energy_refuted.

(** Its coefficient lacks the factor 2/3 between energy and pressure. *)
Theorem C95_energy_coefficient_refuted :
  exists m n c gamma floor N kappa rhs x, mesh_ok m n /\ positive_metric c /\ 0 < gamma /\ 0 < floor /\ (forall j, N j = 1 /\ kappa j = 1) /\
    solves m c (energy_coef gamma floor N kappa None) rhs x /\ ~ implicit_step m gamma (conduction_E m c kappa N floor ones) rhs x.
Proof. exact energy_coef_witness. Qed.
Print Assumptions C95_energy_coefficient_refuted.

(** neutral_mixed: density, pressure and momentum (if it evolves) each get one implicit step of diffusion with Dnn. *)
Theorem C95_neutral :
  forall m (L : line -> line) solve gamma Dnn scale evolve_momentum d,
    (forall rhs, List.In rhs [ddt_Nn d; ddt_NVn d; ddt_Pn d] ->
       forall j, inside m j -> solve (neutral_coef gamma Dnn scale) rhs j + neutral_coef gamma Dnn scale j * L (solve (neutral_coef gamma Dnn scale) rhs) j = rhs j) ->
    let F x j := scale_of scale j * (Dnn j * L x j) in let d' := neutral_precon true evolve_momentum solve gamma Dnn scale d in
    implicit_step m gamma F (ddt_Nn d) (ddt_Nn d') /\ implicit_step m gamma F (ddt_Pn d) (ddt_Pn d') /\
    (evolve_momentum = true -> implicit_step m gamma F (ddt_NVn d) (ddt_NVn d')) /\ (evolve_momentum = false -> ddt_NVn d' = ddt_NVn d).
Proof. exact neutral_law. Qed.
Print Assumptions C95_neutral.

(** Pressure diffuses with 5/3 Dnn in the equation (src/neutral_mixed.cxx 391), not with Dnn as in the preconditioner. *)
Theorem C95_neutral_pressure_refuted :
  exists m (L : line -> line) solve gamma Dnn d, 0 < gamma /\ (forall j, 0 < Dnn j) /\
    (forall rhs j, solve (neutral_coef gamma Dnn None) rhs j + neutral_coef gamma Dnn None j * L (solve (neutral_coef gamma Dnn None) rhs) j = rhs j) /\
    ~ implicit_step m gamma (fun x j => 5 / 3 * (Dnn j * L x j)) (ddt_Pn d) (ddt_Pn (neutral_precon true true solve gamma Dnn None d)).
Proof. exact neutral_witness. Qed.
Print Assumptions C95_neutral_pressure_refuted.

(** All components in turn: linear if each of them is. *)
Theorem C95_linear :
  forall (State D : Type) (plus : D -> D -> D) (times : R -> D -> D) set_time (components : list (State -> R -> D -> D)) t gamma state,
    (forall f s, List.In f components -> linear plus times (f s gamma)) -> linear plus times (fun d => snd (hermes_precon set_time components t gamma state d)).
Proof. exact hermes_linear. Qed.
Print Assumptions C95_linear.
