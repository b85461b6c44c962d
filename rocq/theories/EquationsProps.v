(** C90: the equations of density, momentum, pressure and energy fit together. *)

From Coq Require Import List Bool ZArith Reals Lra.
From Coquelicot Require Import Coquelicot.
From Verif Require Import StateMonad LimitersModel ParallelModel ParallelSpec ParallelProofs ParallelHeating WallsModel WallsSpec DiffusionModel EvolveModel EvolveSpec EvolveProofs EvolveLaws EquationsProofs.
Import ListNotations.
Open Scope R_scope.

(** For smooth profiles along the field (the values of the operators being the derivatives), what the equations of pressure (both forms),
    density and momentum do to the energy 3/2 P + A N V^2 / 2 is the equation of energy, but for the work of the electric field, which the
    equation of energy leaves out, and the kinetic energy of particles added. *)
Theorem C90_energy_equation A Z s (N V P : R -> R) dN dV dP dphi (form : bool) an am ap ae q psrc es ms ns :
  is_derive N s dN -> is_derive V s dV -> is_derive P s dP ->
  is_derive (fun x => N x * V x) s an -> is_derive (fun x => N x * V x * V x) s am -> is_derive (fun x => P x * V x) s ap ->
  is_derive (fun x => (heat_capacity (5 / 3) * P x + A * N x * (V x * V x) / 2 + P x) * V x) s ae -> 0 <= P s -> N s <> 0 ->
  energy_rate (heat_capacity (5 / 3)) A (V s)
    (ddt_P form (mkPterms 0 ap dV dP (V s) 0 q psrc es 1) (P s) (N s) (P s / N s))
    (ddt_N 0 an ns 1)
    (ddt_NV 0 Z (N s) dphi A am dP ms 0 1)
  = ddt_E 0 ae 0 q 0 (energy_sources (3 / 2 * psrc) es ms (V s)) 1 - Z * N s * V s * dphi - A * (V s * V s) / 2 * ns.
Proof. exact (fun HN HV HP => energy_equation A Z s N V P dN dV dP dphi HN HV HP form an am ap ae q psrc es ms ns). Qed.
Print Assumptions C90_energy_equation.

(** a flow with density 2 + x, velocity 1 + x and pressure 3 + x, at 0 *)
Example C90_energy_equation_case :
  is_derive (fun x => 2 + x) 0 1 /\ is_derive (fun x => 1 + x) 0 1 /\ is_derive (fun x => 3 + x) 0 1 /\
  is_derive (fun x => (2 + x) * (1 + x)) 0 3 /\ is_derive (fun x => (2 + x) * (1 + x) * (1 + x)) 0 5 /\ is_derive (fun x => (3 + x) * (1 + x)) 0 4 /\
  is_derive (fun x => (heat_capacity (5 / 3) * (3 + x) + 1 * (2 + x) * ((1 + x) * (1 + x)) / 2 + (3 + x)) * (1 + x)) 0 13.5 /\ 0 <= 3 + 0 /\ 2 + 0 <> 0.
Proof. exact smooth_case. Qed.

(** Refuted: that the equation of energy is the equation of the energy of the species.  It has no work of the parallel electric field,
    which accelerates the species in the equation of momentum: the pressure derived from the energy makes up for it. *)
Theorem C90_electric_work_refuted : exists A Z N V dphi, 0 < A /\ 0 < N /\ 0 < Z /\
  energy_rate (heat_capacity (5 / 3)) A V (ddt_P false (mkPterms 0 0 0 0 V 0 0 0 0 1) 1 N (1 / N)) (ddt_N 0 0 0 1) (ddt_NV 0 Z N dphi A 0 0 0 0 1)
  <> ddt_E 0 0 0 0 0 (energy_sources 0 0 0 V) 1.
Proof. exact no_work. Qed.
Print Assumptions C90_electric_work_refuted.

(** The electric field exerts no force on a quasi-neutral plasma: the momentum of all species together changes by inertia, the gradient
    of the total pressure and the sources. *)
Theorem C90_total_momentum gradphi scale l : sum_over (fun s => f_Z s * f_N s) l = 0 ->
  sum_over (fun s => ddt_NV 0 (f_Z s) (f_N s) gradphi (f_A s) (f_fvv s) (f_gradP s) (f_source s) 0 scale) l
  = scale * (sum_over f_source l - sum_over f_gradP l - sum_over (fun s => f_A s * f_fvv s) l).
Proof. exact (total_momentum gradphi scale l). Qed.
Print Assumptions C90_total_momentum.

(** electrons and doubly charged ions *)
Example C90_total_momentum_case : sum_over (fun s => f_Z s * f_N s) [mkForce (-1) 2 (1 / 1836) 0 3 1; mkForce 2 1 4 5 7 (-1)] = 0.
Proof. unfold sum_over. cbn [fold_right f_Z f_N]. lra. Qed.

(** On a line closed at both ends particles come only from the source, ... *)
Theorem C90_particles_on_a_line edges m c n N V ws src : mesh_ok m n -> positive_metric c -> closed_low m = true -> closed_high m = true ->
  exists r w, Div_par_mod edges m c (noflow_scalar m true true N) (noflow_flow m true true V) ws true = Some (r, w) /\
  integral c (ystart m) n (fun j => ddt_N 0 (r j) (src j) 1) = integral c (ystart m) n src.
Proof. exact (line_particles edges m c n N V ws src). Qed.
Print Assumptions C90_particles_on_a_line.
(** ... and energy from its source and the work of the momentum source, with any conduction. *)
Theorem C90_energy_on_a_line edges m c n EP V ws K T src es ms : mesh_ok m n -> positive_metric c -> closed_low m = true -> closed_high m = true ->
  exists r w, Div_par_mod edges m c (noflow_scalar m true true EP) (noflow_flow m true true V) ws true = Some (r, w) /\
  integral c (ystart m) n (fun j => ddt_E 0 (r j) 0 (fst (Div_par_K_Grad_par_mod m c K T false j)) 0 (energy_sources (src j) (es j) (ms j) (V j)) 1)
  = integral c (ystart m) n (fun j => src j + es j + V j * ms j).
Proof. exact (line_energy edges m c n EP V ws K T src es ms). Qed.
Print Assumptions C90_energy_on_a_line.
Example C90_line_case : mesh_ok mesh2 2 /\ positive_metric unit_coords /\ closed_low mesh2 = true /\ closed_high mesh2 = true.
Proof. split; [exact mesh2_ok|]. split; [exact unit_positive|]. split; reflexivity. Qed.
