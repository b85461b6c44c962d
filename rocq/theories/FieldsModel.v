(** Electric and magnetic potentials: the radial boundary of the electric potential (src/vorticity.cxx) and the correction of parallel momentum by
    the vector potential (src/electromagnetic.cxx). *)

From Coq Require Import List Bool ZArith Reals.
From Verif Require Import StateMonad MetricModel.
Import ListNotations.
Open Scope R_scope.

(** phi at one y: x, z -> value.  One side of the domain: i is the last cell (xstart or xend), s the direction out of the domain (-1 or 1).
    src/vorticity.cxx 300-324 and 326-349, body of the loop over y: the boundary of phi relaxes towards phivalue.  With one guard cell in x
    (MXG = 1) i + 2 s is outside of the array; that is not modelled. *)
Definition set_face (Nz : nat) (i s : Z) (value : R) (phi : Z -> Z -> R) : Z -> Z -> R :=
  fun x z => if (Z.leb 0 z && Z.ltb z (Z.of_nat Nz) && (Z.eqb x (i + s) || Z.eqb x (i + 2 * s)))%bool then 2 * value - phi i z else phi x z.
Definition relax_face (Nz : nat) (i s : Z) (weight phivalue : R) (phi : Z -> Z -> R) : Z -> Z -> R :=
  let oldvalue := 0.5 * (phi (i + s)%Z 0%Z + phi i 0%Z) in
  let newvalue := weight * oldvalue + (1 - weight) * phivalue in
  set_face Nz i s newvalue phi.
(** 305-311, 329-333: average in Z of the point next to the boundary. *)
Definition next_to_boundary (Nz : nat) (i : Z) (phi : Z -> Z -> R) : R := z_sum Nz (phi i) / INR Nz.
(** 264-275 with the loops: the time of the last update and the field.  Without phi_core_averagey. *)
Definition phi_boundary (Nz : nat) (i s : Z) (timescale time : R) (st : R * (Z -> Z -> R)) : R * (Z -> Z -> R) :=
  let '(last_update, phi) := st in
  if Rltb last_update 0 then (time, phi)
  else if Rltb last_update time then
    let weight := exp (- (time - last_update) / timescale) in
    (time, relax_face Nz i s weight (next_to_boundary Nz i phi) phi)
  else st.

(** phi_core_averagey, 280-297: each processor in the inner communicator sums the values of phi at xstart over its ystart..yend and z; the
    total is divided by np * LocalNz * LocalNy.  [procs]: for each processor, for each y in the domain, the Nz values; [guards]: number of guard
    cells at each end in y (mesh->ystart), so LocalNy = rows + 2 guards. *)
Definition list_sum (l : list R) : R := fold_left Rplus l 0.
Definition core_average (Nz rows guards : nat) (procs : list (list (list R))) : R :=
  let philocal (p : list (list R)) := fold_left (fun acc row => fold_left Rplus row acc) p 0 in
  list_sum (map philocal procs) / (INR (List.length procs) * INR Nz * INR (rows + 2 * guards)).

(** Without phi_boundary_relax, 350-408: the face value is sheathmult times the Z average of Te. *)
Definition sheathmult (sheath_boundary : bool) (Me_Mp : R) : R := if sheath_boundary then ln (0.5 * sqrt (1 / (Me_Mp * PI))) else 0.
Definition sheath_face (Nz : nat) (i s : Z) (mult : R) (Te phi : Z -> Z -> R) : Z -> Z -> R :=
  set_face Nz i s (mult * (z_sum Nz (Te i) / INR Nz)) phi.

(** 410-438: the guard cell given to the solver holds the value of phi + Pi on the face. *)
Definition phi_plus_pi_guard (i s : Z) (phi Pi_hat : Z -> Z -> R) (z : Z) : R :=
  let phi_plus_pi x := phi x z + Pi_hat x z in
  0.5 * (phi_plus_pi (i + s)%Z + phi_plus_pi i).

(** Electromagnetic::transform, src/electromagnetic.cxx 101-215, at one point.  Options of a species; density and AA are always set here. *)
Record em_species := mkEm { charge : option R; density : R; AA : R; momentum : option R; velocity : option R }.
(** 113-119, 184-191: charged and with parallel flow. *)
Definition takes_part (s : em_species) : option (R * R) :=
  match charge s, momentum s with
  | Some Z, Some nv => if Rltb (Rabs Z) 1e-5 then None else Some (Z, nv)
  | _, _ => None
  end.
(** 109-132. *)
Definition alpha_em (l : list em_species) : R :=
  fold_left (fun acc s => match takes_part s with Some (Z, _) => acc + rfloor (density s) 1e-5 * (SQ Z / AA s) | None => acc end) l 0.
Definition Ajpar (l : list em_species) : R :=
  fold_left (fun acc s => match takes_part s with Some (Z, nv) => acc + nv * (Z / AA s) | None => acc end) l 0.
(** Laplacian with coefficient A: Laplace(Apar) + A * Apar = rhs, setCoefA((-beta_em) * alpha_em), solve((-beta_em) * Ajpar), 134-178; lapA is the
    value of the Laplacian of Apar at this point (the solver is part of BOUT++). *)
Definition apar_equation (beta_em lapA Apar : R) (l : list em_species) : Prop :=
  lapA + (- beta_em) * alpha_em l * Apar = (- beta_em) * Ajpar l.
(** 184-211; None: getNonFinal throws because the velocity is not set.  communicate and applyBoundary only change guard cells. *)
Definition correct (Apar : R) (s : em_species) : option em_species :=
  match takes_part s with
  | None => Some s
  | Some (Z, nv) =>
      match velocity s with
      | None => None
      | Some v => Some (mkEm (charge s) (density s) (AA s) (Some (nv - Z * density s * Apar))
                             (Some (v - (Z / AA s) * density s * Apar / rfloor (density s) 1e-5)))
      end
  end.
Fixpoint correct_all (Apar : R) (l : list em_species) : option (list em_species) :=
  match l with
  | [] => Some []
  | s :: l => match correct Apar s, correct_all Apar l with Some s, Some l => Some (s :: l) | _, _ => None end
  end.

(** const_gradient, 137-173, at one boundary point: the gradient given to the solver, without the metric factor.  [outer]: difference across
    the boundary face of the previous Apar, [inner]: difference between the last two cells in the domain. *)
Definition apar_weight (last_time time timescale : R) : R := if Rltb last_time time then exp ((last_time - time) / timescale) else 1.
Definition apar_gradient (timescale time : R) (inner : R) (st : R * R) : R * R :=
  let '(last_time, outer) := st in
  let weight := apar_weight last_time time timescale in
  (time, weight * outer + (1 - weight) * inner).
