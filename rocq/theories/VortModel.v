(** The rest of the vorticity equation: the potential and its outer guard cells, src/vorticity.cxx 410-482, the right hand side,
    Vorticity::finally 630-773, and RelaxPotential::finally, src/relax_potential.cxx 167-253.

    Simplifications: exact reals; a field gives one value per cell, cells numbered by Z; differential operators, solvers, boundary conditions and
    transforms to field-aligned coordinates belong to BOUT++ and are arguments; communicate only sets guard cells shared with other processors and
    is part of the operators. *)

From Coq Require Import List Bool ZArith Reals.
From Verif Require Import StateMonad ParallelModel DiffusionModel DriftModel.
Import ListNotations.
Open Scope R_scope.

Definition plus (f g : field) : field := fun i => f i + g i.
Definition minus (f g : field) : field := fun i => f i - g i.
Definition times (r : R) (f : field) : field := fun i => r * f i.

(** Operators.  [adv n f]: Div_n_bxGrad_f_B_XPPM(n, f, bndry_flux, poloidal_flows); [fv_div_par f w]: FV::Div_par(f, 0.0, w). *)
Record operators := mkOperators {
  adv : field -> field -> field; bracket : field -> field -> field; div_a_grad : field -> field -> field; delp2 : field -> field;
  free_o2 : field -> field; div_par : field -> field; fv_div_par : field -> field -> field; d4dz4 : field -> field }.

(** The electric potential, 440-458.  [solve rhs x0]: phiSolver->solve, [solve2 rhs x0]: laplacexy->solve, [dc]: DC, the average over z. *)
Definition potential (split_n0 : bool) (solve solve2 : field -> field -> field) (dc : field -> field) (average : R) (Bsq Vort phi_plus_pi Pi_hat : field) : field :=
  if split_n0 then
    let Vort2D := dc Vort in
    let phi_plus_pi_2d := dc phi_plus_pi in
    let phi_plus_pi := minus phi_plus_pi phi_plus_pi_2d in
    let phi_plus_pi_2d := solve2 Vort2D phi_plus_pi_2d in
    minus (plus phi_plus_pi_2d (solve (fun i => (Vort i - Vort2D i) * (Bsq i / average)) phi_plus_pi)) Pi_hat
  else minus (solve (fun i => Vort i * (Bsq i / average)) phi_plus_pi) Pi_hat.

(** Outer boundary cells, 463-482, along x at one y and z: copies from xstart - 2 down to 0 and from xend + 2 up to LocalNx - 1. *)
Definition copy_inner (x : xmesh) (phi : Z -> R) : Z -> R :=
  if firstX x then fold_left (fun phi i => upd phi i (phi (i + 1)%Z)) (rev (irange 0 (xstart x - 2))) phi else phi.
Definition copy_outer (x : xmesh) (phi : Z -> R) : Z -> R :=
  if lastX x then fold_left (fun phi i => upd phi i (phi (i - 1)%Z)) (irange (xend x + 2) (LocalNx x - 1)) phi else phi.
Definition outer_cells (x : xmesh) (phi : Z -> R) : Z -> R := copy_outer x (copy_inner x phi).

(** ExB advection, 636-666: what is subtracted from ddt(Vort). *)
Definition exb_simplified (op : operators) (Vort phi : field) : field := adv op Vort phi.
Definition exb_full (op : operators) (average : R) (Bsq Vort phi Pi_hat : field) : field :=
  let first := adv op (times 0.5 Vort) phi in
  let vEdotGradPi := free_o2 op (bracket op phi Pi_hat) in
  let DelpPhi_2B2 := free_o2 op (fun i => 0.5 * average * delp2 op phi i / Bsq i) in
  plus (plus first (div_a_grad op (fun i => 0.5 * average / Bsq i) vEdotGradPi)) (adv op DelpPhi_2B2 (plus phi Pi_hat)).

(** Parallel currents, 676-704 (relax_potential.cxx 183-203 without flutter).  None: density or AA is not set, get throws. *)
Definition add_current (op : operators) (Bxy : field) (flutter : option field) (acc : option field) (s : species) : option field :=
  match acc, charge s, momentum s with
  | None, _, _ => None
  | Some ddt, Some Z, Some NV =>
      if Rltb (Rabs Z) 1e-5 then Some ddt
      else match density s, AA s with
           | Some _, Some A =>
               let jpar := fun i => Z / A * NV i in
               let ddt := plus ddt (div_par op jpar) in
               Some (match flutter with
                     | Some Apar => plus ddt (fun i => Bxy i * bracket op (fun k => jpar k / Bxy k) Apar i)
                     | None => ddt
                     end)
           | _, _ => None
           end
  | Some ddt, _, _ => Some ddt
  end.
Definition currents (op : operators) (Bxy : field) (flutter : option field) (l : list species) (ddt : option field) : option field :=
  fold_left (add_current op Bxy flutter) l ddt.

(** Dissipation at sheaths, 733-756, along one field line: dissipation[i] is assigned at the lower, then at the upper end. *)
Definition sheath_line (m : mesh) (lower upper : bool) (phi : Z -> R) : Z -> R :=
  let d : Z -> R := fun _ => 0 in
  let d := if lower then upd d (ystart m) (sheath_dissipation (phi (ystart m)) (phi (ystart m - 1)%Z)) else d in
  if upper then upd d (yend m) (sheath_dissipation (phi (yend m)) (phi (yend m + 1)%Z)) else d.

(** Options of the component. *)
Record vort_options := mkVortOptions {
  exb_advection : bool; exb_advection_simplified : bool; vort_dissipation : bool; phi_dissipation : bool; hyper_z : R; average_atomic_mass : R; viscosity : field }.
(** Vorticity::finally, 630-731, before the two terms at boundaries.  [start]: ddt(Vort) after transform.  None: a get throws. *)
Definition vort_finally (o : vort_options) (op : operators) (Bxy dz : field) (Vort phi Pi_hat start : field) (DivJextra flutter sound_speed : option field)
    (l : list species) : option field :=
  let Bsq := fun i => Bxy i * Bxy i in
  let ddt := if exb_advection o then
               minus start (if exb_advection_simplified o then exb_simplified op Vort phi else exb_full op (average_atomic_mass o) Bsq Vort phi Pi_hat)
             else start in
  let ddt := match DivJextra with Some J => plus ddt J | None => ddt end in
  match currents op Bxy flutter l (Some ddt) with
  | None => None
  | Some ddt =>
      let ddt := plus ddt (div_a_grad op (viscosity o) Vort) in
      match (if vort_dissipation o then match sound_speed with Some w => Some (minus ddt (fv_div_par op Vort w)) | None => None end else Some ddt) with
      | None => None
      | Some ddt =>
          match (if phi_dissipation o then match sound_speed with Some w => Some (minus ddt (fv_div_par op (fun i => - phi i) w)) | None => None end else Some ddt) with
          | None => None
          | Some ddt =>
              Some (if Rltb 0 (hyper_z o) then minus ddt (fun i => hyper_z o * (dz i ^ 4) * d4dz4 op Vort i) else ddt)
          end
      end
  end.

(** RelaxPotential::finally without the Boussinesq approximation, src/relax_potential.cxx 221-251.  None: AA or density of a charged species
    is not set. *)
Definition add_phi_vort (op : operators) (dia_pol : bool) (Bsq phi : field) (acc : option field) (s : species) : option field :=
  match acc, charged s with
  | None, _ => None
  | Some a, None => Some a
  | Some a, Some _ =>
      match AA s, density s with
      | Some A, Some N =>
          let a := plus a (div_a_grad op (fun k => A / Bsq k * N k) phi) in
          Some (match (if dia_pol then pressure s else None) with Some P => plus a (div_a_grad op (fun k => A / Bsq k) P) | None => a end)
      | _, _ => None
      end
  end.
Definition relax_full (op : operators) (dia_pol : bool) (lambda_1 : R) (Bsq phi Vort : field) (l : list species) : option field :=
  match fold_left (add_phi_vort op dia_pol Bsq phi) l (Some zero) with
  | Some phi_vort => Some (fun i => lambda_1 * (phi_vort i - Vort i))
  | None => None
  end.
