(** NeutralMixed, src/neutral_mixed.cxx: boundary values, the diffusion coefficient and the time derivatives along a field line.

    Simplifications: exact reals; one line of cells along the field; BOUT++'s Div_par and Grad_par and the perpendicular operators enter as
    arbitrary operators on lines (Div_a_Grad_perp_flows is modelled in PerpModel); default boundary conditions: Neumann for T, P, N and logP,
    Dirichlet for the diffusion coefficients (131-159), applied at the Y ends to the first guard cell: guard = cell, or guard = - cell. *)

From Coq Require Import List Bool ZArith Reals.
From Verif Require Import StateMonad LimitersModel ParallelModel DiffusionModel WallsModel.
Import ListNotations.
Open Scope R_scope.

Record nset := mkNset { AA : R; density_floor : R; pressure_floor : R; sheath_ydown : bool; sheath_yup : bool; lax_flux : bool;
                        flux_limit : R; diffusion_limit : R; neutral_lmax : R; neutral_conduction : bool; neutral_viscosity : bool }.
(** The evolving variables on a line, with whatever is in their guard cells. *)
Record evolving := mkEv { e_N : Z -> R; e_P : Z -> R; e_NV : Z -> R }.
(** After transform. *)
Record nline := mkNline { Nn : Z -> R; Nnlim : Z -> R; Pn : Z -> R; Pnlim : Z -> R; Tn : Z -> R; Vn : Z -> R; NVn : Z -> R }.

(** Density at a wall, 195-203 and 227-235: linear extrapolation, not below zero. *)
Definition nnwall (cell next : R) : R :=
  let w := 0.5 * (3 * cell - next) in if Rltb w 0 then 0 else w.
Definition wall_density (m : mesh) (down up : bool) (N : Z -> R) : Z -> R :=
  let N := if (down && at_lower m)%bool then upd N (ystart m - 1) (2 * nnwall (N (ystart m)) (N (ystart m + 1)%Z) - N (ystart m)) else N in
  if (up && at_upper m)%bool then upd N (yend m + 1) (2 * nnwall (N (yend m)) (N (yend m - 1)%Z) - N (yend m)) else N.

(** transform, 162-251. *)
Definition transform (s : nset) (m : mesh) (e : evolving) : nline :=
  let Nn j := rfloor (e_N e j) 0 in
  let Pn j := rfloor (e_P e j) 0 in
  let Nnlim j := rfloor (Nn j) (density_floor s) in
  let Tn := noflow_scalar m true true (fun j => Pn j / Nnlim j) in
  let Vn := noflow_scalar m true true (fun j => e_NV e j / (AA s * Nnlim j)) in
  let Pnlim := noflow_scalar m true true (fun j => rfloor (Pn j) (pressure_floor s)) in
  mkNline (wall_density m (sheath_ydown s) (sheath_yup s) Nn) Nnlim (noflow_scalar m (sheath_ydown s) (sheath_yup s) Pn)
          (noflow_scalar m (sheath_ydown s) (sheath_yup s) Pnlim) (noflow_scalar m (sheath_ydown s) (sheath_yup s) Tn)
          (noflow_flow m (sheath_ydown s) (sheath_yup s) Vn) (noflow_flow m (sheath_ydown s) (sheath_yup s) (e_NV e)).

(** finally, 280-306: the diffusion coefficient at a point, with temperature T, collision frequency nu (0 if it is not set) and magnitude of the
    gradient of logPnlim g. *)
Definition Rnn (s : nset) (T : R) : R := sqrt (rfloor T 1e-5 / AA s) / neutral_lmax s.
Definition Dnn_at (s : nset) (T nu g : R) : R :=
  let D := (T / AA s) / (nu + Rnn s T) in
  let D := if Rltb 0 (flux_limit s) then BOUTMIN D (flux_limit s * sqrt (T / AA s) / (Rabs g + 1 / neutral_lmax s)) else D in
  if Rltb 0 (diffusion_limit s) then BOUTMIN D (diffusion_limit s) else D.

(** 308-341: products with the diffusion coefficient, whose guard cells at the ends are the negative of the cell (Dirichlet by default, and again
    by the loops over the walls). *)
Definition with_D (s : nset) (m : mesh) (D f : Z -> R) : Z -> R := noflow_flow m (sheath_ydown s) (sheath_yup s) (noflow_flow m true true (fun j => D j * f j)).
(** 344-361. *)
Definition sound_speed (s : nset) (T : R) : R := if lax_flux s then sqrt (T * (5 / 3) / AA s) else 0.
Definition kappa_n (s : nset) (m : mesh) (D f : Z -> R) : Z -> R := fun j => (5 / 2) * with_D s m D f j.
Definition eta_n (s : nset) (m : mesh) (D f : Z -> R) : Z -> R := fun j => AA s * (2 / 5) * kappa_n s m D f j.

(** Operators of BOUT++ and across the field: of a line, or of two (coefficient and differentiated field). *)
Record operators := mkOps { Div_par : (Z -> R) -> Z -> R; Grad_par : (Z -> R) -> Z -> R; Perp : (Z -> R) -> (Z -> R) -> Z -> R; logarithm : R -> R }.
(** Sources of other components. *)
Record nsources := mkNs { S_n : Z -> R; S_p : Z -> R; S_nv : Z -> R }.

(** ddt(Nn), 368-381.  None: the parallel operator reads outside of the array. *)
Definition ddt_N (s : nset) (o : operators) (m : mesh) (c : coords) (D : Z -> R) (l : nline) (src : nsources) : option (Z -> R) :=
  match Div_par_mod upwind_edges m c (Nn l) (Vn l) (fun j => sound_speed s (Tn l j)) true with
  | Some (adv, _) => Some (fun j => - adv j + Perp o (with_D s m D (Nnlim l)) (fun j => logarithm o (Pnlim l j)) j + S_n src j)
  | None => None
  end.
(** viscosity_source, 451-461. *)
Definition viscosity_source (s : nset) (o : operators) (m : mesh) (c : coords) (D : Z -> R) (l : nline) (j : Z) : R :=
  AA s * Perp o (eta_n s m D (Nnlim l)) (Vn l) j + AA s * fst (Div_par_K_Grad_par_mod m c (eta_n s m D (Nnlim l)) (Vn l) false j).
(** ddt(Pn), 387-422 and 464; the pressure source is S_p (pressure_source + 2/3 energy_source). *)
Definition ddt_P (s : nset) (o : operators) (m : mesh) (c : coords) (D : Z -> R) (l : nline) (src : nsources) : option (Z -> R) :=
  match Div_par_mod upwind_edges m c (Pn l) (Vn l) (fun j => sound_speed s (Tn l j)) true with
  | Some (adv, _) => Some (fun j =>
      - adv j - (2 / 3) * Pn l j * Div_par o (Vn l) j + (5 / 3) * Perp o (with_D s m D (Pnlim l)) (fun j => logarithm o (Pnlim l j)) j
      + (if neutral_conduction s then (2 / 3) * Perp o (kappa_n s m D (Nnlim l)) (Tn l) j
            + (2 / 3) * fst (Div_par_K_Grad_par_mod m c (kappa_n s m D (Nnlim l)) (Tn l) false j) else 0)
      + S_p src j + (if neutral_viscosity s then - (2 / 3) * Vn l j * viscosity_source s o m c D l j else 0))
  | None => None
  end.
(** ddt(NVn), 430-471. *)
Definition ddt_NV (s : nset) (o : operators) (m : mesh) (c : coords) (D : Z -> R) (l : nline) (src : nsources) : option (Z -> R) :=
  match Div_par_fvv upwind_edges m c (Nnlim l) (Vn l) (fun j => sound_speed s (Tn l j)) true with
  | Some adv => Some (fun j =>
      - AA s * adv j - Grad_par o (Pn l) j + Perp o (with_D s m D (NVn l)) (fun j => logarithm o (Pnlim l j)) j
      + (if neutral_viscosity s then viscosity_source s o m c D l j else 0) + S_nv src j)
  | None => None
  end.
(** 479-486: no further decrease far below the floor; [f] the variable, [floor] its floor. *)
Definition hold (floor f ddt : R) : R := if (Rltb f (floor * 1e-2) && Rltb ddt 0)%bool then 0 else ddt.
