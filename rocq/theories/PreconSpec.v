(** Vocabulary for PreconProps.v. *)

From Coq Require Import List Bool ZArith Reals.
From Verif Require Import StateMonad ParallelModel DiffusionModel ParallelSpec DiffusionSpec.
Open Scope R_scope.

(** Cells of the line. *)
Definition inside (m : mesh) (j : Z) : Prop := (ystart m <= j <= yend m)%Z.
(** x solves x + Div_par(B Grad_par x) = rhs in every cell. *)
Definition solves (m : mesh) (c : coords) (B rhs x : Z -> R) : Prop :=
  forall j, inside m j -> x j + fst (Div_par_K_Grad_par_mod m c B x false j) = rhs j.
(** x solves x - gamma F(x) = rhs: one implicit step of the linear right hand side F. *)
Definition implicit_step (m : mesh) (gamma : R) (F : (Z -> R) -> Z -> R) (rhs x : Z -> R) : Prop :=
  forall j, inside m j -> x j - gamma * F x j = rhs j.
(** Heat conduction with fixed kappa and density, of pressure P, in the equation of the pressure; time derivatives scaled by s. *)
Definition conduction_P (m : mesh) (c : coords) (kappa N : Z -> R) (floor : R) (s P : Z -> R) (j : Z) : R :=
  s j * (2 / 3 * fst (Div_par_K_Grad_par_mod m c kappa (fun k => P k / rfloor (N k) floor) false j)).
(** The same in the equation of the energy of gas at rest, P = (2/3) E. *)
Definition conduction_E (m : mesh) (c : coords) (kappa N : Z -> R) (floor : R) (s E : Z -> R) (j : Z) : R :=
  s j * fst (Div_par_K_Grad_par_mod m c kappa (fun k => 2 / 3 * E k / rfloor (N k) floor) false j).
Definition ones : Z -> R := fun _ => 1.
Definition scale_of (scale : option (Z -> R)) : Z -> R := match scale with Some s => s | None => ones end.
(** Guard cells only. *)
Definition guards_only (m : mesh) (bc : (Z -> R) -> Z -> R) : Prop := forall f j, inside m j -> bc f j = f j.
(** What a component does to derivatives is linear. *)
Definition linear {D : Type} (plus : D -> D -> D) (times : R -> D -> D) (f : D -> D) : Prop :=
  (forall a b, f (plus a b) = plus (f a) (f b)) /\ (forall r a, f (times r a) = times r (f a)).
