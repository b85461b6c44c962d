(** What drifts across the field should satisfy. *)

From Coq Require Import List Bool ZArith Reals.
From Verif Require Import ParallelSpec DriftModel.
Import ListNotations.
Open Scope R_scope.

(** Operators on fields. *)
Definition same (f g : Z -> R) : Prop := forall i, f i = g i.
Definition linear (op : (Z -> R) -> Z -> R) : Prop :=
  (forall f g, same (op (fun k => f k + g k)) (fun i => op f i + op g i)) /\ (forall c f, same (op (fun k => c * f k)) (fun i => c * op f i))
  /\ (forall f g, same f g -> same (op f) (op g)).
Definition bilinear (op : (Z -> R) -> (Z -> R) -> Z -> R) : Prop :=
  (forall f, linear (fun a => op a f)) /\ (forall a, linear (op a))
  /\ (forall c a f, same (op (fun k => c * a k) f) (op a (fun k => c * f k))).

Definition sum_over {A} (l : list A) (f : A -> R) : R := fold_right Rplus 0 (map f l).
(** Values by default for what is not set. *)
Definition value (o : option R) : R := match o with Some x => x | None => 0 end.
Definition fvalue (o : option (Z -> R)) : Z -> R := match o with Some f => f | None => fun _ => 0 end.

(** A solver of (1/C) div(C grad phi) = rhs. *)
Definition solves (div_a_grad : (Z -> R) -> (Z -> R) -> Z -> R) (C rhs phi : Z -> R) : Prop := same (div_a_grad C phi) (fun i => C i * rhs i).

(** Conservative diffusion along a line with unit spacing, coefficient averaged to the faces, and its solution by two summations. *)
Definition line_face (a : Z -> R) (i : Z) : R := (a i + a (i - 1)%Z) / 2.
Definition line_div (a f : Z -> R) (i : Z) : R := line_face a (i + 1) * (f (i + 1)%Z - f i) - line_face a i * (f i - f (i - 1)%Z).
Definition cum (g : Z -> R) (i : Z) : R := if Z.leb 0 i then zsum 0 (Z.to_nat i) g else - zsum i (Z.to_nat (- i)) g.
Definition line_solve (C rhs : Z -> R) : Z -> R := cum (fun i => cum (fun k => C k * rhs k) (i + 1)%Z / line_face C (i + 1)%Z).

(** Charge of a species, zero if it is neutral, nearly neutral or has no charge. *)
Definition charge_number (s : species) : R :=
  match charge s with Some q => if Rlt_dec (Rabs q) 1e-5 then 0 else q | None => 0 end.
(** Mass density of a species if it carries charge. *)
Definition charged_mass (s : species) (i : Z) : R := if Req_EM_T (charge_number s) 0 then 0 else value (AA s) * fvalue (density s) i.
(** Parallel current of a species: charge times the flux of particles. *)
Definition parallel_current (s : species) (i : Z) : R := charge_number s / value (AA s) * fvalue (momentum s) i.
(** Divergence of all currents apart from the polarisation current. *)
Definition other_currents (div_par : (Z -> R) -> Z -> R) (jd je jc : option (Z -> R)) (l : list species) (i : Z) : R :=
  fvalue jd i + div_par (fun k => sum_over l (fun s => parallel_current s k)) i + fvalue je i + fvalue jc i.
(** Rate of change of the charge density, from the density sources of the species. *)
Definition charge_rate (l : list (species * sources)) (i : Z) : R :=
  sum_over l (fun so => charge_number (fst so) * density_source (snd so) i).
(** Ion pressure weighted with mass, as it should enter the generalised potential: phi + sum of A P / (average mass * charge). *)
Definition weighted_pressure (average : R) (l : list species) (i : Z) : R :=
  sum_over l (fun s => if Req_EM_T (charge_number s) 0 then 0 else value (AA s) * fvalue (pressure s) i / (average * charge_number s)).
(** Diamagnetic current along one coordinate and the power it carries through the face between cells i and i + 1. *)
Definition diamagnetic_current (curl : Z -> R) (l : list species) (i : Z) : R :=
  sum_over l (fun s => if Req_EM_T (charge_number s) 0 then 0 else fvalue (pressure s) i * curl i).
Definition power_through (J curl phi : Z -> R) (l : list species) (i : Z) : R :=
  let g k := J k * diamagnetic_current curl l k in (g i * phi (i + 1)%Z + phi i * g (i + 1)%Z) / 2.
(** Mean of the values in the cells on both sides of a face. *)
Definition mean (a b : R) : R := (a + b) / 2.
(** Mass and density not negative and, for charged species, the collision frequency between lo and hi. *)
Definition within (i : Z) (lo hi : R) (s : species) : Prop :=
  0 <= value (AA s) /\ 0 <= fvalue (density s) i /\ (charge_number s <> 0 -> lo <= fvalue (collision_frequency s) i <= hi).
(** A charged species has a mass and a density. *)
Definition complete (s : species) : Prop := charge_number s <> 0 -> AA s <> None /\ density s <> None.
