(** Specification of a slope-limited reconstruction of cell-edge values. *)

From Coq Require Import Reals.
Open Scope R_scope.

Definition between (a b x : R) : Prop := Rmin a b <= x <= Rmax a b.

(** The edge values lie between the values of the cells they separate. *)
Definition bounded_by_neighbours (edges : R -> R -> R -> R * R) : Prop :=
  forall m c p, between m c (fst (edges m c p)) /\ between c p (snd (edges m c p)).

(** No slope where the cell is a local maximum or minimum. *)
Definition flat_at_extrema (edges : R -> R -> R -> R * R) : Prop :=
  forall m c p, (m <= c /\ p <= c \/ c <= m /\ c <= p) -> edges m c p = (c, c).

(** Linear profiles are reproduced. *)
Definition exact_on_linear (edges : R -> R -> R -> R * R) : Prop :=
  forall c d, edges (c - d) c (c + d) = (c - d / 2, c + d / 2).

(** The cell value is the mean of its edge values. *)
Definition keeps_mean (edges : R -> R -> R -> R * R) : Prop :=
  forall m c p, fst (edges m c p) + snd (edges m c p) = 2 * c.

(** Mirror symmetric. *)
Definition mirror_symmetric (edges : R -> R -> R -> R * R) : Prop :=
  forall m c p, edges p c m = (snd (edges m c p), fst (edges m c p)).
