(** External sources in SI units, as the manual describes them. *)

From Coq Require Import List Bool ZArith Reals String.
From Verif Require Import UnitsModel InitModel.
Import ListNotations.
Open Scope R_scope.

(** The setting in the input file comes first, then the grid file; without either there is no source. *)
Definition chosen {A} (input grid : option A) (none : A) : A := match input, grid with Some a, _ => a | None, Some a => a | None, None => none end.
(** u is the normalised value of U in units of c. *)
Definition normalised (c U u : R) : Prop := u * c = U.
(** A source which is switched off outside of the core. *)
Definition masked (only_core in_core : bool) (v : R) : R := if (only_core && negb in_core)%bool then 0 else v.
(** Names of the components of a metric tensor. *)
Definition digits : list string := ["1"; "2"; "3"]%string.
Definition metric_name (v : string) : Prop :=
  v = "J"%string \/ exists i j, nth_error digits i <> None /\ nth_error digits j <> None /\ (i <= j)%nat
    /\ (v = "g" ++ nth i digits "" ++ nth j digits "" \/ v = "g_" ++ nth i digits "" ++ nth j digits "")%string.
(** Cells of the domain of one processor. *)
Definition inr_ (lo hi a : Z) : bool := (Z.leb lo a && Z.leb a hi)%bool.
Definition in_box (b : box) (x y z : Z) : bool := (inr_ (xs b) (xe b) x && inr_ (ys b) (ye b) y && inr_ (zs b) (ze b) z)%bool.
Definition inside (b : box) (x y z : Z) : Prop := (xs b <= x <= xe b)%Z /\ (ys b <= y <= ye b)%Z /\ (zs b <= z <= ze b)%Z.
(** Constants of nature and reference values are positive. *)
Definition pos (n : norms) : Prop := 0 < qe n /\ 0 < Mp n /\ 0 < Nnorm n /\ 0 < Tnorm n /\ 0 < Bnorm n.
