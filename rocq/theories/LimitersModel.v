(** Slope limiters (src/div_ops.cxx 80-132, include/div_ops.hxx 77-125) and the cell average
    of include/integrate.hxx.

    FV::Upwind, FV::MinMod and FV::MC, selected as hermes::Limiter
    (include/hermes_build_config.hxx.in 12), live in BOUT++ (bout/fv_ops.hxx), which is not
    part of the repository; they are taken to be the functions of the same names in
    src/div_ops.cxx 89-132. *)

From Coq Require Import List Bool Reals.
From Verif Require Import StateMonad.
Import ListNotations.
Open Scope R_scope.

(** SIGN and BOUTMIN/BOUTMAX of bout/utils.hxx. *)
Definition SIGN (a : R) : R := if Rltb a 0 then -1 else 1.
Definition BOUTMIN (a b : R) : R := if Rltb a b then a else b.
Definition BOUTMAX (a b : R) : R := if Rltb b a then a else b.
Definition BOUTMIN3 (a b c : R) : R := BOUTMIN a (BOUTMIN b c).
Definition BOUTMAX3 (a b c : R) : R := BOUTMAX a (BOUTMAX b c).
Definition BOUTMAX4 (a b c d : R) : R := BOUTMAX a (BOUTMAX b (BOUTMAX c d)).

(** minmod of two, src/div_ops.cxx 99-106. *)
Definition minmod2 (a b : R) : R :=
  if Rleb (a * b) 0 then 0 else if Rltb (Rabs a) (Rabs b) then a else b.

(** minmod of three, src/div_ops.cxx 108-116. *)
Definition minmod3 (a b c : R) : R :=
  if (Rleb (a * b) 0 || Rleb (a * c) 0)%bool then 0
  else SIGN a * BOUTMIN3 (Rabs a) (Rabs b) (Rabs c).

(** A stencil (src/div_ops.cxx 80-86): values at this cell and its neighbours, and whatever
    the face values held before the limiter ran ([None]: uninitialised memory). *)
Record stencil := mkStencil { st_m : R; st_c : R; st_p : R; st_L : option R; st_R : option R }.

(** Face values (L, R); [None]: undefined behaviour. *)
Definition faces := option (R * R).

(** Upwind, src/div_ops.cxx 89. *)
Definition upwind_edges (m c p : R) : R * R := (c, c).
(** Fromm, src/div_ops.cxx 92-95. *)
Definition fromm_edges (m c p : R) : R * R := (c - 0.25 * (p - m), c + 0.25 * (p - m)).
(** MinMod, src/div_ops.cxx 118-124. *)
Definition minmod_edges (m c p : R) : R * R :=
  let slope := minmod2 (p - c) (c - m) in (c - 0.5 * slope, c + 0.5 * slope).
(** MC, src/div_ops.cxx 127-132. *)
Definition mc_edges (m c p : R) : R * R :=
  let slope := minmod3 (2 * (p - c)) (0.5 * (p - m)) (2 * (c - m)) in
  (c - 0.5 * slope, c + 0.5 * slope).

(** Superbee::operator(), include/div_ops.hxx 105-125.  It reads n.L and n.R, the face
    values it is meant to compute, instead of n.m and n.p. *)
Definition superbee (s : stencil) : faces :=
  match st_L s, st_R s with
  | Some nL, Some nR =>
      let gL := st_c s - nL in
      let gR := nR - st_c s in
      if Rltb (gL * gR) 0 then Some (st_c s, st_c s)
      else
        let sign := SIGN gL in
        let gL := Rabs gL in
        let gR := Rabs gR in
        let half_slope := sign * BOUTMAX (BOUTMIN gL (0.5 * gR)) (BOUTMIN gR (0.5 * gL)) in
        Some (st_c s - half_slope, st_c s + half_slope)
  | _, _ => None
  end.

(** CMakeLists.txt 252: the limiters that can be selected. *)
Inductive limiter := MinMod | MC | Upwind | Superbee.

Definition run_limiter (l : limiter) (s : stencil) : faces :=
  match l with
  | MinMod => Some (minmod_edges (st_m s) (st_c s) (st_p s))
  | MC => Some (mc_edges (st_m s) (st_c s) (st_p s))
  | Upwind => Some (upwind_edges (st_m s) (st_c s) (st_p s))
  | Superbee => superbee s
  end.

(** [Stencil1D s; s.c = ...; s.m = ...; s.p = ...; cellboundary(s);] as in Div_par_mod
    (include/div_ops.hxx 610-616): L and R are uninitialised. *)
Definition operator_edges (l : limiter) (m c p : R) : faces :=
  run_limiter l (mkStencil m c p None None).

(** [FV::Stencil1D s {.c = c, .m = m, .p = p}; cellboundary(s);] as in cellLeft and cellRight
    (include/integrate.hxx 22-38): aggregate initialisation sets L and R to zero. *)
Definition average_edges (l : limiter) (m c p : R) : faces :=
  run_limiter l (mkStencil m c p (Some 0) (Some 0)).

(** Values of a field in a cell and its two neighbours along the magnetic field. *)
Record triple := mkTriple { t_m : R; t_c : R; t_p : R }.

(** cellAverage, include/integrate.hxx 61-86, at one cell.  [func] takes the list of the
    arguments (the C++ function takes them as a parameter pack); [edges] gives the (L, R) face values
    of the limiter for values (m, c, p). *)
Definition cellAverage (edges : R -> R -> R -> R * R) (Jm Ji Jp : R)
    (func : list R -> R) (args : list triple) : R :=
  4 / 6 * func (map t_c args)
  + (Ji + Jm) / (12 * Ji) * func (map (fun a => fst (edges (t_m a) (t_c a) (t_p a))) args)
  + (Ji + Jp) / (12 * Ji) * func (map (fun a => snd (edges (t_m a) (t_c a) (t_p a))) args).
