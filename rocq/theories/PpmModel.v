(** XPPM, the piecewise parabolic interpolation in src/div_ops.cxx 134-213 (selected by editing the lines 289-292 and 365-368; MC is used as the
    code stands).

    Simplifications: exact reals; the width h is not zero. *)

From Coq Require Import List Bool Reals.
From Verif Require Import StateMonad LimitersModel.
Import ListNotations.
Open Scope R_scope.

(** BOUTMIN of four, src/div_ops.cxx 73-78. *)
Definition BOUTMIN4 (a b c d : R) : R :=
  let r1 := if Rltb a b then a else b in
  let r2 := if Rltb c d then c else d in
  if Rltb r1 r2 then r1 else r2.

(** 137: limiter parameter. *)
Definition ppm_C : R := 1.25.
(** 154-163, 176-185: the second derivative used by the limiter. *)
Definition ppm_D2lim (D2 D2L D2R : R) : R :=
  if (Rltb 0 (D2 * D2L) && Rltb 0 (D2 * D2R))%bool then SIGN D2 * BOUTMIN3 (ppm_C * Rabs D2L) (ppm_C * Rabs D2R) (Rabs D2) else 0.
(** 141, 145-164: right face. *)
Definition ppm_right (h m c p pp : R) : R :=
  let h2 := h * h in
  let nR := (7 / 12) * (c + p) - (1 / 12) * (m + pp) in
  if Rltb 0 ((c - nR) * (p - nR)) then
    let D2 := (3 / h2) * (c - 2 * nR + p) in
    let D2L := (1 / h2) * (m - 2 * c + p) in
    let D2R := (1 / h2) * (c - 2 * p + pp) in
    0.5 * (c + p) - (h2 / 6) * ppm_D2lim D2 D2L D2R
  else nR.
(** 142, 167-186: left face. *)
Definition ppm_left (h mm m c p : R) : R :=
  let h2 := h * h in
  let nL := (7 / 12) * (c + m) - (1 / 12) * (mm + p) in
  if Rltb 0 ((m - nL) * (c - nL)) then
    let D2 := (3 / h2) * (m - 2 * nL + c) in
    let D2L := (1 / h2) * (mm - 2 * m + c) in
    let D2R := (1 / h2) * (m - 2 * c + p) in
    0.5 * (m + c) - (h2 / 6) * ppm_D2lim D2 D2L D2R
  else nL.
(** 188-189: the test for a local maximum or minimum. *)
Definition ppm_extremum (nL nR m c p : R) : bool := (Rleb ((nR - c) * (c - nL)) 0 || Rleb ((m - c) * (c - p)) 0)%bool.
(** 192-211. *)
Definition ppm_flatten (h nL nR mm m c p pp : R) : R * R :=
  let h2 := h * h in
  let D2 := (6 / h2) * (nL - 2 * c + nR) in
  if Rltb (Rabs D2) 1e-10 then (c, c)
  else
    let D2C := (1 / h2) * (m - 2 * c + p) in
    let D2L := (1 / h2) * (mm - 2 * m + c) in
    let D2R := (1 / h2) * (c - 2 * p + pp) in
    if (Rltb 0 (D2 * D2C) && Rltb 0 (D2 * D2L) && Rltb 0 (D2 * D2R))%bool then
      let D2lim := SIGN D2 * BOUTMIN4 (ppm_C * Rabs D2L) (ppm_C * Rabs D2R) (ppm_C * Rabs D2C) (Rabs D2) in
      (c + (nL - c) * D2lim / D2, c + (nR - c) * D2lim / D2)
    else (c, c).
(** The whole, 134-213: values at the left and right face. *)
Definition XPPM (h mm m c p pp : R) : R * R :=
  let nR := ppm_right h m c p pp in
  let nL := ppm_left h mm m c p in
  if ppm_extremum nL nR m c p then ppm_flatten h nL nR mm m c p pp else (nL, nR).
