(** Double precision: slope limiters, FV::Div_par_mod and the accumulation of sources with a rounding after every operation.

    [rnd] is the rounding of one operation; FloatSpec has the laws which it obeys and FloatProofs shows that round-to-nearest of binary64 does.
    Simplifications: no overflow, no signed zero, no contraction of a product and a sum into one operation; the rest as in LimitersModel and
    ParallelModel, which this is for [rnd x = x]. *)

From Coq Require Import List Bool ZArith Reals.
From Verif Require Import StateMonad LimitersModel ParallelModel.
Import ListNotations.
Open Scope R_scope.

Section Rounded.
  Variable rnd : R -> R.

  (** minmod of two, src/div_ops.cxx 99-106. *)
  Definition minmod2_r (a b : R) : R :=
    if Rleb (rnd (a * b)) 0 then 0 else if Rltb (Rabs a) (Rabs b) then a else b.
  (** minmod of three, src/div_ops.cxx 108-116. *)
  Definition minmod3_r (a b c : R) : R :=
    if (Rleb (rnd (a * b)) 0 || Rleb (rnd (a * c)) 0)%bool then 0
    else rnd (SIGN a * BOUTMIN3 (Rabs a) (Rabs b) (Rabs c)).
  (** The two assignments to n.L and n.R, src/div_ops.cxx 122-123, 130-131. *)
  Definition sides_r (c slope : R) : R * R := (rnd (c - rnd (0.5 * slope)), rnd (c + rnd (0.5 * slope))).
  (** MinMod, src/div_ops.cxx 118-124. *)
  Definition minmod_edges_r (m c p : R) : R * R := sides_r c (minmod2_r (rnd (p - c)) (rnd (c - m))).
  (** MC, src/div_ops.cxx 127-132. *)
  Definition mc_edges_r (m c p : R) : R * R :=
    sides_r c (minmod3_r (rnd (2 * rnd (p - c))) (rnd (0.5 * rnd (p - m))) (rnd (2 * rnd (c - m)))).

  (** Factors of the two faces of cell j, include/div_ops.hxx 558-573. *)
  Definition common_r (c : coords) (j i : Z) : R :=
    rnd (rnd (c_J c j + c_J c i) / rnd (rnd (sqrt (c_g22 c j)) + rnd (sqrt (c_g22 c i)))).
  Definition factor_r (c : coords) (j i k : Z) : R := rnd (common_r c j i / rnd (c_dy c k * c_J c k)).
  Definition area_r (c : coords) (j i k : Z) : R := rnd (rnd (common_r c j i * c_dx c k) * c_dz c k).
  (** One iteration over j, include/div_ops.hxx 643-646, 677-680. *)
  Definition flux_step_r (m : mesh) (c : coords) (right_flux left_flux : Z -> R)
      (st : option ((Z -> R) * (Z -> R))) (j : Z) : option ((Z -> R) * (Z -> R)) :=
    match st with
    | None => None
    | Some (result, flow_ylow) =>
        if negb (in_bounds m j) then None else
        let flux := right_flux j in
        let result := upd result j (rnd (result j + rnd (flux * factor_r c j (j + 1)%Z j))) in
        let result := upd result (j + 1)%Z (rnd (result (j + 1)%Z - rnd (flux * factor_r c j (j + 1)%Z (j + 1)%Z))) in
        let flow_ylow := upd flow_ylow (j + 1)%Z (rnd (flow_ylow (j + 1)%Z + rnd (flux * area_r c j (j + 1)%Z (j + 1)%Z))) in
        let flux := left_flux j in
        let result := upd result j (rnd (result j - rnd (flux * factor_r c j (j - 1)%Z j))) in
        let result := upd result (j - 1)%Z (rnd (result (j - 1)%Z + rnd (flux * factor_r c j (j - 1)%Z (j - 1)%Z))) in
        let flow_ylow := upd flow_ylow j (rnd (flow_ylow j + rnd (flux * area_r c j (j - 1)%Z j))) in
        Some (result, flow_ylow)
    end.
  (** Right flux of Div_par_mod, 626-641. *)
  Definition mod_right_r (edges : R -> R -> R -> R * R) (m : mesh) (fixflux : bool) (f v ws : Z -> R) (j : Z) : R :=
    if last_point m j then
      let vpar := rnd (0.5 * rnd (v j + v (j + 1)%Z)) in
      let bndryval := rnd (0.5 * rnd (f j + f (j + 1)%Z)) in
      if fixflux then rnd (bndryval * vpar)
      else rnd (rnd (sR edges f j * vpar) + rnd (ws j * rnd (sR edges f j - bndryval)))
    else
      let amax := BOUTMAX4 (ws j) (ws (j + 1)%Z) (Rabs (v j)) (Rabs (v (j + 1)%Z)) in
      rnd (rnd (sR edges f j * 0.5) * rnd (sR edges v j + amax)).
  (** Left flux of Div_par_mod, 651-675. *)
  Definition mod_left_r (edges : R -> R -> R -> R * R) (m : mesh) (fixflux : bool) (f v ws : Z -> R) (j : Z) : R :=
    if first_point m j then
      let bndryval := rnd (0.5 * rnd (f j + f (j - 1)%Z)) in
      let vpar := rnd (0.5 * rnd (v j + v (j - 1)%Z)) in
      if fixflux then rnd (bndryval * vpar)
      else rnd (rnd (sL edges f j * vpar) - rnd (ws j * rnd (sL edges f j - bndryval)))
    else
      let amax := BOUTMAX4 (ws j) (ws (j - 1)%Z) (Rabs (v j)) (Rabs (v (j - 1)%Z)) in
      rnd (rnd (sL edges f j * 0.5) * rnd (sL edges v j - amax)).
  (** FV::Div_par_mod, include/div_ops.hxx 502-690: result and flow_ylow. *)
  Definition Div_par_mod_r (edges : R -> R -> R -> R * R) (m : mesh) (c : coords) (f v ws : Z -> R) (fixflux : bool)
      : option ((Z -> R) * (Z -> R)) :=
    fold_left (flux_step_r m c (mod_right_r edges m fixflux f v ws) (mod_left_r edges m fixflux f v ws))
      (irange (loop_ys m) (loop_ye m)) (Some (fun _ => 0, fun _ => 0)).

  (** add and subtract, include/component.hxx 281-314, for one value. *)
  Definition add_r (o : option R) (v : R) : option R := Some (match o with None => v | Some a => rnd (v + a) end).
  Definition sub_r (o : option R) (v : R) : option R := Some (match o with None => - v | Some a => rnd (a - v) end).
  (** The source left by a sequence of components which add to it. *)
  Definition sources_r (vs : list R) : option R := fold_left add_r vs None.
  (** Exchange of momentum between two species, src/collisions.cxx 105-109: friction F is added to one and taken from the other. *)
  Definition exchange_r (a b : option R) (F : R) : option R * option R := (add_r a F, sub_r b F).
End Rounded.
