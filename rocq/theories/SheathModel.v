(** Sheath boundaries: SheathBoundary, SheathBoundarySimple and SheathBoundaryInsulating, at one (x, z) of a lower or upper Y boundary.

    Fields enter by their values in the cell next to the boundary (_c) and the one further inside (_n); the guard cell (_g) is
    calculated.  Transformation to and from field-aligned coordinates is left out, as are the CHECK and ASSERT tests of results being
    finite.  sqrt and ln of numbers out of their domain (not a number in C++) are excluded by the hypotheses of the theorems. *)

From Coq Require Import List Bool Reals.
From Verif Require Import StateMonad ReactionsModel.
Import ListNotations.
Open Scope R_scope.

(** Values in the last two cells. *)
Record prof := mkProf { at_c : R; at_n : R }.
(** Geometry: J and g_22 in the last cell and the guard cell, dy in the last cell. *)
Record geom := mkGeom { J_c : R; J_g : R; g22_c : R; g22_g : R; dy_c : R }.
(** A species: charge, mass AA, adiabatic index (5/3 if not set), density (floored at zero: src/sheath_boundary.cxx 117 and 491,
    src/sheath_boundary_simple.cxx 152 and 505, src/sheath_boundary_insulating.cxx 99 and 233), temperature, pressure, and the
    velocity and momentum in the last cell. *)
Record spec := mkSpec { charge : R; mass : R; adiabatic : R; dens : prof; temp : prof; pres : prof; vel_c : R; mom_c : R }.
(** What a sheath sets for a species: the guard cell values, and what is added to the energy source in the last cell. *)
Record bdry := mkBdry { dens_g : R; temp_g : R; pres_g : R; vel_g : R; mom_g : R; added_energy : R }.

(** (J + Jg) / (sqrt(g_22) + sqrt(g_22g)) / (dy J), e.g. src/sheath_boundary.cxx 355-361. *)
Definition per_volume (g : geom) (q : R) : R :=
  let flux := q * (J_c g + J_g g) / (sqrt (g22_c g) + sqrt (g22_g g)) in
  flux / (dy_c g * J_c g).

Definition TWOPI : R := 2 * PI.

(** limitFree, src/sheath_boundary.cxx 38-54 and src/sheath_boundary_insulating.cxx 41-57. *)
Definition limitFree (fm fc : R) : R :=
  if Rlt_dec fm fc then fc else if Rlt_dec fm 1e-10 then fc else SQ fc / fm.

(** Modes of src/sheath_boundary_simple.cxx 36-38; other numbers throw when fm >= 1e-10 (53). *)
Inductive bmode := LimitFree | ExponentialFree | LinearFree.
(** limitFree, src/sheath_boundary_simple.cxx 40-57. *)
Definition limitFree_mode (mode : bmode) (fm fc : R) : R :=
  if (Rltb fm fc && match mode with LimitFree => true | _ => false end)%bool then fc
  else if Rlt_dec fm 1e-10 then fc
  else match mode with
       | LimitFree | ExponentialFree => SQ fc / fm
       | LinearFree => 2.0 * fc - fm
       end.

(** ** SheathBoundarySimple *)

(** Options, src/sheath_boundary_simple.cxx 77-143; the defaults of the modes are ExponentialFree (131-141). *)
Record simple := mkSimple {
  s_Ge : R; gamma_e : R; gamma_i : R; polytropic : R; no_flow : bool;
  density_mode : bmode; temperature_mode : bmode; pressure_mode : bmode
}.

(** The ion speed into the lower boundary, 218-235 and 540-559. *)
Definition simple_visheath_lower (s : simple) (tesheath : R) (i : spec) : R :=
  let tisheath := rfloor (0.5 * (limitFree_mode (temperature_mode s) (at_n (temp i)) (at_c (temp i)) + at_c (temp i))) 1e-5 in
  let C_i_sq := (polytropic s * tisheath + charge i * tesheath) / mass i in
  let visheath := - sqrt C_i_sq in
  if Rlt_dec (vel_c i) visheath then vel_c i else visheath.
(** 250-266 and 603-622. *)
Definition simple_visheath_upper (s : simple) (tesheath : R) (i : spec) : R :=
  let tisheath := rfloor (0.5 * (limitFree_mode (temperature_mode s) (at_n (temp i)) (at_c (temp i)) + at_c (temp i))) 1e-5 in
  let C_i_sq := (polytropic s * tisheath + charge i * tesheath) / mass i in
  let visheath := sqrt C_i_sq in
  if Rlt_dec visheath (vel_c i) then vel_c i else visheath.
(** Density at the sheath, e.g. 218 and 223. *)
Definition simple_nsheath (s : simple) (i : spec) : R :=
  0.5 * (limitFree_mode (density_mode s) (at_n (dens i)) (at_c (dens i)) + at_c (dens i)).
(** Temperature at the sheath, e.g. 361-362, and floored, e.g. 224-225. *)
Definition simple_tsheath (s : simple) (i : spec) : R :=
  0.5 * (limitFree_mode (temperature_mode s) (at_n (temp i)) (at_c (temp i)) + at_c (temp i)).
Definition simple_tsheath_floored (s : simple) (i : spec) : R := rfloor (simple_tsheath s i) 1e-5.

(** The sums over ions, 237 and 268; species are those with a charge other than zero (193-196).  The densities are not floored here
    (198); the model takes the floored ones. *)
Definition simple_ion_sum_lower (s : simple) (e : spec) (ions : list spec) : R :=
  fold_left (fun sum i => sum - charge i * simple_nsheath s i * simple_visheath_lower s (simple_tsheath_floored s e) i) ions 0.
Definition simple_ion_sum_upper (s : simple) (e : spec) (ions : list spec) : R :=
  fold_left (fun sum i => sum + charge i * simple_nsheath s i * simple_visheath_upper s (simple_tsheath_floored s e) i) ions 0.
(** The potential if none is set, 284-298 and 309-323: the same in all three cells. *)
Definition simple_phi (s : simple) (phi_wall ion_sum : R) (e : spec) : R :=
  let tesheath := simple_tsheath_floored s e in
  tesheath * ln (sqrt (tesheath / (mass e * TWOPI)) * (1 - s_Ge s) * simple_nsheath s e / ion_sum) + phi_wall.

(** Electrons at the lower boundary, 341-393, with phi in the last two cells. *)
Definition simple_electrons_lower (s : simple) (g : geom) (phi_wall : R) (phi : prof) (e : spec) : bdry :=
  let phi_g := 2 * at_c phi - at_n phi in
  let nesheath := simple_nsheath s e in
  let tesheath := simple_tsheath s e in
  let phisheath := rfloor (0.5 * (phi_g + at_c phi)) phi_wall in
  let vesheath := - sqrt (tesheath / (TWOPI * mass e)) * (1 - s_Ge s) * exp (- (phisheath - phi_wall) / rfloor tesheath 1e-5) in
  let q := gamma_e s * tesheath * nesheath * vesheath in
  let vesheath := if no_flow s then 0 else vesheath in
  let q := q - (2.5 * tesheath + 0.5 * mass e * SQ vesheath) * nesheath * vesheath in
  let power := per_volume g q in
  mkBdry (limitFree_mode (density_mode s) (at_n (dens e)) (at_c (dens e))) (limitFree_mode (temperature_mode s) (at_n (temp e)) (at_c (temp e)))
    (limitFree_mode (pressure_mode s) (at_n (pres e)) (at_c (pres e))) (2 * vesheath - vel_c e) (2 * mass e * nesheath * vesheath - mom_c e) power.
(** Electrons at the upper boundary, 399-450. *)
Definition simple_electrons_upper (s : simple) (g : geom) (phi_wall : R) (phi : prof) (e : spec) : bdry :=
  let phi_g := 2 * at_c phi - at_n phi in
  let nesheath := simple_nsheath s e in
  let tesheath := simple_tsheath s e in
  let phisheath := rfloor (0.5 * (phi_g + at_c phi)) phi_wall in
  let vesheath := sqrt (tesheath / (TWOPI * mass e)) * (1 - s_Ge s) * exp (- (phisheath - phi_wall) / rfloor tesheath 1e-5) in
  let q := gamma_e s * tesheath * nesheath * vesheath in
  let vesheath := if no_flow s then 0 else vesheath in
  let q := q - (2.5 * tesheath + 0.5 * mass e * SQ vesheath) * nesheath * vesheath in
  let power := per_volume g q in
  mkBdry (limitFree_mode (density_mode s) (at_n (dens e)) (at_c (dens e))) (limitFree_mode (temperature_mode s) (at_n (temp e)) (at_c (temp e)))
    (limitFree_mode (pressure_mode s) (at_n (pres e)) (at_c (pres e))) (2 * vesheath - vel_c e) (2 * mass e * nesheath * vesheath - mom_c e) (- power).
(** Ions at the lower boundary, 530-588. *)
Definition simple_ion_lower (s : simple) (g : geom) (e i : spec) : bdry :=
  let nisheath := simple_nsheath s i in
  let tesheath := simple_tsheath_floored s e in
  let tisheath := simple_tsheath_floored s i in
  let visheath := simple_visheath_lower s tesheath i in
  let q := gamma_i s * tisheath * nisheath * visheath in
  let visheath := if no_flow s then 0 else visheath in
  let q := q - (2.5 * tisheath + 0.5 * mass i * SQ visheath) * nisheath * visheath in
  let power := per_volume g q in
  mkBdry (limitFree_mode (density_mode s) (at_n (dens i)) (at_c (dens i))) (limitFree_mode (temperature_mode s) (at_n (temp i)) (at_c (temp i)))
    (limitFree_mode (pressure_mode s) (at_n (pres i)) (at_c (pres i))) (2 * visheath - vel_c i) (2 * mass i * nisheath * visheath - mom_c i) power.
(** Ions at the upper boundary, 593-651. *)
Definition simple_ion_upper (s : simple) (g : geom) (e i : spec) : bdry :=
  let nisheath := simple_nsheath s i in
  let tesheath := simple_tsheath_floored s e in
  let tisheath := simple_tsheath_floored s i in
  let visheath := simple_visheath_upper s tesheath i in
  let q := gamma_i s * tisheath * nisheath * visheath in
  let visheath := if no_flow s then 0 else visheath in
  let q := q - (2.5 * tisheath + 0.5 * mass i * SQ visheath) * nisheath * visheath in
  let power := per_volume g q in
  mkBdry (limitFree_mode (density_mode s) (at_n (dens i)) (at_c (dens i))) (limitFree_mode (temperature_mode s) (at_n (temp i)) (at_c (temp i)))
    (limitFree_mode (pressure_mode s) (at_n (pres i)) (at_c (pres i))) (2 * visheath - vel_c i) (2 * mass i * nisheath * visheath - mom_c i) (- power).

(** transform: electrons, then ions; phi is given or calculated. *)
Definition simple_lower (s : simple) (g : geom) (phi_wall : R) (phi : option prof) (e : spec) (ions : list spec) : bdry * list bdry :=
  let phi := match phi with Some p => p | None => let p := simple_phi s phi_wall (simple_ion_sum_lower s e ions) e in mkProf p p end in
  (simple_electrons_lower s g phi_wall phi e, map (simple_ion_lower s g e) ions).
Definition simple_upper (s : simple) (g : geom) (phi_wall : R) (phi : option prof) (e : spec) (ions : list spec) : bdry * list bdry :=
  let phi := match phi with Some p => p | None => let p := simple_phi s phi_wall (simple_ion_sum_upper s e ions) e in mkProf p p end in
  (simple_electrons_upper s g phi_wall phi e, map (simple_ion_upper s g e) ions).

(** ** SheathBoundary *)

(** Options, src/sheath_boundary.cxx 63-105. *)
Record full := mkFull { f_Ge : R; sin_alpha : R; floor_potential : bool }.

(** The extrapolated concentration, 187-192 and 227-232: clip of a quotient that is not finite when an electron density is zero
    (the densities are not negative): not a number becomes 1, plus and minus infinity 1 and 0. *)
Definition concentration (i e : prof) : R :=
  if Req_EM_T (at_c e) 0 then 1
  else if Req_EM_T (at_n e) 0 then (if Req_EM_T (at_n i) 0 then 1 else 0)
  else clip (0.5 * (3 * at_c i / at_c e - at_n i / at_n e)) 0 1.
(** Sound speed squared from gradients, with the limit below which the kinetic correction is removed: 198-211, 238-249, 543-554,
    617-628. *)
Definition C_i_sq (limit grad_ne grad_ni ti te s_i : R) (i : spec) : R :=
  let '(grad_ne, grad_ni) := if Rlt_dec (Rabs grad_ni) limit then (limit, limit) else (grad_ne, grad_ni) in
  clip ((adiabatic i * ti + charge i * s_i * te * grad_ne / grad_ni) / mass i) 0 100.

(** The sums over ions, 157-254. *)
Definition ion_sum_lower (f : full) (e : spec) (ions : list spec) : R :=
  fold_left (fun sum i =>
    let s_i := concentration (dens i) (dens e) in
    sum + s_i * charge i * sin_alpha f
          * sqrt (C_i_sq 2e-3 (at_n (dens e) - at_c (dens e)) (at_n (dens i) - at_c (dens i)) (at_c (temp i)) (at_c (temp e)) s_i i)) ions 0.
(** 219-252: grad_ne and grad_ni with the opposite sign. *)
Definition ion_sum_upper (f : full) (e : spec) (ions : list spec) : R :=
  fold_left (fun sum i =>
    let s_i := concentration (dens i) (dens e) in
    sum + s_i * charge i * sin_alpha f
          * sqrt (C_i_sq 2e-3 (at_c (dens e) - at_n (dens e)) (at_c (dens i) - at_n (dens i)) (at_c (temp i)) (at_c (temp e)) s_i i)) ions 0.
(** 266-276 and 285-295. *)
Definition full_phi (f : full) (phi_wall ion_sum : R) (e : spec) : R :=
  (if Rle_dec (at_c (temp e)) 0 then 0
   else at_c (temp e) * ln (sqrt (at_c (temp e) / (mass e * TWOPI)) * (1 - f_Ge f) / ion_sum)) + phi_wall.

(** Value at the sheath by limitFree, e.g. 319, 326. *)
Definition sheath_value (p : prof) : R := 0.5 * (limitFree (at_n p) (at_c p) + at_c p).
(** Electron sheath heat transmission, 335 and 401. *)
Definition full_gamma_e (f : full) (phisheath phi_wall tesheath : R) : R :=
  rfloor (2 / (1 - f_Ge f) + (phisheath - phi_wall) / rfloor tesheath 1e-5) 0.

(** Electrons at the lower boundary, 307-372. *)
Definition full_electrons_lower (f : full) (g : geom) (phi_wall : R) (phi : prof) (e : spec) : bdry :=
  let phi_g := 2 * at_c phi - at_n phi in
  let nesheath := sheath_value (dens e) in
  let tesheath := sheath_value (temp e) in
  let phisheath := if floor_potential f then rfloor (0.5 * (phi_g + at_c phi)) phi_wall else 0.5 * (phi_g + at_c phi) in
  let gamma_e := full_gamma_e f phisheath phi_wall tesheath in
  let vesheath := if Rlt_dec tesheath 1e-10 then 0
                  else - sqrt (tesheath / (TWOPI * mass e)) * (1 - f_Ge f) * exp (- (phisheath - phi_wall) / tesheath) in
  let q := ((gamma_e - 1 - 1 / (adiabatic e - 1)) * tesheath - 0.5 * mass e * SQ vesheath) * nesheath * vesheath in
  let q := if Rlt_dec 0 q then 0 else q in
  mkBdry (limitFree (at_n (dens e)) (at_c (dens e))) (limitFree (at_n (temp e)) (at_c (temp e))) (limitFree (at_n (pres e)) (at_c (pres e)))
    (2 * vesheath - vel_c e) (2 * mass e * nesheath * vesheath - mom_c e) (per_volume g q).
(** Electrons at the upper boundary, 376-436. *)
Definition full_electrons_upper (f : full) (g : geom) (phi_wall : R) (phi : prof) (e : spec) : bdry :=
  let phi_g := 2 * at_c phi - at_n phi in
  let nesheath := sheath_value (dens e) in
  let tesheath := sheath_value (temp e) in
  let phisheath := if floor_potential f then rfloor (0.5 * (phi_g + at_c phi)) phi_wall else 0.5 * (phi_g + at_c phi) in
  let gamma_e := full_gamma_e f phisheath phi_wall tesheath in
  let vesheath := if Rlt_dec tesheath 1e-10 then 0
                  else sqrt (tesheath / (TWOPI * mass e)) * (1 - f_Ge f) * exp (- (phisheath - phi_wall) / tesheath) in
  let q := ((gamma_e - 1 - 1 / (adiabatic e - 1)) * tesheath - 0.5 * mass e * SQ vesheath) * nesheath * vesheath in
  let q := if Rlt_dec q 0 then 0 else q in
  mkBdry (limitFree (at_n (dens e)) (at_c (dens e))) (limitFree (at_n (temp e)) (at_c (temp e))) (limitFree (at_n (pres e)) (at_c (pres e)))
    (2 * vesheath - vel_c e) (2 * mass e * nesheath * vesheath - mom_c e) (- per_volume g q).

(** The ion sound speed squared at the sheath, 526-554 and 605-628. *)
Definition full_C_i_sq (e i : spec) : R :=
  let nesheath := sheath_value (dens e) in
  let nisheath := sheath_value (dens i) in
  let s_i := clip (nisheath / rfloor nesheath 1e-10) 0 1 in
  C_i_sq 1e-3 (at_c (dens e) - nesheath) (at_c (dens i) - nisheath) (rfloor (sheath_value (temp i)) 1e-5) (rfloor (sheath_value (temp e)) 1e-5) s_i i.
(** Ions at the lower boundary, 513-587. *)
Definition full_ion_lower (g : geom) (e i : spec) : bdry :=
  let nisheath := sheath_value (dens i) in
  let tisheath := rfloor (sheath_value (temp i)) 1e-5 in
  let C := full_C_i_sq e i in
  let gamma_i := 2.5 + 0.5 * mass i * C / tisheath in
  let visheath := - sqrt C in
  let q := ((gamma_i - 1 - 1 / (adiabatic i - 1)) * tisheath - 0.5 * mass i * C) * nisheath * visheath in
  let q := if Rlt_dec 0 q then 0 else q in
  mkBdry (limitFree (at_n (dens i)) (at_c (dens i))) (limitFree (at_n (temp i)) (at_c (temp i))) (limitFree (at_n (pres i)) (at_c (pres i)))
    (2 * visheath - vel_c i) (2 * mass i * nisheath * visheath - mom_c i) (per_volume g q).
(** Ions at the upper boundary, 588-661. *)
Definition full_ion_upper (g : geom) (e i : spec) : bdry :=
  let nisheath := sheath_value (dens i) in
  let tisheath := rfloor (sheath_value (temp i)) 1e-5 in
  let C := full_C_i_sq e i in
  let gamma_i := 2.5 + 0.5 * mass i * C / tisheath in
  let visheath := sqrt C in
  let q := ((gamma_i - 1 - 1 / (adiabatic i - 1)) * tisheath - 0.5 * C * mass i) * nisheath * visheath in
  let q := if Rlt_dec q 0 then 0 else q in
  mkBdry (limitFree (at_n (dens i)) (at_c (dens i))) (limitFree (at_n (temp i)) (at_c (temp i))) (limitFree (at_n (pres i)) (at_c (pres i)))
    (2 * visheath - vel_c i) (2 * mass i * nisheath * visheath - mom_c i) (- per_volume g q).

Definition full_lower (f : full) (g : geom) (phi_wall : R) (phi : option prof) (e : spec) (ions : list spec) : bdry * list bdry :=
  let phi := match phi with Some p => p | None => let p := full_phi f phi_wall (ion_sum_lower f e ions) e in mkProf p p end in
  (full_electrons_lower f g phi_wall phi e, map (full_ion_lower g e) ions).
Definition full_upper (f : full) (g : geom) (phi_wall : R) (phi : option prof) (e : spec) (ions : list spec) : bdry * list bdry :=
  let phi := match phi with Some p => p | None => let p := full_phi f phi_wall (ion_sum_upper f e ions) e in mkProf p p end in
  (full_electrons_upper f g phi_wall phi e, map (full_ion_upper g e) ions).

(** ** SheathBoundaryInsulating *)

(** Ions at the lower boundary, src/sheath_boundary_insulating.cxx 255-333: the same as those of SheathBoundary. *)
Definition insulating_ion_lower (g : geom) (e i : spec) : bdry := full_ion_lower g e i.
(** The ion sound speed squared at the upper boundary, 350-374: another concentration (361). *)
Definition insulating_C_i_sq_upper (e i : spec) : R :=
  let nesheath := sheath_value (dens e) in
  let nisheath := sheath_value (dens i) in
  let s_i := if Rlt_dec 1e-5 nesheath then nisheath / nesheath else 0 in
  C_i_sq 1e-3 (at_c (dens e) - nesheath) (at_c (dens i) - nisheath) (rfloor (sheath_value (temp i)) 1e-5) (rfloor (sheath_value (temp e)) 1e-5) s_i i.
(** Ions at the upper boundary, 334-411. *)
Definition insulating_ion_upper (g : geom) (e i : spec) : bdry :=
  let nisheath := sheath_value (dens i) in
  let tisheath := rfloor (sheath_value (temp i)) 1e-5 in
  let C := insulating_C_i_sq_upper e i in
  let gamma_i := 2.5 + 0.5 * mass i * C / tisheath in
  let visheath := sqrt C in
  let q := ((gamma_i - 1 - 1 / (adiabatic i - 1)) * tisheath - 0.5 * C * mass i) * nisheath * visheath in
  let q := if Rlt_dec q 0 then 0 else q in
  mkBdry (limitFree (at_n (dens i)) (at_c (dens i))) (limitFree (at_n (temp i)) (at_c (temp i))) (limitFree (at_n (pres i)) (at_c (pres i)))
    (2 * visheath - vel_c i) (2 * mass i * nisheath * visheath - mom_c i) (- per_volume g q).
(** The electron flow, 176-177 with 308-309, and 195-196 with 385-386: velocity and momentum in the guard cell. *)
Definition insulating_flow_lower (e : spec) (ions : list spec) : R * R :=
  fold_left (fun '(ve, nve) i =>
    let visheath := - sqrt (full_C_i_sq e i) in
    (ve + 2 * visheath * charge i, nve + 2 * mass e * sheath_value (dens i) * visheath)) ions (- vel_c e, - mom_c e).
Definition insulating_flow_upper (e : spec) (ions : list spec) : R * R :=
  fold_left (fun '(ve, nve) i =>
    let visheath := sqrt (insulating_C_i_sq_upper e i) in
    (ve + 2 * visheath * charge i, nve + 2 * mass e * sheath_value (dens i) * visheath)) ions (- vel_c e, - mom_c e).
(** Electrons at the lower boundary, 159-178 and 439-475. *)
Definition insulating_electrons_lower (gamma_e : R) (g : geom) (e : spec) (ions : list spec) : bdry :=
  let '(ve_g, nve_g) := insulating_flow_lower e ions in
  let nesheath := sheath_value (dens e) in
  let tesheath := sheath_value (temp e) in
  let vesheath := 0.5 * (ve_g + vel_c e) in
  let q := ((gamma_e - 1 - 1 / (adiabatic e - 1)) * tesheath - 0.5 * mass e * SQ vesheath) * nesheath * vesheath in
  mkBdry (limitFree (at_n (dens e)) (at_c (dens e))) (limitFree (at_n (temp e)) (at_c (temp e))) (limitFree (at_n (pres e)) (at_c (pres e)))
    ve_g nve_g (per_volume g q).
(** Electrons at the upper boundary, 183-198 and 477-510.  Line 486 takes the velocity in the cell further inside, [ve_n], rather than
    in the guard cell. *)
Definition insulating_electrons_upper (gamma_e : R) (g : geom) (ve_n : R) (e : spec) (ions : list spec) : bdry :=
  let '(ve_g, nve_g) := insulating_flow_upper e ions in
  let nesheath := sheath_value (dens e) in
  let tesheath := sheath_value (temp e) in
  let vesheath := 0.5 * (ve_n + vel_c e) in
  let q := ((gamma_e - 1 - 1 / (adiabatic e - 1)) * tesheath - 0.5 * mass e * SQ vesheath) * nesheath * vesheath in
  mkBdry (limitFree (at_n (dens e)) (at_c (dens e))) (limitFree (at_n (temp e)) (at_c (temp e))) (limitFree (at_n (pres e)) (at_c (pres e)))
    ve_g nve_g (- per_volume g q).
Definition insulating_lower (gamma_e : R) (g : geom) (e : spec) (ions : list spec) : bdry * list bdry :=
  (insulating_electrons_lower gamma_e g e ions, map (insulating_ion_lower g e) ions).
Definition insulating_upper (gamma_e : R) (g : geom) (ve_n : R) (e : spec) (ions : list spec) : bdry * list bdry :=
  (insulating_electrons_upper gamma_e g ve_n e ions, map (insulating_ion_upper g e) ions).
