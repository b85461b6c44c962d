(** Boundaries without flow, neutral boundaries, and recycling.

    Y boundaries act on a line of cells along the field at one (x, z); iterateBndryLowerY and iterateBndryUpperY visit the line when the
    domain ends there (it is not periodic).  X boundaries act on a line of cells across flux surfaces at one (y, z).  Transformation to
    and from field-aligned coordinates is left out. *)

From Coq Require Import List Bool ZArith Reals String.
From Verif Require Import StateMonad ParallelModel.
Import ListNotations.
Open Scope R_scope.

(** iterateBndryLowerY, iterateBndryUpperY visit this line. *)
Definition at_lower (m : mesh) : bool := (firstY m && negb (periodicY m))%bool.
Definition at_upper (m : mesh) : bool := (lastY m && negb (periodicY m))%bool.

(** ** NoFlowBoundary *)

(** density, temperature and pressure, src/noflow_boundary.cxx 32-52. *)
Definition noflow_scalar (m : mesh) (lower upper : bool) (var : Z -> R) : Z -> R :=
  let var := if (lower && at_lower m)%bool then upd var (ystart m - 1) (var (ystart m)) else var in
  if (upper && at_upper m)%bool then upd var (yend m + 1) (var (yend m)) else var.
(** velocity and momentum, 67-87. *)
Definition noflow_flow (m : mesh) (lower upper : bool) (var : Z -> R) : Z -> R :=
  let var := if (lower && at_lower m)%bool then upd var (ystart m - 1) (- var (ystart m)) else var in
  if (upper && at_upper m)%bool then upd var (yend m + 1) (- var (yend m)) else var.

(** ** NeutralBoundary *)

(** Settings of a wall, src/neutral_boundary.cxx 22-49. *)
Record wall := mkWall { energy_refl_factor : R; fast_refl_fraction : R }.
(** v_th, e.g. 110. *)
Definition v_th (T AA : R) : R := 0.25 * sqrt (8 * T / (PI * AA)).
(** Heat flux, 113-122 (also 174-181, 216-223, 266-273). *)
Definition wall_q (w : wall) (Tnorm AA n T : R) : R :=
  let T_FC := 3 / Tnorm in
  2 * n * T * v_th T AA - (energy_refl_factor w * fast_refl_fraction w) * 2 * n * T * v_th T AA - (1 - fast_refl_fraction w) * T_FC * n * v_th T AA.

(** The fields of the neutrals on a line: Nn, Pn, Tn, Vn, NVn, energy_source, and the diagnostic target_energy_source. *)
Record neutrals := mkNeutrals { Nn : Z -> R; Pn : Z -> R; Tn : Z -> R; Vn : Z -> R; NVn : Z -> R; nE : Z -> R; target_E : Z -> R }.
(** What happens at one end, with the last cell i and the guard cell g: 83-139, 144-197. *)
Definition neutral_target (w : wall) (Tnorm AA : R) (c : coords) (i g : Z) (s : neutrals) : neutrals :=
  let N := upd (Nn s) g (Nn s i) in
  let P := upd (Pn s) g (Pn s i) in
  let T := upd (Tn s) g (Tn s i) in
  let V := upd (Vn s) g (- Vn s i) in
  let NV := upd (NVn s) g (- NVn s i) in
  let nnsheath := 0.5 * (N g + N i) in
  let tnsheath := 0.5 * (T g + T i) in
  let q := wall_q w Tnorm AA nnsheath tnsheath in
  let da := (c_J c i + c_J c g) / (sqrt (c_g22 c i) + sqrt (c_g22 c g)) * 0.5 * (c_dx c i + c_dx c g) * 0.5 * (c_dz c i + c_dz c g) in
  let flow := q * da in
  let cooling_source := flow / (c_dx c i * c_dy c i * c_dz c i * c_J c i) in
  mkNeutrals N P T V NV (upd (nE s) i (nE s i - cooling_source)) (upd (target_E s) i (target_E s i - cooling_source)).
(** The targets, 79-198; target_energy_source starts from zero (76). *)
Definition neutral_targets (w : wall) (lower upper : bool) (Tnorm AA : R) (m : mesh) (c : coords) (s : neutrals) : neutrals :=
  let s := mkNeutrals (Nn s) (Pn s) (Tn s) (Vn s) (NVn s) (nE s) (fun _ => 0) in
  let s := if (lower && at_lower m)%bool then neutral_target w Tnorm AA c (ystart m) (ystart m - 1) s else s in
  if (upper && at_upper m)%bool then neutral_target w Tnorm AA c (yend m) (yend m + 1) s else s.

(** A line across flux surfaces: the range of cells and whether the domain ends on either side; periodicY(xstart). *)
Record xmesh := mkXmesh { xstart : Z; xend : Z; firstX : bool; lastX : bool; periodic_xstart : bool }.
(** J, dx, dy, dz, g22 (upper indices) and g_33. *)
Record xcoords := mkXcoords { x_J : Z -> R; x_dx : Z -> R; x_dy : Z -> R; x_dz : Z -> R; x_g22up : Z -> R; x_g33 : Z -> R }.
(** Area of the radial boundary face, 228-233 and 278-283 (also src/recycling.cxx 369-371, 469-471). *)
Definition radial_area (c : xcoords) (i g : Z) : R :=
  let dpol := 0.5 * (x_dy c i + x_dy c g) * 1 / (0.5 * (sqrt (x_g22up c i) + sqrt (x_g22up c g))) in
  let dtor := 0.5 * (x_dz c i + x_dz c g) * 0.5 * (sqrt (x_g33 c i) + sqrt (x_g33 c g)) in
  dpol * dtor.
Definition x_volume (c : xcoords) (i : Z) : R := x_J c i * x_dx c i * x_dy c i * x_dz c i.
(** One radial wall, 207-246 and 257-296: the guard cells are taken as they are. *)
Definition neutral_wall (w : wall) (Tnorm AA : R) (c : xcoords) (N T : Z -> R) (i g : Z) (E : Z -> R) : Z -> R :=
  let nnsheath := 0.5 * (N g + N i) in
  let tnsheath := 0.5 * (T g + T i) in
  let q := wall_q w Tnorm AA nnsheath tnsheath in
  let cooling_source := q * radial_area c i g / x_volume c i in
  upd E i (E i - cooling_source).
(** SOL and PFR, 201-298: the energy source. *)
Definition neutral_walls (sol_w pfr_w : wall) (sol pfr : bool) (Tnorm AA : R) (m : xmesh) (c : xcoords) (N T E : Z -> R) : Z -> R :=
  let E := if (sol && lastX m)%bool then neutral_wall sol_w Tnorm AA c N T (xend m) (xend m + 1) E else E in
  if (pfr && (firstX m && negb (periodic_xstart m)))%bool then neutral_wall pfr_w Tnorm AA c N T (xstart m) (xstart m - 1) E else E.

(** ** Recycling *)

(** The section of one species, src/recycling.cxx 40-143; energies in eV. *)
Record recycle_options := mkRecycleOptions {
  recycle_as : string;
  target_recycle_multiplier : R; sol_recycle_multiplier : R; pfr_recycle_multiplier : R; pump_recycle_multiplier : R;
  target_recycle_energy : R; sol_recycle_energy : R; pfr_recycle_energy : R;
  target_fast_recycle_fraction : R; pfr_fast_recycle_fraction : R; sol_fast_recycle_fraction : R;
  target_fast_recycle_energy_factor : R; sol_fast_recycle_energy_factor : R; pfr_fast_recycle_energy_factor : R;
  opt_target : bool; opt_sol : bool; opt_pfr : bool; opt_pump : bool
}.
(** RecycleChannel, include/recycling.hxx 44-61, without the diagnostics. *)
Record channel := mkChannel {
  from : string; to : string;
  target_multiplier : R; sol_multiplier : R; pfr_multiplier : R; pump_multiplier : R;
  target_energy : R; sol_energy : R; pfr_energy : R;
  target_fast_fraction : R; pfr_fast_fraction : R; sol_fast_fraction : R;
  target_fast_factor : R; sol_fast_factor : R; pfr_fast_factor : R
}.
(** The flags target_recycle, sol_recycle, pfr_recycle and neutral_pump, include/recycling.hxx 65: members of the component. *)
Record flags := mkFlags { target_recycle : bool; sol_recycle : bool; pfr_recycle : bool; neutral_pump : bool }.
Definition in_unit (x : R) : bool := negb (Rltb x 0 || Rltb 1 x).
(** The constructor, src/recycling.cxx 33-144: the channels, and the flags (unset before the first species).  Species are given with
    their sections. *)
Definition construct (Tnorm : R) (species : list (string * recycle_options)) : option (list channel * option flags) :=
  fold_left (fun st so =>
    match st with
    | None => None
    | Some (channels, fl) =>
        let '(from, o) := so in
        if String.eqb from "" then Some (channels, fl)
        else if (in_unit (target_recycle_multiplier o) && in_unit (sol_recycle_multiplier o) && in_unit (pfr_recycle_multiplier o)
                 && in_unit (pump_recycle_multiplier o))%bool
        then Some (channels ++ [mkChannel from (recycle_as o) (target_recycle_multiplier o) (sol_recycle_multiplier o)
                     (pfr_recycle_multiplier o) (pump_recycle_multiplier o) (target_recycle_energy o / Tnorm) (sol_recycle_energy o / Tnorm)
                     (pfr_recycle_energy o / Tnorm) (target_fast_recycle_fraction o) (pfr_fast_recycle_fraction o) (sol_fast_recycle_fraction o)
                     (target_fast_recycle_energy_factor o) (sol_fast_recycle_energy_factor o) (pfr_fast_recycle_energy_factor o)],
                   Some (mkFlags (opt_target o) (opt_sol o) (opt_pfr o) (opt_pump o)))
        else None
    end) species (Some ([], None)).

(** Fields of a species on a line along the field: density, velocity, energy_flow_ylow (if set), density_source and energy_source
    (zero if not set). *)
Record yspecies := mkYspecies { yN : Z -> R; yV : Z -> R; y_energy_flow : option (Z -> R); y_density_source : Z -> R; y_energy_source : Z -> R }.
Definition yworld := string -> yspecies.
Definition yset (w : yworld) (k : string) (s : yspecies) : yworld := fun k' => if String.eqb k' k then s else w k'.

(** Flow of recycled neutrals, 212-215 and 254-257, with the last cell i and the guard cell g. *)
Definition target_flow (c : coords) (mult flux : R) (i g : Z) : R :=
  mult * flux * (c_J c i + c_J c g) / (sqrt (c_g22 c i) + sqrt (c_g22 c g)) * 0.5 * (c_dx c i + c_dx c g) * 0.5 * (c_dz c i + c_dz c g).
Definition y_volume (c : coords) (i : Z) : R := c_J c i * c_dx c i * c_dy c i * c_dz c i.
(** 228-230 and 270-272. *)
Definition target_energy_flow (ch : channel) (ion_energy_flow flow : R) : R :=
  ion_energy_flow * target_multiplier ch * target_fast_factor ch * target_fast_fraction ch + flow * (1 - target_fast_fraction ch) * target_energy ch.
(** Lower end, 199-236: what is added to density_source and energy_source of the last cell. *)
Definition target_lower (c : coords) (m : mesh) (ch : channel) (N V Eflow : Z -> R) : R * R :=
  let i := ystart m in let g := (ystart m - 1)%Z in
  let flux := - (0.5 * (N i + N g) * 0.5 * (V i + V g)) in
  let flux := if Rltb flux 0 then 0 else flux in
  let flow := target_flow c (target_multiplier ch) flux i g in
  (flow / y_volume c i, target_energy_flow ch (Eflow i * -1) flow / y_volume c i).
(** Upper end, 240-279. *)
Definition target_upper (c : coords) (m : mesh) (ch : channel) (N V Eflow : Z -> R) : R * R :=
  let i := yend m in let g := (yend m + 1)%Z in
  let flux := 0.5 * (N i + N g) * 0.5 * (V i + V g) in
  let flux := if Rltb flux 0 then 0 else flux in
  let flow := target_flow c (target_multiplier ch) flux i g in
  (flow / y_volume c i, target_energy_flow ch (Eflow g) flow / y_volume c i).
(** One channel at the targets, 159-280 with 504-506. *)
Definition recycle_targets1 (fl : flags) (c : coords) (m : mesh) (w : yworld) (ch : channel) : option yworld :=
  let f := w (from ch) in
  let t := w (to ch) in
  if target_recycle fl then
    match (match y_energy_flow f with Some e => Some e | None => if Rltb 0 (target_fast_fraction ch) then None else Some (fun _ => 0) end) with
    | None => None
    | Some e =>
        let ds := y_density_source t in
        let es := y_energy_source t in
        let '(ds, es) := if at_lower m then let '(a, b) := target_lower c m ch (yN f) (yV f) e in
                           (upd ds (ystart m) (ds (ystart m) + a), upd es (ystart m) (es (ystart m) + b)) else (ds, es) in
        let '(ds, es) := if at_upper m then let '(a, b) := target_upper c m ch (yN f) (yV f) e in
                           (upd ds (yend m) (ds (yend m) + a), upd es (yend m) (es (yend m) + b)) else (ds, es) in
        Some (yset w (to ch) (mkYspecies (yN t) (yV t) (y_energy_flow t) ds es))
    end
  else Some w.
(** The loop over channels, 159-507, at the targets. *)
Definition recycle_targets (fl : flags) (c : coords) (m : mesh) (chs : list channel) (w : yworld) : option yworld :=
  fold_left (fun w ch => match w with Some w => recycle_targets1 fl c m w ch | None => None end) chs (Some w).

(** Fields of a species on a line across flux surfaces: density, temperature and AA (of the neutrals), energy_flow_xlow and
    particle_flow_xlow (if set), and the sources. *)
Record xspecies := mkXspecies {
  xN : Z -> R; xT : Z -> R; xAA : R; x_energy_flow : option (Z -> R); x_particle_flow : option (Z -> R);
  x_density_source : Z -> R; x_energy_source : Z -> R
}.
Definition xworld := string -> xspecies.
Definition xset (w : xworld) (k : string) (s : xspecies) : xworld := fun k' => if String.eqb k' k then s else w k'.

(** A wall, with the last cell i, the one further inside s and the guard cell g: what is added to density_source and energy_source,
    315-396 and 414-496, given the outflow of particles and energy.  mult, energy, fraction and factor are those of the wall. *)
Definition recycle_wall (c : xcoords) (pump : bool) (pump_mult mult energy fraction factor : R) (t : xspecies) (i s g : Z) (outflow eoutflow : R) : R * R :=
  let volume := x_volume c i in
  let multiplier := if pump then pump_mult else mult in
  let recycle_particle_flow := if Rltb 0 outflow then multiplier * outflow else 0 in
  let recycle_energy_flow := eoutflow * mult * factor * fraction + recycle_particle_flow * (1 - fraction) * energy in
  let '(psink, esink) :=
    if pump then
      let nnguard := SQ (xN t i) / xN t s in
      let tnguard := SQ (xT t i) / xT t s in
      let nnsheath := 0.5 * (xN t i + nnguard) in
      let tnsheath := 0.5 * (xT t i + tnguard) in
      let v := v_th tnsheath (xAA t) in
      (v * nnsheath * radial_area c i g / volume * (1 - multiplier), 2.0 * tnsheath * v * nnsheath * radial_area c i g / volume * (1 - multiplier))
    else (0, 0) in
  (recycle_particle_flow / volume - psink, recycle_energy_flow / volume - esink).

(** One channel at the radial walls, 282-502.  The members energy_flow_xlow and particle_flow_xlow keep what an earlier channel (or
    call) put there; used without ever being set they are undefined. *)
Definition is_pumped (fl : flags) (is_pump : Z -> R) (i : Z) : bool := (Reqb (is_pump i) 1 && neutral_pump fl)%bool.
Definition members := (option (Z -> R) * option (Z -> R))%type.
Definition recycle_walls1 (fl : flags) (m : xmesh) (c : xcoords) (is_pump : Z -> R) (st : xworld * members) (ch : channel) : res (xworld * members) :=
  let '(w, (pflow, eflow)) := st in
  let f := w (from ch) in
  let t := w (to ch) in
  let fast := (Rltb 0 (sol_fast_fraction ch) || Rltb 0 (pfr_fast_fraction ch))%bool in
  match (if (sol_recycle fl || pfr_recycle fl)%bool then
           match x_energy_flow f, x_particle_flow f with
           | Some e, Some p => Some (Some p, Some e)
           | Some e, None => if fast then None else Some (pflow, Some e)
           | None, Some p => if fast then None else Some (Some p, eflow)
           | None, None => if fast then None else Some (pflow, eflow)
           end
         else Some (pflow, eflow)) with
  | None => Exc
  | Some (pflow, eflow) =>
      let use_sol := (sol_recycle fl && lastX m)%bool in
      let use_pfr := (pfr_recycle fl && (firstX m && negb (periodic_xstart m)))%bool in
      if (use_sol || use_pfr)%bool then
        match pflow, eflow with
        | Some p, Some e =>
            let ds := x_density_source t in
            let es := x_energy_source t in
            let '(ds, es) := if use_sol then
                let i := xend m in
                let '(a, b) := recycle_wall c (is_pumped fl is_pump i) (pump_multiplier ch) (sol_multiplier ch) (sol_energy ch) (sol_fast_fraction ch) (sol_fast_factor ch) t
                                 i (i - 1) (i + 1) (p (i + 1)%Z) (e (i + 1)%Z) in
                (upd ds i (ds i + a), upd es i (es i + b)) else (ds, es) in
            let '(ds, es) := if use_pfr then
                let i := xstart m in
                let '(a, b) := recycle_wall c (is_pumped fl is_pump i) (pump_multiplier ch) (pfr_multiplier ch) (pfr_energy ch) (pfr_fast_fraction ch) (pfr_fast_factor ch) t
                                 i (i + 1) (i - 1) (p i * -1) (e i * -1) in
                (upd ds i (ds i + a), upd es i (es i + b)) else (ds, es) in
            Ok (xset w (to ch) (mkXspecies (xN t) (xT t) (xAA t) (x_energy_flow t) (x_particle_flow t) ds es), (pflow, eflow))
        | _, _ => Undef
        end
      else Ok (w, (pflow, eflow))
  end.
Definition recycle_walls (fl : flags) (m : xmesh) (c : xcoords) (is_pump : Z -> R) (chs : list channel) (st : xworld * members) : res (xworld * members) :=
  fold_left (fun st ch => match st with Ok st => recycle_walls1 fl m c is_pump st ch | r => r end) chs (Ok st).
