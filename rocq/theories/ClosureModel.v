(** Components which close the set of species: quasineutral, zero_current, electron_force_balance, fixed_fraction_ions, sound_speed,
    classical_diffusion, scale_timederivs, simple_pump, sheath_closure.

    The state["species"] section is a list of species, in the order of iteration, with the values at one grid point of what is set.
    Whether a value may still be set, and boundary flags, are the subject of OptionsModel. *)

From Coq Require Import List Bool ZArith Reals String Ascii.
From Verif Require Import StateMonad StrModel ParallelModel.
Import ListNotations.
Open Scope R_scope.

Record species := mkSpecies {
  s_name : string; s_charge : option R; s_AA : option R; s_density : option R; s_velocity : option R; s_pressure : option R; s_temperature : option R;
  s_momentum_source : option R; s_density_source : option R; s_energy_source : option R
}.
Definition empty_species (name : string) : species := mkSpecies name None None None None None None None None None.
(** add / subtract to a value of the state, include/component.hxx 281-314: add_opt for what is already there. *)
Definition add_opt (old : option R) (x : R) : option R := match old with Some y => Some (y + x) | None => Some x end.
(** allspecies[name] with an assignment: an entry is made if there is none. *)
Fixpoint modify (name : string) (f : species -> species) (l : list species) : list species :=
  match l with
  | [] => [f (empty_species name)]
  | s :: l => if String.eqb (s_name s) name then f s :: l else s :: modify name f l
  end.
Fixpoint find_species (name : string) (l : list species) : option species :=
  match l with
  | [] => None
  | s :: l => if String.eqb (s_name s) name then Some s else find_species name l
  end.

(** ** Quasineutral, src/quasineutral.cxx *)

(** Charge density of the others, 23-41. *)
Definition quasineutral_rho (name : string) (l : list species) : R :=
  fold_left (fun value s =>
    if negb (String.eqb (s_name s) name) then
      match s_charge s, s_density s with Some q, Some n => value + n * q | _, _ => value end
    else value) l 0.
(** transform, 43-51. *)
Definition quasineutral (name : string) (charge AA : R) (l : list species) : list species :=
  let rho := quasineutral_rho name l in
  let density := rfloor (rho / (- charge)) 0 in
  modify name (fun s => mkSpecies (s_name s) (Some charge) (Some AA) (Some density) (s_velocity s) (s_pressure s) (s_temperature s) (s_momentum_source s) (s_density_source s) (s_energy_source s)) l.

(** ** ZeroCurrent, src/zero_current.cxx *)

(** 20-50: None while no current has been allocated. *)
Definition zero_current_sum (name : string) (l : list species) : option R :=
  fold_left (fun current s =>
    if String.eqb (s_name s) name then current else
    match s_density s, s_charge s, s_velocity s with
    | Some N, Some charge, Some V => match current with None => Some (charge * N * V) | Some c => Some (c + charge * N * V) end
    | _, _, _ => current
    end) l None.
(** transform: None for the exceptions at 52-55, 59-61 and for a missing density. *)
Definition zero_current (name : string) (charge : R) (l : list species) : option (list species) :=
  match zero_current_sum name l with
  | None => None
  | Some current =>
    match find_species name l with
    | None => None
    | Some s =>
      match s_velocity s, s_density s with
      | Some _, _ | _, None => None
      | None, Some N =>
        let velocity := current / (- charge * rfloor N 1e-5) in
        Some (modify name (fun s => mkSpecies (s_name s) (s_charge s) (s_AA s) (s_density s) (Some velocity) (s_pressure s) (s_temperature s) (s_momentum_source s) (s_density_source s) (s_energy_source s)) l)
      end
    end
  end.

(** ** ElectronForceBalance, src/electron_force_balance.cxx *)

(** 18-34, with gradP the value of Grad_par(Pe). *)
Definition force_balance_Epar (gradP : R) (momentum_source : option R) (Ne : R) : R :=
  let force_density := - gradP in
  let force_density := match momentum_source with Some F => force_density + F | None => force_density end in
  force_density / rfloor Ne 1e-5.
(** 36-53: the force on another species. *)
Definition force_on (Epar : R) (s : species) : species :=
  if String.eqb (s_name s) "e" then s else
  match s_density s, s_charge s with
  | Some N, Some charge => mkSpecies (s_name s) (s_charge s) (s_AA s) (s_density s) (s_velocity s) (s_pressure s) (s_temperature s) (add_opt (s_momentum_source s) (charge * N * Epar)) (s_density_source s) (s_energy_source s)
  | _, _ => s
  end.
(** transform: None if phi is set (11-15) or the electrons lack pressure or density. *)
Definition electron_force_balance (phi_set : bool) (gradP : R) (l : list species) : option (list species) :=
  if phi_set then None else
  match find_species "e" l with
  | Some e => match s_pressure e, s_density e with
              | Some _, Some Ne => Some (map (force_on (force_balance_Epar gradP (s_momentum_source e) Ne)) l)
              | _, _ => None
              end
  | None => None
  end.

(** ** FixedFractionIons, src/fixed_fraction_ions.cxx *)

Definition at_char : ascii := "@"%char.
(** Default characters removed by trim (BOUT++). *)
Definition blanks : str := [" "%char; "009"%char; "013"%char].
(** Constructor, 6-30; stringToReal enters as [real_of]; None for its exception and those at 17-20 and 27-30. *)
Definition parse_fraction (real_of : str -> option R) (pair : str) : option (str * R) :=
  match strsplit at_char pair with
  | [a; b] => match real_of (trim blanks b) with Some x => Some (trim blanks a, x) | None => None end
  | _ => None
  end.
Fixpoint parse_fraction_list (real_of : str -> option R) (l : list str) : option (list (str * R)) :=
  match l with
  | [] => Some []
  | p :: l => match parse_fraction real_of p with
              | Some x => match parse_fraction_list real_of l with Some r => Some (x :: r) | None => None end
              | None => None
              end
  end.
Definition parse_fractions (real_of : str -> option R) (text : str) : option (list (str * R)) :=
  match parse_fraction_list real_of (strsplit comma text) with
  | Some [] | None => None
  | Some l => Some l
  end.
(** transform, 33-43: densities by name of species. *)
Definition fixed_fraction_density (fractions : list (str * R)) (Ne : R) (old : str -> option R) : str -> option R :=
  fold_left (fun d f => fun name => if str_eqb name (fst f) then Some (Ne * snd f) else d name) fractions old.

(** ** SoundSpeed, src/sound_speed.cxx *)

Record sound_options := mkSound { electron_dynamics : bool; alfven_wave : bool; beta_norm : R; temperature_floor : R; fastest_wave_factor : R }.
(** Defaults, include/sound_speed.hxx 16-38. *)
Definition sound_defaults : sound_options := mkSound true false 0 0 0.
(** transform 18-49: total pressure, total mass density, fastest wave; [inside]: the point is in RGN_NOBNDRY. *)
Definition sound_step (o : sound_options) (inside : bool) (acc : R * R * R) (s : species) : R * R * R :=
  let '(p, rho, w) := acc in
  let p := match s_pressure s with Some x => p + x | None => p end in
  if (String.eqb (s_name s) "e" && negb (electron_dynamics o))%bool then (p, rho, w) else
  match s_AA s with
  | None => (p, rho, w)
  | Some AA =>
    let rho := match s_density s with Some n => rho + n * AA | None => rho end in
    let w := match s_temperature s with
             | Some T => if inside then Rmax w (sqrt (rfloor T (temperature_floor o) / AA)) else w
             | None => w
             end in
    (p, rho, w)
  end.
(** 51-66: sound_speed and fastest_wave. *)
Definition sound_speed (o : sound_options) (inside : bool) (Bxy : R) (l : list species) : R * R :=
  let '(p, rho, w) := fold_left (sound_step o inside) l (0, 0, 0) in
  let rho := rfloor rho 1e-10 in
  let cs := sqrt (p / rho) in
  let w := if inside then Rmax w cs else w in
  let w := if (alfven_wave o && inside)%bool then Rmax w (beta_norm o * Bxy / sqrt rho) else w in
  (cs, w * fastest_wave_factor o).
(** Along a line: fastest_wave as state["fastest_wave"] holds it; cells outside ystart .. yend keep the 0.0 of line 18 (and are not
    communicated). *)
Definition fastest_wave_line (o : sound_options) (m : mesh) (Bxy : Z -> R) (l : Z -> list species) (j : Z) : R :=
  snd (sound_speed o (Z.leb (ystart m) j && Z.leb j (yend m))%bool (Bxy j) (l j)).

(** ** ClassicalDiffusion, src/classical_diffusion.cxx *)

(** Total pressure of charged species, 23-36. *)
Definition classical_pressure (l : list species) : R :=
  fold_left (fun p s => match s_charge s, s_pressure s with
                        | Some q, Some x => if Rltb (Rabs q) 1e-5 then p else p + x
                        | _, _ => p
                        end) l 0.
(** Dn, 45-55, zero in guard cells. *)
Definition classical_D (custom_D : R) (inside : bool) (l : list species) (me Ne nu_e Bsq : R) : R :=
  if inside then
    if Rltb 0 custom_D then custom_D else rfloor (classical_pressure l) 1e-5 * me * rfloor nu_e 1e-10 / (rfloor Ne 1e-5 * Bsq)
  else 0.
(** Whether heat conduction is added, 87. *)
Definition classical_conducts (custom_D : R) : bool := Rltb custom_D 0.
(** Whether Dn is calculated from collisions, 45-50. *)
Definition classical_calculated (custom_D : R) : bool := negb (Rltb 0 custom_D).
(** Density sources, 57-69: [diffuse f] is the value of Div_a_Grad_perp(Dn, f) at the point, for species whose densities are fields of
    type F. *)
Section ClassicalSources.
  Variable F : Type.
  Variable diffuse : F -> R.
  Definition classical_source (charge : option R) (N : option F) : R :=
    match charge, N with
    | Some q, Some n => if Rltb (Rabs q) 1e-5 then 0 else diffuse n
    | _, _ => 0
    end.
End ClassicalSources.

(** ** ScaleTimeDerivs, include/scale_timederivs.hxx 18-29 *)

(** dt of one cell; pow(x, 5/2). *)
Definition cfl_dt (g_22 dy Te : R) : R := g_22 * SQ dy / Rpower (rfloor Te 1e-5) (5 / 2).
(** max(dt, true): over all cells of all processors, and the scaling. *)
Fixpoint list_max (x : R) (l : list R) : R := match l with [] => x | y :: l => list_max (Rmax x y) l end.
Definition scaling (dts : list R) : list R := match dts with [] => [] | x :: l => map (fun dt => dt / list_max x l) dts end.

(** ** SimplePump, include/simple_pump.hxx 19-40 *)
Definition simple_pump (residence_time_seconds Omega_ci sink_shape density : R) : R :=
  let residence_time := residence_time_seconds * Omega_ci in
  (sink_shape * density) * (- 1 / residence_time).

(** ** SheathClosure, src/sheath_closure.cxx 37-107 *)
Record closure_options := mkClosure { L_par : R; gamma_e : R; gamma_i : R; offset : R; sinks : bool }.
(** DivJsh, 49-54: what is added to DivJextra and to the electron density source. *)
Definition closure_current (o : closure_options) (n phi : R) : R * R :=
  let DivJsh := n * (phi - offset o) / L_par o in (DivJsh, DivJsh).
(** 57-67: energy taken from the electrons. *)
Definition closure_electron_heat (o : closure_options) (n Te : R) : R := rfloor (gamma_e o * n * Te * sqrt Te) 0 / L_par o.
(** 69-105: sinks of the species, (name, A, density, temperature): name, density source, energy source. *)
Definition closure_sinks (o : closure_options) (l : list (string * (R * (R * R)))) : list (string * (R * R)) :=
  let P_total := fold_left (fun p s => p + fst (snd (snd s)) * snd (snd (snd s))) l 0 in
  let rho_total := fold_left (fun r s => r + fst (snd s) * fst (snd (snd s))) l 0 in
  let c_s := sqrt (P_total / rho_total) in
  map (fun s => let Ns := fst (snd (snd s)) in let Ts := snd (snd (snd s)) in
                let flux := rfloor (Ns * c_s) 0 in
                (fst s, (- (flux / L_par o), if String.eqb (fst s) "e" then 0 else - (rfloor (gamma_i o * Ts * flux) 0 / L_par o)))) l.
