(** Vocabulary for property C105: which entries each type of component looks at, and in
    which way; what it always looks at and always changes.  Nothing here refers to the
    programs of AccessComponents.v. *)

From Coq Require Import List Bool String QArith.
From Verif Require Import OptionsModel AccessModel AccessComponents AccessSpec.
Import ListNotations.
Open Scope string_scope.
Open Scope list_scope.

(** get, getNoBoundary, getNonFinal; isSetFinal, isSetFinalNoBoundary; isSet. *)
Inductive look := Whole | Interior | Current | AskWhole | AskInterior | Ask.

Definition look_eqb (a b : look) : bool :=
  match a, b with
  | Whole, Whole | Interior, Interior | Current, Current
  | AskWhole, AskWhole | AskInterior, AskInterior | Ask, Ask => true
  | _, _ => false
  end.

(** What an event looks at. *)
Definition looks_at {F} (e : event F) : option (look * path) :=
  match e with
  | EvRead RFinal p _ => Some (Whole, p)
  | EvRead RNoBoundary p _ => Some (Interior, p)
  | EvRead RNonFinal p _ => Some (Current, p)
  | EvQuery false p _ => Some (AskWhole, p)
  | EvQuery true p _ => Some (AskInterior, p)
  | EvHas p _ => Some (Ask, p)
  | _ => None
  end.

Inductive place :=
| Own             (* the species after which the component is named *)
| Of (s : string)
| Every           (* any species *)
| Top | Fld | Unt.

Definition at_place (self : string) (w : place) (q : string) (p : path) : bool :=
  match w, p with
  | Own, PSp s q' => String.eqb s self && String.eqb q q'
  | Of x, PSp s q' => String.eqb s x && String.eqb q q'
  | Every, PSp _ q' => String.eqb q q'
  | Top, PTop q' => String.eqb q q'
  | Fld, PField q' => String.eqb q q'
  | Unt, PUnit q' => String.eqb q q'
  | _, _ => false
  end.

(** Quantities [qs] at a place, looked at in each of the ways [ls]. *)
Definition view := (list look * place * list string)%type.

Definition shows (self : string) (v : view) (l : look) (p : path) : bool :=
  let '(ls, w, qs) := v in
  existsb (look_eqb l) ls && existsb (fun q => at_place self w q p) qs.

Definition profiles : list string :=
  ["density"; "temperature"; "pressure"; "velocity"; "momentum"].

Definition sheath_views (charges : list look) : list view :=
  [([Interior], Of "e", profiles);
   ([AskInterior], Of "e", ["pressure"; "velocity"; "momentum"]);
   ([AskWhole; Whole], Of "e", ["AA"]);
   ([AskInterior; Interior], Fld, ["phi"]);
   (charges, Every, ["charge"]);
   ([Whole], Every, ["AA"]);
   ([Interior], Every, profiles);
   ([Ask], Every, ["pressure"; "velocity"; "momentum"]);
   ([Ask; Current], Every, ["energy_source"])].

(** transform *)
Definition view_table : list (string * list view) :=
  [("evolve_density", [([Whole], Top, ["time"])]);
   ("evolve_pressure", [([Interior], Own, ["density"])]);
   ("evolve_energy", [([Interior], Own, ["density"; "velocity"]); ([Whole], Own, ["AA"])]);
   ("evolve_momentum", [([Interior], Own, ["density"]); ([Whole], Own, ["AA"])]);
   ("neutral_mixed", []);
   ("isothermal", [([AskInterior; Interior], Own, ["density"])]);
   ("fixed_density", []);
   ("fixed_temperature", [([AskInterior; Interior], Own, ["density"])]);
   ("fixed_velocity", [([AskInterior; Interior], Own, ["density"]); ([Whole], Own, ["AA"])]);
   ("set_temperature",
    [([Interior], Every, ["temperature"]); ([AskInterior; Interior], Own, ["density"])]);
   ("quasineutral", [([Ask; Interior], Every, ["density"]); ([Ask; Whole], Every, ["charge"])]);
   ("zero_current",
    [([Ask; Interior], Every, ["density"]); ([Ask; Whole], Every, ["charge"]);
     ([AskInterior; Interior], Every, ["velocity"]); ([Ask], Own, ["velocity"])]);
   ("fixed_fraction_ions", [([Whole], Of "e", ["density"])]);
   ("sound_speed",
    [([Ask; Interior], Every, ["pressure"; "density"; "temperature"]);
     ([Ask; Whole], Every, ["AA"])]);
   ("scale_timederivs", [([Whole], Of "e", ["temperature"])]);
   ("transform", []);
   ("simple_pump", [([Interior], Own, ["density"])]);
   ("simple_conduction",
    [([Interior], Own, ["temperature"; "density"]); ([Whole], Own, ["AA"])]);
   ("snb_conduction",
    [([Whole], Unt, ["meters"; "eV"; "inv_meters_cubed"; "seconds"]);
     ([Whole], Of "e", ["temperature"; "density"])]);
   ("anomalous_diffusion",
    [([Interior], Own, ["density"]); ([Ask; Interior], Own, ["temperature"; "velocity"]);
     ([Whole], Own, ["AA"])]);
   ("classical_diffusion",
    [([Ask; Whole], Every, ["charge"]);
     ([AskWhole; Whole], Every, ["pressure"; "density"; "velocity"; "temperature"]);
     ([Whole], Every, ["AA"; "collision_frequency"])]);
   ("binormal_stpm",
    [([Whole], Every, ["AA"]); ([Ask; Interior], Every, ["density"; "temperature"; "momentum"])]);
   ("neutral_parallel_diffusion",
    [([Ask; Whole], Every, ["charge"]); ([AskWhole; Whole], Every, ["pressure"; "velocity"]);
     ([Whole], Every, ["collision_frequency"; "AA"; "density"; "temperature"; "momentum"])]);
   ("solkit_neutral_parallel_diffusion",
    [([Ask; Whole], Every, ["charge"]); ([Whole], Every, ["density"; "AA"])]);
   ("upstream_density_feedback",
    [([Interior], Own, ["density"]); ([AskInterior; Interior], Own, ["velocity"]);
     ([AskWhole; Whole], Own, ["AA"]); ([Whole], Top, ["time"])]);
   ("temperature_feedback", [([Interior], Own, ["temperature"]); ([Whole], Top, ["time"])]);
   ("detachment_controller", [([Interior], Every, ["density"]); ([Whole], Top, ["time"])]);
   ("electron_force_balance",
    [([AskWhole], Fld, ["phi"]); ([Whole], Of "e", ["pressure"; "charge"]);
     ([AskWhole; Whole], Of "e", ["momentum_source"]);
     ([AskWhole; Interior], Every, ["density"]); ([AskWhole; Whole], Every, ["charge"])]);
   ("ion_viscosity",
    [([AskWhole; Whole], Every, ["pressure"; "velocity"; "charge"]);
     ([Whole], Every, ["collision_frequency"; "density"; "temperature"]);
     ([Whole], Fld, ["phi"])]);
   ("electron_viscosity",
    [([AskWhole; Whole], Of "e", ["pressure"; "velocity"]);
     ([Whole], Of "e", ["collision_frequency"])]);
   ("thermal_force",
    [([Whole], Every, ["temperature"; "AA"]); ([Ask; Whole], Every, ["charge"]);
     ([Interior], Every, ["density"])]);
   ("collisions",
    [([Interior], Every, ["density"]); ([Ask; Interior], Every, ["temperature"]);
     ([Ask; AskInterior; Interior], Every, ["velocity"]);
     ([Ask; Whole], Every, ["charge"]); ([Whole], Every, ["AA"])]);
   ("noflow_boundary", [([Ask; Interior], Own, profiles)]);
   ("neutral_boundary",
    [([Interior], Own, profiles); ([AskInterior], Own, ["velocity"; "momentum"]);
     ([Whole], Own, ["AA"]); ([Ask; Current], Own, ["energy_source"])]);
   ("sheath_boundary",
    sheath_views [AskWhole; Whole; Interior] ++
    [([Interior], Every, ["AA"]); ([AskWhole; Whole], Every, ["adiabatic"])]);
   ("sheath_boundary_simple",
    sheath_views [Ask; Whole; Interior] ++
    [([Interior], Every, ["AA"]); ([Ask], Fld, ["phi"])]);
   ("sheath_boundary_insulating",
    sheath_views [AskWhole; Whole] ++ [([AskWhole; Whole], Every, ["adiabatic"])]);
   ("sheath_closure",
    [([Whole], Fld, ["phi"]); ([Ask], Of "e", ["temperature"]);
     ([Whole], Every, ["density"; "temperature"; "AA"])]);
   ("recycling",
    [([Whole], Every, ["density"; "velocity"; "temperature"; "pressure"; "AA"]);
     ([Ask; Current], Every, ["density_source"; "energy_source"]);
     ([Ask; Whole], Every, ["energy_flow_xlow"; "energy_flow_ylow"; "particle_flow_xlow"])]);
   ("vorticity",
    [([AskInterior; Interior], Every, ["pressure"]); ([Ask; AskWhole; Whole], Every, ["charge"]);
     ([Ask; Whole], Every, ["AA"]); ([Interior], Every, ["density"]);
     ([AskWhole; Whole], Every, ["collision_frequency"]);
     ([Ask; Interior], Of "e", ["temperature"]); ([Whole], Top, ["time"])]);
   ("relax_potential",
    [([AskInterior; Interior], Every, ["pressure"]); ([AskWhole; Whole], Every, ["charge"]);
     ([AskWhole], Every, ["AA"])]);
   ("diamagnetic_drift",
    [([Ask; Whole], Every, ["charge"; "temperature"]);
     ([AskWhole; Whole], Every, ["density"; "pressure"; "momentum"])]);
   ("polarisation_drift",
    [([AskWhole; Whole], Fld, ["DivJdia"; "DivJextra"; "DivJcol"]);
     ([Ask; Whole], Every, ["charge"; "AA"]); ([Ask; AskWhole; Whole], Every, ["momentum"]);
     ([AskInterior; Interior; AskWhole; Whole], Every, ["pressure"]);
     ([Interior; AskWhole; Whole], Every, ["density"])]);
   ("electromagnetic",
    [([AskWhole; Ask; Whole], Every, ["charge"]); ([Ask; Current], Every, ["momentum"]);
     ([Current], Every, ["velocity"]); ([Interior], Every, ["density"]);
     ([Whole], Every, ["AA"]); ([Whole], Top, ["time"])])]
  ++ map (fun t => (t, [([Interior], Of "e", ["density"; "temperature"])]))
       ["fixed_fraction_hutchinson_carbon"; "fixed_fraction_carbon";
        "fixed_fraction_nitrogen"; "fixed_fraction_neon"; "fixed_fraction_argon";
        "fixed_fraction_argon_simplified1"; "fixed_fraction_argon_simplified2";
        "fixed_fraction_argon_simplified3"; "fixed_fraction_krypton";
        "fixed_fraction_xenon"; "fixed_fraction_tungsten"].

(** All other types are reactions: they read what is final. *)
Definition reaction_views : list view :=
  [([Whole], Every, ["density"; "temperature"; "velocity"; "AA"; "charge"]);
   ([Ask], Every, ["charge"]); ([Ask; AskWhole], Every, ["velocity"])].

Definition views_of (t : string) : list view :=
  match assoc t view_table with Some l => l | None => reaction_views end.

Definition may_look (t n : string) (l : look) (p : path) : bool :=
  existsb (fun v => shows n v l p) (views_of t).

(** finally: everything is read with get or asked for with isSet. *)
Definition last_looks : list look := [Whole; Ask].

Definition evolving : list view :=
  [(last_looks, Fld, ["phi"; "Apar"; "Apar_flutter"]);
   (last_looks, Top, ["fastest_wave"; "scale_timederivs"; "time"]);
   (last_looks, Own, profiles ++ ["AA"; "charge"; "low_n_coeff"])].

Definition finally_table : list (string * list view) :=
  [("evolve_density",
    evolving ++ [(last_looks, Own, ["density_source"; "particle_flow_xlow"; "particle_flow_ylow"])]);
   ("evolve_pressure",
    evolving ++ [(last_looks, Own, ["energy_source"; "pressure_source"; "collision_frequency";
                                    "energy_flow_xlow"; "energy_flow_ylow"])]);
   ("evolve_energy",
    evolving ++ [(last_looks, Own, ["energy_source"; "momentum_source"; "pressure_source";
                                    "collision_frequency"; "energy_flow_xlow"; "energy_flow_ylow"])]);
   ("evolve_momentum",
    evolving ++ [(last_looks, Own, ["density_source"; "momentum_source"; "momentum_flow_xlow";
                                    "momentum_flow_ylow"; "momentum_flux_ylow"])]);
   ("neutral_mixed",
    [(last_looks, Own, ["collision_frequency"; "density_source"; "momentum_source"; "energy_source"]);
     (last_looks, Unt, ["meters"]); (last_looks, Top, ["scale_timederivs"])]);
   ("quasineutral", [([Whole], Own, ["density"])]);
   ("vorticity",
    [(last_looks, Fld, ["phi"; "DivJextra"; "Apar_flutter"]);
     (last_looks, Every, ["charge"; "momentum"; "density"; "AA"]);
     (last_looks, Top, ["sound_speed"])]);
   ("relax_potential",
    [(last_looks, Fld, ["phi"; "vorticity"; "DivJextra"]);
     (last_looks, Every, ["charge"; "momentum"; "density"; "AA"; "pressure"])])].

Definition may_look_finally (t n : string) (l : look) (p : path) : bool :=
  match assoc t finally_table with
  | Some vs => existsb (fun v => shows n v l p) vs
  | None => false
  end.

(** ** What transform always looks at *)

Definition all_of (l : look) (ps : list path) : list (look * path) := map (fun p => (l, p)) ps.

Definition e_whole (qs : list string) := all_of Whole (map (PSp "e") qs).

(** The OpenADAS reactions listed by their species; the others as in the table of needs. *)
Definition adas_final (from to : string) : list (look * path) :=
  all_of Whole [PSp "e" "density"; PSp "e" "temperature"; PSp from "density";
                PSp from "temperature"; PSp from "velocity"; PSp from "AA"; PSp to "AA"].

Definition reaction_always_looks : list (string * list (look * path)) :=
  [("c + e -> c+ + 2e", adas_final "c" "c+"); ("c+ + e -> c", adas_final "c+" "c");
   ("ne + e -> ne+ + 2e", adas_final "ne" "ne+"); ("ne+ + e -> ne", adas_final "ne+" "ne");
   ("li + e -> li+ + 2e", adas_final "li" "li+"); ("li+ + e -> li", adas_final "li+" "li");
   ("ionisation", adas_final "h" "h+")].

Definition sheath_always : list (look * path) :=
  all_of Interior (map (PSp "e") ["density"; "temperature"]) ++
  all_of AskInterior (PField "phi" :: map (PSp "e") ["pressure"; "velocity"; "momentum"]) ++
  [(AskWhole, PSp "e" "AA")].

Definition always_looks (t n : string) (c : cfg) : list (look * path) :=
  let sp q := PSp n q in
  let e q := PSp "e" q in
  match assoc t
    [("evolve_pressure", [(Interior, sp "density")]);
     ("evolve_energy", [(Interior, sp "density"); (Interior, sp "velocity"); (Whole, sp "AA")]);
     ("evolve_momentum", [(Interior, sp "density"); (Whole, sp "AA")]);
     ("isothermal", [(AskInterior, sp "density")]);
     ("fixed_temperature", [(AskInterior, sp "density")]);
     ("fixed_velocity", [(AskInterior, sp "density")]);
     ("set_temperature",
      (AskInterior, sp "density") ::
      match rstring c n "temperature_from" with
      | Some s => [(Interior, PSp s "temperature")]
      | None => []
      end);
     ("zero_current", [(Interior, sp "density")]);
     ("fixed_fraction_ions", e_whole ["density"]);
     ("scale_timederivs", e_whole ["temperature"]);
     ("simple_pump", [(Interior, sp "density")]);
     ("simple_conduction", [(Interior, sp "temperature"); (Whole, sp "AA")]);
     ("snb_conduction", e_whole ["density"; "temperature"]);
     ("anomalous_diffusion", [(Interior, sp "density")]);
     ("classical_diffusion", e_whole ["density"; "AA"]);
     ("upstream_density_feedback",
      [(Interior, sp "density"); (AskInterior, sp "velocity"); (Whole, PTop "time")]);
     ("temperature_feedback", [(Interior, sp "temperature"); (Whole, PTop "time")]);
     ("detachment_controller", [(Interior, e "density"); (Whole, PTop "time")]);
     ("fixed_fraction_carbon", all_of Interior [e "density"; e "temperature"]);
     ("fixed_fraction_nitrogen", all_of Interior [e "density"; e "temperature"]);
     ("fixed_fraction_neon", all_of Interior [e "density"; e "temperature"]);
     ("fixed_fraction_argon", all_of Interior [e "density"; e "temperature"]);
     ("electron_force_balance",
      (AskWhole, PField "phi") :: (Interior, e "density") :: (AskWhole, e "momentum_source")
      :: e_whole ["pressure"; "charge"]);
     ("electron_viscosity", e_whole ["pressure"; "velocity"; "collision_frequency"]);
     ("neutral_boundary",
      (Whole, sp "AA") :: all_of Interior (map sp ["density"; "pressure"; "temperature"])
      ++ all_of AskInterior (map sp ["velocity"; "momentum"]));
     ("sheath_boundary", (AskWhole, e "adiabatic") :: sheath_always);
     ("sheath_boundary_simple", sheath_always);
     ("sheath_boundary_insulating", (AskWhole, e "adiabatic") :: sheath_always);
     ("sheath_closure", [(Whole, PField "phi"); (Whole, e "density"); (Ask, e "temperature")]);
     ("polarisation_drift", [(AskWhole, PField "DivJdia")])]
  with
  | Some l => l
  | None =>
      match assoc t reaction_needs with
      | Some l => all_of Whole l
      | None => match assoc t reaction_always_looks with Some l => l | None => [] end
      end
  end.

(** ** What transform always changes *)

Definition set_of (ps : list path) : list (kind * path) := map (fun p => (KSet, p)) ps.
Definition added (ps : list path) : list (kind * path) := map (fun p => (KAdd, p)) ps.

(** Particles, momentum and energy go from one species to the other, energy from the
    electrons. *)
Definition moves (from to : string) : list (kind * path) :=
  added (flat_map (fun s => [PSp s "density_source"; PSp s "momentum_source"; PSp s "energy_source"])
                  [from; to]).
Definition electron_reaction (from to : string) : list (kind * path) :=
  (KAdd, PSp "e" "energy_source") :: moves from to.
Definition exchange (atom1 ion1 atom2 ion2 : string) : list (kind * path) :=
  added ([PSp atom1 "momentum_source"; PSp ion1 "momentum_source"; PSp atom2 "momentum_source";
          PSp atom1 "collision_frequency"; PSp ion1 "collision_frequency"]
         ++ map (fun s => PSp s "energy_source") [atom1; ion1; atom2; ion2]).

Definition reaction_always_changes : list (string * list (kind * path)) :=
  [("h + e -> h+ + 2e", electron_reaction "h" "h+");
   ("d + e -> d+ + 2e", electron_reaction "d" "d+");
   ("t + e -> t+ + 2e", electron_reaction "t" "t+");
   ("he + e -> he+ + 2e", electron_reaction "he" "he+");
   ("h+ + e -> h", electron_reaction "h+" "h");
   ("d+ + e -> d", electron_reaction "d+" "d");
   ("t+ + e -> t", electron_reaction "t+" "t");
   ("he+ + e -> he", electron_reaction "he+" "he");
   ("c + e -> c+ + 2e", electron_reaction "c" "c+"); ("c+ + e -> c", electron_reaction "c+" "c");
   ("ne + e -> ne+ + 2e", electron_reaction "ne" "ne+"); ("ne+ + e -> ne", electron_reaction "ne+" "ne");
   ("li + e -> li+ + 2e", electron_reaction "li" "li+"); ("li+ + e -> li", electron_reaction "li+" "li");
   ("ionisation", electron_reaction "h" "h+");
   ("c+ + h -> c + h+", moves "c+" "c" ++ moves "h" "h+");
   ("ne+ + d -> ne + d+", moves "ne+" "ne" ++ moves "d" "d+");
   ("li+ + t -> li + t+", moves "li+" "li" ++ moves "t" "t+");
   ("h + h+ -> h+ + h", exchange "h" "h+" "h" "h+");
   ("h + d+ -> h+ + d", exchange "h" "d+" "d" "h+");
   ("h + t+ -> h+ + t", exchange "h" "t+" "t" "h+");
   ("d + h+ -> d+ + h", exchange "d" "h+" "h" "d+");
   ("d + d+ -> d+ + d", exchange "d" "d+" "d" "d+");
   ("d + t+ -> d+ + t", exchange "d" "t+" "t" "d+");
   ("t + h+ -> t+ + h", exchange "t" "h+" "h" "t+");
   ("t + d+ -> t+ + d", exchange "t" "d+" "d" "t+");
   ("t + t+ -> t+ + t", exchange "t" "t+" "t" "t+");
   ("solkit h + h+ -> h+ + h", added [PSp "h" "momentum_source"; PSp "h+" "momentum_source"]);
   ("solkit d + d+ -> d+ + d", added [PSp "d" "momentum_source"; PSp "d+" "momentum_source"]);
   ("solkit t + t+ -> t+ + t", added [PSp "t" "momentum_source"; PSp "t+" "momentum_source"])].

Definition wall_electrons : list (kind * path) :=
  (KSet, PSp "e" "energy_source") ::
  map (fun q => (KBoundary, PSp "e" q)) ["density"; "temperature"; "pressure"].

(** Diffusion coefficients which are given (anomalous_diffusion). *)
Definition diffusion (n : string) (c : cfg) (key : string) (qs : list string) : list (kind * path) :=
  if opt_set c n key then added (map (PSp n) qs) else [].

Definition always_changes (t n : string) (c : cfg) : list (kind * path) :=
  let sp q := PSp n q in
  let charged := match rreal c n "charge" with
                 | Some q => if Qeq_bool q 0 then [] else set_of [sp "charge"]
                 | None => []
                 end in
  match assoc t
    [("evolve_density", set_of [sp "density"; sp "AA"] ++ added [sp "density_source"] ++ charged);
     ("evolve_pressure", set_of [sp "pressure"; sp "temperature"]);
     ("evolve_energy", set_of [sp "pressure"; sp "temperature"]);
     ("evolve_momentum", set_of [sp "velocity"; sp "momentum"]);
     ("neutral_mixed",
      set_of (map sp ["density"; "AA"; "pressure"; "momentum"; "velocity"; "temperature"]));
     ("isothermal", set_of [sp "temperature"]);
     ("fixed_density", set_of [sp "density"; sp "AA"] ++ charged);
     ("fixed_temperature", set_of [sp "temperature"]);
     ("fixed_velocity", set_of [sp "velocity"]);
     ("set_temperature", set_of [sp "temperature"]);
     ("quasineutral", set_of [sp "density"; sp "charge"; sp "AA"]);
     ("zero_current", set_of [sp "velocity"]);
     ("sound_speed", set_of [PTop "sound_speed"; PTop "fastest_wave"]);
     ("scale_timederivs", set_of [PTop "scale_timederivs"]);
     ("simple_pump", added [sp "density_source"]);
     ("simple_conduction", added [sp "energy_source"]);
     ("snb_conduction", added [PSp "e" "energy_source"]);
     ("anomalous_diffusion",
      diffusion n c "anomalous_D"
        ["density_source"; "momentum_source"; "energy_source";
         "particle_flow_xlow"; "particle_flow_ylow"; "momentum_flow_xlow"; "momentum_flow_ylow";
         "energy_flow_xlow"; "energy_flow_ylow"] ++
      diffusion n c "anomalous_chi" ["energy_source"; "energy_flow_xlow"; "energy_flow_ylow"] ++
      diffusion n c "anomalous_nu" ["momentum_source"; "momentum_flow_xlow"; "momentum_flow_ylow"]);
     ("upstream_density_feedback", added [sp "density_source"]);
     ("fixed_fraction_carbon", added [PSp "e" "energy_source"]);
     ("fixed_fraction_nitrogen", added [PSp "e" "energy_source"]);
     ("fixed_fraction_neon", added [PSp "e" "energy_source"]);
     ("fixed_fraction_argon", added [PSp "e" "energy_source"]);
     ("electron_viscosity", added [PSp "e" "momentum_source"]);
     ("neutral_boundary",
      (KSet, sp "energy_source") ::
      map (fun q => (KBoundary, sp q)) ["density"; "temperature"; "pressure"]);
     ("sheath_boundary", wall_electrons);
     ("sheath_boundary_simple", (KAdd, PSp "e" "energy_flow_ylow") :: wall_electrons);
     ("sheath_boundary_insulating", wall_electrons);
     ("sheath_closure", added [PField "DivJextra"; PSp "e" "density_source"]);
     ("vorticity",
      set_of [PField "vorticity"; PField "phi"]
        ++ (if opt_true (obool c n "diamagnetic" true) then set_of [PField "DivJdia"] else [])
        ++ (if opt_true (obool c n "collisional_friction" false) then set_of [PField "DivJcol"] else []));
     ("relax_potential",
      set_of [PField "vorticity"; PField "phi"]
        ++ (if opt_true (obool c n "diamagnetic" true) then set_of [PField "DivJdia"] else []));
     ("electromagnetic",
      set_of [PField "Apar"]
        ++ (if opt_true (obool c n "magnetic_flutter" false) then set_of [PField "Apar_flutter"] else []))]
  with
  | Some l => l
  | None => match assoc t reaction_always_changes with Some l => l | None => [] end
  end.

(** ** Order *)

(** After a look of this kind, a change of this kind is refused (component.hxx 229-314). *)
Definition blocks (l : look) (k : kind) : bool :=
  match l, k with
  | (Whole | AskWhole), _ => true
  | (Interior | AskInterior), (KSet | KAdd) => true
  | _, _ => false
  end.
