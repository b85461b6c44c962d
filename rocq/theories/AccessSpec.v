(** Vocabulary for properties C102-C104: what the record of an evaluation must look like,
    what each type of component may write, and what it needs.  Nothing here refers to the
    programs of AccessComponents.v. *)

From Coq Require Import List Bool String QArith.
From Verif Require Import OptionsModel AccessModel AccessComponents.
Import ListNotations.
Open Scope string_scope.
Open Scope list_scope.

(** ** The record of an evaluation *)

(** The value an event leaves at a path, if it changes the entry there. *)
Definition written {F} (e : event F) (p : path) : option (option (val F)) :=
  match e with
  | EvWrite _ q v => if path_eqb p q then Some (Some v) else None
  | EvForce q v => if path_eqb p q then Some (Some v) else None
  | EvCopy l _ v => if path_eqb p l then Some v else None
  | _ => None
  end.

(** The last value put at a path by the events [evs], in order; [init] if there is none. *)
Definition latest {F} (init : path -> option (val F)) (evs : list (event F)) (p : path)
  : option (val F) :=
  fold_left (fun cur e => match written e p with Some v => v | None => cur end) evs (init p).

(** What is there at the start: the time and the units (hermes-3.cxx 296-297). *)
Definition initially {F} (t : Q) (u : string -> Q) (p : path) : option (val F) :=
  match p with
  | PTop q => if String.eqb q "time" then Some (VN t) else None
  | PUnit q => if existsb (String.eqb q) unit_names then Some (VN (u q)) else None
  | _ => None
  end.

Definition present {X} (o : option X) : bool :=
  match o with Some _ => true | None => false end.

(** What an event reports agrees with the values written before. *)
Definition truthful {F} (mem : path -> option (val F)) (e : event F) : Prop :=
  match e with
  | EvRead _ p v => mem p = Some v
  | EvQuery _ p b => b = present (mem p)
  | EvHas p b => b = present (mem p)
  | EvCopy _ r v => mem r = v
  | _ => True
  end.

(** Marks which an event puts on the entry at [p]: (whole entry, interior). *)
Definition marks_all {F} (e : event F) (p : path) : bool :=
  match e with
  | EvRead RFinal q _ => path_eqb p q
  | EvQuery false q _ => path_eqb p q
  | _ => false
  end.
Definition marks_interior {F} (e : event F) (p : path) : bool :=
  match e with
  | EvRead RFinal q _ | EvRead RNoBoundary q _ => path_eqb p q
  | EvQuery _ q _ => path_eqb p q
  | _ => false
  end.

Definition copies_to {F} (p : path) (e : event F) : bool :=
  match e with EvCopy l _ _ => path_eqb p l | _ => false end.
Definition forces_or_copies {F} (p : path) (e : event F) : bool :=
  match e with EvCopy l _ _ => path_eqb p l | EvForce l _ => path_eqb p l | _ => false end.
Definition writes {F} (p : path) (e : event F) : bool :=
  match e with EvWrite _ q _ => path_eqb p q | _ => false end.
Definition changes {F} (p : path) (e : event F) : bool :=
  writes p e || forces_or_copies p e.

(** ** What a component may write *)

(** set / add or subtract / setBoundary; a plain assignment and a copy count as set. *)
Inductive kind := KSet | KAdd | KBoundary.
Definition kind_eqb (a b : kind) : bool :=
  match a, b with
  | KSet, KSet | KAdd, KAdd | KBoundary, KBoundary => true
  | _, _ => false
  end.
Definition kind_of (w : wmode) : kind :=
  match w with WSet => KSet | WBoundary => KBoundary | WAdd | WSubtract => KAdd end.

(** Change made by an event: its kind and path. *)
Definition change {F} (e : event F) : option (kind * path) :=
  match e with
  | EvWrite w p _ => Some (kind_of w, p)
  | EvForce p _ => Some (KSet, p)
  | EvCopy l _ _ => Some (KSet, l)
  | _ => None
  end.

Inductive who :=
| Self            (* the species after which the component is named *)
| Electrons       (* species e *)
| AnySpecies
| TopLevel
| Fields
| Anywhere.       (* any quantity of any section *)

Definition effect := (kind * who * string)%type.

Definition covers (self : string) (x : effect) (k : kind) (p : path) : bool :=
  let '(k', w, q) := x in
  kind_eqb k k' &&
  match w, p with
  | Self, PSp s q' => String.eqb s self && String.eqb q q'
  | Electrons, PSp s q' => String.eqb s "e" && String.eqb q q'
  | AnySpecies, PSp _ q' => String.eqb q q'
  | TopLevel, PTop q' => String.eqb q q'
  | Fields, PField q' => String.eqb q q'
  | Anywhere, _ => true
  | _, _ => false
  end.

Definition sources (w : who) : list effect :=
  [(KAdd, w, "density_source"); (KAdd, w, "momentum_source"); (KAdd, w, "energy_source")].

(** The five profiles of a species, as changed by the wall components. *)
Definition walls (w : who) : list effect :=
  [(KBoundary, w, "density"); (KBoundary, w, "temperature"); (KBoundary, w, "pressure");
   (KBoundary, w, "velocity"); (KBoundary, w, "momentum")].

Definition effect_table : list (string * list effect) :=
  [("evolve_density",
    [(KSet, Self, "density"); (KSet, Self, "AA"); (KSet, Self, "charge");
     (KSet, Self, "low_n_coeff"); (KAdd, Self, "density_source")]);
   ("evolve_pressure", [(KSet, Self, "pressure"); (KSet, Self, "temperature")]);
   ("evolve_energy", [(KSet, Self, "pressure"); (KSet, Self, "temperature")]);
   ("evolve_momentum", [(KSet, Self, "velocity"); (KSet, Self, "momentum")]);
   ("neutral_mixed",
    [(KSet, Self, "density"); (KSet, Self, "AA"); (KSet, Self, "pressure");
     (KSet, Self, "momentum"); (KSet, Self, "velocity"); (KSet, Self, "temperature")]);
   ("isothermal", [(KSet, Self, "temperature"); (KSet, Self, "pressure")]);
   ("fixed_density",
    [(KSet, Self, "density"); (KSet, Self, "AA"); (KSet, Self, "charge")]);
   ("fixed_temperature", [(KSet, Self, "temperature"); (KSet, Self, "pressure")]);
   ("fixed_velocity", [(KSet, Self, "velocity"); (KSet, Self, "momentum")]);
   ("set_temperature", [(KSet, Self, "temperature"); (KSet, Self, "pressure")]);
   ("quasineutral",
    [(KSet, Self, "density"); (KSet, Self, "charge"); (KSet, Self, "AA")]);
   ("zero_current", [(KSet, Self, "velocity")]);
   ("fixed_fraction_ions", [(KSet, AnySpecies, "density")]);
   ("sound_speed", [(KSet, TopLevel, "sound_speed"); (KSet, TopLevel, "fastest_wave")]);
   ("scale_timederivs", [(KSet, TopLevel, "scale_timederivs")]);
   ("transform", [(KSet, Anywhere, "")]);
   ("simple_pump", [(KAdd, Self, "density_source")]);
   ("simple_conduction", [(KAdd, Self, "energy_source")]);
   ("snb_conduction", [(KAdd, Electrons, "energy_source")]);
   ("anomalous_diffusion",
    sources Self ++
    [(KAdd, Self, "particle_flow_xlow"); (KAdd, Self, "particle_flow_ylow");
     (KAdd, Self, "momentum_flow_xlow"); (KAdd, Self, "momentum_flow_ylow");
     (KAdd, Self, "energy_flow_xlow"); (KAdd, Self, "energy_flow_ylow")]);
   ("classical_diffusion", sources AnySpecies);
   ("binormal_stpm", sources AnySpecies);
   ("neutral_parallel_diffusion", sources AnySpecies);
   ("solkit_neutral_parallel_diffusion", [(KAdd, AnySpecies, "density_source")]);
   ("upstream_density_feedback",
    [(KAdd, Self, "density_source"); (KAdd, Self, "energy_source")]);
   ("temperature_feedback", [(KAdd, AnySpecies, "energy_source")]);
   ("detachment_controller",
    [(KAdd, AnySpecies, "density_source"); (KAdd, AnySpecies, "energy_source")]);
   ("electron_force_balance", [(KAdd, AnySpecies, "momentum_source")]);
   ("ion_viscosity",
    [(KAdd, AnySpecies, "momentum_source"); (KAdd, AnySpecies, "energy_source");
     (KAdd, Fields, "DivJextra")]);
   ("electron_viscosity", [(KAdd, Electrons, "momentum_source")]);
   ("thermal_force", [(KAdd, AnySpecies, "momentum_source")]);
   ("collisions",
    [(KAdd, AnySpecies, "collision_frequency"); (KAdd, AnySpecies, "momentum_source");
     (KAdd, AnySpecies, "energy_source")]);
   ("noflow_boundary", walls Self);
   ("neutral_boundary", walls Self ++ [(KSet, Self, "energy_source")]);
   ("sheath_boundary",
    walls AnySpecies ++ [(KSet, AnySpecies, "energy_source"); (KBoundary, Fields, "phi")]);
   ("sheath_boundary_simple",
    walls AnySpecies ++ [(KSet, AnySpecies, "energy_source"); (KBoundary, Fields, "phi");
                         (KAdd, AnySpecies, "energy_flow_ylow")]);
   ("sheath_boundary_insulating",
    walls AnySpecies ++ [(KSet, AnySpecies, "energy_source"); (KBoundary, Fields, "phi")]);
   ("sheath_closure",
    [(KAdd, Fields, "DivJextra"); (KAdd, AnySpecies, "density_source");
     (KAdd, AnySpecies, "energy_source")]);
   ("recycling",
    [(KSet, AnySpecies, "density_source"); (KSet, AnySpecies, "energy_source")]);
   ("vorticity",
    [(KSet, Fields, "vorticity"); (KSet, Fields, "phi"); (KSet, Fields, "DivJdia");
     (KSet, Fields, "DivJcol"); (KAdd, AnySpecies, "energy_source")]);
   ("relax_potential",
    [(KSet, Fields, "vorticity"); (KSet, Fields, "phi"); (KSet, Fields, "DivJdia");
     (KAdd, AnySpecies, "energy_source")]);
   ("diamagnetic_drift", sources AnySpecies);
   ("polarisation_drift", sources AnySpecies);
   ("electromagnetic",
    [(KSet, Fields, "Apar"); (KSet, Fields, "Apar_flutter");
     (KSet, AnySpecies, "momentum"); (KSet, AnySpecies, "velocity")])]
  ++ map (fun t => (t, [(KAdd, Electrons, "energy_source")]))
       ["fixed_fraction_hutchinson_carbon"; "fixed_fraction_carbon";
        "fixed_fraction_nitrogen"; "fixed_fraction_neon"; "fixed_fraction_argon";
        "fixed_fraction_argon_simplified1"; "fixed_fraction_argon_simplified2";
        "fixed_fraction_argon_simplified3"; "fixed_fraction_krypton";
        "fixed_fraction_xenon"; "fixed_fraction_tungsten"].

(** All other types are reactions. *)
Definition reaction_effects : list effect :=
  sources AnySpecies ++ [(KAdd, AnySpecies, "collision_frequency")].

Definition effects_of (t : string) : list effect :=
  match assoc t effect_table with Some l => l | None => reaction_effects end.

(** [may t n k p]: a component of type [t] named [n] may make a change of kind [k] at [p]. *)
Definition may (t n : string) (k : kind) (p : path) : bool :=
  existsb (fun x => covers n x k p) (effects_of t).

Definition may_change (t n : string) (p : path) : bool :=
  may t n KSet p || may t n KAdd p || may t n KBoundary p.

(** ** What a component needs *)

Definition opt_true (o : option bool) : bool :=
  match o with Some b => b | None => false end.

(** Ionisation and recombination (Amjuel rates), charge exchange of hydrogen isotopes; for the
    other reactions no needs are listed. *)
Definition electron_reaction_needs (from to : string) : list path :=
  [PSp "e" "density"; PSp "e" "temperature"; PSp from "density"; PSp from "temperature";
   PSp from "velocity"; PSp from "AA"; PSp to "AA"; PSp to "velocity"].

Definition cx_needs (atom1 ion1 atom2 ion2 : string) : list path :=
  [PSp atom1 "density"; PSp atom1 "temperature"; PSp atom1 "velocity"; PSp atom1 "AA";
   PSp ion1 "density"; PSp ion1 "temperature"; PSp ion1 "velocity"; PSp ion1 "AA";
   PSp atom2 "velocity"; PSp atom2 "AA"; PSp ion2 "velocity"; PSp ion2 "AA"].

Definition reaction_needs : list (string * list path) :=
  [("h + e -> h+ + 2e", electron_reaction_needs "h" "h+");
   ("d + e -> d+ + 2e", electron_reaction_needs "d" "d+");
   ("t + e -> t+ + 2e", electron_reaction_needs "t" "t+");
   ("he + e -> he+ + 2e", electron_reaction_needs "he" "he+");
   ("h+ + e -> h", electron_reaction_needs "h+" "h");
   ("d+ + e -> d", electron_reaction_needs "d+" "d");
   ("t+ + e -> t", electron_reaction_needs "t+" "t");
   ("he+ + e -> he", electron_reaction_needs "he+" "he");
   ("h + h+ -> h+ + h", cx_needs "h" "h+" "h" "h+");
   ("h + d+ -> h+ + d", cx_needs "h" "d+" "d" "h+");
   ("h + t+ -> h+ + t", cx_needs "h" "t+" "t" "h+");
   ("d + h+ -> d+ + h", cx_needs "d" "h+" "h" "d+");
   ("d + d+ -> d+ + d", cx_needs "d" "d+" "d" "d+");
   ("d + t+ -> d+ + t", cx_needs "d" "t+" "t" "d+");
   ("t + h+ -> t+ + h", cx_needs "t" "h+" "h" "t+");
   ("t + d+ -> t+ + d", cx_needs "t" "d+" "d" "t+");
   ("t + t+ -> t+ + t", cx_needs "t" "t+" "t" "t+")].

(** Entries which must have been put there by others before transform runs. *)
Definition transform_needs (t n : string) (c : cfg) : list path :=
  let sp q := PSp n q in
  let e q := PSp "e" q in
  match assoc t
    [("evolve_pressure", [sp "density"]);
     ("evolve_energy", [sp "density"; sp "velocity"; sp "AA"]);
     ("evolve_momentum", [sp "density"; sp "AA"]);
     ("zero_current", [sp "density"]);
     ("fixed_fraction_ions", [e "density"]);
     ("scale_timederivs", [e "temperature"]);
     ("simple_pump", [sp "density"]);
     ("simple_conduction", [sp "temperature"; sp "AA"]);
     ("snb_conduction", [PUnit "meters"; PUnit "eV"; PUnit "inv_meters_cubed";
                         PUnit "seconds"; e "temperature"; e "density"]);
     ("anomalous_diffusion", [sp "density"]);
     ("classical_diffusion", [e "AA"; e "density"]);
     ("upstream_density_feedback", [sp "density"; PTop "time"]);
     ("temperature_feedback", [sp "temperature"; PTop "time"]);
     ("detachment_controller", [e "density"; PTop "time"]);
     ("electron_force_balance", [e "pressure"; e "density"; e "charge"]);
     ("electron_viscosity", [e "collision_frequency"; e "pressure"; e "velocity"]);
     ("neutral_boundary", [sp "AA"; sp "density"; sp "pressure"; sp "temperature"]);
     ("sheath_boundary", [e "density"; e "temperature"]);
     ("sheath_boundary_simple", [e "density"; e "temperature"]);
     ("sheath_boundary_insulating", [e "density"; e "temperature"]);
     ("sheath_closure", [PField "phi"; e "density"]);
     ("fixed_fraction_carbon", [e "density"; e "temperature"]);
     ("fixed_fraction_nitrogen", [e "density"; e "temperature"]);
     ("fixed_fraction_neon", [e "density"; e "temperature"]);
     ("fixed_fraction_argon", [e "density"; e "temperature"])]
  with
  | Some l => l
  | None => match assoc t reaction_needs with Some l => l | None => [] end
  end.

(** Entries which must be there at the end of the transform loop, or finally throws. *)
Definition finally_needs (t n : string) (c : cfg) : list path :=
  let sp q := PSp n q in
  let conduction := if opt_true (obool c n "thermal_conduction" true)
                    then [sp "collision_frequency"; sp "AA"] else [] in
  match assoc t
    [("evolve_density", [sp "density"; sp "density_source"]
        ++ if opt_true (obool c n "low_p_diffuse_perp" false) then [sp "pressure"] else []);
     ("evolve_pressure",
      [sp "pressure"; sp "temperature"; sp "density"] ++ conduction);
     ("evolve_energy",
      [sp "pressure"; sp "temperature"; sp "density"; sp "velocity"; sp "AA"] ++ conduction);
     ("evolve_momentum", [sp "AA"; sp "momentum"; sp "density"; sp "velocity"]
        ++ if opt_true (obool c n "low_p_diffuse_perp" false) then [sp "pressure"] else []);
     ("neutral_mixed", [PUnit "meters"]);
     ("quasineutral", [sp "density"]);
     ("vorticity", PField "phi"
        :: if opt_true (obool c n "phi_dissipation" true)
              || opt_true (obool c n "vort_dissipation" false)
           then [PTop "sound_speed"] else []);
     ("relax_potential", [PField "phi"; PField "vorticity"])]
  with
  | Some l => l
  | None => []
  end.

(** ** Shipped inputs *)

(** Fields are always finite: set never throws because of hermesDataInvalid. *)
Definition all_finite {F} (A : farith F) : Prop := forall f, fa_inv A f = false.

(** Entries set by one component in the transform loop and set again by a later one:
    (first, second, path), components by number. *)
Definition sets {F} (p : path) (e : event F) : bool :=
  match change e with Some (KSet, q) => path_eqb p q | _ => false end.

Fixpoint first_with {X} (f : X -> bool) (i : nat) (l : list X) : option nat :=
  match l with
  | [] => None
  | x :: l' => if f x then Some i else first_with f (S i) l'
  end.

Fixpoint set_again {F} (i : nat) (trs : list (list (event F))) : list (nat * nat * path) :=
  match trs with
  | [] => []
  | tr :: rest =>
      flat_map (fun e => match change e with
                         | Some (KSet, p) =>
                             match first_with (existsb (sets p)) (S i) rest with
                             | Some j => [(i, j, p)]
                             | None => []
                             end
                         | _ => []
                         end) tr
      ++ set_again (S i) rest
  end.

(** Profiles which a component asked for with plain isSet, was told are not set, did not set
    itself, and which a later component puts there: (asker, later one, path). *)
Definition is_source (p : path) : bool :=
  match p with
  | PSp _ q => existsb (String.eqb q) ["density_source"; "momentum_source"; "energy_source"]
  | _ => false
  end.

Fixpoint missed {F} (i : nat) (trs : list (list (event F))) : list (nat * nat * path) :=
  match trs with
  | [] => []
  | tr :: rest =>
      flat_map (fun e => match e with
                         | EvHas p false =>
                             if is_source p || existsb (changes p) tr then [] else
                             match first_with (existsb (changes p)) (S i) rest with
                             | Some j => [(i, j, p)]
                             | None => []
                             end
                         | _ => []
                         end) tr
      ++ missed (S i) rest
  end.

(** Component number [i] of an input: (type, name). *)
Definition component_of (c : cfg) (i : nat) : string * string :=
  match listed c with Some l => nth i l ("", "") | None => ("", "") end.

Definition named (c : cfg) (l : list (nat * nat * path))
  : list ((string * string) * (string * string) * path) :=
  map (fun x => let '(i, j, p) := x in (component_of c i, component_of c j, p)) l.

(** The record of an evaluation of an input, per component; [None] if an exception is
    thrown in a constructor or during the evaluation. *)
Definition record_of {F} (A : farith F) (num : numerics F) (t : Q) (u : string -> Q) (c : cfg)
  : option (list (list (event F))) :=
  match construct c with
  | None => None
  | Some cs => match rhs A num t u cs with
               | (_, trs, true) => Some trs
               | _ => None
               end
  end.

Definition records {F} (f : cfg -> list (list (event F)) -> list ((string * string) * (string * string) * path))
    (A : farith F) (num : numerics F) (t : Q) (u : string -> Q) (ins : list (string * cfg))
  : list (string * list ((string * string) * (string * string) * path)) :=
  filter (fun x => match snd x with [] => false | _ => true end)
    (map (fun ic => (fst ic, match record_of A num t u (snd ic) with
                             | Some trs => f (snd ic) trs
                             | None => []
                             end)) ins).

(** The transform part of the record: one entry per component. *)
Definition transforms (c : cfg) {F} (trs : list (list (event F))) : list (list (event F)) :=
  firstn (match listed c with Some l => List.length l | None => O end) trs.

Definition set_twice (c : cfg) {F} (trs : list (list (event F))) :=
  named c (set_again 0 (transforms c trs)).
Definition overlooked (c : cfg) {F} (trs : list (list (event F))) :=
  named c (missed 0 (transforms c trs)).

(** ** Lists of components *)

(** [p] is there at the start, or one of the components [l] may have written it. *)
Definition provided {F} (init : path -> option (val F)) (l : list (string * string)) (p : path)
  : Prop :=
  init p <> None \/ exists tn, In tn l /\ may_change (fst tn) (snd tn) p = true.

(** What component number [i] does in finally, called on the state [s]: its events, and
    whether it returns. *)
Definition alone {F} (A : farith F) (num : nat -> nat -> list (val F) -> F) (s : st F) (i : nat)
    (x : comp) : list (event F) * bool :=
  match run_method A (num i) s (c_finally x) with (_, tr, a) => (tr, present a) end.
