(** Vocabulary for property C106: what a component must do, given what the state contains. *)

From Coq Require Import List Bool String QArith.
From Verif Require Import OptionsModel AccessModel AccessComponents AccessSpec AccessReadSpec.
Import ListNotations.
Open Scope string_scope.
Open Scope list_scope.

(** What is known of a state: entries which are set, entries which are not, scalar entries
    with their value, species which exist, and whether there is a section "fields". *)
Record facts := mkFacts {
  f_present : list path;
  f_absent : list path;
  f_numbers : list (path * Q);
  f_species : list string;
  f_fields : bool
}.

Definition holds {F} (G : facts) (s : st F) : Prop :=
  (forall p, In p (f_present G) -> value s p <> None) /\
  (forall p, In p (f_absent G) -> value s p = None) /\
  (forall p q, In (p, q) (f_numbers G) -> value s p = Some (VN q)) /\
  (forall n, In n (f_species G) -> In n (s_names s)) /\
  (f_fields G = true -> s_fields s = true).

(** What is to be found in the record of the call. *)
Inductive target := Looked (l : look) (p : path) | Changed (k : kind) (p : path).

Definition meets {F} (g : target) (e : event F) : Prop :=
  match g with
  | Looked l p => looks_at e = Some (l, p)
  | Changed k p => change e = Some (k, p)
  end.

Definition claim := (facts * target)%type.

(** ** Conditions *)

(** Species [s] with charge [q], and entries [qs] of it. *)
Definition with_charge (s : string) (q : Q) (qs : list string) : facts :=
  mkFacts (map (PSp s) qs) [] [(PSp s "charge", q)] [s] false.
(** Species [s] without a charge. *)
Definition neutral (s : string) (qs : list string) : facts :=
  mkFacts (map (PSp s) qs) [PSp s "charge"] [] [s] false.
Definition having (ps : list path) : facts := mkFacts ps [] [] [] false.
Definition exists_with (s : string) (qs : list string) : facts :=
  mkFacts (map (PSp s) qs) [] [] [s] false.

(** |q| >= x *)
Definition at_least (x q : Q) : bool := Qle_bool x (if Qle_bool 0 q then q else - q).
Definition charged : Q -> bool := at_least (1 # 100000).
Definition nonzero (q : Q) : bool := negb (Qeq_bool q 0).
Definition positive (q : Q) : bool := negb (Qle_bool q 0).
Definition same (s t : string) : bool := String.eqb s t.
Definition electrons (s : string) : bool := same s "e".
(** |q| > 1e-5 *)
Definition exceeds (q : Q) : bool := negb (Qle_bool (if Qle_bool 0 q then q else - q) (1 # 100000)).

Definition adds (G : facts) (s : string) (qs : list string) : list claim :=
  map (fun q => (G, Changed KAdd (PSp s q))) qs.
Definition bounds (G : facts) (s : string) (qs : list string) : list claim :=
  map (fun q => (G, Changed KBoundary (PSp s q))) qs.
Definition only_if (b : bool) (l : list claim) : list claim := if b then l else [].
Definition is_on (o : option bool) : bool := match o with Some b => b | None => false end.

(** ** transform *)

(** The three sheath components, for electrons and for a species [s] with charge [q]. *)
Definition sheath_claims (s : string) (q : Q) : list claim :=
  bounds (having [PSp "e" "velocity"]) "e" ["velocity"] ++
  bounds (having [PSp "e" "momentum"]) "e" ["momentum"] ++
  only_if (negb (electrons s) && nonzero q)
    (bounds (with_charge s q []) s ["density"; "temperature"; "pressure"] ++
     [(with_charge s q [], Changed KSet (PSp s "energy_source"))] ++
     bounds (with_charge s q ["velocity"]) s ["velocity"] ++
     bounds (with_charge s q ["momentum"]) s ["momentum"]).

Definition all_sources : list string := ["density_source"; "momentum_source"; "energy_source"].

(** Collisions of the electrons with a positive ion. *)
Definition electron_ion (heating : bool) (s : string) (q : Q) : list claim :=
  let G qs := mkFacts (map (PSp s) qs) [] [(PSp s "charge", q)] ["e"; s] false in
  adds (G []) s ["collision_frequency"] ++ adds (G []) "e" ["collision_frequency"] ++
  adds (G ["velocity"]) s ["momentum_source"] ++ adds (G ["velocity"]) "e" ["momentum_source"] ++
  adds (G ["temperature"]) s ["energy_source"] ++ adds (G ["temperature"]) "e" ["energy_source"] ++
  only_if heating (adds (G ["velocity"]) s ["energy_source"] ++ adds (G ["velocity"]) "e" ["energy_source"]).

(** [claims t n c s q]: a component of type [t], named [n], with the options [c], must do this
    for a species [s] (with charge [q]). *)
Definition claims (t n : string) (c : cfg) (s : string) (q : Q) : list claim :=
  let sp x := PSp n x in
  let on key d := is_on (obool c n key d) in
  match assoc t
    [("isothermal", [(having [sp "density"], Changed KSet (sp "pressure"))]);
     ("fixed_temperature", [(having [sp "density"], Changed KSet (sp "pressure"))]);
     ("set_temperature", [(having [sp "density"], Changed KSet (sp "pressure"))]);
     ("fixed_velocity", [(having [sp "density"], Changed KSet (sp "momentum"))]);
     ("quasineutral",
      only_if (negb (same s n))
        [(exists_with s ["charge"; "density"], Looked Interior (PSp s "density"));
         (exists_with s ["charge"; "density"], Looked Whole (PSp s "charge"))]);
     ("zero_current",
      only_if (negb (same s n))
        [(exists_with s ["charge"; "density"; "velocity"], Looked Interior (PSp s "density"));
         (exists_with s ["charge"; "density"; "velocity"], Looked Whole (PSp s "charge"));
         (exists_with s ["charge"; "density"; "velocity"], Looked Interior (PSp s "velocity"))]);
     ("sound_speed",
      [(exists_with s ["pressure"], Looked Interior (PSp s "pressure"))] ++
      only_if (negb (electrons s))
        [(exists_with s ["AA"; "density"], Looked Interior (PSp s "density"));
         (exists_with s ["AA"; "temperature"], Looked Interior (PSp s "temperature"))]);
     ("anomalous_diffusion",
      [(having [sp "temperature"], Looked Interior (sp "temperature"));
       (having [sp "velocity"], Looked Interior (sp "velocity"))]);
     ("classical_diffusion",
      only_if (charged q)
        (adds (with_charge s q ["density"]) s ["density_source"] ++
         adds (with_charge s q ["density"; "velocity"]) s ["momentum_source"] ++
         adds (with_charge s q ["density"; "temperature"]) s ["energy_source"]));
     ("binormal_stpm", adds (exists_with s []) s all_sources);
     ("neutral_parallel_diffusion",
      adds (neutral s []) s ["density_source"; "energy_source"] ++
      only_if (on "viscosity" true) (adds (neutral s ["velocity"]) s ["momentum_source"]) ++
      only_if (negb (nonzero q)) (adds (with_charge s q []) s ["density_source"; "energy_source"]));
     ("solkit_neutral_parallel_diffusion",
      adds (neutral s []) s ["density_source"] ++
      only_if (negb (nonzero q)) (adds (with_charge s q []) s ["density_source"]));
     ("upstream_density_feedback", adds (having [sp "velocity"; sp "AA"]) n ["energy_source"]);
     ("electron_force_balance",
      only_if (negb (electrons s))
        (adds (exists_with s ["density"; "charge"]) s ["momentum_source"]));
     ("ion_viscosity",
      only_if (negb (electrons s) && at_least (1 # 1000) q)
        (adds (with_charge s q ["pressure"; "velocity"]) s ["momentum_source"; "energy_source"]));
     ("thermal_force",
      only_if (negb (electrons s) && on "electron_ion" true)
        (let G := mkFacts [PSp s "charge"] [] [] ["e"; s] false in
         adds G s ["momentum_source"] ++ adds G "e" ["momentum_source"]));
     ("collisions",
      only_if (on "electron_electron" true)
        (adds (mkFacts [] [] [] ["e"] false) "e" ["collision_frequency"]) ++
      only_if (on "electron_ion" true && negb (electrons s) && positive q)
        (electron_ion (on "frictional_heating" true) s q) ++
      only_if (on "ion_ion" true && negb (electrons s) && negb (same s "ebeam") && nonzero q)
        (adds (with_charge s q []) s ["collision_frequency"]) ++
      only_if (on "neutral_neutral" true && negb (electrons s) && negb (same s "ebeam"))
        (adds (neutral s []) s ["collision_frequency"]) ++
      only_if (on "electron_neutral" false && negb (electrons s))
        (let G := mkFacts [] [PSp s "charge"] [] ["e"; s] false in
         adds G s ["collision_frequency"] ++ adds G "e" ["collision_frequency"]));
     ("noflow_boundary", flat_map (fun x => bounds (having [sp x]) n [x]) profiles);
     ("neutral_boundary", flat_map (fun x => bounds (having [sp x]) n [x]) ["velocity"; "momentum"]);
     ("sheath_boundary", sheath_claims s q);
     ("sheath_boundary_simple", sheath_claims s q);
     ("sheath_boundary_insulating", sheath_claims s q);
     ("sheath_closure",
      adds (having [PSp "e" "temperature"]) "e" ["energy_source"] ++
      only_if (on "sinks" false)
        (adds (exists_with s []) s ["density_source"] ++
         only_if (negb (electrons s)) (adds (exists_with s []) s ["energy_source"])));
     ("vorticity",
      only_if (on "diamagnetic" true && charged q)
        (adds (with_charge s q ["pressure"]) s ["energy_source"]));
     ("relax_potential",
      only_if (on "diamagnetic" true && nonzero q)
        (adds (with_charge s q ["pressure"]) s ["energy_source"]));
     ("diamagnetic_drift",
      only_if (charged q)
        (adds (with_charge s q ["temperature"; "density"]) s ["density_source"] ++
         adds (with_charge s q ["temperature"; "pressure"]) s ["energy_source"] ++
         adds (with_charge s q ["temperature"; "momentum"]) s ["momentum_source"]));
     ("polarisation_drift",
      only_if (charged q && on "advection" true)
        (adds (with_charge s q ["AA"; "density"]) s ["density_source"] ++
         adds (with_charge s q ["AA"; "pressure"]) s ["energy_source"] ++
         adds (with_charge s q ["AA"; "momentum"]) s ["momentum_source"]));
     ("electromagnetic",
      only_if (charged q)
        [(with_charge s q ["momentum"], Changed KSet (PSp s "momentum"));
         (with_charge s q ["momentum"], Changed KSet (PSp s "velocity"))])]
  with
  | Some l => l
  | None => []
  end.

(** ** finally *)

(** Entries [xs] are read as final if they are set. *)
Definition uses (xs : list path) : list claim := map (fun p => (having [p], Looked Whole p)) xs.

(** A field [x] is read by a charged species. *)
Definition uses_field (n : string) (q : Q) (x : string) : claim :=
  (mkFacts [PField x] [] [(PSp n "charge", q)] [] true, Looked Whole (PField x)).

(** The currents of a species [s] with charge [q]. *)
Definition current (s : string) (q : Q) : list claim :=
  only_if (charged q)
    [(with_charge s q ["momentum"], Looked Whole (PSp s "momentum"));
     (with_charge s q ["momentum"], Looked Whole (PSp s "density"))].

Definition finally_claims (t n : string) (c : cfg) (s : string) (q : Q) : list claim :=
  let sp x := PSp n x in
  let on key d := is_on (obool c n key d) in
  let scale := PTop "scale_timederivs" in
  match assoc t
    [("evolve_density", uses [sp "velocity"; sp "density_source"; scale] ++
       match rreal c n "charge" with
       | Some z => only_if (exceeds z)
                     [(mkFacts [PField "phi"] [] [] [] true, Looked Whole (PField "phi"))]
       | None => []
       end);
     ("evolve_pressure",
      uses [sp "velocity"; sp "low_n_coeff"; sp "energy_source"; scale] ++
      only_if (exceeds q) [uses_field n q "phi"]);
     ("evolve_energy",
      uses [sp "low_n_coeff"; sp "energy_source"; sp "momentum_source"; scale] ++
      only_if (exceeds q) [uses_field n q "phi"]);
     ("evolve_momentum",
      uses [sp "pressure"; sp "low_n_coeff"; sp "momentum_source"; scale] ++
      only_if (nonzero q)
        [uses_field n q "phi";
         (mkFacts [PField "phi"; PField "Apar"] [] [(sp "charge", q)] [] true,
          Looked Whole (PField "Apar"));
         (mkFacts [PField "phi"; PField "Apar"; sp "density_source"] [] [(sp "charge", q)] [] true,
          Looked Whole (sp "density_source"))]);
     ("neutral_mixed",
      uses [sp "collision_frequency"; sp "density_source"; sp "energy_source"; scale] ++
      only_if (on "evolve_momentum" true) (uses [sp "momentum_source"]));
     ("vorticity", uses [PField "DivJextra"] ++ current s q);
     ("relax_potential",
      [(mkFacts [PField "DivJextra"] [] [] [] true, Looked Whole (PField "DivJextra"))]
      ++ current s q)]
  with
  | Some l => l
  | None => []
  end.
