(** State accesses of the registered component types, method by method, in the order in
    which the code makes them.  Only the calls on the state and the branches which
    depend on the state or on options are kept; everything computed from fields is
    abstracted by [numerics] (AccessModel.v).

    Simplifications common to all: options are given with their value after parsing
    ([cfg], see AccessInputs.v); the mesh, the grid file, JSON data files and the
    options passed to solvers are not modelled, so constructors throw here only
    for missing or unusable options which decide about state accesses or are
    required of every input; const and non-const accesses differ in [AQuery] and
    [AKids] only. *)

From Coq Require Import List Bool String Ascii QArith.
From Verif Require Import StrModel SchedulerModel TransformModel AccessModel.
Import ListNotations.
Open Scope string_scope.
Open Scope list_scope.

(** ** Notation *)

Notation "x <- m ;; k" := (bind m (fun x => k))
  (at level 61, m at next level, right associativity).
Notation "m ;; k" := (bind m (fun _ => k))
  (at level 61, right associativity).

Definition done : prog unit := Ret tt.

(** get<Field3D>, getNoBoundary<Field3D>, getNonFinal<Field3D>. *)
Definition rd (m : rmode) (p : path) : prog unit :=
  Op (ARead m TField p) (fun r => match r with RFld => done | _ => Throw end).
Definition getf := rd RFinal.
Definition getnb := rd RNoBoundary.
Definition getnf := rd RNonFinal.

(** get<BoutReal>, getNoBoundary<BoutReal>. *)
Definition rdn (m : rmode) (p : path) : prog Q :=
  Op (ARead m TReal p) (fun r => match r with RNum q => Ret q | _ => Throw end).
Definition getn := rdn RFinal.
Definition getn_nb := rdn RNoBoundary.

Definition ask (o : aop) : prog bool :=
  Op o (fun r => match r with RBoo b => Ret b | _ => Throw end).
(** section.isSet(q) *)
Definition has (p : path) := ask (AHas p).
(** IS_SET and IS_SET_NOBOUNDARY on a non-const entry; IS_SET on a const one. *)
Definition isset (p : path) := ask (AQuery false false p).
Definition issetnb (p : path) := ask (AQuery false true p).
Definition isset_const (p : path) := ask (AQuery true false p).

Definition put_op (o : aop) : prog unit :=
  Op o (fun r => match r with ROk => done | _ => Throw end).
Definition setf (p : path) := put_op (AWrite WSet SrcField p).
Definition setn (q : Q) (p : path) := put_op (AWrite WSet (SrcNum q) p).
Definition setb (p : path) := put_op (AWrite WBoundary SrcField p).
Definition addf (p : path) := put_op (AWrite WAdd SrcField p).
Definition subf (p : path) := put_op (AWrite WSubtract SrcField p).
Definition open (s : string) := put_op (AOpen s).
Definition openfields := put_op AOpenFields.

Definition kids (const : bool) : prog (list string) :=
  Op (AKids const) (fun r => match r with RNames l => Ret l | _ => Throw end).

Fixpoint each {X} (f : X -> prog unit) (l : list X) : prog unit :=
  match l with
  | [] => done
  | x :: l' => f x ;; each f l'
  end.

Definition when (b : bool) (m : prog unit) : prog unit := if b then m else done.
Definition if_has (p : path) (m : prog unit) : prog unit := b <- has p ;; when b m.
(** A non-const query followed by a read if set. *)
Definition isset_read (p : path) : prog unit := b <- isset p ;; when b (getf p).
Definition issetnb_read (p : path) : prog unit := b <- issetnb p ;; when b (getnb p).
Definition isset_readn (p : path) : prog unit :=
  b <- isset p ;; when b (_ <- getn p ;; done).
Definition has_read (p : path) : prog unit := if_has p (getf p).
Definition has_readnb (p : path) : prog unit := if_has p (getnb p).
Definition has_readnf (p : path) : prog unit := if_has p (getnf p).
Definition needn (p : path) : prog unit := _ <- getn p ;; done.

(** state.isSection("fields") and state["fields"].isSet(q) *)
Definition has_field (q : string) : prog bool :=
  b <- ask AHasFields ;; if b then has (PField q) else Ret false.
Definition field_read (q : string) : prog unit :=
  b <- has_field q ;; when b (getf (PField q)).

Definition phi := PField "phi".
Definition n_ s := PSp s "density".
Definition t_ s := PSp s "temperature".
Definition p_ s := PSp s "pressure".
Definition v_ s := PSp s "velocity".
Definition nv_ s := PSp s "momentum".
Definition q_ s := PSp s "charge".
Definition a_ s := PSp s "AA".
Definition nu_ s := PSp s "collision_frequency".
Definition sn_ s := PSp s "density_source".
Definition snv_ s := PSp s "momentum_source".
Definition se_ s := PSp s "energy_source".

Definition is_e (s : string) : bool := String.eqb s "e".
Definition qzero (q : Q) : bool := Qeq_bool q 0.
Definition qltb (a b : Q) : bool := negb (Qle_bool b a).
Definition qabs (a : Q) : Q := if Qle_bool 0 a then a else - a.
(** fabs(q) < 1e-5 *)
Definition uncharged (q : Q) : bool := qltb (qabs q) (1 # 100000).

(** ** Options *)

Inductive cval := CB (b : bool) | CQ (q : Q) | CS (s : string).
Definition cfg := list (string * list (string * cval)).

Fixpoint assoc {X} (k : string) (l : list (string * X)) : option X :=
  match l with
  | [] => None
  | (k', x) :: l' => if String.eqb k k' then Some x else assoc k l'
  end.

Definition opt (c : cfg) (sec key : string) : option cval :=
  match assoc sec c with Some l => assoc key l | None => None end.
Definition opt_set (c : cfg) (sec key : string) : bool :=
  match opt c sec key with Some _ => true | None => false end.

(** options[key].withDefault<bool>(d); [None]: the option is not a bool. *)
Definition obool (c : cfg) (sec key : string) (d : bool) : option bool :=
  match opt c sec key with Some (CB b) => Some b | Some _ => None | None => Some d end.
(** options[key].withDefault<BoutReal>(d) *)
Definition oreal (c : cfg) (sec key : string) (d : Q) : option Q :=
  match opt c sec key with Some (CQ q) => Some q | Some _ => None | None => Some d end.
(** options[key].as<BoutReal>(), without a default. *)
Definition rreal (c : cfg) (sec key : string) : option Q :=
  match opt c sec key with Some (CQ q) => Some q | _ => None end.
(** options[key].as<Field3D>(), without a default. *)
Definition rset (c : cfg) (sec key : string) : option unit :=
  if opt_set c sec key then Some tt else None.
(** options[key].as<std::string>(), without a default. *)
Definition rstring (c : cfg) (sec key : string) : option string :=
  match opt c sec key with Some (CS s) => Some s | _ => None end.

Definition obind {X Y} (m : option X) (f : X -> option Y) : option Y :=
  match m with Some x => f x | None => None end.
Notation "x <-? m ;; k" := (obind m (fun x => k))
  (at level 61, m at next level, right associativity).

Definition items (s : string) : list string :=
  map string_of_list_ascii (list_items (list_ascii_of_string s)).

(** strsplit at commas without trimming or skipping: the number of items. *)
Definition count_items (s : string) : nat :=
  List.length (strsplit comma (list_ascii_of_string s)).

Definition plain (m : prog unit) : option comp := Some (mkComp m done).

(** ** Evolving equations *)

Definition scale_td : prog unit := has_read (PTop "scale_timederivs").

(** EvolveDensity, evolve_density.cxx 25-84 (options), 132-208, 210-312. *)
Definition evolve_density (n : string) (c : cfg) : option comp :=
  charge <-? rreal c n "charge" ;;
  aa <-? rreal c n "AA" ;;
  low_n <-? obool c n "low_n_diffuse" false ;;
  low_p <-? obool c n "low_p_diffuse_perp" false ;;
  diag <-? obool c n "diagnose" false ;;
  timed <-? obool c ("N" ++ n)%string "source_time_dependent" false ;;
  Some (mkComp
    (setf (n_ n) ;; setn aa (a_ n) ;;
     when (negb (qzero charge)) (setn charge (q_ n)) ;;
     when low_n (setf (PSp n "low_n_coeff")) ;;
     when timed (needn (PTop "time")) ;;
     addf (sn_ n))
    (getf (n_ n) ;;
     when (qltb (1 # 100000) (qabs charge)) (field_read "phi") ;;
     if_has (v_ n) (
       getf (v_ n) ;;
       w <- has (PTop "fastest_wave") ;;
       (if w then getf (PTop "fastest_wave") else (getf (t_ n) ;; needn (a_ n))) ;;
       field_read "Apar_flutter") ;;
     when low_n (getf (PSp n "low_n_coeff")) ;;
     when low_p (getf (p_ n)) ;;
     getf (sn_ n) ;;
     scale_td ;;
     when diag (has_read (PSp n "particle_flow_xlow") ;;
                has_read (PSp n "particle_flow_ylow")))).

(** species.isSet("charge") and fabs(charge) > 1e-5 and "phi" available: read phi
    (evolve_pressure.cxx 236-243, evolve_energy.cxx 205-212). *)
Definition phi_if_charged (n : string) : prog unit :=
  if_has (q_ n) (
    q <- getn (q_ n) ;;
    when (qltb (1 # 100000) (qabs q)) (field_read "phi")).

Definition flows (n q : string) : prog unit :=
  has_read (PSp n (q ++ "_flow_xlow")%string) ;; has_read (PSp n (q ++ "_flow_ylow")%string).

(** species.isSet("pressure_source") is an error (evolve_pressure.cxx 418-421,
    evolve_energy.cxx). *)
Definition no_pressure_source (n : string) : prog unit :=
  b <- has (PSp n "pressure_source") ;; if b then Throw else done.

(** EvolvePressure, evolve_pressure.cxx 12-161 (options), 163-219, 221-455. *)
Definition evolve_pressure (n : string) (c : cfg) : option comp :=
  cond <-? obool c n "thermal_conduction" true ;;
  diag <-? obool c n "diagnose" false ;;
  visc <-? obool c n "numerical_viscous_heating" false ;;
  timed <-? obool c ("P" ++ n)%string "source_time_dependent" false ;;
  Some (mkComp
    (open n ;; getnb (n_ n) ;; setf (p_ n) ;; setf (t_ n))
    (getf (p_ n) ;; getf (t_ n) ;; getf (n_ n) ;;
     phi_if_charged n ;;
     if_has (v_ n) (
       getf (v_ n) ;;
       w <- has (PTop "fastest_wave") ;;
       (if w then getf (PTop "fastest_wave") else needn (a_ n)) ;;
       field_read "Apar_flutter" ;;
       when (visc || diag) (needn (a_ n))) ;;
     has_read (PSp n "low_n_coeff") ;;
     when cond (getf (nu_ n) ;; needn (a_ n) ;; field_read "Apar_flutter") ;;
     when timed (needn (PTop "time")) ;;
     has_read (se_ n) ;;
     no_pressure_source n ;;
     scale_td ;;
     when diag (flows n "energy"))).

(** EvolveEnergy, evolve_energy.cxx 14-121 (options), 123-189, 191-398. *)
Definition evolve_energy (n : string) (c : cfg) : option comp :=
  cond <-? obool c n "thermal_conduction" true ;;
  diag <-? obool c n "diagnose" false ;;
  Some (mkComp
    (open n ;; getnb (n_ n) ;; getnb (v_ n) ;; needn (a_ n) ;; setf (p_ n) ;; setf (t_ n))
    (getf (p_ n) ;; getf (t_ n) ;; getf (n_ n) ;; getf (v_ n) ;; needn (a_ n) ;;
     phi_if_charged n ;;
     if_has (v_ n) (
       getf (v_ n) ;;
       w <- has (PTop "fastest_wave") ;;
       (if w then getf (PTop "fastest_wave") else needn (a_ n)) ;;
       field_read "Apar_flutter") ;;
     has_read (PSp n "low_n_coeff") ;;
     when cond (getf (nu_ n) ;; needn (a_ n) ;; field_read "Apar_flutter") ;;
     has_read (se_ n) ;;
     no_pressure_source n ;;
     has_read (snv_ n) ;;
     scale_td ;;
     when diag (flows n "energy"))).

(** EvolveMomentum, evolve_momentum.cxx 14-64 (options), 66-86, 88-251. *)
Definition evolve_momentum (n : string) (c : cfg) : option comp :=
  low_p <-? obool c n "low_p_diffuse_perp" false ;;
  diag <-? obool c n "diagnose" false ;;
  Some (mkComp
    (open n ;; getnb (n_ n) ;; needn (a_ n) ;; setf (v_ n) ;; setf (nv_ n))
    (needn (a_ n) ;; getf (nv_ n) ;; getf (n_ n) ;;
     w <- has (PTop "fastest_wave") ;;
     (if w then getf (PTop "fastest_wave") else getf (t_ n)) ;;
     getf (v_ n) ;;
     hp <- has_field "phi" ;;
     when hp (if_has (q_ n) (
       q <- getn (q_ n) ;;
       when (negb (qzero q)) (
         getf phi ;;
         ap <- has_field "Apar" ;;
         when ap (getf (PField "Apar") ;; has_read (sn_ n)) ;;
         field_read "Apar_flutter"))) ;;
     has_read (p_ n) ;;
     fl <- has_field "Apar_flutter" ;;
     when fl (getf (PField "Apar_flutter") ;; has_read (p_ n)) ;;
     has_read (PSp n "low_n_coeff") ;;
     when low_p (getf (p_ n)) ;;
     has_read (snv_ n) ;;
     scale_td ;;
     when diag (
       has_read (PSp n "momentum_flow_xlow") ;;
       if_has (PSp n "momentum_flux_ylow") (getf (PSp n "momentum_flow_ylow"))))).

(** NeutralMixed, neutral_mixed.cxx 16-141 (options), 206-260, 262-505. *)
Definition neutral_mixed (n : string) (c : cfg) : option comp :=
  aa <-? oreal c n "AA" 1 ;;
  mom <-? obool c n "evolve_momentum" true ;;
  Some (mkComp
    (setf (n_ n) ;; setn aa (a_ n) ;; setf (p_ n) ;; setf (nv_ n) ;; setf (v_ n) ;;
     setf (t_ n))
    (needn (PUnit "meters") ;;
     has_read (nu_ n) ;;
     has_read (sn_ n) ;;
     when mom (has_read (snv_ n)) ;;
     has_read (se_ n) ;;
     scale_td)).

(** ** Fixed quantities and simple relations *)

(** Set pressure if the density is known (isothermal.cxx 29-34,
    fixed_temperature.hxx 51-56, set_temperature.hxx 62-66). *)
Definition pressure_if_density (n : string) : prog unit :=
  b <- issetnb (n_ n) ;; when b (getnb (n_ n) ;; setf (p_ n)).

(** Isothermal, isothermal.cxx 6-19, 21-35: the temperature is stored as a BoutReal. *)
Definition isothermal (n : string) (c : cfg) : option comp :=
  t <-? rreal c n "temperature" ;;
  plain (setn t (t_ n) ;; pressure_if_density n).

(** FixedDensity, fixed_density.hxx 17-47. *)
Definition fixed_density (n : string) (c : cfg) : option comp :=
  charge <-? rreal c n "charge" ;;
  aa <-? rreal c n "AA" ;;
  _ <-? rset c n "density" ;;
  plain (open n ;; when (negb (qzero charge)) (setn charge (q_ n)) ;;
         setn aa (a_ n) ;; setf (n_ n)).

(** FixedTemperature, fixed_temperature.hxx 15-57. *)
Definition fixed_temperature (n : string) (c : cfg) : option comp :=
  _ <-? rset c n "temperature" ;;
  plain (setf (t_ n) ;; pressure_if_density n).

(** FixedVelocity, fixed_velocity.hxx 13-42. *)
Definition fixed_velocity (n : string) (c : cfg) : option comp :=
  _ <-? rset c n "velocity" ;;
  plain (setf (v_ n) ;;
         b <- issetnb (n_ n) ;;
         when b (getnb (n_ n) ;; needn (a_ n) ;; setf (nv_ n))).

(** SetTemperature, set_temperature.hxx 27-67. *)
Definition set_temperature (n : string) (c : cfg) : option comp :=
  from <-? rstring c n "temperature_from" ;;
  plain (open from ;; getnb (t_ from) ;; setf (t_ n) ;; pressure_if_density n).

(** Quasineutral, quasineutral.cxx 7-16 (options), 18-57. *)
Definition quasineutral (n : string) (c : cfg) : option comp :=
  charge <-? rreal c n "charge" ;;
  aa <-? rreal c n "AA" ;;
  Some (mkComp
    (ks <- kids false ;;
     each (fun s => if String.eqb s n then done else
             if_has (q_ s) (if_has (n_ s) (getnb (n_ s) ;; needn (q_ s)))) ks ;;
     setf (n_ n) ;; setn charge (q_ n) ;; setn aa (a_ n))
    (getf (n_ n))).

Fixpoint filter_prog (f : string -> prog bool) (l : list string) : prog bool :=
  match l with
  | [] => Ret false
  | x :: l' => b <- f x ;; r <- filter_prog f l' ;; Ret (b || r)
  end.

(** ZeroCurrent, zero_current.cxx 7-14 (options), 16-66.  The loop answers whether some
    species with a velocity was found (`initialised`). *)
Definition zero_current (n : string) (c : cfg) : option comp :=
  charge <-? rreal c n "charge" ;;
  if qzero charge then None else
  plain
    (ks <- kids false ;;
     found <- filter_prog (fun s =>
       if String.eqb s n then Ret false else
       d <- has (n_ s) ;;
       if negb d then Ret false else
       q <- has (q_ s) ;;
       if negb q then Ret false else
       v <- issetnb (v_ s) ;;
       if negb v then Ret false else
       (getnb (n_ s) ;; needn (q_ s) ;; getnb (v_ s) ;; Ret true)) ks ;;
     if negb found then Throw else
     open n ;;
     own <- has (v_ n) ;;
     if own then Throw else
     getnb (n_ n) ;; setf (v_ n)).

(** FixedFractionIons, fixed_fraction_ions.cxx 8-29 (options: at least one fraction),
    31-41.  [fractions] is "species @ fraction, ...". *)
Fixpoint fraction_species (l : list str) : option (list string) :=
  match l with
  | [] => Some []
  | it :: l' =>
      match strsplit "@"%char it with
      | [x; _] => r <-? fraction_species l' ;; Some (string_of_list_ascii (trim trim_chars x) :: r)
      | _ => None
      end
  end.

Definition fixed_fraction_ions (n : string) (c : cfg) : option comp :=
  txt <-? rstring c n "fractions" ;;
  sps <-? fraction_species (strsplit comma (list_ascii_of_string txt)) ;;
  match sps with
  | [] => None
  | _ => plain (open "e" ;; getf (n_ "e") ;; each (fun s => setf (n_ s)) sps)
  end.

(** SoundSpeed, sound_speed.hxx 13-43 (options), sound_speed.cxx 14-65. *)
Definition sound_speed (n : string) (c : cfg) : option comp :=
  ed <-? obool c n "electron_dynamics" true ;;
  plain
    (ks <- kids false ;;
     each (fun s =>
       has_readnb (p_ s) ;;
       if is_e s && negb ed then done else
       if_has (a_ s) (
         needn (a_ s) ;;
         if_has (n_ s) (getnb (n_ s) ;; needn (a_ s)) ;;
         has_readnb (t_ s))) ks ;;
     setf (PTop "sound_speed") ;; setf (PTop "fastest_wave")).

(** ScaleTimeDerivs, scale_timederivs.hxx 20-31. *)
Definition scale_timederivs (n : string) (c : cfg) : option comp :=
  plain (open "e" ;; getf (t_ "e") ;; put_op (AForce (PTop "scale_timederivs"))).

(** Transform, transform.cxx 6-26 (options), 28-32; entries of species only. *)
Definition parse_path (s : str) : option path :=
  match map string_of_list_ascii (strsplit ":"%char s) with
  | [a; b; d] => if String.eqb a "species" then Some (PSp b d) else None
  | [a; b] => if String.eqb a "fields" then Some (PField b) else None
  | [a] => Some (PTop a)
  | _ => None
  end.

Fixpoint parse_paths (l : list (str * str)) : option (list (path * path)) :=
  match l with
  | [] => Some []
  | (x, y) :: l' =>
      px <-? parse_path x ;; py <-? parse_path y ;; r <-? parse_paths l' ;;
      Some ((px, py) :: r)
  end.

Definition transform_comp (n : string) (c : cfg) : option comp :=
  txt <-? rstring c n "transforms" ;;
  m <-? parse_transforms (list_ascii_of_string txt) ;;
  ps <-? parse_paths m ;;
  plain (each (fun lr => put_op (ACopy (fst lr) (snd lr))) ps).

(** ** Sources, diffusion, conduction *)

(** SimplePump, simple_pump.hxx 11-42. *)
Definition simple_pump (n : string) (c : cfg) : option comp :=
  _ <-? rset c n "residence_time" ;;
  plain (open n ;; getnb (n_ n) ;; addf (sn_ n)).

(** SimpleConduction, simple_conduction.hxx 15-57 (options), 59-87. *)
Definition simple_conduction (n : string) (c : cfg) : option comp :=
  dens <-? oreal c n "conduction_density" (-1) ;;
  plain (open n ;; getnb (t_ n) ;;
         when (negb (qltb 0 dens)) (getnb (n_ n)) ;;
         needn (a_ n) ;; addf (se_ n)).

(** SNBConduction, snb_conduction.cxx 7-38. *)
Definition snb_conduction (n : string) (c : cfg) : option comp :=
  plain (needn (PUnit "meters") ;; needn (PUnit "eV") ;;
         needn (PUnit "inv_meters_cubed") ;; needn (PUnit "seconds") ;;
         open "e" ;; getf (t_ "e") ;; getf (n_ "e") ;; subf (se_ "e")).

(** AnomalousDiffusion, anomalous_diffusion.cxx 9-53 (options), 55-131.  A coefficient
    given in the grid file instead of the options is not modelled. *)
Definition anomalous_diffusion (n : string) (c : cfg) : option comp :=
  let d := opt_set c n "anomalous_D" in
  let chi := opt_set c n "anomalous_chi" in
  let nu := opt_set c n "anomalous_nu" in
  plain
    (open n ;; getnb (n_ n) ;;
     has_readnb (t_ n) ;; has_readnb (v_ n) ;;
     when d (
       addf (sn_ n) ;;
       addf (PSp n "particle_flow_xlow") ;; addf (PSp n "particle_flow_ylow") ;;
       needn (a_ n) ;;
       addf (snv_ n) ;;
       addf (PSp n "momentum_flow_xlow") ;; addf (PSp n "momentum_flow_ylow") ;;
       addf (se_ n) ;;
       addf (PSp n "energy_flow_xlow") ;; addf (PSp n "energy_flow_ylow")) ;;
     when chi (
       addf (se_ n) ;;
       addf (PSp n "energy_flow_xlow") ;; addf (PSp n "energy_flow_ylow")) ;;
     when nu (
       needn (a_ n) ;;
       addf (snv_ n) ;;
       addf (PSp n "momentum_flow_xlow") ;; addf (PSp n "momentum_flow_ylow"))).

(** ClassicalDiffusion, classical_diffusion.cxx 5-13 (options), 15-94. *)
Definition classical_diffusion (n : string) (c : cfg) : option comp :=
  custom <-? oreal c n "custom_D" (-1) ;;
  plain
    (ks <- kids false ;;
     each (fun s =>
       if_has (q_ s) (
         b <- isset_const (p_ s) ;;
         when b (
           q <- getn (q_ s) ;;
           when (negb (uncharged q)) (getf (p_ s))))) ks ;;
     open "e" ;;
     needn (a_ "e") ;; getf (n_ "e") ;;
     when (negb (qltb 0 custom)) (getf (nu_ "e")) ;;
     ks2 <- kids false ;;
     each (fun s =>
       if_has (q_ s) (
         b <- isset (n_ s) ;;
         when b (
           q <- getn (q_ s) ;;
           when (negb (uncharged q)) (
             getf (n_ s) ;; addf (sn_ s) ;;
             bv <- isset (v_ s) ;;
             when bv (getf (v_ s) ;; needn (a_ s) ;; addf (snv_ s)) ;;
             bt <- isset (t_ s) ;;
             when bt (
               getf (t_ s) ;; addf (se_ s) ;;
               getf (p_ s) ;; needn (a_ s) ;;
               when (qltb custom 0) (getf (nu_ s)) ;;
               addf (se_ s)))))) ks2).

(** BinormalSTPM, binormal_stpm.cxx 49-75. *)
Definition binormal_stpm (n : string) (c : cfg) : option comp :=
  plain
    (ks <- kids false ;;
     each (fun s =>
       needn (a_ s) ;; has_readnb (n_ s) ;; has_readnb (t_ s) ;; has_readnb (nv_ s) ;;
       addf (se_ s) ;; addf (snv_ s) ;; addf (sn_ s)) ks).

(** NeutralParallelDiffusion, neutral_parallel_diffusion.hxx 26-48 (options),
    neutral_parallel_diffusion.cxx 8-80. *)
Definition neutral_parallel_diffusion (n : string) (c : cfg) : option comp :=
  _ <-? rset c n "dneut" ;;
  visc <-? obool c n "viscosity" true ;;
  plain
    (ks <- kids false ;;
     each (fun s =>
       hq <- has (q_ s) ;;
       z <- (if hq then (q <- getn (q_ s) ;; Ret (negb (qzero q))) else Ret false) ;;
       if z then done else
       getf (nu_ s) ;; needn (a_ s) ;; getf (n_ s) ;; getf (t_ s) ;;
       isset_read (p_ s) ;;
       addf (sn_ s) ;; addf (se_ s) ;;
       b <- isset (v_ s) ;;
       when (b && visc) (getf (v_ s) ;; getf (nv_ s) ;; addf (snv_ s))) ks).

(** SOLKITNeutralParallelDiffusion, solkit_neutral_parallel_diffusion.cxx 9-62. *)
Definition solkit_neutral_parallel_diffusion (n : string) (c : cfg) : option comp :=
  plain
    (ks <- kids false ;;
     each (fun s =>
       hq <- has (q_ s) ;;
       z <- (if hq then (q <- getn (q_ s) ;; Ret (negb (qzero q))) else Ret false) ;;
       if z then done else
       each (fun s2 =>
         if is_e s2 then getf (n_ s2) else
         hq2 <- has (q_ s2) ;;
         (when hq2 (needn (q_ s2))) ;; getf (n_ s2)) ks ;;
       needn (a_ s) ;; getf (n_ s) ;; addf (sn_ s)) ks).

(** UpstreamDensityFeedback, upstream_density_feedback.cxx 6-67. *)
Definition upstream_density_feedback (n : string) (c : cfg) : option comp :=
  _ <-? rreal c n "density_upstream" ;;
  plain (open n ;; getnb (n_ n) ;; needn (PTop "time") ;; addf (sn_ n) ;;
         b <- issetnb (v_ n) ;;
         when b (
           b2 <- isset (a_ n) ;;
           when b2 (getnb (v_ n) ;; needn (a_ n) ;; addf (se_ n)))).

(** TemperatureFeedback, temperature_feedback.hxx 26-70 (options),
    temperature_feedback.cxx 6-100. *)
Definition temperature_feedback (n : string) (c : cfg) : option comp :=
  _ <-? rreal c n "temperature_setpoint" ;;
  sps <-? rstring c n "species_for_temperature_feedback" ;;
  fcs <-? rstring c n "scaling_factors_for_temperature_feedback" ;;
  if Nat.eqb (count_items sps) (count_items fcs) then
    plain (open n ;; getnb (t_ n) ;; needn (PTop "time") ;;
           each (fun s => addf (se_ s)) (items sps))
  else None.

(** DetachmentController, detachment_controller.hxx 20-150 (options),
    detachment_controller.cxx 32-226. *)
Definition detachment_controller (n : string) (c : cfg) : option comp :=
  let sec := "detachment_controller" in
  neutral <-? rstring c sec "neutral_species" ;;
  act <-? rstring c sec "actuator" ;;
  sps <-? rstring c sec "species_list" ;;
  fcs <-? rstring c sec "scaling_factors_list" ;;
  src <-? (if String.eqb act "power" then Some "energy_source"
           else if String.eqb act "particles" then Some "density_source" else None) ;;
  if Nat.eqb (count_items sps) (count_items fcs) then
    plain (open neutral ;; getnb (n_ neutral) ;; open "e" ;; getnb (n_ "e") ;;
           needn (PTop "time") ;;
           each (fun s => addf (PSp s src)) (items sps))
  else None.

(** FixedFractionRadiation, fixed_fraction_radiation.hxx 360-385 (options), 387-422. *)
Definition fixed_fraction_radiation (n : string) (c : cfg) : option comp :=
  plain (open "e" ;; getnb (n_ "e") ;; getnb (t_ "e") ;; subf (se_ "e")).

(** ** Forces, viscosity, collisions *)

(** ElectronForceBalance, electron_force_balance.cxx 8-54. *)
Definition electron_force_balance (n : string) (c : cfg) : option comp :=
  plain
    (b <- isset phi ;;
     if b then Throw else
     open "e" ;; getf (p_ "e") ;; getnb (n_ "e") ;;
     q <- getn (q_ "e") ;;
     if negb (Qeq_bool q (-1)) then Throw else
     isset_read (snv_ "e") ;;
     ks <- kids false ;;
     each (fun s => if is_e s then done else
       b1 <- isset (n_ s) ;;
       when b1 (
         b2 <- isset (q_ s) ;;
         when b2 (getnb (n_ s) ;; needn (q_ s) ;; addf (snv_ s)))) ks).

(** IonViscosity, ion_viscosity.cxx 13-62 (options), 64-232. *)
Definition ion_viscosity (n : string) (c : cfg) : option comp :=
  perp <-? obool c n "perpendicular" false ;;
  plain
    (ks <- kids false ;;
     each (fun s => if is_e s then done else
       b1 <- isset (p_ s) ;;
       when b1 (
       b2 <- isset (v_ s) ;;
       when b2 (
       b3 <- isset (q_ s) ;;
       when b3 (
         q <- getn (q_ s) ;;
         when (negb (qltb (qabs q) (1 # 1000))) (
           getf (nu_ s) ;; getf (p_ s) ;; getf (v_ s) ;;
           addf (snv_ s) ;; subf (se_ s) ;;
           when perp (
             getf phi ;; getf (n_ s) ;; getf (t_ s) ;;
             addf (snv_ s) ;; subf (se_ s) ;;
             addf (PField "DivJextra") ;; subf (se_ s))))))) ks).

(** ElectronViscosity, electron_viscosity.cxx 20-59. *)
Definition electron_viscosity (n : string) (c : cfg) : option comp :=
  plain
    (b1 <- isset (p_ "e") ;;
     if negb b1 then Throw else
     b2 <- isset (v_ "e") ;;
     if negb b2 then Throw else
     getf (nu_ "e") ;; getf (p_ "e") ;; getf (v_ "e") ;; addf (snv_ "e")).

(** ThermalForce, thermal_force.hxx 24-34 (options), thermal_force.cxx 6-125. *)
Fixpoint pairs (f : string -> string -> prog unit) (l : list string) : prog unit :=
  match l with
  | [] => done
  | x :: l' => each (f x) l' ;; pairs f l'
  end.

(** thermal_force.cxx 71-121: which of the two is light and which heavy. *)
Definition ion_ion_force (s1 s2 : string) : prog unit :=
  let force (light heavy : string) :=
    needn (a_ light) ;; getf (t_ light) ;; needn (a_ heavy) ;;
    q <- getn (q_ heavy) ;;
    getnb (n_ heavy) ;;
    when (negb (qzero q)) (addf (snv_ heavy) ;; subf (snv_ light)) in
  a1 <- getn (a_ s1) ;;
  both <- (if qltb a1 4 then (a2 <- getn (a_ s2) ;; Ret (qltb 10 a2)) else Ret false) ;;
  if both then force s1 s2 else
  a1' <- getn (a_ s1) ;;
  both' <- (if qltb 10 a1' then (a2 <- getn (a_ s2) ;; Ret (qltb a2 4)) else Ret false) ;;
  if both' then force s2 s1 else done.

Definition thermal_force (n : string) (c : cfg) : option comp :=
  ei <-? obool c n "electron_ion" true ;;
  ii <-? obool c n "ion_ion" true ;;
  plain
    (e <- (if ei then ask (AHasSpecies "e") else Ret false) ;;
     when e (
       getf (t_ "e") ;;
       ks <- kids false ;;
       each (fun s => if is_e s then done else
         if_has (q_ s) (
           needn (q_ s) ;; getnb (n_ s) ;; addf (snv_ s) ;; subf (snv_ "e"))) ks) ;;
     when ii (
       ks <- kids false ;;
       pairs (fun s1 s2 =>
         if is_e s1 then done else
         if_has (q_ s1) (
           if is_e s2 then done else
           if_has (q_ s2) (ion_ion_force s1 s2))) ks)).

(** Collisions::collide, collisions.cxx 71-150.  The private Options collision_rates is
    left out: its entries are only ever read with getNonFinal. *)
Definition collide (heating : bool) (s1 s2 : string) : prog unit :=
  addf (nu_ s1) ;;
  if String.eqb s1 s2 then done else
  needn (a_ s1) ;; needn (a_ s2) ;;
  getnb (n_ s1) ;; getnb (n_ s2) ;;
  addf (nu_ s2) ;;
  b1 <- issetnb (v_ s1) ;;
  b2 <- (if b1 then Ret true else issetnb (v_ s2)) ;;
  when b2 (
    has_readnb (v_ s1) ;; has_readnb (v_ s2) ;;
    addf (snv_ s1) ;; subf (snv_ s2) ;;
    when heating (addf (se_ s1) ;; addf (se_ s2))) ;;
  h1 <- has (t_ s1) ;;
  h <- (if h1 then Ret true else has (t_ s2)) ;;
  when h (getnb (t_ s1) ;; getnb (t_ s2) ;; addf (se_ s1) ;; subf (se_ s2)).

Fixpoint tails (f : string -> list string -> prog unit) (l : list string) : prog unit :=
  match l with
  | [] => done
  | x :: l' => f x l ;; tails f l'
  end.

Definition is_ebeam (s : string) : bool := String.eqb s "ebeam".

(** Collisions, collisions.cxx 16-58 (options), 154-480.  Collisions of a charged
    species with a neutral one later in the map are made whatever the option
    ion_neutral (386-405). *)
Definition collisions (n : string) (c : cfg) : option comp :=
  ee <-? obool c n "electron_electron" true ;;
  ei <-? obool c n "electron_ion" true ;;
  en <-? obool c n "electron_neutral" false ;;
  ii <-? obool c n "ion_ion" true ;;
  iz <-? obool c n "ion_neutral" false ;;
  nn <-? obool c n "neutral_neutral" true ;;
  heat <-? obool c n "frictional_heating" true ;;
  plain
    (e <- ask (AHasSpecies "e") ;;
     when e (
       getnb (t_ "e") ;; getnb (n_ "e") ;;
       ks <- kids false ;;
       each (fun s =>
         if is_e s then when ee (collide heat "e" "e") else
         hq <- has (q_ s) ;;
         pos <- (if hq then (q <- getn (q_ s) ;; Ret (qltb 0 q)) else Ret false) ;;
         if pos then
           when ei (getnb (t_ s) ;; getnb (n_ s) ;; needn (q_ s) ;; needn (a_ s) ;;
                    collide heat "e" s)
         else
         hq2 <- has (q_ s) ;;
         neg <- (if hq2 then (q <- getn (q_ s) ;; Ret (qltb q 0)) else Ret false) ;;
         if neg then done else
         when en (getnb (n_ s) ;; collide heat "e" s)) ks) ;;
     ks <- kids false ;;
     tails (fun s1 from =>
       if is_e s1 || is_ebeam s1 then done else
       has_readnb (t_ s1) ;;
       getnb (n_ s1) ;;
       needn (a_ s1) ;;
       hq <- has (q_ s1) ;;
       ch <- (if hq then (q <- getn (q_ s1) ;; Ret (negb (qzero q))) else Ret false) ;;
       if ch then
         needn (q_ s1) ;;
         each (fun s2 =>
           if is_e s2 || is_ebeam s2 then done else
           has_readnb (t_ s2) ;; getnb (n_ s2) ;; needn (a_ s2) ;;
           h2 <- has (q_ s2) ;;
           ch2 <- (if h2 then (q <- getn (q_ s2) ;; Ret (negb (qzero q))) else Ret false) ;;
           if ch2 then when ii (needn (q_ s2) ;; collide heat s1 s2)
           else (getnb (n_ s2) ;; collide heat s1 s2)) from
       else
         each (fun s2 =>
           if is_e s2 then done else
           has_readnb (t_ s2) ;; needn (a_ s2) ;; getnb (n_ s2) ;;
           h2 <- has (q_ s2) ;;
           if h2 then when iz (collide heat s1 s2)
           else when nn (collide heat s1 s2)) from) ks).

(** ** Walls *)

(** noflow_boundary.cxx 14-92. *)
Definition noflow_boundary (n : string) (c : cfg) : option comp :=
  plain
    (b <- ask (AHasSpecies n) ;;
     if negb b then Throw else
     each (fun q => if_has (PSp n q) (getnb (PSp n q) ;; setb (PSp n q)))
          ["density"; "temperature"; "pressure"; "velocity"; "momentum"]).

(** NeutralBoundary, neutral_boundary.cxx 53-314. *)
Definition neutral_boundary (n : string) (c : cfg) : option comp :=
  plain
    (open n ;;
     needn (a_ n) ;; getnb (n_ n) ;; getnb (p_ n) ;; getnb (t_ n) ;;
     issetnb_read (v_ n) ;; issetnb_read (nv_ n) ;;
     has_readnf (se_ n) ;;
     setb (n_ n) ;; setb (t_ n) ;; setb (p_ n) ;;
     bv <- issetnb (v_ n) ;; when bv (setb (v_ n)) ;;
     bm <- issetnb (nv_ n) ;; when bm (setb (nv_ n)) ;;
     setf (se_ n)).

Definition set_if (ask : path -> prog bool) (p : path) : prog unit :=
  b <- ask p ;; when b (setb p).

(** The ions in the three sheath components: sheath_boundary.cxx 484-684,
    sheath_boundary_simple.cxx 502-678, sheath_boundary_insulating.cxx 226-429. *)
Definition sheath_ion (adiabatic flow : bool) (s : string) : prog unit :=
  needn (a_ s) ;;
  when adiabatic (isset_readn (PSp s "adiabatic")) ;;
  getnb (n_ s) ;; getnb (t_ s) ;;
  has_readnb (p_ s) ;; has_readnb (v_ s) ;; has_readnb (nv_ s) ;;
  has_readnf (se_ s) ;;
  setb (n_ s) ;; setb (t_ s) ;; setb (p_ s) ;;
  set_if has (v_ s) ;; set_if has (nv_ s) ;;
  setf (se_ s) ;;
  when flow (addf (PSp s "energy_flow_ylow")).

Definition charge_nonzero (ask : path -> prog bool) (s : string) : prog bool :=
  b <- ask (q_ s) ;;
  if b then (q <- getn (q_ s) ;; Ret (negb (qzero q))) else Ret false.

(** Entries of the electrons read at the start: sheath_boundary.cxx 117-138,
    sheath_boundary_simple.cxx 152-169, sheath_boundary_insulating.cxx 99-120. *)
Definition sheath_electrons (adiabatic : bool) : prog unit :=
  open "e" ;;
  getnb (n_ "e") ;; getnb (t_ "e") ;; issetnb_read (p_ "e") ;;
  when adiabatic (isset_readn (PSp "e" "adiabatic")) ;;
  isset_readn (a_ "e") ;;
  issetnb_read (v_ "e") ;; issetnb_read (nv_ "e").

(** SheathBoundary, sheath_boundary.cxx 57-107 (options), 109-684. *)
Definition sheath_boundary (n : string) (c : cfg) : option comp :=
  always <-? obool c n "always_set_phi" false ;;
  plain
    (sheath_electrons true ;;
     b <- issetnb phi ;;
     (if b then getnb phi else
      ks <- kids false ;;
      each (fun s => if is_e s then done else
        z <- charge_nonzero isset s ;;
        when z (getnb (n_ s) ;; getnb (t_ s) ;;
                (_ <- getn_nb (a_ s) ;; done) ;; (_ <- getn_nb (q_ s) ;; done) ;;
                isset_readn (PSp s "adiabatic"))) ks) ;;
     has_readnf (se_ "e") ;;
     setb (n_ "e") ;; setb (t_ "e") ;; setb (p_ "e") ;;
     setf (se_ "e") ;;
     set_if issetnb (v_ "e") ;; set_if issetnb (nv_ "e") ;;
     b2 <- (if always then Ret true else issetnb phi) ;;
     when b2 (setb phi) ;;
     ks <- kids false ;;
     each (fun s => if is_e s then done else
       z <- charge_nonzero isset s ;;
       when z (sheath_ion true false s)) ks).

(** SheathBoundarySimple, sheath_boundary_simple.cxx 72-142 (options), 144-678. *)
Definition sheath_boundary_simple (n : string) (c : cfg) : option comp :=
  always <-? obool c n "always_set_phi" false ;;
  plain
    (sheath_electrons false ;;
     b <- issetnb phi ;;
     (if b then getnb phi else
      ks <- kids false ;;
      each (fun s => if is_e s then done else
        z <- charge_nonzero has s ;;
        when z (getnb (n_ s) ;; getnb (t_ s) ;;
                (_ <- getn_nb (a_ s) ;; done) ;; (_ <- getn_nb (q_ s) ;; done) ;;
                has_readnb (v_ s))) ks) ;;
     has_readnf (se_ "e") ;;
     setb (n_ "e") ;; setb (t_ "e") ;; setb (p_ "e") ;;
     setf (se_ "e") ;;
     addf (PSp "e" "energy_flow_ylow") ;;
     set_if issetnb (v_ "e") ;; set_if issetnb (nv_ "e") ;;
     b2 <- (if always then Ret true else has_field "phi") ;;
     when b2 (setb phi) ;;
     ks <- kids false ;;
     each (fun s => if is_e s then done else
       z <- charge_nonzero has s ;;
       when z (sheath_ion false true s)) ks).

(** SheathBoundaryInsulating, sheath_boundary_insulating.cxx 91-519. *)
Definition sheath_boundary_insulating (n : string) (c : cfg) : option comp :=
  plain
    (sheath_electrons true ;;
     b <- issetnb phi ;;
     when b (getnb phi ;; setb phi) ;;
     setb (n_ "e") ;; setb (t_ "e") ;; setb (p_ "e") ;;
     ks <- kids false ;;
     each (fun s => if is_e s then done else
       z <- charge_nonzero isset s ;;
       when z (sheath_ion true false s)) ks ;;
     has_readnf (se_ "e") ;;
     setf (se_ "e") ;;
     set_if issetnb (v_ "e") ;; set_if issetnb (nv_ "e")).

(** SheathClosure, sheath_closure.cxx 4-32 (options), 34-106. *)
Definition sheath_closure (n : string) (c : cfg) : option comp :=
  _ <-? rset c n "connection_length" ;;
  sinks <-? obool c n "sinks" false ;;
  plain
    (getf phi ;; getf (n_ "e") ;;
     addf (PField "DivJextra") ;;
     addf (sn_ "e") ;;
     if_has (t_ "e") (getf (t_ "e") ;; subf (se_ "e")) ;;
     when sinks (
       ks <- kids false ;;
       each (fun s => needn (a_ s) ;; getf (n_ s) ;; getf (t_ s)) ks ;;
       each (fun s => getf (n_ s) ;; subf (sn_ s) ;;
                      if is_e s then done else getf (t_ s) ;; subf (se_ s)) ks)).

(** Recycling, recycling.cxx 13-145 (options), 147-506.  One channel per listed species;
    the switches target_recycle, sol_recycle, pfr_recycle are members of the
    component (recycling.hxx), so the last species listed decides for all channels. *)
Record channel := mkChannel {
  ch_from : string; ch_to : string;
  ch_target_fast : Q; ch_sol_fast : Q; ch_pfr_fast : Q
}.

Definition in_unit_interval (q : Q) : bool := Qle_bool 0 q && Qle_bool q 1.

Definition read_channel (c : cfg) (from : string) : option channel :=
  to <-? rstring c from "recycle_as" ;;
  tm <-? oreal c from "target_recycle_multiplier" 1 ;;
  sm <-? oreal c from "sol_recycle_multiplier" 1 ;;
  pm <-? oreal c from "pfr_recycle_multiplier" 1 ;;
  um <-? oreal c from "pump_recycle_multiplier" 1 ;;
  tf <-? oreal c from "target_fast_recycle_fraction" 0 ;;
  sf <-? oreal c from "sol_fast_recycle_fraction" 0 ;;
  pf <-? oreal c from "pfr_fast_recycle_fraction" 0 ;;
  if in_unit_interval tm && in_unit_interval sm && in_unit_interval pm && in_unit_interval um
  then Some (mkChannel from to tf sf pf) else None.

Fixpoint read_channels (c : cfg) (l : list string) : option (list channel) :=
  match l with
  | [] => Some []
  | s :: l' => h <-? read_channel c s ;; r <-? read_channels c l' ;; Some (h :: r)
  end.

Definition run_channel (target wall : bool) (h : channel) : prog unit :=
  let from := ch_from h in
  let to := ch_to h in
  open from ;; getf (n_ from) ;; getf (v_ from) ;; getf (t_ from) ;;
  open to ;; getf (n_ to) ;; getf (p_ to) ;; getf (t_ to) ;; needn (a_ to) ;;
  has_readnf (sn_ to) ;; has_readnf (se_ to) ;;
  when target (
    b <- has (PSp from "energy_flow_ylow") ;;
    if b then getf (PSp from "energy_flow_ylow")
    else if qltb 0 (ch_target_fast h) then Throw else done) ;;
  when wall (
    b <- has (PSp from "energy_flow_xlow") ;;
    (if b then getf (PSp from "energy_flow_xlow")
     else if qltb 0 (ch_sol_fast h) || qltb 0 (ch_pfr_fast h) then Throw else done) ;;
    b2 <- has (PSp from "particle_flow_xlow") ;;
    (if b2 then getf (PSp from "particle_flow_xlow")
     else if qltb 0 (ch_sol_fast h) || qltb 0 (ch_pfr_fast h) then Throw else done)) ;;
  setf (sn_ to) ;; setf (se_ to).

Definition recycling (n : string) (c : cfg) : option comp :=
  txt <-? rstring c n "species" ;;
  let sps := items txt in
  hs <-? read_channels c sps ;;
  let last_of key := match rev sps with
                     | [] => Some false
                     | s :: _ => obool c s key false
                     end in
  target <-? last_of "target_recycle" ;;
  sol <-? last_of "sol_recycle" ;;
  pfr <-? last_of "pfr_recycle" ;;
  plain (each (run_channel target (sol || pfr)) hs).

(** ** Fields *)

(** Vorticity, vorticity.cxx 57-219 (options), 221-632, 635-760. *)
Definition vorticity (n : string) (c : cfg) : option comp :=
  dia <-? obool c n "diamagnetic" true ;;
  pol <-? obool c n "diamagnetic_polarisation" true ;;
  sheath <-? obool c n "sheath_boundary" false ;;
  fric <-? obool c n "collisional_friction" false ;;
  relax <-? obool c n "phi_boundary_relax" false ;;
  vd <-? obool c n "vort_dissipation" false ;;
  pd <-? obool c n "phi_dissipation" true ;;
  Some (mkComp
    (openfields ;;
     when pol (
       ks <- kids false ;;
       each (fun s =>
         b <- issetnb (p_ s) ;;
         when b (if_has (q_ s) (if_has (a_ s) (
           q <- getn (q_ s) ;;
           when (negb (uncharged q)) (getnb (p_ s) ;; needn (a_ s)))))) ks) ;;
     (if relax then needn (PTop "time") else
      open "e" ;;
      when sheath (needn (a_ "e")) ;;
      has_readnb (t_ "e")) ;;
     when dia (
       ks <- kids false ;;
       each (fun s =>
         b <- issetnb (p_ s) ;;
         when b (
           b2 <- isset (q_ s) ;;
           when b2 (
             q <- getn (q_ s) ;;
             when (negb (uncharged q)) (getnb (p_ s) ;; subf (se_ s))))) ks ;;
       setf (PField "DivJdia")) ;;
     when fric (
       ks <- kids false ;;
       each (fun s =>
         if_has (q_ s) (if_has (a_ s) (
           q <- getn (q_ s) ;;
           when (negb (uncharged q)) (
             needn (a_ s) ;; getnb (n_ s) ;;
             b <- isset_const (nu_ s) ;;
             when b (getf (nu_ s)))))) ks ;;
       setf (PField "DivJcol")) ;;
     setf (PField "vorticity") ;; setf phi)
    (getf phi ;;
     has_read (PField "DivJextra") ;;
     ks <- kids true ;;
     each (fun s =>
       if_has (q_ s) (if_has (nv_ s) (
         q <- getn (q_ s) ;;
         when (negb (uncharged q)) (
           getf (n_ s) ;; getf (nv_ s) ;; needn (a_ s) ;;
           has_read (PField "Apar_flutter"))))) ks ;;
     when vd (getf (PTop "sound_speed")) ;;
     when pd (getf (PTop "sound_speed")))).

(** RelaxPotential, relax_potential.cxx 12-79 (options), 81-156, 158-247. *)
Definition relax_potential (n : string) (c : cfg) : option comp :=
  dia <-? obool c n "diamagnetic" true ;;
  pol <-? obool c n "diamagnetic_polarisation" true ;;
  bou <-? obool c n "boussinesq" true ;;
  Some (mkComp
    (openfields ;;
     when dia (
       ks <- kids false ;;
       each (fun s =>
         b <- issetnb (p_ s) ;;
         when b (
           z <- charge_nonzero isset s ;;
           when z (getnb (p_ s) ;; subf (se_ s)))) ks ;;
       when pol (
         each (fun s =>
           b <- issetnb (p_ s) ;;
           when b (
             b2 <- isset (q_ s) ;;
             when b2 (
               b3 <- isset (a_ s) ;;
               when b3 (getnb (p_ s) ;; addf (se_ s))))) ks) ;;
       setf (PField "DivJdia")) ;;
     setf (PField "vorticity") ;; setf phi)
    (ks <- kids true ;;
     getf phi ;; getf (PField "vorticity") ;;
     field_read "DivJextra" ;;
     each (fun s =>
       if_has (q_ s) (if_has (nv_ s) (
         q <- getn (q_ s) ;;
         when (negb (uncharged q)) (getf (n_ s) ;; getf (nv_ s) ;; needn (a_ s))))) ks ;;
     if bou then
       when pol (each (fun s =>
         if_has (q_ s) (
           q <- getn (q_ s) ;;
           when (negb (uncharged q)) (if_has (p_ s) (needn (a_ s) ;; getf (p_ s))))) ks)
     else
       each (fun s =>
         if_has (q_ s) (
           q <- getn (q_ s) ;;
           when (negb (uncharged q)) (
             needn (a_ s) ;; getf (n_ s) ;; when pol (has_read (p_ s))))) ks)).

(** DiamagneticDrift, diamagnetic_drift.cxx 60-103. *)
Definition diamagnetic_drift (n : string) (c : cfg) : option comp :=
  plain
    (ks <- kids false ;;
     each (fun s =>
       if_has (q_ s) (if_has (t_ s) (
         q <- getn (q_ s) ;;
         when (negb (uncharged q)) (
           getf (t_ s) ;;
           bn <- isset (n_ s) ;; when bn (getf (n_ s) ;; subf (sn_ s)) ;;
           bp <- isset (p_ s) ;; when bp (getf (p_ s) ;; subf (se_ s)) ;;
           bm <- isset (nv_ s) ;; when bm (getf (nv_ s) ;; subf (snv_ s)))))) ks).

(** PolarisationDrift, polarisation_drift.cxx 15-60 (options), 62-216. *)
Definition polarisation_drift (n : string) (c : cfg) : option comp :=
  bou <-? obool c n "boussinesq" true ;;
  adv <-? obool c n "advection" true ;;
  pol <-? obool c n "diamagnetic_polarisation" true ;;
  plain
    (isset_read (PField "DivJdia") ;;
     ks <- kids false ;;
     each (fun s =>
       if_has (q_ s) (if_has (nv_ s) (
         q <- getn (q_ s) ;;
         when (negb (uncharged q)) (getf (nv_ s) ;; needn (a_ s))))) ks ;;
     (if pol then
        if negb bou then Throw else
        each (fun s =>
          b <- issetnb (p_ s) ;;
          when b (if_has (q_ s) (if_has (a_ s) (
            q <- getn (q_ s) ;;
            when (negb (uncharged q)) (
              getnb (p_ s) ;; needn (a_ s) ;; addf (se_ s)))))) ks
      else done) ;;
     when adv (
       when (negb bou) (each (fun s =>
         if_has (q_ s) (if_has (a_ s) (
           q <- getn (q_ s) ;;
           when (negb (uncharged q)) (needn (a_ s) ;; getnb (n_ s))))) ks) ;;
       isset_read (PField "DivJextra") ;; isset_read (PField "DivJcol") ;;
       each (fun s =>
         if_has (q_ s) (if_has (a_ s) (
           q <- getn (q_ s) ;;
           when (negb (uncharged q)) (
             needn (a_ s) ;;
             bn <- isset (n_ s) ;; when bn (getf (n_ s) ;; addf (sn_ s)) ;;
             bp <- isset (p_ s) ;; when bp (getf (p_ s) ;; addf (se_ s)) ;;
             bm <- isset (nv_ s) ;; when bm (getf (nv_ s) ;; addf (snv_ s)))))) ks)).

(** Electromagnetic, electromagnetic.cxx 16-84 (options), 102-239. *)
Definition electromagnetic (n : string) (c : cfg) : option comp :=
  cg <-? obool c n "const_gradient" false ;;
  fl <-? obool c n "magnetic_flutter" false ;;
  plain
    (ks <- kids false ;;
     each (fun s =>
       b <- isset_const (q_ s) ;;
       when b (if_has (nv_ s) (
         q <- getn (q_ s) ;;
         when (negb (uncharged q)) (
           getnb (n_ s) ;; getnf (nv_ s) ;; needn (a_ s))))) ks ;;
     when cg (needn (PTop "time")) ;;
     setf (PField "Apar") ;;
     each (fun s =>
       if_has (q_ s) (if_has (nv_ s) (
         q <- getn (q_ s) ;;
         when (negb (uncharged q)) (
           needn (a_ s) ;; getnb (n_ s) ;; getnf (nv_ s) ;; getnf (v_ s) ;;
           setf (nv_ s) ;; setf (v_ s))))) ks ;;
     when fl (setf (PField "Apar_flutter"))).

(** ** Reactions *)

Definition equal_mass (a b : string) : prog unit :=
  x <- getn (a_ a) ;; y <- getn (a_ b) ;; if Qeq_bool x y then done else Throw.

Definition charge_of (s : string) : prog Q :=
  b <- has (q_ s) ;; if b then getn (q_ s) else Ret 0.

(** AmjuelReaction::electron_reaction, amjuel_reaction.hxx 79-169. *)
Definition amjuel (from to : string) : prog unit :=
  open "e" ;; open from ;; open to ;;
  getf (n_ "e") ;; getf (t_ "e") ;;
  getf (n_ from) ;; getf (t_ from) ;; getf (v_ from) ;;
  equal_mass from to ;;
  getf (v_ to) ;;
  q1 <- charge_of from ;; q2 <- charge_of to ;;
  subf (sn_ from) ;; addf (sn_ to) ;;
  when (negb (Qeq_bool q1 q2)) (
    addf (sn_ "e") ;;
    if_has (v_ "e") (getf (v_ "e") ;; needn (a_ "e") ;; addf (se_ "e"))) ;;
  subf (snv_ from) ;; addf (snv_ to) ;;
  addf (se_ to) ;;
  subf (se_ from) ;; addf (se_ to) ;;
  subf (se_ "e").

(** OpenADAS::calculate_rates, adas_reaction.cxx 126-184. *)
Definition adas (from to : string) : prog unit :=
  open "e" ;; open from ;; open to ;;
  getf (n_ "e") ;; getf (t_ "e") ;;
  getf (n_ from) ;; getf (t_ from) ;; getf (v_ from) ;;
  equal_mass from to ;;
  q1 <- charge_of from ;; q2 <- charge_of to ;;
  subf (sn_ from) ;; addf (sn_ to) ;;
  when (negb (Qeq_bool q1 q2)) (addf (sn_ "e")) ;;
  subf (snv_ from) ;; addf (snv_ to) ;;
  subf (se_ from) ;; addf (se_ to) ;;
  subf (se_ "e").

(** OpenADASChargeExchange::calculate_rates, adas_reaction.cxx 187-248. *)
Definition adas_cx (fa fb ta tb : string) : prog unit :=
  open "e" ;; open fa ;; open fb ;; open ta ;; open tb ;;
  equal_mass fa ta ;; equal_mass fb tb ;;
  getf (t_ "e") ;; getf (n_ "e") ;;
  getf (n_ fa) ;; getf (n_ fb) ;;
  let move from to :=
    subf (sn_ from) ;; addf (sn_ to) ;;
    needn (a_ from) ;; getf (v_ from) ;;
    subf (snv_ from) ;; addf (snv_ to) ;;
    getf (t_ from) ;;
    subf (se_ from) ;; addf (se_ to) in
  move fa ta ;; move fb tb.

(** HydrogenChargeExchange::calculate_rates, hydrogen_charge_exchange.cxx 3-101, with the
    species of hydrogen_charge_exchange.hxx (same isotope: atom2 is atom1, ion2 is ion1). *)
Definition hydrogen_cx (nogain : bool) (i1 i2 : string) : prog unit :=
  let atom1 := i1 in
  let ion1 := (i2 ++ "+")%string in
  let atom2 := i2 in
  let ion2 := (i1 ++ "+")%string in
  open atom1 ;; open ion1 ;; open atom2 ;; open ion2 ;;
  getf (t_ atom1) ;;
  aa1 <- getn (a_ atom1) ;; ai2 <- getn (a_ ion2) ;;
  (if Qeq_bool aa1 ai2 then done else Throw) ;;
  getf (t_ ion1) ;;
  ai1 <- getn (a_ ion1) ;; aa2 <- getn (a_ atom2) ;;
  (if Qeq_bool ai1 aa2 then done else Throw) ;;
  getf (n_ atom1) ;; getf (n_ ion1) ;;
  when (negb (String.eqb i1 i2)) (
    subf (sn_ atom1) ;; addf (sn_ ion2) ;; subf (sn_ ion1) ;; addf (sn_ atom2)) ;;
  getf (v_ atom1) ;; getf (v_ ion1) ;;
  subf (snv_ atom1) ;;
  when (negb nogain) (addf (snv_ ion2)) ;;
  subf (snv_ ion1) ;; addf (snv_ atom2) ;;
  getf (v_ ion2) ;; addf (se_ ion2) ;;
  getf (v_ atom2) ;; addf (se_ atom2) ;;
  subf (se_ atom1) ;; addf (se_ ion2) ;; subf (se_ ion1) ;; addf (se_ atom2) ;;
  addf (nu_ atom1) ;; addf (nu_ ion1).

(** SOLKITHydrogenChargeExchange::calculate_rates,
    solkit_hydrogen_charge_exchange.cxx 5-28. *)
Definition solkit_cx (iso : string) : prog unit :=
  let atom := iso in
  let ion := (iso ++ "+")%string in
  open atom ;; open ion ;;
  needn (a_ ion) ;; needn (a_ atom) ;;
  getf (n_ atom) ;; getf (n_ ion) ;;
  isset_read (v_ atom) ;; isset_read (v_ ion) ;;
  subf (snv_ ion) ;; addf (snv_ atom).

(** Ionisation, ionisation.cxx 22-66. *)
Definition ionisation : prog unit :=
  open "h" ;; open "e" ;; open "h+" ;;
  getf (n_ "h") ;; getf (t_ "h") ;; getf (v_ "h") ;; needn (a_ "h") ;;
  getf (n_ "e") ;; getf (t_ "e") ;; needn (a_ "h+") ;;
  subf (sn_ "h") ;; addf (sn_ "h+") ;;
  subf (snv_ "h") ;; addf (snv_ "h+") ;;
  subf (se_ "h") ;; addf (se_ "h+") ;; subf (se_ "e").

(** Charge states: c, c+, c+2, ... (adas_carbon.hxx, adas_neon.hxx, adas_lithium.hxx). *)
Definition digits : list string :=
  ["0"; "1"; "2"; "3"; "4"; "5"; "6"; "7"; "8"; "9"; "10"].
Definition ion_name (el : string) (z : nat) : string :=
  match z with
  | O => el
  | S O => (el ++ "+")%string
  | _ => (el ++ "+" ++ nth z digits "")%string
  end.

Definition adas_types (el : string) (zmax : nat) : list (string * prog unit) :=
  flat_map (fun z =>
    let lo := ion_name el z in
    let hi := ion_name el (S z) in
    ((lo ++ " + e -> " ++ hi ++ " + 2e")%string, adas lo hi)
    :: ((hi ++ " + e -> " ++ lo)%string, adas hi lo)
    :: map (fun h => ((hi ++ " + " ++ h ++ " -> " ++ lo ++ " + " ++ h ++ "+")%string,
                      adas_cx hi h lo (h ++ "+")%string)) ["h"; "d"; "t"])
    (seq 0%nat zmax).

Definition isotopes : list string := ["h"; "d"; "t"].

(** Reactions registered without options (amjuel_hyd_ionisation.hxx,
    amjuel_hyd_recombination.hxx, amjuel_helium.hxx, adas_*.hxx,
    solkit_hydrogen_charge_exchange.hxx, ionisation.hxx). *)
Definition reaction_types : list (string * prog unit) :=
  map (fun i => ((i ++ " + e -> " ++ i ++ "+ + 2e")%string, amjuel i (i ++ "+")%string)) isotopes
  ++ map (fun i => ((i ++ "+ + e -> " ++ i)%string, amjuel (i ++ "+")%string i)) isotopes
  ++ [("he + e -> he+ + 2e", amjuel "he" "he+"); ("he+ + e -> he", amjuel "he+" "he")]
  ++ adas_types "c" 6%nat ++ adas_types "ne" 10%nat ++ adas_types "li" 3%nat
  ++ map (fun i => (("solkit " ++ i ++ " + " ++ i ++ "+ -> " ++ i ++ "+ + " ++ i)%string,
                    solkit_cx i)) isotopes
  ++ [("ionisation", ionisation)].

Definition cx_types : list (string * (string * string)) :=
  flat_map (fun i => map (fun j =>
    ((i ++ " + " ++ j ++ "+ -> " ++ i ++ "+ + " ++ j)%string, (i, j))) isotopes) isotopes.

(** ** The factory *)

(** Types built from their name and the options. *)
Definition simple_types : list (string * (string -> cfg -> option comp)) :=
  [("evolve_density", evolve_density);
   ("evolve_pressure", evolve_pressure);
   ("evolve_energy", evolve_energy);
   ("evolve_momentum", evolve_momentum);
   ("neutral_mixed", neutral_mixed);
   ("isothermal", isothermal);
   ("fixed_density", fixed_density);
   ("fixed_temperature", fixed_temperature);
   ("fixed_velocity", fixed_velocity);
   ("set_temperature", set_temperature);
   ("quasineutral", quasineutral);
   ("zero_current", zero_current);
   ("fixed_fraction_ions", fixed_fraction_ions);
   ("sound_speed", sound_speed);
   ("scale_timederivs", scale_timederivs);
   ("transform", transform_comp);
   ("simple_pump", simple_pump);
   ("simple_conduction", simple_conduction);
   ("snb_conduction", snb_conduction);
   ("anomalous_diffusion", anomalous_diffusion);
   ("classical_diffusion", classical_diffusion);
   ("binormal_stpm", binormal_stpm);
   ("neutral_parallel_diffusion", neutral_parallel_diffusion);
   ("solkit_neutral_parallel_diffusion", solkit_neutral_parallel_diffusion);
   ("upstream_density_feedback", upstream_density_feedback);
   ("temperature_feedback", temperature_feedback);
   ("detachment_controller", detachment_controller);
   ("electron_force_balance", electron_force_balance);
   ("ion_viscosity", ion_viscosity);
   ("electron_viscosity", electron_viscosity);
   ("thermal_force", thermal_force);
   ("collisions", collisions);
   ("noflow_boundary", noflow_boundary);
   ("neutral_boundary", neutral_boundary);
   ("sheath_boundary", sheath_boundary);
   ("sheath_boundary_simple", sheath_boundary_simple);
   ("sheath_boundary_insulating", sheath_boundary_insulating);
   ("sheath_closure", sheath_closure);
   ("recycling", recycling);
   ("vorticity", vorticity);
   ("relax_potential", relax_potential);
   ("diamagnetic_drift", diamagnetic_drift);
   ("polarisation_drift", polarisation_drift);
   ("electromagnetic", electromagnetic)]
  ++ map (fun t => (t, fixed_fraction_radiation))
       ["fixed_fraction_hutchinson_carbon"; "fixed_fraction_carbon";
        "fixed_fraction_nitrogen"; "fixed_fraction_neon"; "fixed_fraction_argon";
        "fixed_fraction_argon_simplified1"; "fixed_fraction_argon_simplified2";
        "fixed_fraction_argon_simplified3"; "fixed_fraction_krypton";
        "fixed_fraction_xenon"; "fixed_fraction_tungsten"]
  ++ map (fun tp => (fst tp, fun _ _ => plain (snd tp))) reaction_types
  ++ map (fun tp => (fst tp, fun n c =>
       g <-? obool c n "no_neutral_cx_mom_gain" false ;;
       plain (hydrogen_cx g (fst (snd tp)) (snd (snd tp))))) cx_types.

(** Component::create, component.cxx 5-16: [None] stands for a BoutException. *)
Definition create (type name : string) (c : cfg) : option comp :=
  match assoc type simple_types with Some f => f name c | None => None end.

(** ComponentScheduler::ComponentScheduler, component_scheduler.cxx 5-41. *)
Fixpoint create_list (c : cfg) (l : list (string * string)) : option (list comp) :=
  match l with
  | [] => Some []
  | (t, n) :: l' => x <-? create t n c ;; r <-? create_list c l' ;; Some (x :: r)
  end.

Definition types_of (c : cfg) (n : string) : option (list (string * string)) :=
  match opt c n "type" with
  | None => Some (map (fun t => (t, n)) (items n))
  | Some (CS ts) => Some (map (fun t => (t, n)) (items ts))
  | Some _ => None
  end.

Fixpoint types_list (c : cfg) (l : list string) : option (list (string * string)) :=
  match l with
  | [] => Some []
  | n :: l' => x <-? types_of c n ;; r <-? types_list c l' ;; Some (x ++ r)
  end.

(** The (type, name) pairs of an input, in the order of execution. *)
Definition listed (c : cfg) : option (list (string * string)) :=
  txt <-? rstring c "hermes" "components" ;; types_list c (items txt).

Definition construct (c : cfg) : option (list comp) :=
  l <-? listed c ;; create_list c l.
