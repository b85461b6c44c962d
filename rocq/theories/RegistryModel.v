(** The reactions registered under the names by which the input file selects them: the hydrogen, helium, carbon, lithium and neon reactions
    of include/amjuel_hyd_ionisation.hxx, amjuel_hyd_recombination.hxx, amjuel_helium.hxx, hydrogen_charge_exchange.hxx,
    solkit_hydrogen_charge_exchange.hxx, adas_carbon.hxx, adas_lithium.hxx and adas_neon.hxx; and the shapes and axes of the data files in
    json_database which they read.

    Simplifications: as in ReactionsModel; the coefficients in the data files are not copied, only how many there are. *)

From Coq Require Import List Bool Ascii String ZArith Reals.
From Verif Require Import OptionsModel StateMonad LimitersModel RadiationModel ReactionsModel AmjuelTables.
Import ListNotations.
Open Scope R_scope.
Open Scope string_scope.

(** The three elements with OpenADAS data. *)
Inductive element := Carbon | Lithium | Neon.

(** Ionisation energies in eV, adas_carbon.hxx 14-15, adas_lithium.hxx 14-15, adas_neon.hxx 14-15. *)
Definition ionisation_energy (el : element) : list R :=
  match el with
  | Carbon => [11.26; 24.38; 47.89; 64.49; 392.09; 489.99]
  | Lithium => [5.39; 75.64; 122.45]
  | Neon => [21.56; 40.96; 63.42; 97.19; 126.24; 157.93; 207.27; 239.09; 1195.78; 1362.16]
  end.

(** The letters at the start of the names. *)
Definition symbol (el : element) : string := match el with Carbon => "c" | Lithium => "li" | Neon => "ne" end.
(** The primary template of carbon_species_name, lithium_species_name and neon_species_name, adas_carbon.hxx 25-26,
    adas_lithium.hxx 25-26, adas_neon.hxx 25-26: the last character is '0' + level. *)
Definition generic_name (el : element) (level : nat) : string :=
  symbol el ++ String "+" (String (ascii_of_nat (48 + level)) EmptyString).
(** With the specialisations, adas_carbon.hxx 28-32, adas_lithium.hxx 28-35, adas_neon.hxx 28-35. *)
Definition species_name (el : element) (level : nat) : string :=
  match el, level with
  | _, 0%nat => symbol el
  | _, 1%nat => symbol el ++ "+"
  | Lithium, 3%nat => "li+3"
  | Neon, 10%nat => "ne+10"
  | _, _ => generic_name el level
  end.

(** File names: of the rates and radiation of ionisation (adas_carbon.hxx 40, adas_lithium.hxx 43, adas_neon.hxx 43) and recombination
    (61, 64, 64), and of the rates of charge exchange (79, 82, 82). *)
Definition ionisation_files (el : element) : string * string :=
  match el with
  | Carbon => ("scd96_c.json", "plt96_c.json")
  | Lithium => ("scd96_li.json", "plt96_li.json")
  | Neon => ("scd96_ne.json", "plt96_ne.json")
  end.
Definition recombination_files (el : element) : string * string :=
  match el with
  | Carbon => ("acd96_c.json", "prb96_c.json")
  | Lithium => ("acd96_li.json", "prb96_li.json")
  | Neon => ("acd96_ne.json", "prb96_ne.json")
  end.
Definition cx_file (el : element) : string :=
  match el with Carbon => "ccd96_c.json" | Lithium => "ccd89_li.json" | Neon => "ccd89_ne.json" end.

(** The classes of the components, with their template arguments. *)
Inductive reaction :=
| Hyd_ionisation (isotope : string)
| Hyd_recombination (isotope : string)
| He_ionisation
| He_recombination
| Hyd_cx (isotope1 isotope2 : string)
| Solkit_cx (isotope : string)
| Adas_ionisation (el : element) (level : nat)
| Adas_recombination (el : element) (level : nat)
| Adas_cx (el : element) (level : nat) (isotope : string).

(** The argument electron_heating of the constructor of OpenADAS: adas_carbon.hxx 41 and 62, adas_lithium.hxx 44 and 65, adas_neon.hxx 44
    and 65.  The array has an element for every level which is used (C87), so the default is not. *)
Definition adas_heating (r : reaction) : R :=
  match r with
  | Adas_ionisation el level => - nth level (ionisation_energy el) 0
  | Adas_recombination el level => nth level (ionisation_energy el) 0
  | _ => 0
  end.

(** The data read by the constructor (src/adas_reaction.cxx 31-49): file and level. *)
Definition tables_read (r : reaction) : list (string * nat) :=
  match r with
  | Adas_ionisation el level => [(fst (ionisation_files el), level); (snd (ionisation_files el), level)]
  | Adas_recombination el level => [(fst (recombination_files el), level); (snd (recombination_files el), level)]
  | Adas_cx el level _ => [(cx_file el, level)]
  | _ => []
  end.

(** Settings of the components, and the evaluation functions of the OpenADAS tables by file and level. *)
Record setup := mkSetup {
  su_norms : norms; su_cell : cell; su_rho_s0 : R; su_rate_multiplier : R; su_radiation_multiplier : R;
  su_no_neutral_cx_mom_gain : bool; su_table : string -> nat -> R -> R -> R
}.

(** [IS_SET(s["velocity"]) ? GET_VALUE(Field3D, s["velocity"]) : 0.0], src/solkit_hydrogen_charge_exchange.cxx 14-15. *)
Definition velocity_or_0 (sp : string) : RM R :=
  b <- mis_set_final (sp, "velocity") ;; if b : bool then mget (sp, "velocity") else ret 0.

(** SOLKITHydrogenChargeExchange::calculate_rates, src/solkit_hydrogen_charge_exchange.cxx 5-29, as calls on the state. *)
Definition solkit_cx (su : setup) (atom ion : string) : RM unit :=
  AA <- mget (ion, "AA") ;;
  A2 <- mget (atom, "AA") ;;
  if negb (Reqb A2 AA) then throw else
  Na <- mget (atom, "density") ;;
  Ni <- mget (ion, "density") ;;
  Va <- velocity_or_0 atom ;;
  Vi <- velocity_or_0 ion ;;
  let c := su_cell su in
  let friction := cellAverage (c_edges c) (c_Jm c) (c_J c) (c_Jp c)
      (solkit_friction AA (Nnorm (su_norms su)) (su_rho_s0 su))
      [mkTriple (rfloor (c_nm c (atom, "density")) 1e-5) (rfloor Na 1e-5) (rfloor (c_np c (atom, "density")) 1e-5);
       mkTriple (rfloor (c_nm c (ion, "density")) 1e-5) (rfloor Ni 1e-5) (rfloor (c_np c (ion, "density")) 1e-5);
       mkTriple (c_nm c (atom, "velocity")) Va (c_np c (atom, "velocity"));
       mkTriple (c_nm c (ion, "velocity")) Vi (c_np c (ion, "velocity"))] in
  msub (ion, "momentum_source") friction ;;
  madd (atom, "momentum_source") friction.

(** The transform method of each component: amjuel_hyd_ionisation.hxx 39-47, amjuel_hyd_recombination.hxx 41-49, amjuel_helium.hxx 28-31
    and 61-64, hydrogen_charge_exchange.hxx 143-153, solkit_hydrogen_charge_exchange.hxx 49-52; ionisation, adas_carbon.hxx 43-49,
    adas_lithium.hxx 46-52, adas_neon.hxx 46-52; recombination, 64-70, 67-73, 67-73; charge exchange, 81-90, 84-93, 84-93.
    Results returned through references are dropped. *)
Definition perform (su : setup) (r : reaction) : RM unit :=
  let nm := su_norms su in
  let c := su_cell su in
  let rate := su_rate_multiplier su in
  let rad := su_radiation_multiplier su in
  match r with
  | Hyd_ionisation iso =>
      hyd_ionisation nm c iso hyd_ionisation_rate_coefs hyd_ionisation_radiation_coefs rate rad ;; ret tt
  | Hyd_recombination iso =>
      hyd_recombination nm c iso hyd_recombination_rate_coefs hyd_recombination_radiation_coefs rate rad ;; ret tt
  | He_ionisation => he_ionisation nm c he01_rate_coefs he01_radiation_coefs rate rad ;; ret tt
  | He_recombination => he_recombination nm c he10_rate_coefs he10_radiation_coefs rate rad ;; ret tt
  | Hyd_cx iso1 iso2 => hydrogen_cx_isotopes nm iso1 iso2 rate (su_no_neutral_cx_mom_gain su)
  | Solkit_cx iso => solkit_cx su iso (iso ++ "+")
  | Adas_ionisation el level =>
      adas_rates nm c (su_table su (fst (ionisation_files el)) level) (su_table su (snd (ionisation_files el)) level)
        (adas_heating r) "e" (species_name el level) (species_name el (level + 1))
  | Adas_recombination el level =>
      adas_rates nm c (su_table su (fst (recombination_files el)) level) (su_table su (snd (recombination_files el)) level)
        (adas_heating r) "e" (species_name el (level + 1)) (species_name el level)
  | Adas_cx el level iso =>
      adas_cx nm c (su_table su (cx_file el) level) "e" (species_name el (level + 1)) iso (species_name el level) (iso ++ "+")
  end.

(** ** The registered names *)

(** include/amjuel_hyd_ionisation.hxx 121-126. *)
Definition reg_amjuel_hyd_ionisation : list (string * reaction) :=
  [("h + e -> h+ + 2e", Hyd_ionisation "h");
   ("d + e -> d+ + 2e", Hyd_ionisation "d");
   ("t + e -> t+ + 2e", Hyd_ionisation "t")].
(** include/amjuel_hyd_recombination.hxx 126-131. *)
Definition reg_amjuel_hyd_recombination : list (string * reaction) :=
  [("h+ + e -> h", Hyd_recombination "h");
   ("d+ + e -> d", Hyd_recombination "d");
   ("t+ + e -> t", Hyd_recombination "t")].
(** include/amjuel_helium.hxx 84-85. *)
Definition reg_amjuel_helium : list (string * reaction) :=
  [("he + e -> he+ + 2e", He_ionisation);
   ("he+ + e -> he", He_recombination)].
(** include/hydrogen_charge_exchange.hxx 274-295. *)
Definition reg_hydrogen_charge_exchange : list (string * reaction) :=
  [("h + h+ -> h+ + h", Hyd_cx "h" "h");
   ("d + d+ -> d+ + d", Hyd_cx "d" "d");
   ("t + t+ -> t+ + t", Hyd_cx "t" "t");
   ("h + d+ -> h+ + d", Hyd_cx "h" "d");
   ("d + h+ -> d+ + h", Hyd_cx "d" "h");
   ("h + t+ -> h+ + t", Hyd_cx "h" "t");
   ("t + h+ -> t+ + h", Hyd_cx "t" "h");
   ("d + t+ -> d+ + t", Hyd_cx "d" "t");
   ("t + d+ -> t+ + d", Hyd_cx "t" "d")].
(** include/solkit_hydrogen_charge_exchange.hxx 57-62. *)
Definition reg_solkit_hydrogen_charge_exchange : list (string * reaction) :=
  [("solkit h + h+ -> h+ + h", Solkit_cx "h");
   ("solkit d + d+ -> d+ + d", Solkit_cx "d");
   ("solkit t + t+ -> t+ + t", Solkit_cx "t")].
(** include/adas_carbon.hxx 95-130. *)
Definition reg_adas_carbon : list (string * reaction) :=
  [("c + e -> c+ + 2e", Adas_ionisation Carbon 0);
   ("c+ + e -> c+2 + 2e", Adas_ionisation Carbon 1);
   ("c+2 + e -> c+3 + 2e", Adas_ionisation Carbon 2);
   ("c+3 + e -> c+4 + 2e", Adas_ionisation Carbon 3);
   ("c+4 + e -> c+5 + 2e", Adas_ionisation Carbon 4);
   ("c+5 + e -> c+6 + 2e", Adas_ionisation Carbon 5);
   ("c+ + e -> c", Adas_recombination Carbon 0);
   ("c+2 + e -> c+", Adas_recombination Carbon 1);
   ("c+3 + e -> c+2", Adas_recombination Carbon 2);
   ("c+4 + e -> c+3", Adas_recombination Carbon 3);
   ("c+5 + e -> c+4", Adas_recombination Carbon 4);
   ("c+6 + e -> c+5", Adas_recombination Carbon 5);
   ("c+ + h -> c + h+", Adas_cx Carbon 0 "h");
   ("c+2 + h -> c+ + h+", Adas_cx Carbon 1 "h");
   ("c+3 + h -> c+2 + h+", Adas_cx Carbon 2 "h");
   ("c+4 + h -> c+3 + h+", Adas_cx Carbon 3 "h");
   ("c+5 + h -> c+4 + h+", Adas_cx Carbon 4 "h");
   ("c+6 + h -> c+5 + h+", Adas_cx Carbon 5 "h");
   ("c+ + d -> c + d+", Adas_cx Carbon 0 "d");
   ("c+2 + d -> c+ + d+", Adas_cx Carbon 1 "d");
   ("c+3 + d -> c+2 + d+", Adas_cx Carbon 2 "d");
   ("c+4 + d -> c+3 + d+", Adas_cx Carbon 3 "d");
   ("c+5 + d -> c+4 + d+", Adas_cx Carbon 4 "d");
   ("c+6 + d -> c+5 + d+", Adas_cx Carbon 5 "d");
   ("c+ + t -> c + t+", Adas_cx Carbon 0 "t");
   ("c+2 + t -> c+ + t+", Adas_cx Carbon 1 "t");
   ("c+3 + t -> c+2 + t+", Adas_cx Carbon 2 "t");
   ("c+4 + t -> c+3 + t+", Adas_cx Carbon 3 "t");
   ("c+5 + t -> c+4 + t+", Adas_cx Carbon 4 "t");
   ("c+6 + t -> c+5 + t+", Adas_cx Carbon 5 "t")].
(** include/adas_lithium.hxx 98-118. *)
Definition reg_adas_lithium : list (string * reaction) :=
  [("li + e -> li+ + 2e", Adas_ionisation Lithium 0);
   ("li+ + e -> li+2 + 2e", Adas_ionisation Lithium 1);
   ("li+2 + e -> li+3 + 2e", Adas_ionisation Lithium 2);
   ("li+ + e -> li", Adas_recombination Lithium 0);
   ("li+2 + e -> li+", Adas_recombination Lithium 1);
   ("li+3 + e -> li+2", Adas_recombination Lithium 2);
   ("li+ + h -> li + h+", Adas_cx Lithium 0 "h");
   ("li+2 + h -> li+ + h+", Adas_cx Lithium 1 "h");
   ("li+3 + h -> li+2 + h+", Adas_cx Lithium 2 "h");
   ("li+ + d -> li + d+", Adas_cx Lithium 0 "d");
   ("li+2 + d -> li+ + d+", Adas_cx Lithium 1 "d");
   ("li+3 + d -> li+2 + d+", Adas_cx Lithium 2 "d");
   ("li+ + t -> li + t+", Adas_cx Lithium 0 "t");
   ("li+2 + t -> li+ + t+", Adas_cx Lithium 1 "t");
   ("li+3 + t -> li+2 + t+", Adas_cx Lithium 2 "t")].
(** include/adas_neon.hxx 98-153. *)
Definition reg_adas_neon : list (string * reaction) :=
  [("ne + e -> ne+ + 2e", Adas_ionisation Neon 0);
   ("ne+ + e -> ne+2 + 2e", Adas_ionisation Neon 1);
   ("ne+2 + e -> ne+3 + 2e", Adas_ionisation Neon 2);
   ("ne+3 + e -> ne+4 + 2e", Adas_ionisation Neon 3);
   ("ne+4 + e -> ne+5 + 2e", Adas_ionisation Neon 4);
   ("ne+5 + e -> ne+6 + 2e", Adas_ionisation Neon 5);
   ("ne+6 + e -> ne+7 + 2e", Adas_ionisation Neon 6);
   ("ne+7 + e -> ne+8 + 2e", Adas_ionisation Neon 7);
   ("ne+8 + e -> ne+9 + 2e", Adas_ionisation Neon 8);
   ("ne+9 + e -> ne+10 + 2e", Adas_ionisation Neon 9);
   ("ne+ + e -> ne", Adas_recombination Neon 0);
   ("ne+2 + e -> ne+", Adas_recombination Neon 1);
   ("ne+3 + e -> ne+2", Adas_recombination Neon 2);
   ("ne+4 + e -> ne+3", Adas_recombination Neon 3);
   ("ne+5 + e -> ne+4", Adas_recombination Neon 4);
   ("ne+6 + e -> ne+5", Adas_recombination Neon 5);
   ("ne+7 + e -> ne+6", Adas_recombination Neon 6);
   ("ne+8 + e -> ne+7", Adas_recombination Neon 7);
   ("ne+9 + e -> ne+8", Adas_recombination Neon 8);
   ("ne+10 + e -> ne+9", Adas_recombination Neon 9);
   ("ne+ + h -> ne + h+", Adas_cx Neon 0 "h");
   ("ne+2 + h -> ne+ + h+", Adas_cx Neon 1 "h");
   ("ne+3 + h -> ne+2 + h+", Adas_cx Neon 2 "h");
   ("ne+4 + h -> ne+3 + h+", Adas_cx Neon 3 "h");
   ("ne+5 + h -> ne+4 + h+", Adas_cx Neon 4 "h");
   ("ne+6 + h -> ne+5 + h+", Adas_cx Neon 5 "h");
   ("ne+7 + h -> ne+6 + h+", Adas_cx Neon 6 "h");
   ("ne+8 + h -> ne+7 + h+", Adas_cx Neon 7 "h");
   ("ne+9 + h -> ne+8 + h+", Adas_cx Neon 8 "h");
   ("ne+10 + h -> ne+9 + h+", Adas_cx Neon 9 "h");
   ("ne+ + d -> ne + d+", Adas_cx Neon 0 "d");
   ("ne+2 + d -> ne+ + d+", Adas_cx Neon 1 "d");
   ("ne+3 + d -> ne+2 + d+", Adas_cx Neon 2 "d");
   ("ne+4 + d -> ne+3 + d+", Adas_cx Neon 3 "d");
   ("ne+5 + d -> ne+4 + d+", Adas_cx Neon 4 "d");
   ("ne+6 + d -> ne+5 + d+", Adas_cx Neon 5 "d");
   ("ne+7 + d -> ne+6 + d+", Adas_cx Neon 6 "d");
   ("ne+8 + d -> ne+7 + d+", Adas_cx Neon 7 "d");
   ("ne+9 + d -> ne+8 + d+", Adas_cx Neon 8 "d");
   ("ne+10 + d -> ne+9 + d+", Adas_cx Neon 9 "d");
   ("ne+ + t -> ne + t+", Adas_cx Neon 0 "t");
   ("ne+2 + t -> ne+ + t+", Adas_cx Neon 1 "t");
   ("ne+3 + t -> ne+2 + t+", Adas_cx Neon 2 "t");
   ("ne+4 + t -> ne+3 + t+", Adas_cx Neon 3 "t");
   ("ne+5 + t -> ne+4 + t+", Adas_cx Neon 4 "t");
   ("ne+6 + t -> ne+5 + t+", Adas_cx Neon 5 "t");
   ("ne+7 + t -> ne+6 + t+", Adas_cx Neon 6 "t");
   ("ne+8 + t -> ne+7 + t+", Adas_cx Neon 7 "t");
   ("ne+9 + t -> ne+8 + t+", Adas_cx Neon 8 "t");
   ("ne+10 + t -> ne+9 + t+", Adas_cx Neon 9 "t")].
Definition registry : list (string * reaction) :=
  (reg_amjuel_hyd_ionisation ++ reg_amjuel_hyd_recombination ++ reg_amjuel_helium ++ reg_hydrogen_charge_exchange ++ reg_solkit_hydrogen_charge_exchange ++ reg_adas_carbon ++ reg_adas_lithium ++ reg_adas_neon)%list.

(** ** The data files *)

(** Axes of a file, and for each level the number of coefficients in each row of "log_coeff". *)
Record data_file := mkFile { f_temperature : list Z; f_density : list Z; f_shape : list (list nat) }.

(** A table read from a file: coefficients of one level with the axes of the file (src/adas_reaction.cxx 47-49).  The numbers in the files are
    decimals with at most 15 digits after the point. *)
Definition axis_value (z : Z) : R := IZR z / 1e15.
Definition table_of (f : data_file) (coeff : table) : adas :=
  mkAdas coeff (map axis_value (f_temperature f)) (map axis_value (f_density f)).

(** Values of "log_temperature" in json_database/{scd96_c.json, plt96_c.json, acd96_c.json, prb96_c.json, ccd96_c.json,
    scd96_ne.json, plt96_ne.json, acd96_ne.json, prb96_ne.json}, in units of 10^-15. *)
Definition axis1 : list Z :=
  [-698770000000000; -522680000000000; -300830000000000; -154700000000000; 200000000000; 176290000000000;
   301230000000000; 477320000000000; 699170000000000; 845300000000000; 1000200000000000; 1176290000000000;
   1301230000000000; 1477320000000000; 1699170000000000; 1845300000000000; 2000200000000000; 2176290000000000;
   2301230000000000; 2477320000000000; 2699170000000000; 2845300000000000; 3000200000000000; 3176290000000000;
   3301230000000000; 3477320000000000; 3699170000000000; 3845300000000000; 4000200000000000; 4176290000000000]%Z.
(** Values of "log_density" in json_database/{scd96_c.json, plt96_c.json, acd96_c.json, prb96_c.json, ccd96_c.json, scd96_ne.json,
    plt96_ne.json, acd96_ne.json, prb96_ne.json}, in units of 10^-15. *)
Definition axis2 : list Z :=
  [13698970000000000; 14000000000000000; 14301030000000000; 14698970000000000; 15000000000000000; 15301030000000000;
   15698970000000000; 16000000000000000; 16301030000000000; 16698970000000000; 17000000000000000; 17301030000000000;
   17698970000000000; 18000000000000000; 18301030000000000; 18698970000000000; 19000000000000000; 19301030000000000;
   19698970000000000; 20000000000000000; 20301030000000000; 20698970000000000; 21000000000000000; 21301030000000000]%Z.
(** Values of "log_temperature" in json_database/{scd96_li.json, plt96_li.json, acd96_li.json, prb96_li.json}, in units of 10^-15.
    *)
Definition axis3 : list Z :=
  [-698770000000000; -522680000000000; -300830000000000; -154700000000000; 200000000000; 477320000000000;
   699170000000000; 845300000000000; 1000200000000000; 1301230000000000; 1477320000000000; 1602260000000000;
   1699170000000000; 1778350000000000; 1845300000000000; 1954440000000000; 2000200000000000; 2477320000000000;
   2699170000000000; 2845300000000000; 3000200000000000; 3477320000000000; 3699170000000000; 3845300000000000;
   4000200000000000]%Z.
(** Values of "log_density" in json_database/{scd96_li.json, plt96_li.json, acd96_li.json, prb96_li.json}, in units of 10^-15. *)
Definition axis4 : list Z :=
  [14000000000000000; 14698970000000000; 15000000000000000; 15698970000000000; 16000000000000000; 16698970000000000;
   17000000000000000; 17698970000000000; 18000000000000000; 18698970000000000; 19000000000000000; 19698970000000000;
   20000000000000000; 20698970000000000; 21000000000000000; 21698970000000000]%Z.
(** Values of "log_temperature" in json_database/{ccd89_li.json}, in units of 10^-15. *)
Definition axis5 : list Z :=
  [0; 99980000000000; 199960000000000; 299930000000000; 399910000000000; 499890000000000; 599870000000000;
   699850000000000; 799820000000000; 899800000000000; 999780000000000; 1099760000000000; 1199740000000000;
   1299720000000000; 1399690000000000; 1499670000000000; 1599650000000000; 1699630000000000; 1799610000000000;
   1899580000000000; 1999560000000000; 2099540000000000; 2199520000000000; 2299500000000000; 2399470000000000;
   2499450000000000; 2599430000000000; 2699410000000000; 2799390000000000; 2899360000000000; 2999340000000000;
   3099320000000000; 3199300000000000; 3299280000000000; 3399250000000000; 3499230000000000; 3599210000000000;
   3699190000000000; 3799170000000000; 3899150000000000; 3999120000000000; 4099100000000000; 4199080000000000;
   4299060000000000; 4399040000000000; 4499010000000000; 4598990000000000; 4698970000000000]%Z.
(** Values of "log_density" in json_database/{ccd89_li.json}, in units of 10^-15. *)
Definition axis6 : list Z :=
  [14000000000000000; 14280000000000000; 14560000000000000; 14840000000000000; 15120000000000000; 15400000000000000;
   15680000000000000; 15960000000000000; 16240000000000002; 16520000000000000; 16800000000000000; 17080000000000000;
   17360000000000000; 17640000000000000; 17920000000000000; 18200000000000000; 18480000000000000; 18759999999999998;
   19040000000000000; 19320000000000000; 19600000000000000; 19880000000000003; 20160000000000000; 20439999999999998;
   20720000000000000; 21000000000000000]%Z.
(** Values of "log_temperature" in json_database/{ccd89_ne.json}, in units of 10^-15. *)
Definition axis7 : list Z :=
  [0; 100000000000000; 200000000000000; 300000000000000; 400000000000000; 500000000000000; 600000000000000;
   700000000000000; 800000000000000; 900000000000000; 1000000000000000; 1100000000000000; 1200000000000000;
   1300000000000000; 1400000000000000; 1500000000000000; 1600000000000000; 1700000000000000; 1800000000000000;
   1900000000000000; 2000000000000000; 2100000000000000; 2200000000000000; 2300000000000000; 2400000000000000;
   2500000000000000; 2600000000000000; 2700000000000000; 2800000000000000; 2900000000000000; 3000000000000000;
   3100000000000000; 3200000000000000; 3300000000000000; 3400000000000000; 3500000000000000; 3600000000000000;
   3700000000000000; 3800000000000000; 3900000000000000; 4000000000000000; 4100000000000000; 4200000000000000;
   4300000000000000; 4400000000000000; 4500000000000000; 4600000000000000; 4700000000000000]%Z.
(** Values of "log_density" in json_database/{ccd89_ne.json}, in units of 10^-15. *)
Definition axis8 : list Z :=
  [16000000000000000; 16200000000000000; 16400000000000000; 16600000000000000; 16800000000000000; 17000000000000000;
   17200000000000000; 17400000000000000; 17600000000000000; 17800000000000000; 18000000000000000; 18200000000000000;
   18400000000000000; 18600000000000000; 18800000000000000; 19000000000000000; 19200000000000000; 19400000000000000;
   19600000000000000; 19800000000000000; 20000000000000000; 20200000000000000; 20400000000000000; 20600000000000000;
   20800000000000000; 21000000000000000]%Z.
Definition data_files : list (string * data_file) :=
  [("scd96_c.json", mkFile axis1 axis2 (repeat (repeat 24%nat 30%nat) 6%nat));
   ("plt96_c.json", mkFile axis1 axis2 (repeat (repeat 24%nat 30%nat) 6%nat));
   ("acd96_c.json", mkFile axis1 axis2 (repeat (repeat 24%nat 30%nat) 6%nat));
   ("prb96_c.json", mkFile axis1 axis2 (repeat (repeat 24%nat 30%nat) 6%nat));
   ("ccd96_c.json", mkFile axis1 axis2 (repeat (repeat 24%nat 30%nat) 6%nat));
   ("scd96_li.json", mkFile axis3 axis4 (repeat (repeat 16%nat 25%nat) 3%nat));
   ("plt96_li.json", mkFile axis3 axis4 (repeat (repeat 16%nat 25%nat) 3%nat));
   ("acd96_li.json", mkFile axis3 axis4 (repeat (repeat 16%nat 25%nat) 3%nat));
   ("prb96_li.json", mkFile axis3 axis4 (repeat (repeat 16%nat 25%nat) 3%nat));
   ("ccd89_li.json", mkFile axis5 axis6 (repeat (repeat 26%nat 48%nat) 3%nat));
   ("scd96_ne.json", mkFile axis1 axis2 (repeat (repeat 24%nat 30%nat) 10%nat));
   ("plt96_ne.json", mkFile axis1 axis2 (repeat (repeat 24%nat 30%nat) 10%nat));
   ("acd96_ne.json", mkFile axis1 axis2 (repeat (repeat 24%nat 30%nat) 10%nat));
   ("prb96_ne.json", mkFile axis1 axis2 (repeat (repeat 24%nat 30%nat) 10%nat));
   ("ccd89_ne.json", mkFile axis7 axis8 (repeat (repeat 26%nat 48%nat) 10%nat))].

(** The file with the given name, in json_database. *)
Definition find_file (name : string) : option data_file :=
  match find (fun p => String.eqb (fst p) name) data_files with Some p => Some (snd p) | None => None end.
