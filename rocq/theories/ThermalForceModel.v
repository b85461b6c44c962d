(** Model of src/thermal_force.cxx (component "thermal_force"), at one arbitrary grid point.

    Simplifications: Grad_par(T) (BOUT++) of the temperature of species [sp] at the grid point is
    an arbitrary number [grad sp]; the warning (87-92) and [first_time] are dropped; Coq's
    [Rpower] is used for [pow] with a positive base (the mass ratio). *)

From Coq Require Import List Bool String Reals.
From Verif Require Import OptionsModel StateMonad.
Import ListNotations.
Open Scope R_scope.
Open Scope string_scope.

Definition TM := M unit.

(** The species loop of the electron-ion force, 19-37. *)
Definition electron_force (grad : string -> R) (sp : string) : TM unit :=
  if String.eqb sp "e" then ret tt else
  charged <- mis_set (sp, "charge") ;;
  if charged : bool then
    Z <- mget (sp, "charge") ;;
    nz <- mget_nb (sp, "density") ;;
    let ion_force := nz * (0.71 * SQ Z) * grad "e" in
    madd (sp, "momentum_source") ion_force ;;
    msub ("e", "momentum_source") ion_force
  else ret tt.

(** beta, 110-115. *)
Definition beta (mi mz Z : R) : R :=
  let mu := mz / (mi + mz) in
  3 * (mu + 5 * sqrt 2 * SQ Z * (1.1 * Rpower mu (5 / 2) - 0.35 * Rpower mu (3 / 2)) - 1)
  / (2.6 - 2 * mu + 5.4 * SQ mu).

(** Force between a light and a heavy species, 96-120. *)
Definition heavy_force (grad : string -> R) (light heavy : string) : TM unit :=
  mi <- mget (light, "AA") ;;
  Ti <- mget (light, "temperature") ;;
  mz <- mget (heavy, "AA") ;;
  Z <- mget (heavy, "charge") ;;
  nz <- mget_nb (heavy, "density") ;;
  if Reqb Z 0 then ret tt else
  let force := nz * beta mi mz Z * grad light in
  madd (heavy, "momentum_source") force ;;
  msub (light, "momentum_source") force.

(** The body of the inner loop, 65-121. *)
Definition ion_pair (grad : string -> R) (sp1 sp2 : string) : TM unit :=
  if String.eqb sp2 "e" then ret tt else
  charged <- mis_set (sp2, "charge") ;;
  if charged : bool then
    A1 <- mget (sp1, "AA") ;;
    light_heavy <- (if Rltb A1 4 then A2 <- mget (sp2, "AA") ;; ret (Rltb 10 A2) else ret false) ;;
    if light_heavy : bool then heavy_force grad sp1 sp2
    else
      A1 <- mget (sp1, "AA") ;;
      heavy_light <- (if Rltb 10 A1 then A2 <- mget (sp2, "AA") ;; ret (Rltb A2 4) else ret false) ;;
      if heavy_light : bool then heavy_force grad sp2 sp1 else ret tt
  else ret tt.

(** The loop over pairs above the diagonal, 54-122. *)
Fixpoint ion_loop (grad : string -> R) (species : list string) : TM unit :=
  match species with
  | [] => ret tt
  | sp1 :: rest =>
      (if String.eqb sp1 "e" then ret tt else
       charged <- mis_set (sp1, "charge") ;;
       if charged : bool then mfor rest (ion_pair grad sp1) else ret tt) ;;
      ion_loop grad rest
  end.

(** ThermalForce::transform, 6-125.  [species] are the children of state["species"]. *)
Definition thermal_force (electron_ion ion_ion : bool) (grad : string -> R)
    (species : list string) : TM unit :=
  (if (electron_ion && existsb (String.eqb "e") species)%bool then
     Te <- mget ("e", "temperature") ;;
     mfor species (electron_force grad)
   else ret tt) ;;
  if ion_ion then ion_loop grad species else ret tt.
