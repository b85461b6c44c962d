(** The right-hand side of the densities along one field line, put together from its parts: reactions at each cell, recycling at the
    targets, and parallel transport.  As everywhere BoutReal is R and BOUT++ itself is not modelled. *)

From Coq Require Import List Bool ZArith Reals String.
From Verif Require Import OptionsModel StateMonad StateSpec LimitersModel ReactionsModel ParallelModel WallsModel EvolveModel.
Import ListNotations.
Open Scope R_scope.
Open Scope string_scope.

(** The reactions which can be components: AmjuelReaction::electron_reaction (include/amjuel_reaction.hxx 67-170), OpenADAS
    (src/adas_reaction.cxx 126-185), OpenADASChargeExchange (src/adas_reaction.cxx 187-250), HydrogenChargeExchange
    (src/hydrogen_charge_exchange.cxx 3-102), with their settings. *)
Inductive reaction :=
| Amjuel (nm : norms) (c : cell) (el fr to : string) (rows cols : nat) (rate radiation : table) (heating rate_mult radiation_mult : R)
| Adas (nm : norms) (c : cell) (rate radiation : R -> R -> R) (heating : R) (el fr to : string)
| AdasCx (nm : norms) (c : cell) (rate : R -> R -> R) (el fA fB tA tB : string)
| HydrogenCx (nm : norms) (a1 i1 a2 i2 : string) (mult : R) (no_gain : bool).
(** [component->transform(state)] for such a component, src/component_scheduler.cxx 52-55. *)
Definition react (r : reaction) : RM unit :=
  match r with
  | Amjuel nm c el fr to rows cols rt rad heating m1 m2 => _ <- electron_reaction nm c el fr to rows cols rt rad heating m1 m2 ;; ret tt
  | Adas nm c rt rad heating el fr to => adas_rates nm c rt rad heating el fr to
  | AdasCx nm c rt el fA fB tA tB => adas_cx nm c rt el fA fB tA tB
  | HydrogenCx nm a1 i1 a2 i2 mult no_gain => hydrogen_cx nm a1 i1 a2 i2 mult no_gain
  end.
(** The loop over components, src/component_scheduler.cxx 52-55, for reactions. *)
Definition reactions (l : list reaction) : RM unit := mfor l react.

(** The species on the line as the recycling finds them in the state, src/recycling.cxx 159-198: density, velocity, energy_flow_ylow
    and the sources so far.  The state is given cell by cell, guard cells included. *)
Definition line_world (eflow : string -> option (Z -> R)) (s : Z -> State * unit) : yworld :=
  fun k => mkYspecies (fun j => value (s j) k "density") (fun j => value (s j) k "velocity") (eflow k)
                      (fun j => value (s j) k "density_source") (fun j => value (s j) k "energy_source").

(** N.setBoundaryTo(get<Field3D>(species["density"])), src/evolve_density.cxx 217.  setBoundaryTo is a method of BOUT++: it sets
    guard cells next to the domain such that the value half-way to the last cell is that of the argument. *)
Definition set_boundary_to (m : mesh) (N f : Z -> R) : Z -> R :=
  let N1 := if at_lower m then upd N (ystart m - 1) (2 * (0.5 * (f (ystart m - 1)%Z + f (ystart m))) - N (ystart m)) else N in
  if at_upper m then upd N1 (yend m + 1) (2 * (0.5 * (f (yend m + 1)%Z + f (yend m))) - N (yend m)) else N1.

(** ddt(N) of every species along the line: all transforms (the recycling last; what they add to the sources does not depend on the
    order), then finally of EvolveDensity, src/evolve_density.cxx 211-288, without ExB drift, flutter and low-density diffusion.
    [own k]: the evolved N, [ws k]: fastest_wave, [edges]: the limiter.  None: an exception. *)
Definition line_rhs (edges : R -> R -> R -> R * R) (m : mesh) (c : coords) (fl : flags) (chs : list channel)
    (eflow : string -> option (Z -> R)) (own ws : string -> Z -> R) (s : Z -> State * unit) : option (string -> option (Z -> R)) :=
  match recycle_targets fl c m chs (line_world eflow s) with
  | None => None
  | Some w =>
      Some (fun k =>
        match Div_par_mod edges m c (set_boundary_to m (own k) (yN (w k))) (yV (w k)) (ws k) true with
        | None => None
        | Some (r, _) => Some (fun j => ddt_N 0 (r j) (y_density_source (w k) j) 1)
        end)
  end.
