(** Specification: what each component may do to momentum and energy. *)

From Coq Require Import List Bool Reals String.
From Verif Require Import OptionsModel StateMonad StateSpec CollisionsModel ReactionsModel ReactionsSpec SystemModel ExchangeModel.
Import ListNotations.
Open Scope R_scope.
Open Scope string_scope.

(** Components over the species [L] which only exchange momentum (the option no_neutral_cx_mom_gain is off). *)
Definition exchanges (L : list string) (p : part) : Prop :=
  match p with
  | Coll _ _ species | Thermal _ _ _ species => species = L
  | React (Amjuel _ _ el fr to _ _ _ _ _ _ _) | React (Adas _ _ _ _ _ el fr to) => NoDup [el; fr; to] /\ incl [el; fr; to] L
  | React (AdasCx _ _ _ _ fA fB tA tB) => NoDup [fA; fB; tA; tB] /\ incl [fA; fB; tA; tB] L
  | React (HydrogenCx _ a1 i1 a2 i2 _ no_gain) => incl [a1; i1; a2; i2] L /\ no_gain = false
  end.
(** Those which account for energy: collisions with frictional heating, hydrogen charge exchange, and the AMJUEL reactions, ... *)
Definition accounts (L : list string) (p : part) : Prop :=
  match p with
  | Coll c _ species => species = L /\ frictional_heating c = true
  | Thermal _ _ _ _ => False
  | React (Amjuel _ _ el fr to rows cols rt rad _ _ _) => NoDup [el; fr; to] /\ incl [el; fr; to] L /\ cols = rows /\ square rows rt /\ square rows rad
  | React (Adas _ _ _ _ _ _ _ _) => False
  | React (AdasCx _ _ _ _ _ _ _ _) => False
  | React (HydrogenCx _ a1 i1 a2 i2 _ no_gain) => incl [a1; i1; a2; i2] L /\ no_gain = false
  end.
(** ... of which these take energy out of the plasma, and put in what recombination releases: the fits of rate and radiation at the
    densities and temperature of the state. *)
Definition heat (p : part) (s : State * unit) : R :=
  match p with
  | React (Amjuel nm c el fr to rows _ rt rad heating m1 m2) =>
      heating / Tnorm nm * amjuel_source nm c el fr rows rt (FreqNorm nm) m1 s * m2
      - amjuel_source nm c el fr rows rad (Tnorm nm * FreqNorm nm) m2 s
  | _ => 0
  end.
