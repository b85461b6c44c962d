(** Vocabulary for RatesProps.v. *)

From Coq Require Import List String Reals.
From Verif Require Import OptionsModel StateMonad StateSpec ReactionsModel ReactionsSpec.
Import ListNotations.
Open Scope R_scope.
Open Scope string_scope.

(** The coefficient of a 9 by 9 table at temperature T (eV) and density n (per cubic metre). *)
Definition coefficient (t : table) (T n r : R) : Prop := evaluate 9 9 t T n = Some r.
(** Densities are not negative in this cell, its neighbours and on its faces. *)
Definition densities_not_negative (c : cell) (el fr : string) (s : State * Datatypes.unit) : Prop :=
  forall sp, sp = el \/ sp = fr -> let v := value s sp "density" in
    0 <= v /\ 0 <= fst (c_edges c (c_nm c (sp, "density")) v (c_np c (sp, "density"))) /\ 0 <= snd (c_edges c (c_nm c (sp, "density")) v (c_np c (sp, "density"))).
