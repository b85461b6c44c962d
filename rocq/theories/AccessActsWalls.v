(** The tables of AccessActsSpec.v: sheaths and collisions. *)

From Coq Require Import List Bool String QArith Lia.
From Verif Require Import OptionsModel AccessModel AccessComponents AccessSpec AccessProofs
  AccessTables AccessReadSpec AccessReads AccessActsSpec AccessActs.
Import ListNotations.
Open Scope string_scope.
Open Scope list_scope.

Lemma d_collisions : does_as_listed ("collisions", collisions).
Proof. acts_tac collisions. Qed.
Lemma d_sheath_boundary : does_as_listed ("sheath_boundary", sheath_boundary).
Proof. acts_tac sheath_boundary. Qed.
Lemma d_sheath_boundary_simple : does_as_listed ("sheath_boundary_simple", sheath_boundary_simple).
Proof. acts_tac sheath_boundary_simple. Qed.
Lemma d_sheath_boundary_insulating : does_as_listed ("sheath_boundary_insulating", sheath_boundary_insulating).
Proof. acts_tac sheath_boundary_insulating. Qed.
