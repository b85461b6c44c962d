(** Cases for RatesProps.v. *)

From Coq Require Import List Bool String Reals Lra.
From Verif Require Import OptionsModel StateMonad StateSpec StateMonadProofs LimitersModel ReactionsModel ReactionsSpec ReactionsLaws ReactionsExamples AmjuelTables RatesSpec RatesOther.
Import ListNotations.
Open Scope R_scope.
Open Scope string_scope.

Lemma hydrogen_case :
  (exists s' out, finishes (hyd_ionisation ex_norms ex_cell "h" hyd_ionisation_rate_coefs hyd_ionisation_radiation_coefs 1 1) ex_state s' out) /\
  NoDup ["e"; "h"; "h" ++ "+"] /\ 0 < c_Jm ex_cell /\ 0 < c_J ex_cell /\ 0 < c_Jp ex_cell /\ 0 < Tnorm ex_norms /\ 0 < Nnorm ex_norms /\ 0 < FreqNorm ex_norms /\
  densities_not_negative ex_cell "e" "h" ex_state.
Proof.
  destruct amjuel_case as (N & _ & _ & _ & E & _). split; [exact E|]. split; [exact N|]. cbn [c_Jm c_J c_Jp ex_cell uniform_cell Tnorm Nnorm FreqNorm ex_norms].
  repeat (split; [lra|]). intros sp [->| ->]; cbv zeta; cbn [c_edges c_nm c_np ex_cell uniform_cell fst snd].
  - assert (V : value ex_state "e" "density" = 2) by reflexivity. rewrite V. unfold upwind_edges. cbn [fst snd]. lra.
  - assert (V : value ex_state "h" "density" = 3) by reflexivity. rewrite V. unfold upwind_edges. cbn [fst snd]. lra.
Qed.
Lemma cx_case : cx_Teff (mkNorms 100 1e19 1e8) 0 1 0 1 = 0.01 /\ cx_Teff (mkNorms 100 1e19 1e8) (1 / 200) 1 (1 / 200) 1 = 1.
Proof.
  unfold cx_Teff. cbn [Tnorm]. replace ((0 / 1 + 0 / 1) * 100) with 0 by lra. replace ((1 / 200 / 1 + 1 / 200 / 1) * 100) with 1 by lra.
  split; [now rewrite Rltb_true by lra|]. now rewrite !Rltb_false by lra.
Qed.
Lemma cx_cold_pair nm m : 0 < Nnorm nm -> 0 < FreqNorm nm -> 0 < m -> exists T1 T2, 0.01 <= T1 < T2 /\ T2 <= 10000 /\ 3 * cx_sigmav nm T2 m < cx_sigmav nm T1 m.
Proof. intros. exists 0.01, 1. split; [lra|]. split; [lra|]. now apply cx_cold. Qed.
