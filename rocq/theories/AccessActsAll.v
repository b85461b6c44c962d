(** The tables of AccessActsSpec.v: all types, and what follows for executions. *)

From Coq Require Import List Bool String QArith Lia.
From Verif Require Import OptionsModel AccessModel AccessComponents AccessSpec AccessProofs
  AccessTables AccessReadSpec AccessReads AccessActsSpec AccessActs
  AccessActsPlasma AccessActsWalls.
Import ListNotations.
Open Scope string_scope.
Open Scope list_scope.

(** Types for which nothing is listed. *)
Lemma unlisted tf :
  (forall n c s q, claims (fst tf) n c s q = [] /\ finally_claims (fst tf) n c s q = []) ->
  does_as_listed tf.
Proof.
  intros H n c x _ s q. destruct (H n c s q) as [-> ->]. split; constructor.
Qed.

Ltac unlisted_tac := apply unlisted; intros; split; reflexivity.

Lemma reactions_unlisted :
  Forall (fun t => forall n c s q, claims t n c s q = [] /\ finally_claims t n c s q = [])
    (map fst reaction_types ++ map fst cx_types).
Proof.
  match goal with |- Forall _ ?l => let l' := eval vm_compute in l in change l with l' end.
  repeat (apply Forall_cons; [intros; split; reflexivity|]). constructor.
Qed.

Lemma simple_types_do : Forall does_as_listed simple_types.
Proof.
  unfold simple_types. repeat rewrite Forall_app. repeat split.
  - repeat match goal with
    | |- Forall _ ((?t, ?f) :: _) =>
        apply Forall_cons;
        [first
          [ exact d_evolve_density | exact d_evolve_pressure | exact d_evolve_energy
          | exact d_evolve_momentum | exact d_neutral_mixed | exact d_isothermal
          | exact d_fixed_temperature | exact d_fixed_velocity | exact d_set_temperature
          | exact d_quasineutral | exact d_zero_current | exact d_sound_speed
          | exact d_anomalous_diffusion | exact d_classical_diffusion | exact d_binormal_stpm
          | exact d_neutral_parallel_diffusion | exact d_solkit_neutral_parallel_diffusion
          | exact d_upstream_density_feedback | exact d_electron_force_balance
          | exact d_ion_viscosity | exact d_thermal_force | exact d_collisions
          | exact d_noflow_boundary | exact d_neutral_boundary | exact d_sheath_boundary
          | exact d_sheath_boundary_simple | exact d_sheath_boundary_insulating
          | exact d_sheath_closure | exact d_vorticity | exact d_relax_potential
          | exact d_diamagnetic_drift | exact d_polarisation_drift | exact d_electromagnetic
          | unlisted_tac ] |]
    end. constructor.
  - apply Forall_map. repeat (apply Forall_cons; [unlisted_tac|]). constructor.
  - apply Forall_map, Forall_forall. intros tp Hin. apply unlisted.
    pose proof reactions_unlisted as H. rewrite Forall_forall in H. apply H.
    apply in_or_app. left. exact (in_map (@fst string (prog unit)) _ tp Hin).
  - apply Forall_map, Forall_forall. intros tp Hin. apply unlisted.
    pose proof reactions_unlisted as H. rewrite Forall_forall in H. apply H.
    apply in_or_app. right. exact (in_map (@fst string (string * string)) _ tp Hin).
Qed.

Lemma create_does t n c x :
  create t n c = Some x -> does_as_listed (t, fun n c => create t n c).
Proof.
  unfold create. destruct (assoc t simple_types) as [f|] eqn:Ea; [|discriminate].
  intros _. apply assoc_in in Ea. pose proof simple_types_do as Hl.
  rewrite Forall_forall in Hl. exact (Hl _ Ea).
Qed.

Lemma claims_done {F} (A : farith F) num ty n c x s s' tr y z :
  create ty n c = Some x ->
  (run_method A num s (c_transform x) = (s', tr, Some tt) ->
   forall G g, In (G, g) (claims ty n c y z) -> holds G s -> exists e, In e tr /\ meets g e) /\
  (run_method A num s (c_finally x) = (s', tr, Some tt) ->
   forall G g, In (G, g) (finally_claims ty n c y z) -> holds G s -> exists e, In e tr /\ meets g e).
Proof.
  intros Hc. destruct (create_does _ _ _ _ Hc n c x Hc y z) as [H1 H2].
  rewrite Forall_forall in H1, H2.
  split; intros Hr G g Hin HG; unfold run_method in Hr.
  - destruct (exec_does _ _ _ _ _ _ _ _ _ _ _ _ _ _ _ (H1 _ Hin) HG Hr) as (o & Ho & Hl & Hk).
    destruct g as [l p|k p]; [apply Hl, Ho|apply Hk, Ho].
  - destruct (exec_does _ _ _ _ _ _ _ _ _ _ _ _ _ _ _ (H2 _ Hin) HG Hr) as (o & Ho & Hl & Hk).
    destruct g as [l p|k p]; [apply Hl, Ho|apply Hk, Ho].
Qed.
