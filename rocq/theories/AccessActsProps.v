(** C106: no species is left out. *)

From Coq Require Import List Bool String QArith.
From Verif Require Import OptionsModel AccessModel AccessComponents AccessInputs AccessSpec
  AccessCompose AccessReadSpec AccessActsSpec AccessActs AccessActsAll.
Import ListNotations.
Open Scope string_scope.
Open Scope list_scope.

(** A call which returns has done everything which AccessActsSpec.v lists for the type and
    for which the state at the start of the call meets the condition: it has changed the
    entries of every species concerned, and read what it has to take into account.
    The species [y] and its charge [z] are arbitrary. *)
Theorem C106_nothing_left_out : forall F (A : farith F) num ty n c x s s' tr y z,
  create ty n c = Some x ->
  (run_method A num s (c_transform x) = (s', tr, Some tt) ->
   forall G g, In (G, g) (claims ty n c y z) -> holds G s -> exists e, In e tr /\ meets g e) /\
  (run_method A num s (c_finally x) = (s', tr, Some tt) ->
   forall G g, In (G, g) (finally_claims ty n c y z) -> holds G s -> exists e, In e tr /\ meets g e).
Proof. exact @claims_done. Qed.
Print Assumptions C106_nothing_left_out.

Definition number (q : Q) : entry (val Q) := mkEntry (Some (VN q)) false false.
Definition profile (q : Q) : entry (val Q) := mkEntry (Some (VF q)) false false.

(** Deuterium ions with density and temperature, and neutral atoms. *)
Definition two_species : st Q :=
  mkSt [(PSp "d+" "charge", number 1); (PSp "d+" "temperature", profile 2);
        (PSp "d+" "density", profile 3); (PSp "d" "density", profile 1)]
       ["d"; "d+"] true true.

Definition ions : facts := with_charge "d+" 1 ["temperature"; "density"].

Example C106_case :
  match create "diamagnetic_drift" "diamagnetic_drift" [] with
  | Some x => snd (run_method q_arith (q_num false 0%nat) two_species (c_transform x)) = Some tt
  | None => False
  end /\
  In (ions, Changed KAdd (PSp "d+" "density_source"))
     (claims "diamagnetic_drift" "diamagnetic_drift" [] "d+" 1) /\
  holds ions two_species.
Proof.
  split; [|split].
  - vm_compute. reflexivity.
  - vm_compute. tauto.
  - repeat split; simpl; intros; repeat match goal with
      | H : _ \/ _ |- _ => destruct H as [H|H]
      | H : False |- _ => destruct H
      | H : (_, _) = (_, _) |- _ => inversion H; subst; clear H
      end; subst; try discriminate; try reflexivity; simpl; tauto.
Qed.

(** Nothing is claimed for a species without charge, and a charge below 1e-5 is none. *)
Example C106_case_neutral :
  claims "diamagnetic_drift" "diamagnetic_drift" [] "d" 0 = [] /\
  claims "diamagnetic_drift" "diamagnetic_drift" [] "d" (1 # 1000000) = [] /\
  claims "sheath_boundary" "sheath_boundary" [] "e" (-1)
    = [(having [PSp "e" "velocity"], Changed KBoundary (PSp "e" "velocity"));
       (having [PSp "e" "momentum"], Changed KBoundary (PSp "e" "momentum"))].
Proof. repeat split. Qed.

(** Every source which a density, pressure, energy or momentum equation can have is taken
    into account. *)
Theorem C106_sources : forall F (A : farith F) num ty n c x s s' tr q,
  create ty n c = Some x ->
  run_method A num s (c_finally x) = (s', tr, Some tt) ->
  In (ty, q) [("evolve_density", "density_source"); ("evolve_pressure", "energy_source");
              ("evolve_energy", "energy_source"); ("evolve_momentum", "momentum_source");
              ("neutral_mixed", "density_source"); ("neutral_mixed", "energy_source")] ->
  value s (PSp n q) <> None ->
  exists e, In e tr /\ looks_at e = Some (Whole, PSp n q).
Proof.
  intros F A num ty n c x s s' tr q Hc Hr Hin Hv.
  destruct (C106_nothing_left_out F A num ty n c x s s' tr "" 0 Hc) as [_ H].
  apply (H Hr (having [PSp n q]) (Looked Whole (PSp n q))).
  - simpl in Hin. repeat destruct Hin as [Hin|Hin]; try (inversion Hin; subst; clear Hin);
      claim_lists; apply in_or_app; left; simpl; tauto.
  - repeat split; simpl; try tauto; try discriminate. intros p [<-|[]]. exact Hv.
Qed.
Print Assumptions C106_sources.
