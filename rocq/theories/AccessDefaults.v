(** Omitted settings: proofs for AccessDefaultsSpec.v. *)

From Coq Require Import List Bool String QArith Lia.
From Verif Require Import AccessModel AccessComponents AccessTables AccessDefaultsSpec.
Import ListNotations.
Open Scope string_scope.
Open Scope list_scope.

Section Settings.
  Variables (c : cfg) (sec key : string) (v : cval).
  Hypothesis Hnone : opt c sec key = None.
  Notation c' := (with_setting c sec key v).

  Lemma opt_with s k : opt c' s k = if String.eqb s sec && String.eqb k key then Some v else opt c s k.
  Proof.
    unfold with_setting, opt. simpl. destruct (String.eqb s sec) eqn:Es; [|reflexivity].
    apply String.eqb_eq in Es. subst s. simpl. destruct (String.eqb k key) eqn:Ek; [reflexivity|].
    destruct (assoc sec c); reflexivity.
  Qed.

  Lemma opt_other s k : s <> sec \/ k <> key -> opt c' s k = opt c s k.
  Proof.
    intros H. rewrite opt_with.
    destruct (String.eqb s sec) eqn:Es; [|reflexivity].
    destruct (String.eqb k key) eqn:Ek; [|reflexivity].
    apply String.eqb_eq in Es, Ek. tauto.
  Qed.

  Lemma opt_same_or s k :
    opt c' s k = opt c s k \/ (s = sec /\ k = key /\ opt c' s k = Some v /\ opt c s k = None).
  Proof.
    rewrite opt_with.
    destruct (String.eqb s sec) eqn:Es; [|tauto].
    destruct (String.eqb k key) eqn:Ek; [|tauto].
    apply String.eqb_eq in Es, Ek. subst. right. tauto.
  Qed.

  Lemma obool_with s k d : (s = sec -> k = key -> v = CB d) -> obool c' s k d = obool c s k d.
  Proof.
    intros H. unfold obool. destruct (opt_same_or s k) as [->|(Hs & Hk & -> & ->)]; [reflexivity|].
    rewrite (H Hs Hk). reflexivity.
  Qed.
  Lemma oreal_with s k d : (s = sec -> k = key -> v = CQ d) -> oreal c' s k d = oreal c s k d.
  Proof.
    intros H. unfold oreal. destruct (opt_same_or s k) as [->|(Hs & Hk & -> & ->)]; [reflexivity|].
    rewrite (H Hs Hk). reflexivity.
  Qed.
  Lemma rreal_with s k : (s = sec -> k = key -> False) -> rreal c' s k = rreal c s k.
  Proof. intros H. unfold rreal. destruct (opt_same_or s k) as [->|(Hs & Hk & _)]; tauto. Qed.
  Lemma rset_with s k : (s = sec -> k = key -> False) -> rset c' s k = rset c s k.
  Proof.
    intros H. unfold rset, opt_set. destruct (opt_same_or s k) as [->|(Hs & Hk & _)]; tauto.
  Qed.
  Lemma rstring_with s k : (s = sec -> k = key -> False) -> rstring c' s k = rstring c s k.
  Proof. intros H. unfold rstring. destruct (opt_same_or s k) as [->|(Hs & Hk & _)]; tauto. Qed.
End Settings.

Lemma longer a (n : string) : String a n <> n.
Proof.
  intros H. apply (f_equal String.length) in H. simpl in H. lia.
Qed.

Ltac settle :=
  intros; simpl in *;
  try solve [reflexivity | discriminate
            | exfalso; eapply longer; eauto | exfalso; eapply longer; symmetry; eauto].

Ltac settings :=
  repeat (first
    [ rewrite obool_with by (first [assumption|settle])
    | rewrite oreal_with by (first [assumption|settle])
    | rewrite rreal_with by (first [assumption|settle])
    | rewrite rset_with by (first [assumption|settle])
    | rewrite rstring_with by (first [assumption|settle]) ]).

Definition defaulted (tf : string * (string -> cfg -> option comp)) : Prop :=
  forall n c s sec key v, In (sec, key, v) (defaults (fst tf) n s) -> opt c sec key = None ->
    snd tf n (with_setting c sec key v) = snd tf n c.

Ltac default_cases H :=
  match type of H with
  | In ?x (defaults ?t ?n ?s) =>
      let l := eval lazy in (defaults t n s) in change (defaults t n s) with l in H
  end;
  cbn [In] in H;
  repeat match type of H with
  | _ \/ _ => destruct H as [H|H]
  | False => destruct H
  end;
  match type of H with (_, _, _) = (_, _, _) => inversion H; subst; clear H end.

Ltac default_tac f :=
  let n := fresh "n" in let c := fresh "c" in let s := fresh "s" in
  let sec := fresh "sec" in let key := fresh "key" in let v := fresh "v" in
  let H := fresh "H" in let Hn := fresh "Hn" in
  intros n c s sec key v H Hn; cbn [fst snd] in *; default_cases H; unfold f; settings; reflexivity.

Lemma o_evolve_density : defaulted ("evolve_density", evolve_density).
Proof. default_tac evolve_density. Qed.
Lemma o_evolve_pressure : defaulted ("evolve_pressure", evolve_pressure).
Proof. default_tac evolve_pressure. Qed.
Lemma o_evolve_energy : defaulted ("evolve_energy", evolve_energy).
Proof. default_tac evolve_energy. Qed.
Lemma o_evolve_momentum : defaulted ("evolve_momentum", evolve_momentum).
Proof. default_tac evolve_momentum. Qed.
Lemma o_neutral_mixed : defaulted ("neutral_mixed", neutral_mixed).
Proof. default_tac neutral_mixed. Qed.
Lemma o_sound_speed : defaulted ("sound_speed", sound_speed).
Proof. default_tac sound_speed. Qed.
Lemma o_simple_conduction : defaulted ("simple_conduction", simple_conduction).
Proof. default_tac simple_conduction. Qed.
Lemma o_classical_diffusion : defaulted ("classical_diffusion", classical_diffusion).
Proof. default_tac classical_diffusion. Qed.
Lemma o_neutral_parallel_diffusion : defaulted ("neutral_parallel_diffusion", neutral_parallel_diffusion).
Proof. default_tac neutral_parallel_diffusion. Qed.
Lemma o_ion_viscosity : defaulted ("ion_viscosity", ion_viscosity).
Proof. default_tac ion_viscosity. Qed.
Lemma o_thermal_force : defaulted ("thermal_force", thermal_force).
Proof. default_tac thermal_force. Qed.
Lemma o_collisions : defaulted ("collisions", collisions).
Proof. default_tac collisions. Qed.
Lemma o_sheath_boundary : defaulted ("sheath_boundary", sheath_boundary).
Proof. default_tac sheath_boundary. Qed.
Lemma o_sheath_boundary_simple : defaulted ("sheath_boundary_simple", sheath_boundary_simple).
Proof. default_tac sheath_boundary_simple. Qed.
Lemma o_sheath_closure : defaulted ("sheath_closure", sheath_closure).
Proof. default_tac sheath_closure. Qed.
Lemma o_vorticity : defaulted ("vorticity", vorticity).
Proof. default_tac vorticity. Qed.
Lemma o_relax_potential : defaulted ("relax_potential", relax_potential).
Proof. default_tac relax_potential. Qed.
Lemma o_polarisation_drift : defaulted ("polarisation_drift", polarisation_drift).
Proof. default_tac polarisation_drift. Qed.
Lemma o_electromagnetic : defaulted ("electromagnetic", electromagnetic).
Proof. default_tac electromagnetic. Qed.

Lemma read_channels_with c sec key v l :
  opt c sec key = None -> In (sec, key, v) (defaults "recycling" "" sec) ->
  read_channels (with_setting c sec key v) l = read_channels c l.
Proof.
  intros Hn H. induction l as [|s l IH]; [reflexivity|].
  cbn [read_channels]. rewrite IH. f_equal. unfold read_channel.
  default_cases H; settings; reflexivity.
Qed.

Lemma o_recycling : defaulted ("recycling", recycling).
Proof.
  intros n c s sec key v H Hn. cbn [fst snd] in *.
  assert (Hs : In (sec, key, v) (defaults "recycling" "" sec)).
  { assert (sec = s) as ->; [|exact H]. default_cases H; reflexivity. }
  unfold recycling.
  assert (Ht : rstring (with_setting c sec key v) n "species" = rstring c n "species").
  { default_cases H; settings; reflexivity. }
  rewrite Ht. destruct (rstring c n "species") as [txt|]; [|reflexivity]. cbn [obind].
  rewrite read_channels_with by assumption.
  destruct (read_channels c (items txt)) as [hs|]; [|reflexivity]. cbn [obind].
  destruct (rev (items txt)) as [|z zs]; [reflexivity|].
  default_cases H; settings; reflexivity.
Qed.

Lemma o_no_defaults tf : (forall n s, defaults (fst tf) n s = []) -> defaulted tf.
Proof. intros H n c s sec key v Hin. rewrite H in Hin. destruct Hin. Qed.

Lemma reactions_no_defaults :
  Forall (fun t => forall n s, defaults t n s = []) (map fst reaction_types).
Proof.
  match goal with |- Forall _ ?l => let l' := eval vm_compute in l in change l with l' end.
  repeat (apply Forall_cons; [reflexivity|]). constructor.
Qed.

Lemma simple_types_defaulted : Forall defaulted simple_types.
Proof.
  unfold simple_types. repeat rewrite Forall_app. repeat split.
  - repeat match goal with
    | |- Forall _ ((?t, ?f) :: _) =>
        apply Forall_cons;
        [first
          [ exact o_evolve_density
          | exact o_evolve_pressure
          | exact o_evolve_energy
          | exact o_evolve_momentum
          | exact o_neutral_mixed
          | exact o_sound_speed
          | exact o_simple_conduction
          | exact o_classical_diffusion
          | exact o_neutral_parallel_diffusion
          | exact o_ion_viscosity
          | exact o_thermal_force
          | exact o_collisions
          | exact o_sheath_boundary
          | exact o_sheath_boundary_simple
          | exact o_sheath_closure
          | exact o_vorticity
          | exact o_relax_potential
          | exact o_polarisation_drift
          | exact o_electromagnetic
          | exact o_recycling
          | apply o_no_defaults; reflexivity ] |]
    end. constructor.
  - apply Forall_map. repeat (apply Forall_cons; [apply o_no_defaults; reflexivity|]). constructor.
  - apply Forall_map, Forall_forall. intros tp Hin. apply o_no_defaults.
    pose proof reactions_no_defaults as H. rewrite Forall_forall in H. apply H.
    exact (in_map (@fst string (prog unit)) _ tp Hin).
  - apply Forall_map. unfold cx_types, isotopes. cbn [flat_map map app].
    repeat (apply Forall_cons;
      [intros n c s sec key v H Hn; cbn [fst snd] in *;
       default_cases H; settings; reflexivity|]).
    constructor.
Qed.

Lemma defaults_given ty n c s sec key v :
  In (sec, key, v) (defaults ty n s) -> opt c sec key = None ->
  create ty n (with_setting c sec key v) = create ty n c.
Proof.
  intros Hin Hn. unfold create. destruct (assoc ty simple_types) as [f|] eqn:Ea; [|reflexivity].
  apply assoc_in in Ea. pose proof simple_types_defaulted as Hl.
  rewrite Forall_forall in Hl. exact (Hl _ Ea n c s sec key v Hin Hn).
Qed.

(** ** Required settings *)

Definition refuses (tf : string * (string -> cfg -> option comp)) : Prop :=
  forall n c sec key, In (sec, key) (required (fst tf) n) -> opt c sec key = None ->
    snd tf n c = None.

Ltac required_cases H :=
  match type of H with
  | In ?x (required ?t ?n) =>
      let l := eval lazy in (required t n) in change (required t n) with l in H
  end;
  cbn [In] in H;
  repeat match type of H with
  | _ \/ _ => destruct H as [H|H]
  | False => destruct H
  end;
  match type of H with (_, _) = (_, _) => inversion H; subst; clear H end.

Ltac missing :=
  repeat match goal with
  | |- None = None => reflexivity
  | Hn : opt ?c ?s ?k = None |- obind (rreal ?c ?s ?k) _ = None => unfold rreal; rewrite Hn; reflexivity
  | Hn : opt ?c ?s ?k = None |- obind (rset ?c ?s ?k) _ = None => unfold rset, opt_set; rewrite Hn; reflexivity
  | Hn : opt ?c ?s ?k = None |- obind (rstring ?c ?s ?k) _ = None => unfold rstring; rewrite Hn; reflexivity
  | |- obind ?m _ = None => destruct m; cbn [obind]
  end.

Ltac required_tac f :=
  let n := fresh "n" in let c := fresh "c" in let sec := fresh "sec" in let key := fresh "key" in
  let H := fresh "H" in let Hn := fresh "Hn" in
  intros n c sec key H Hn; cbn [fst snd] in *; required_cases H; unfold f; cbv zeta; missing.

Lemma required_none tf : (forall n, required (fst tf) n = []) -> refuses tf.
Proof. intros H n c sec key Hin. rewrite H in Hin. destruct Hin. Qed.

Lemma reactions_required :
  Forall (fun t => forall n, required t n = []) (map fst reaction_types ++ map fst cx_types).
Proof.
  match goal with |- Forall _ ?l => let l' := eval vm_compute in l in change l with l' end.
  repeat (apply Forall_cons; [reflexivity|]). constructor.
Qed.

Lemma simple_types_refuse : Forall refuses simple_types.
Proof.
  unfold simple_types. repeat rewrite Forall_app. repeat split.
  - repeat match goal with
    | |- Forall _ ((?t, ?f) :: _) =>
        apply Forall_cons; [first [apply required_none; reflexivity | solve [required_tac f]] |]
    end. constructor.
  - apply Forall_map. repeat (apply Forall_cons; [apply required_none; reflexivity|]). constructor.
  - apply Forall_map, Forall_forall. intros tp Hin. apply required_none.
    pose proof reactions_required as H. rewrite Forall_forall in H. apply H.
    apply in_or_app. left. exact (in_map (@fst string (prog unit)) _ tp Hin).
  - apply Forall_map, Forall_forall. intros tp Hin. apply required_none.
    pose proof reactions_required as H. rewrite Forall_forall in H. apply H.
    apply in_or_app. right. exact (in_map (@fst string (string * string)) _ tp Hin).
Qed.

Lemma required_missing ty n c sec key :
  In (sec, key) (required ty n) -> opt c sec key = None -> create ty n c = None.
Proof.
  intros Hin Hn. unfold create. destruct (assoc ty simple_types) as [f|] eqn:Ea; [|reflexivity].
  apply assoc_in in Ea. pose proof simple_types_refuse as Hl.
  rewrite Forall_forall in Hl. exact (Hl _ Ea n c sec key Hin Hn).
Qed.
