(** A concrete state for the registered reactions. *)

From Coq Require Import List Bool Ascii String ZArith Reals Lra Lia.
From Verif Require Import OptionsModel OptionsSpec StateMonad StateSpec StateMonadProofs StateEffects LimitersModel LimitersProofs
  RadiationModel ReactionsModel AmjuelTables ReactionsSpec ReactionsProofs ReactionsAdasProofs ReactionsCxProofs ReactionsTableProofs
  ReactionsLaws CollisionsExamples ReactionsExamples RegistryModel RegistrySpec RegistryProofs RegistryLaws.
Import ListNotations.
Open Scope R_scope.
Open Scope string_scope.

Definition ex_setup : setup := mkSetup (mkNorms 10 1 1) (uniform_cell (val cx_state)) 1 1 1 false (fun _ _ _ _ => 1).

Lemma carbon_runs nm c rc radc h : halts (adas_rates nm c rc radc h "e" "c" "c+") cx_state.
Proof.
  pose proof (ready_of _ : ready W cx_state cx_state) as R0.
  assert (V1 : val cx_state ("c", "AA") = 12) by reflexivity.
  assert (V2 : val cx_state ("c+", "AA") = 12) by reflexivity.
  assert (V3 : val cx_state ("c+", "charge") = 1) by reflexivity.
  unfold adas_rates, charge_or_0.
  run_all cx_state R0 idtac
    ltac:(rewrite ?V1, ?V2, ?V3, ?Reqb_refl, ?(Reqb_false 0 1), ?(Reqb_false 1 0) by lra; cbn [negb]).
Qed.

Lemma state_of_nonneg l sp q : Forall (fun p : key * R => 0 <= snd p) l -> 0 <= value (state_of l, tt) sp q.
Proof.
  intros H. unfold value. cbn [fst]. unfold state_of. destruct (find _ l) as [p|] eqn:E.
  - apply find_some in E as [E _]. rewrite Forall_forall in H. exact (H p E).
  - cbn [fresh e_val value_or_0]. lra.
Qed.
Lemma cx_state_density sp : 0 <= value cx_state sp "density".
Proof. apply state_of_nonneg. repeat (apply Forall_cons; [cbn [snd]; lra|]). apply Forall_nil. Qed.

Lemma ex_physical : physical ex_setup cx_state.
Proof.
  unfold physical, ex_setup. cbn [su_norms su_cell su_rate_multiplier su_table Nnorm FreqNorm].
  unfold uniform_cell. cbn [c_Jm c_J c_Jp c_nm c_np c_edges].
  repeat (split; [lra|]). split; [intros; lra|]. split.
  - intros sp. pose proof (cx_state_density sp) as H. split; [exact H|]. split; exact H.
  - intros m c p H1 H2 H3. unfold upwind_edges. cbn [fst snd]. lra.
Qed.

Lemma carbon_case :
  List.In ("c + e -> c+ + 2e", Adas_ionisation Carbon 0) registry /\
  (exists f, formula "c + e -> c+ + 2e" = Some f /\ charges_as_named cx_state (fst f ++ snd f)%list /\ made f "e" = 1%Z) /\
  physical ex_setup cx_state /\
  exists s', finishes (perform ex_setup (Adas_ionisation Carbon 0)) cx_state s' tt /\ change cx_state s' "e" "density_source" = 2.
Proof.
  split. { unfold registry. apply in_or_app; right. apply in_or_app; right. apply in_or_app; right. apply in_or_app; right. apply in_or_app; right.
           apply in_or_app; left. left. reflexivity. }
  split.
  { exists ([(1%nat, "c"); (1%nat, "e")], [(1%nat, "c+"); (2%nat, "e")])%string. split; [vm_compute; reflexivity|]. split; [|vm_compute; reflexivity].
    intros n sp Hi Hn. cbn [fst snd app List.In] in Hi.
    destruct Hi as [Hi|[Hi|[Hi|[Hi|[]]]]]; injection Hi as <- <-; try (exfalso; apply Hn; reflexivity).
    - change (charge "c") with 0%Z. reflexivity.
    - change (charge "c+") with 1%Z. reflexivity. }
  split; [exact ex_physical|].
  assert (Ha : halts (perform ex_setup (Adas_ionisation Carbon 0)) cx_state).
  { unfold perform. change (species_name Carbon 0) with "c". change (species_name Carbon (0 + 1)) with "c+". apply carbon_runs. }
  destruct Ha as (s' & [] & F). exists s'. split; [exact F|].
  unfold perform in F. change (species_name Carbon 0) with "c" in F. change (species_name Carbon (0 + 1)) with "c+" in F.
  assert (HZ : val cx_state ("c+", "charge") - val cx_state ("c", "charge") = INR 2 - 1).
  { change (val cx_state ("c+", "charge")) with 1. change (val cx_state ("c", "charge")) with 0. cbn [INR]. lra. }
  rewrite (adas_made _ _ _ _ _ _ _ cx_state s' 2%nat "e" HZ F).
  change (made (impact "c" "c+" 2) "e") with 1%Z. unfold adas_rate, ex_setup. cbn [su_cell su_norms su_table].
  rewrite average_uniform. cbn [map snd Nnorm FreqNorm].
  change (val cx_state ("e", "density")) with 2. change (val cx_state ("c", "density")) with 1.
  rewrite !rfloor_id by lra. lra.
Qed.

Lemma carbon_reverse :
  List.In ("c+ + e -> c+2 + 2e", Adas_ionisation Carbon 1) registry /\ List.In ("c+2 + e -> c+", Adas_recombination Carbon 1) registry /\
  exists f1 f2, formula "c+ + e -> c+2 + 2e" = Some f1 /\ formula "c+2 + e -> c+" = Some f2 /\ made f1 "c+" = (-1)%Z /\
    forall sp, made f1 sp = (- made f2 sp)%Z.
Proof.
  assert (A : forall l1 l2 (x : string * reaction), List.In x l2 -> List.In x (l1 ++ l2)%list) by (intros; apply in_or_app; now right).
  assert (B : forall l1 l2 (x : string * reaction), List.In x l1 -> List.In x (l1 ++ l2)%list) by (intros; apply in_or_app; now left).
  split; [|split].
  - unfold registry. do 5 apply A. apply B. right. left. reflexivity.
  - unfold registry. do 5 apply A. apply B. do 7 right. left. reflexivity.
  - exists ([(1%nat, "c+"); (1%nat, "e")], [(1%nat, "c+2"); (2%nat, "e")])%string, ([(1%nat, "c+2"); (1%nat, "e")], [(1%nat, "c+")])%string.
    split; [vm_compute; reflexivity|]. split; [vm_compute; reflexivity|]. split; [vm_compute; reflexivity|].
    intros sp. unfold made. cbn [fst snd count].
    destruct (String.eqb "c+" sp), (String.eqb "c+2" sp), (String.eqb "e" sp); reflexivity.
Qed.

Lemma carbon_tables : List.In ("c + e -> c+ + 2e", Adas_ionisation Carbon 0) registry /\
  List.In ("scd96_c.json", 0%nat) (tables_read (Adas_ionisation Carbon 0)).
Proof. split; [exact (proj1 carbon_case)|]. left. reflexivity. Qed.
