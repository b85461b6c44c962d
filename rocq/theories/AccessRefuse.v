(** Wrong orders are refused: after a component has looked at an entry as final, one which
    always changes the entry throws. *)

From Coq Require Import List Bool String QArith Lia.
From Verif Require Import OptionsModel AccessModel AccessComponents AccessSpec AccessProofs
  AccessTables AccessCompose AccessReadSpec AccessReads.
Import ListNotations.
Open Scope string_scope.
Open Scope list_scope.

(** ** No copies and plain assignments elsewhere *)

Definition keeps_marks (o : aop) : Prop :=
  match o with AForce _ | ACopy _ _ => False | _ => True end.

Definition marks_kept (tf : string * (string -> cfg -> option comp)) : Prop :=
  existsb (String.eqb (fst tf)) ["transform"; "scale_timederivs"] = true \/
  forall n c x, snd tf n c = Some x -> calls keeps_marks (c_transform x).

Ltac kept_tac f :=
  first [left; reflexivity|right];
  let n := fresh "n" in let c := fresh "c" in let x := fresh "x" in let H := fresh "H" in
  intros n c x H; cbn [fst snd] in *; unfold f in H;
  invert_create H; get_prog H; calls_tac; exact I.

Lemma m_amjuel a b : calls keeps_marks (amjuel a b).
Proof. calls_tac; exact I. Qed.
Lemma m_adas a b : calls keeps_marks (adas a b).
Proof. calls_tac; exact I. Qed.
Lemma m_adas_cx a b c d : calls keeps_marks (adas_cx a b c d).
Proof. calls_tac; exact I. Qed.
Lemma m_hydrogen_cx g a b : calls keeps_marks (hydrogen_cx g a b).
Proof. calls_tac; exact I. Qed.
Lemma m_solkit_cx a : calls keeps_marks (solkit_cx a).
Proof. calls_tac; exact I. Qed.
Lemma m_ionisation : calls keeps_marks ionisation.
Proof. calls_tac; exact I. Qed.

Lemma simple_types_kept : Forall marks_kept simple_types.
Proof.
  unfold simple_types. repeat rewrite Forall_app. repeat split.
  - apply Forall_cons; [kept_tac evolve_density|].
    apply Forall_cons; [kept_tac evolve_pressure|].
    apply Forall_cons; [kept_tac evolve_energy|].
    apply Forall_cons; [kept_tac evolve_momentum|].
    apply Forall_cons; [kept_tac neutral_mixed|].
    apply Forall_cons; [kept_tac isothermal|].
    apply Forall_cons; [kept_tac fixed_density|].
    apply Forall_cons; [kept_tac fixed_temperature|].
    apply Forall_cons; [kept_tac fixed_velocity|].
    apply Forall_cons; [kept_tac set_temperature|].
    apply Forall_cons; [kept_tac quasineutral|].
    apply Forall_cons; [kept_tac zero_current|].
    apply Forall_cons; [kept_tac fixed_fraction_ions|].
    apply Forall_cons; [kept_tac sound_speed|].
    apply Forall_cons; [kept_tac scale_timederivs|].
    apply Forall_cons; [kept_tac transform_comp|].
    apply Forall_cons; [kept_tac simple_pump|].
    apply Forall_cons; [kept_tac simple_conduction|].
    apply Forall_cons; [kept_tac snb_conduction|].
    apply Forall_cons; [kept_tac anomalous_diffusion|].
    apply Forall_cons; [kept_tac classical_diffusion|].
    apply Forall_cons; [kept_tac binormal_stpm|].
    apply Forall_cons; [kept_tac neutral_parallel_diffusion|].
    apply Forall_cons; [kept_tac solkit_neutral_parallel_diffusion|].
    apply Forall_cons; [kept_tac upstream_density_feedback|].
    apply Forall_cons; [kept_tac temperature_feedback|].
    apply Forall_cons; [kept_tac detachment_controller|].
    apply Forall_cons; [kept_tac electron_force_balance|].
    apply Forall_cons; [kept_tac ion_viscosity|].
    apply Forall_cons; [kept_tac electron_viscosity|].
    apply Forall_cons; [kept_tac thermal_force|].
    apply Forall_cons; [kept_tac collisions|].
    apply Forall_cons; [kept_tac noflow_boundary|].
    apply Forall_cons; [kept_tac neutral_boundary|].
    apply Forall_cons; [kept_tac sheath_boundary|].
    apply Forall_cons; [kept_tac sheath_boundary_simple|].
    apply Forall_cons; [kept_tac sheath_boundary_insulating|].
    apply Forall_cons; [kept_tac sheath_closure|].
    apply Forall_cons; [kept_tac recycling|].
    apply Forall_cons; [kept_tac vorticity|].
    apply Forall_cons; [kept_tac relax_potential|].
    apply Forall_cons; [kept_tac diamagnetic_drift|].
    apply Forall_cons; [kept_tac polarisation_drift|].
    apply Forall_cons; [kept_tac electromagnetic|].
    constructor.
  - apply Forall_map.
    repeat (apply Forall_cons; [kept_tac fixed_fraction_radiation|]). constructor.
  - apply Forall_map, Forall_forall. intros tp Hin. right. intros n c x H. cbn [snd] in H.
    get_prog H. revert tp Hin. rewrite <- Forall_forall.
    assert (Ha : forall el z, Forall (fun tp => calls keeps_marks (snd tp)) (adas_types el z)).
    { intros el z. apply Forall_forall. intros tp Hin.
      apply in_flat_map in Hin as (k & _ & [<-|[<-|Hin]]); cbn [snd].
      - apply m_adas.
      - apply m_adas.
      - apply in_map_iff in Hin as (h & <- & _). apply m_adas_cx. }
    unfold reaction_types. repeat rewrite Forall_app.
    repeat split; try apply Ha.
    + apply Forall_map, Forall_forall. intros i _. apply m_amjuel.
    + apply Forall_map, Forall_forall. intros i _. apply m_amjuel.
    + constructor; [apply m_amjuel|]. constructor; [apply m_amjuel|constructor].
    + apply Forall_map, Forall_forall. intros i _. apply m_solkit_cx.
    + constructor; [apply m_ionisation|constructor].
  - apply Forall_map, Forall_forall. intros tp Hin. right. intros n c x H. cbn [snd] in H.
    invert_create H. get_prog H. apply m_hydrogen_cx.
Qed.

Lemma create_kept t n c x :
  create t n c = Some x -> t <> "transform" -> t <> "scale_timederivs" ->
  calls keeps_marks (c_transform x).
Proof.
  unfold create. destruct (assoc t simple_types) as [f|] eqn:Ea; [|discriminate].
  intros H Ht Hs. apply assoc_in in Ea. pose proof simple_types_kept as Hl.
  rewrite Forall_forall in Hl. destruct (Hl _ Ea) as [H0|H0]; [exfalso|apply (H0 n c x H)].
  simpl in H0. destruct (String.eqb_spec t "transform"); [contradiction|].
  destruct (String.eqb_spec t "scale_timederivs"); [contradiction|discriminate].
Qed.

Definition no_copy (o : aop) : Prop := match o with ACopy _ _ => False | _ => True end.

Lemma create_no_copy t n c x :
  create t n c = Some x -> t <> "transform" -> calls no_copy (c_transform x).
Proof.
  intros H Ht. destruct (String.eqb_spec t "scale_timederivs") as [->|Hs].
  - cbv -[bind open getf put_op t_ done] in H. apply some_inj in H. subst x. cbn [c_transform].
    calls_tac; exact I.
  - apply (calls_weaken keeps_marks); [|apply (create_kept t n c x H Ht Hs)].
    intros []; simpl; auto.
Qed.

Section Refused.
  Context {F : Type}.
  Variable A : farith F.
  Notation step1 := (astep (fa_add A) (fa_sub A) (fa_neg A) (fa_const A) (fa_inv A)).
  Notation run1 := (exec (fa_add A) (fa_sub A) (fa_neg A) (fa_const A) (fa_inv A)).

  Lemma exec_events (P : aop -> Prop) (R : event F -> Prop) {X} (m : prog X) :
    (forall fld s o s1 r ev, P o -> step1 fld s o = (s1, r, ev) -> forall e, In e ev -> R e) ->
    forall num n vs s s' tr a,
    calls P m -> run1 num n vs s m = (s', tr, a) -> forall e, In e tr -> R e.
  Proof.
    intros HR. induction m as [x| |o k IH]; simpl; intros num n vs s s' tr a Hc H e Hin.
    - inversion H; subst; destruct Hin.
    - inversion H; subst; destruct Hin.
    - destruct Hc as [Ho Hk].
      destruct (step1 (num n vs) s o) as [[s1 r] ev] eqn:Es.
      pose proof (HR _ _ _ _ _ _ Ho Es e) as Hev.
      destruct r as [r|].
      + destruct (run1 num (S n) (vs ++ reads_of ev) s1 (k r)) as [[s2 tr2] a2] eqn:Ee.
        inversion H; subst s' tr a; clear H. apply in_app_or in Hin as [Hin|Hin]; [auto|].
        apply (IH r _ _ _ _ _ _ _ (Hk r) Ee e Hin).
      + inversion H; subst s' tr a; clear H. auto.
  Qed.

  Definition is_copy (e : event F) : bool := match e with EvCopy _ _ _ => true | _ => false end.
  Definition is_force (e : event F) : bool := match e with EvForce _ _ => true | _ => false end.

  Lemma step_kind fld s o s1 r ev e :
    step1 fld s o = (s1, r, ev) -> In e ev ->
    (no_copy o -> is_copy e = false) /\ (keeps_marks o -> is_force e = false).
  Proof.
    intros H Hin. destruct r as [r|].
    2:{ apply astep_throws in H. subst ev. destruct Hin. }
    destruct o as [n| |c|n| |m t p|c nb p|p|w src p|p|l r0]; simpl in H.
    - inversion H; subst; destruct Hin.
    - inversion H; subst; destruct Hin.
    - destruct (c && negb (s_species s)); inversion H; subst; destruct Hin.
    - inversion H; subst; destruct Hin.
    - inversion H; subst; destruct Hin.
    - destruct (lookup s p) as [e0|]; [|discriminate].
      destruct (do_read (fa_const A) m t e0) as [e' rr].
      destruct rr, (e_val e0); inversion H; subst; destruct Hin as [<-|[]]; auto.
    - destruct (lookup s p) as [e0|]; [|destruct c; [discriminate|]];
        inversion H; subst; destruct Hin as [<-|[]]; auto.
    - inversion H; subst; destruct Hin as [<-|[]]; auto.
    - destruct (do_write _ _ _ _ _ _ _ _ _) as [e' rr].
      destruct rr, (e_val e'); inversion H; subst; destruct Hin as [<-|[]]; auto.
    - inversion H; subst; destruct Hin as [<-|[]]; split; simpl; tauto.
    - inversion H; subst; destruct Hin as [<-|[]]; split; simpl; tauto.
  Qed.

  Lemma loop_nth meth : forall cs num i s s' trs,
    run_loop A num meth i cs s = (s', trs, true) ->
    List.length trs = List.length cs /\
    forall j x tr, nth_error cs j = Some x -> nth_error trs j = Some tr ->
      exists s1 s2, run_method A (num (i + j)%nat) s1 (meth x) = (s2, tr, Some tt).
  Proof.
    induction cs as [|x cs IH]; simpl; intros num i s s' trs H.
    - inversion H; subst. split; [reflexivity|]. intros [] ? ? Hn; discriminate.
    - destruct (run_method A (num i) s (meth x)) as [[s1 tr] a] eqn:Em.
      destruct a as [[]|]; [|discriminate].
      destruct (run_loop A num meth (S i) cs s1) as [[s2 trs2] ok] eqn:El.
      inversion H; subst s' trs ok; clear H.
      destruct (IH num (S i) s1 s2 trs2 El) as [Hlen Hn]. split; [simpl; congruence|].
      intros [|j] y ty Hy Ht; simpl in Hy, Ht.
      + inversion Hy; inversion Ht; subst. rewrite Nat.add_0_r. exists s, s1. exact Em.
      + destruct (Hn j y ty Hy Ht) as (sa & sb & E). exists sa, sb.
        replace (i + S j)%nat with (S i + j)%nat by lia. exact E.
  Qed.

  Lemma nth_two {X} (l : list X) : forall i j a b,
    (i < j)%nat -> nth_error l i = Some a -> nth_error l j = Some b ->
    exists p m q, l = p ++ a :: m ++ b :: q.
  Proof.
    induction l as [|x l IH]; intros i j a b Hij Ha Hb; [destruct i; discriminate|].
    destruct j as [|j]; [lia|]. destruct i as [|i]; simpl in Ha, Hb.
    - inversion Ha; subst. apply nth_error_split in Hb as (m & q & -> & _).
      exists [], m, q. reflexivity.
    - destruct (IH i j a b ltac:(lia) Ha Hb) as (p & m & q & ->).
      exists (x :: p), m, q. reflexivity.
  Qed.

  Lemma create_list_nth c : forall l cs i t n,
    create_list c l = Some cs -> nth_error l i = Some (t, n) ->
    exists x, nth_error cs i = Some x /\ create t n c = Some x.
  Proof.
    induction l as [|[t' n'] l IH]; intros cs i t n Hc Hi; [destruct i; discriminate|].
    destruct cs as [|x cs]; [apply create_list_length in Hc; discriminate|].
    apply create_list_cons in Hc as [Hx Hc]. destruct i as [|i]; simpl in Hi.
    - inversion Hi; subst. exists x. auto.
    - apply (IH cs i t n Hc Hi).
  Qed.

  Lemma refused_order c l cs num t u s' trs :
    listed c = Some l -> construct c = Some cs ->
    rhs A num t u cs = (s', trs, true) ->
    (forall tn, In tn l -> fst tn <> "transform") ->
    forall i j ti ni tj nj lk k p, (i < j)%nat ->
      nth_error l i = Some (ti, ni) -> nth_error l j = Some (tj, nj) ->
      In (lk, p) (always_looks ti ni c) -> In (k, p) (always_changes tj nj c) ->
      tj <> "scale_timederivs" -> blocks lk k = false.
  Proof.
    intros Hl Hc H Hnt i j ti ni tj nj lk k p Hij Hi Hj Hlk Hk Hsc.
    assert (Hcl : create_list c l = Some cs).
    { apply construct_list in Hc as (l' & Hl' & Hc). congruence. }
    pose proof H as Hrhs.
    apply rhs_split in H as (s1 & tr1 & tr2 & E1 & E2 & ->).
    destruct (loop_nth c_transform cs (num false) 0 (initial t u) s1 tr1 E1) as [Hlen Hn].
    destruct (create_list_nth c l cs i ti ni Hcl Hi) as (xi & Hxi & Hci).
    destruct (create_list_nth c l cs j tj nj Hcl Hj) as (xj & Hxj & Hcj).
    destruct (nth_error tr1 i) as [ta|] eqn:Ea.
    2:{ apply nth_error_None in Ea. assert (i < List.length cs)%nat by (apply nth_error_Some; congruence). lia. }
    destruct (nth_error tr1 j) as [tb|] eqn:Eb.
    2:{ apply nth_error_None in Eb. assert (j < List.length cs)%nat by (apply nth_error_Some; congruence). lia. }
    destruct (Hn i xi ta Hxi Ea) as (sa & sa' & Ra).
    destruct (Hn j xj tb Hxj Eb) as (sb & sb' & Rb).
    destruct (proj1 (always_done A _ ti ni c xi sa sa' ta Hci Ra) _ Hlk) as (e & He & Hle).
    destruct (proj2 (always_done A _ tj nj c xj sb sb' tb Hcj Rb) _ Hk) as (w & Hw & Hkw).
    assert (Hnc : forall tr x0, In tr tr1 -> In x0 tr -> is_copy x0 = false).
    { intros tr x0 Htr Hx0. apply In_nth_error in Htr as (m & Hm).
      assert (Hml : (m < List.length l)%nat).
      { rewrite <- (create_list_length c l cs Hcl), <- Hlen. apply nth_error_Some. congruence. }
      destruct (nth_error l m) as [[tm nm]|] eqn:Elm; [|apply nth_error_None in Elm; lia].
      destruct (create_list_nth c l cs m tm nm Hcl Elm) as (xm & Hxm & Hcm).
      destruct (Hn m xm tr Hxm Hm) as (sm & sm' & Rm).
      assert (Htm : tm <> "transform") by (apply (Hnt (tm, nm)), (nth_error_In _ _ Elm)).
      refine (exec_events no_copy (fun e0 => is_copy e0 = false) (c_transform xm) _ _ _ _ _ _ _ _
                (create_no_copy tm nm c xm Hcm Htm) Rm x0 Hx0).
      intros fld s o s2 r ev Ho Es e0 He0. apply (step_kind _ _ _ _ _ _ _ Es He0). exact Ho. }
    assert (Htj : tj <> "transform") by (apply (Hnt (tj, nj)), (nth_error_In _ _ Hj)).
    assert (Hwf : is_force w = false).
    { refine (exec_events keeps_marks (fun e0 => is_force e0 = false) (c_transform xj) _ _ _ _ _ _ _ _
                (create_kept tj nj c xj Hcj Htj Hsc) Rb w Hw).
      intros fld s o s2 r ev Ho Es e0 He0. apply (step_kind _ _ _ _ _ _ _ Es He0). exact Ho. }
    pose proof (Hnc tb w (nth_error_In _ _ Eb) Hw) as Hwc.
    destruct w as [| | |wm q v| |]; try discriminate. simpl in Hkw. inversion Hkw; subst k q; clear Hkw.
    destruct (nth_two tr1 i j ta tb Hij Ea Eb) as (P & M & Q & HP).
    destruct (in_split _ _ He) as (a1 & a2 & Ha). destruct (in_split _ _ Hw) as (b1 & b2 & Hb).
    assert (Hcat : List.concat (tr1 ++ tr2) =
                   (List.concat P ++ a1) ++ e :: (a2 ++ List.concat M ++ b1) ++ EvWrite wm p v ::
                   (b2 ++ List.concat Q ++ List.concat tr2)).
    { rewrite HP, Ha, Hb. rewrite concat_app, concat_app. simpl. rewrite concat_app. simpl.
      repeat (rewrite <- app_assoc || (progress simpl)). reflexivity. }
    destruct (writes_after_marks F A num t u cs s' _ true _ _ _ _ _ _ _ Hrhs Hcat) as [Hall Hint].
    assert (Hno : existsb (copies_to p) (a2 ++ List.concat M ++ b1) = false).
    { destruct (existsb _ _) eqn:Ex; [|reflexivity]. exfalso.
      apply existsb_exists in Ex as (y & Hy & Hyc).
      assert (Hyt : exists tr, In tr tr1 /\ In y tr).
      { apply in_app_or in Hy as [Hy|Hy].
        - exists ta. split; [apply (nth_error_In _ _ Ea)|]. rewrite Ha. apply in_or_app; right; right; exact Hy.
        - apply in_app_or in Hy as [Hy|Hy].
          + apply in_concat in Hy as (tr & Htr & Hy). exists tr. split; [|exact Hy].
            rewrite HP. apply in_or_app; right; right. apply in_or_app; left; exact Htr.
          + exists tb. split; [apply (nth_error_In _ _ Eb)|]. rewrite Hb. apply in_or_app; left; exact Hy. }
      destruct Hyt as (tr & Htr & Hytr). pose proof (Hnc tr y Htr Hytr) as Hyn.
      destruct y; discriminate. }
    rewrite Hno in Hall, Hint.
    destruct e as [m q x0|nb q x0|q x0|m q x0|q x0|q r x0]; simpl in Hle; try discriminate.
    - simpl in Hall, Hint.
      destruct m; inversion Hle; subst lk q; rewrite ?path_eqb_refl in Hall; rewrite ?path_eqb_refl in Hint.
      + specialize (Hall eq_refl); discriminate.
      + destruct (Hint eq_refl) as [->|Hx]; [reflexivity|discriminate].
      + reflexivity.
    - simpl in Hall, Hint.
      destruct nb; inversion Hle; subst lk q; rewrite ?path_eqb_refl in Hall; rewrite ?path_eqb_refl in Hint.
      + destruct (Hint eq_refl) as [->|Hx]; [reflexivity|discriminate].
      + specialize (Hall eq_refl); discriminate.
    - inversion Hle; subst. reflexivity.
  Qed.
End Refused.

Lemma sheath_after_pressure F (A : farith F) c l cs num t u s' trs i j n m q :
  listed c = Some l -> construct c = Some cs ->
  (forall tn, In tn l -> fst tn <> "transform") ->
  nth_error l i = Some ("sheath_boundary", n) -> nth_error l j = Some ("evolve_pressure", "e") ->
  nth_error l q = Some ("d + e -> d+ + 2e", m) ->
  rhs A num t u cs = (s', trs, true) -> (j < i)%nat /\ (j < q)%nat.
Proof.
  intros Hl Hc Ht Hi Hj Hq H.
  assert (Hch : In (KSet, PSp "e" "temperature") (always_changes "evolve_pressure" "e" c)).
  { vm_compute. tauto. }
  split.
  - destruct (Nat.lt_ge_cases j i) as [Hlt|Hge]; [exact Hlt|exfalso].
    assert (Hij : (i < j)%nat).
    { apply Nat.le_lteq in Hge as [Hlt|He]; [exact Hlt|]. subst j. congruence. }
    assert (Hlo : In (Interior, PSp "e" "temperature") (always_looks "sheath_boundary" n c)).
    { vm_compute. tauto. }
    pose proof (refused_order A c l cs num t u s' trs Hl Hc H Ht i j _ _ _ _ Interior KSet _
                  Hij Hi Hj Hlo Hch ltac:(discriminate)). discriminate.
  - destruct (Nat.lt_ge_cases j q) as [Hlt|Hge]; [exact Hlt|exfalso].
    assert (Hij : (q < j)%nat).
    { apply Nat.le_lteq in Hge as [Hlt|He]; [exact Hlt|]. subst j. congruence. }
    assert (Hlo : In (Whole, PSp "e" "temperature") (always_looks "d + e -> d+ + 2e" m c)).
    { vm_compute. tauto. }
    pose proof (refused_order A c l cs num t u s' trs Hl Hc H Ht q j _ _ _ _ Whole KSet _
                  Hij Hq Hj Hlo Hch ltac:(discriminate)). discriminate.
Qed.
