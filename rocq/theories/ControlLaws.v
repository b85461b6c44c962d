(** Laws of the controllers. *)

From Coq Require Import List Bool ZArith Reals Lra Lia String.
From Coquelicot Require Import Coquelicot.
From Verif Require Import StateMonad StateMonadProofs LimitersProofs ParallelModel ParallelSpec ParallelProofs ParallelHeating ControlModel ControlSpec ControlProofs.
Import ListNotations.
Open Scope R_scope.

Notation length := List.length.

(** ** Limits *)

Lemma limit_within s c : limits_ok s -> within_limits s (limit_control s c).
Proof.
  unfold limits_ok, within_limits, limit_control. intros H.
  destruct (minval s) as [lo|], (maxval s) as [hi|]; split; intros ? [= <-]; repeat destruct (Rlt_dec _ _); lra.
Qed.

Lemma respond_control s st t e st' : limits_ok s -> respond s st t e = Some st' ->
  if reevaluate s st t e then within_limits s (control st') else st' = st.
Proof.
  intros L. unfold respond. destruct (reevaluate s st t e); [|intros [= <-]; reflexivity].
  destruct (push _ _ _ t) as [tb|]; [|discriminate]. destruct (push _ _ _ e) as [eb|]; [|discriminate].
  destruct (calculateGradient tb eb) as [d|]; [|discriminate]. destruct (new_control _ _ _ _ _ _) as [c|]; [|discriminate].
  intros [= <-]. cbn [control]. apply limit_within, L.
Qed.

Lemma restart_control s st : control (fst (restartVars s (dinit s) (snd (restartVars s st no_dfile))))
  = if ignore_restart s then initial_control s else control st.
Proof.
  unfold restartVars. cbn [dinit initialise]. destruct (ignore_restart s); cbn [negb andb fst control]; [reflexivity|]. rewrite andb_true_r.
  destruct (initialise st); reflexivity.
Qed.

Lemma events_keep s l : limits_ok s -> forall st st', within_limits s (control st) -> within_limits s (initial_control s) \/ ignore_restart s = false ->
  events s st l = Some st' -> within_limits s (control st').
Proof.
  intros L. induction l as [|e l IH]; intros st st' W D; cbn [events]; [intros [= <-]; exact W|].
  destruct (happen s st e) as [st1|] eqn:E; [|discriminate]. intros H. apply (IH st1 st'); [|exact D|exact H].
  destruct e as [t x|]; cbn [happen] in E.
  - unfold evaluate in E. cbn [fst snd] in E. pose proof (respond_control s st t (setpoint s - x) st1 L E) as R.
    destruct (reevaluate _ _ _ _); [exact R|now rewrite R].
  - assert (EC : control st1 = control (fst (restartVars s (dinit s) (snd (restartVars s st no_dfile))))) by congruence.
    rewrite EC, restart_control. destruct (ignore_restart s); [|exact W]. destruct D; [assumption|discriminate].
Qed.

Lemma events_limited s l : limits_ok s -> ignore_restart s = false -> forall st st', events s st l = Some st' -> updated s st l = true ->
  within_limits s (control st').
Proof.
  intros L I. induction l as [|e l IH]; intros st st'; cbn [events updated]; [discriminate|].
  destruct (happen s st e) as [st1|] eqn:E; [|discriminate]. intros H U. apply orb_true_iff in U. destruct U as [U|U]; [|now apply (IH st1 st')].
  destruct e as [t x|]; cbn [updates] in U; [|discriminate]. cbn [happen] in E.
  unfold evaluate in E. cbn [fst snd] in E. pose proof (respond_control s st t (setpoint s - x) st1 L E) as R. rewrite U in R.
  apply (events_keep s l L st1 st' R); auto.
Qed.

Lemma events_always s l : limits_ok s -> within_limits s (initial_control s) -> forall st', events s (dinit s) l = Some st' -> within_limits s (control st').
Proof. intros L W st' H. apply (events_keep s l L (dinit s) st'); auto. Qed.

(** ** Buffers *)

Lemma skipn_length_le {A} n (l : list A) : length (skipn n l) = (length l - n)%nat.
Proof. apply skipn_length. Qed.

Lemma lastn_length {A} n (l : list A) : length (lastn n l) = Nat.min n (length l).
Proof. unfold lastn. rewrite skipn_length. lia. Qed.

Lemma lastn_all {A} n (l : list A) : (length l <= n)%nat -> lastn n l = l.
Proof. intros H. unfold lastn. replace (length l - n)%nat with 0%nat by lia. reflexivity. Qed.

Lemma skipn_S {A} n (l : list A) : skipn (S n) l = tl (skipn n l).
Proof. revert l. induction n as [|n IH]; intros [|x l]; try reflexivity. cbn [skipn]. rewrite <- IH. reflexivity. Qed.

Lemma lastn_push {A} n (l : list A) x : (0 < n)%nat ->
  lastn n (l ++ [x]) = (if Nat.leb n (length (lastn n l)) then tl (lastn n l) else lastn n l) ++ [x].
Proof.
  intros Hn. rewrite lastn_length. unfold lastn at 1. rewrite app_length. cbn [length].
  destruct (Nat.leb_spec n (Nat.min n (length l))) as [H|H].
  - replace (length l + 1 - n)%nat with (S (length l - n)) by lia. unfold lastn. rewrite <- skipn_S.
    rewrite skipn_app. replace (S (length l - n) - length l)%nat with 0%nat by lia. reflexivity.
  - rewrite lastn_all by lia. replace (length l + 1 - n)%nat with 0%nat by lia. reflexivity.
Qed.

Definition size_ok (s : dsettings) : Prop := (1 <= buffer_size s < 2 ^ 31)%Z.
Definition in_step (s : dsettings) (st : dstate) (h : list (R * R)) : Prop :=
  let n := Z.to_nat (buffer_size s) in time_buffer st = map fst (lastn n h) /\ error_buffer st = map snd (lastn n h).

Lemma buffer_full_nat s n : size_ok s -> buffer_full n (buffer_size s) = Nat.leb (Z.to_nat (buffer_size s)) n.
Proof.
  intros [H1 H2]. unfold buffer_full. rewrite Z.mod_small by (split; [lia|]; eapply Z.lt_trans; [exact H2|reflexivity]).
  destruct (Z.leb_spec (buffer_size s) (Z.of_nat n)), (Nat.leb_spec (Z.to_nat (buffer_size s)) n); auto; lia.
Qed.

Lemma push_lastn (f : R * R -> R) size n h x :
  (0 < n)%nat -> push size (Nat.leb n (length (map f (lastn n h)))) (map f (lastn n h)) (f x) = Some (map f (lastn n (h ++ [x]))).
Proof.
  intros Hn. unfold push. rewrite lastn_push, map_length by exact Hn.
  destruct (Nat.leb_spec n (length (lastn n h))) as [H|H].
  - destruct (lastn n h) as [|p l]; [cbn in H; lia|]. cbn [map erase_first tl]. rewrite map_app. reflexivity.
  - rewrite map_app. reflexivity.
Qed.

Lemma respond_in_step s st h t e : size_ok s -> in_step s st h -> (integral_time s <> Some 0) ->
  exists st', respond s st t e = Some st' /\
    in_step s st' (if reevaluate s st t e then h ++ [(t, e)] else h).
Proof.
  intros Hs [T E] HI. unfold respond. destruct (reevaluate s st t e); [|exists st; split; [reflexivity|split; assumption]].
  assert (Hn : (0 < Z.to_nat (buffer_size s))%nat) by (destruct Hs; lia).
  rewrite buffer_full_nat by exact Hs. rewrite T, E.
  pose proof (push_lastn fst (buffer_size s) _ h (t, e) Hn) as P1. pose proof (push_lastn snd (buffer_size s) _ h (t, e) Hn) as P2.
  cbn [fst snd] in P1, P2. rewrite map_length in *. rewrite P1, P2.
  set (w := lastn (Z.to_nat (buffer_size s)) (h ++ [(t, e)])).
  change (map fst w) with (xs w). change (map snd w) with (ys w). rewrite gradient_eq. cbv zeta.
  assert (NC : forall d i, exists c, new_control s st t e d i = Some c).
  { intros d i. unfold new_control. destruct (velocity_form s).
    - destruct (integral_time s) as [z|]; cbn [over_time]; [destruct (Req_EM_T z 0) as [->|]; [congruence|]|]; eexists; reflexivity.
    - destruct (integral_time s) as [z|]; cbn [over_time]; [destruct (Req_EM_T z 0) as [->|]; [congruence|]|]; eexists; reflexivity. }
  match goal with |- context [new_control s st t e ?d ?i] => destruct (NC d i) as [c ->] end.
  eexists. split; [reflexivity|]. split; reflexivity.
Qed.

Lemma restart_buffers s st : time_buffer (fst (restartVars s (dinit s) (snd (restartVars s st no_dfile)))) = [] /\
  error_buffer (fst (restartVars s (dinit s) (snd (restartVars s st no_dfile)))) = [].
Proof. unfold restartVars. cbn [dinit initialise]. destruct (ignore_restart s); split; reflexivity. Qed.

Lemma events_in_step s l : size_ok s -> integral_time s <> Some 0 -> forall st h, in_step s st h ->
  exists st', events s st l = Some st' /\ in_step s st' (samples s st h l).
Proof.
  intros Hs HI. induction l as [|e l IH]; intros st h S; cbn [events samples]; [exists st; split; [reflexivity|exact S]|].
  destruct e as [t x|]; cbn [happen].
  - unfold evaluate. cbn [fst snd]. destruct (respond_in_step s st h t (setpoint s - x) Hs S HI) as (st1 & E & S1). rewrite E. apply IH, S1.
  - apply IH. destruct (restart_buffers s st) as [E1 E2]. split; [rewrite E1|rewrite E2]; reflexivity.
Qed.

Lemma events_buffers s l : size_ok s -> integral_time s <> Some 0 ->
  exists st', events s (dinit s) l = Some st' /\
    (let recent := lastn (Z.to_nat (buffer_size s)) (samples s (dinit s) [] l) in
     time_buffer st' = map fst recent /\ error_buffer st' = map snd recent) /\
    length (time_buffer st') = length (error_buffer st') /\ (Z.of_nat (length (time_buffer st')) <= buffer_size s)%Z.
Proof.
  intros Hs HI. destruct (events_in_step s l Hs HI (dinit s) []) as (st' & E & S1 & S2); [split; reflexivity|].
  exists st'. split; [exact E|]. split; [split; assumption|]. rewrite S1, S2, !map_length, lastn_length. destruct Hs. split; [reflexivity|lia].
Qed.

(** A controller whose every evaluation is an update. *)
Definition eager (size : Z) (it : option R) (dt : R) (vform : bool) : dsettings :=
  mkDsettings 0 vform 0 0 None None 1 1 it dt size 0 (-1) false true 1.

Lemma eager_reevaluate size it dt v st t e : 0 <= t -> previous_time st <= t -> reevaluate (eager size it dt v) st t e = true.
Proof.
  intros H1 H2. unfold reevaluate, eager. cbn [settling_time min_time min_error]. unfold Rltb, Rleb. pose proof (Rabs_pos (e - previous_error st)).
  destruct (Rlt_dec _ _); [|exfalso; lra]. destruct (Rle_dec 0 (t - _)); [|exfalso; lra]. destruct (Rle_dec 0 (Rabs _)); [reflexivity|exfalso; lra].
Qed.

Lemma empty_buffer_erased : evaluate (eager 0 None 0 true) (dinit (eager 0 None 0 true)) (1, 0) = None.
Proof. unfold evaluate, respond. rewrite eager_reevaluate; [reflexivity|cbn; lra|cbn; lra]. Qed.

Lemma push_not_full n (l : list R) x : (Z.of_nat n < 2 ^ 64 - 1)%Z -> push (-1) (buffer_full n (-1)) l x = Some (l ++ [x]).
Proof.
  intros H. unfold push, buffer_full. replace ((-1) mod 2 ^ 64)%Z with (2 ^ 64 - 1)%Z by reflexivity.
  destruct (Z.leb_spec (2 ^ 64 - 1) (Z.of_nat n)); [lia|reflexivity].
Qed.

Lemma negative_size_grows n : (Z.of_nat n < 2 ^ 64 - 1)%Z ->
  exists st, events (eager (-1) None 0 true) (dinit (eager (-1) None 0 true)) (repeat (Evaluate 0 0) n) = Some st /\ length (time_buffer st) = n.
Proof.
  set (s := eager (-1) None 0 true).
  assert (G : forall k st h, (Z.of_nat (length h + k) < 2 ^ 64 - 1)%Z -> previous_time st = 0 -> time_buffer st = xs h -> error_buffer st = ys h ->
    exists st', events s st (repeat (Evaluate 0 0) k) = Some st' /\ length (time_buffer st') = (length h + k)%nat).
  { induction k as [|k IH]; intros st h Hk Hp Ht He.
    - exists st. split; [reflexivity|]. rewrite Ht. unfold xs. rewrite map_length. lia.
    - cbn [repeat events happen]. unfold evaluate. cbn [fst snd]. unfold respond.
      unfold s at 1. rewrite eager_reevaluate by (rewrite ?Hp; lra). fold s.
      change (buffer_size s) with (-1)%Z. rewrite !push_not_full by (rewrite Ht; unfold xs; rewrite map_length; lia).
      rewrite Ht, He. set (e := setpoint s - 0).
      replace (xs h ++ [0]) with (xs (h ++ [(0, e)])) by (unfold xs; rewrite map_app; reflexivity).
      replace (ys h ++ [e]) with (ys (h ++ [(0, e)])) by (unfold ys; rewrite map_app; reflexivity).
      rewrite gradient_eq. unfold new_control. change (velocity_form s) with true. change (integral_time s) with (@None R). cbn [over_time].
      match goal with |- exists _, events s ?x _ = _ /\ _ => destruct (IH x (h ++ [(0, e)])) as (st2 & E2 & L2) end; try reflexivity.
      { rewrite app_length. cbn [length]. lia. }
      exists st2. split; [exact E2|]. rewrite L2, app_length. cbn [length]. lia. }
  intros Hn. destruct (G n (dinit s) []) as (st & E & L); try reflexivity; [exact Hn|]. exists st. split; [exact E|exact L].
Qed.

(** ** Restart of the detachment controller *)

(** Equal apart from what only the derivative term needs. *)
Definition alike (st1 st2 : dstate) : Prop :=
  control st1 = control st2 /\ previous_control st1 = previous_control st2 /\ error_integral st1 = error_integral st2 /\
  previous_time st1 = previous_time st2 /\ previous_error st1 = previous_error st2 /\ number_of_crossings st1 = number_of_crossings st2 /\
  first_step st1 = first_step st2.

Lemma reevaluate_alike s st1 st2 t e : alike st1 st2 -> reevaluate s st1 t e = reevaluate s st2 t e.
Proof. intros (_ & _ & _ & T & E & _). unfold reevaluate. rewrite T, E. reflexivity. Qed.

Lemma new_control_alike s st1 st2 t e d1 d2 i : alike st1 st2 -> derivative_time s = 0 -> new_control s st1 t e d1 i = new_control s st2 t e d2 i.
Proof.
  intros (C & PC & I & T & E & N & F) D. unfold new_control. rewrite PC, T, E, F, D. rewrite !Rmult_0_r, !Rmult_0_l. reflexivity.
Qed.

Lemma respond_alike s st1 st2 h t e st1' : alike st1 st2 -> derivative_time s = 0 -> size_ok s -> in_step s st2 h ->
  respond s st1 t e = Some st1' -> exists st2' h', respond s st2 t e = Some st2' /\ alike st1' st2' /\ in_step s st2' h'.
Proof.
  intros A D Hs S2 R. unfold respond in *. rewrite <- (reevaluate_alike s st1 st2 t e A).
  destruct (reevaluate s st1 t e); [|injection R as <-; exists st2, h; auto].
  destruct (push _ _ (time_buffer st1) t) as [tb|]; [|discriminate]. destruct (push _ _ (error_buffer st1) e) as [eb|]; [|discriminate].
  destruct (calculateGradient tb eb) as [d|]; [|discriminate].
  assert (Hn : (0 < Z.to_nat (buffer_size s))%nat) by (destruct Hs; lia).
  destruct S2 as [T E]. rewrite buffer_full_nat by exact Hs. rewrite T, E.
  pose proof (push_lastn fst (buffer_size s) _ h (t, e) Hn) as P1. pose proof (push_lastn snd (buffer_size s) _ h (t, e) Hn) as P2.
  cbn [fst snd] in P1, P2. rewrite map_length in *. rewrite P1, P2.
  set (w := lastn (Z.to_nat (buffer_size s)) (h ++ [(t, e)])).
  change (map fst w) with (xs w). change (map snd w) with (ys w). rewrite gradient_eq.
  pose proof A as (C & PC & I & PT & PE & N & F).
  rewrite <- I, <- PT, <- PE, <- F, <- N.
  match type of R with context [new_control s st1 t e ?dd ?ii] => destruct (new_control s st1 t e dd ii) as [c|] eqn:NC; [|discriminate];
    match goal with |- context [new_control s st2 t e ?d2 ?i2] => rewrite <- (new_control_alike s st1 st2 t e dd d2 i2 A D), NC end end.
  injection R as <-. eexists. exists (h ++ [(t, e)]). split; [reflexivity|]. split; [repeat split|split; reflexivity].
Qed.

Lemma evaluations_alike s l : derivative_time s = 0 -> size_ok s -> forall st1 st2 h st1', alike st1 st2 -> in_step s st2 h ->
  evaluations s st1 l = Some st1' -> exists st2', evaluations s st2 l = Some st2' /\ control st2' = control st1'.
Proof.
  intros D Hs. induction l as [|x l IH]; intros st1 st2 h st1' A S; cbn [evaluations].
  - intros [= <-]. exists st2. split; [reflexivity|]. symmetry. apply A.
  - unfold evaluate. destruct (respond s st1 (fst x) _) as [s1|] eqn:E; [|discriminate]. intros H.
    destruct (respond_alike s st1 st2 h _ _ s1 A D Hs S E) as (s2 & h' & E2 & A2 & S2). rewrite E2. now apply (IH s1 s2 h').
Qed.

Lemma respond_flags s st t e st' : respond s st t e = Some st' -> initialise st = false -> first_step st = false ->
  initialise st' = false /\ first_step st' = false.
Proof.
  unfold respond. destruct (reevaluate s st t e); [|intros [= <-]; auto].
  destruct (push _ _ _ t) as [tb|]; [|discriminate]. destruct (push _ _ _ e) as [eb|]; [|discriminate].
  destruct (calculateGradient tb eb) as [d|]; [|discriminate]. destruct (new_control _ _ _ _ _ _) as [c|]; [|discriminate].
  intros [= <-] I _. split; [exact I|reflexivity].
Qed.

Lemma evaluations_flags s l : forall st st', evaluations s st l = Some st' -> initialise st = false -> first_step st = false ->
  initialise st' = false /\ first_step st' = false.
Proof.
  induction l as [|x l IH]; intros st st'; cbn [evaluations]; [intros [= <-]; auto|].
  unfold evaluate. destruct (respond s st (fst x) _) as [s1|] eqn:E; [|discriminate]. intros H I F.
  destruct (respond_flags _ _ _ _ _ E I F) as [I1 F1]. exact (IH s1 st' H I1 F1).
Qed.

Lemma restart_continues s file0 file l1 st l2 st1 :
  derivative_time s = 0 -> ignore_restart s = false -> size_ok s ->
  evaluations s (fst (restartVars s (dinit s) file0)) l1 = Some st ->
  evaluations s (fst (restartVars s st file)) l2 = Some st1 ->
  exists st2, evaluations s (fst (restartVars s (dinit s) (snd (restartVars s st file)))) l2 = Some st2 /\ control st2 = control st1.
Proof.
  intros D I Hs E1 E2.
  destruct (evaluations_flags s l1 _ _ E1) as [In Fi]; [unfold restartVars; rewrite I; reflexivity..|].
  assert (E : fst (restartVars s st file) = st) by (unfold restartVars; rewrite In; reflexivity).
  rewrite E in E2. apply (evaluations_alike s l2 D Hs st _ [] st1); [| |exact E2].
  - unfold restartVars. cbn [dinit initialise]. rewrite In, I. cbn [negb andb fst snd]. unfold alike, or_else. cbn. rewrite Fi. repeat split.
  - unfold restartVars. cbn [dinit initialise]. rewrite I. split; reflexivity.
Qed.

(** With a derivative term the buffers matter: they are not in the restart file. *)
Lemma single_sample x y : calculateGradient [x] [y] = Some 0.
Proof. apply (zero_when_times_coincide [(x, y)]); [discriminate|]. exists x. intros p [<-|[]]. reflexivity. Qed.
Lemma two_samples : calculateGradient [1; 2] [1; 2] = Some 1.
Proof.
  apply (exact_on_line [(1, 1); (2, 2)] 0 1); [discriminate| |].
  - intros [t H]. pose proof (H (1, 1) (or_introl eq_refl)). pose proof (H (2, 2) (or_intror (or_introl eq_refl))). cbn [fst] in *. lra.
  - intros p [<-|[<-|[]]]; cbn [fst snd]; lra.
Qed.
Lemma three_samples : calculateGradient [1; 2; 3] [1; 2; 3] = Some 1.
Proof.
  apply (exact_on_line [(1, 1); (2, 2); (3, 3)] 0 1); [discriminate| |].
  - intros [t H]. pose proof (H (1, 1) (or_introl eq_refl)). pose proof (H (2, 2) (or_intror (or_introl eq_refl))). cbn [fst] in *. lra.
  - intros p [<-|[<-|[<-|[]]]]; cbn [fst snd]; lra.
Qed.

(** The update of the eager controller in velocity form, with or without derivative term. *)
Lemma eager_step dt c pc i pt pe pd n ini t e tb eb d :
  0 <= t -> pt <= t -> (length tb < 10)%nat -> calculateGradient (tb ++ [t]) (eb ++ [e]) = Some d ->
  exists i' n', respond (eager 10 None dt true) (mkDstate c pc i pt pe pd n ini false tb eb) t e
  = let c' := pc + (1 * 1 * (e - pe) + 1 * 1 * 0 * e + 1 * 1 * dt * (d - pd)) in
    Some (mkDstate c' c' i' t e d n' ini false (tb ++ [t]) (eb ++ [e])).
Proof.
  intros H1 H2 H3 H4. unfold respond. rewrite eager_reevaluate by assumption. cbn [time_buffer error_buffer].
  change (buffer_size (eager 10 None dt true)) with 10%Z.
  assert (B : buffer_full (length tb) 10 = false).
  { unfold buffer_full. replace (10 mod 2 ^ 64)%Z with 10%Z by reflexivity. destruct (Z.leb_spec 10 (Z.of_nat (length tb))); [lia|reflexivity]. }
  rewrite B. unfold push. rewrite H4.
  unfold new_control, limit_control. cbn [eager velocity_form integral_time over_time first_step previous_control previous_time previous_error previous_derivative
    response_sign gain derivative_time minval maxval error_integral number_of_crossings initialise].
  eexists. eexists. reflexivity.
Qed.

Lemma restart_loses_derivative : exists s l1 st l2 st1 st2,
  ignore_restart s = false /\ size_ok s /\
  evaluations s (fst (restartVars s (dinit s) no_dfile)) l1 = Some st /\
  evaluations s (fst (restartVars s st no_dfile)) l2 = Some st1 /\
  evaluations s (fst (restartVars s (dinit s) (snd (restartVars s st no_dfile)))) l2 = Some st2 /\ control st2 <> control st1.
Proof.
  set (s := eager 10 None 1 true).
  assert (L1 : exists c i n, evaluations s (fst (restartVars s (dinit s) no_dfile)) [(1, -1); (2, -2)]
    = Some (mkDstate c c i 2 2 1 n false false [1; 2] [1; 2])).
  { unfold restartVars. cbn [dinit initialise ignore_restart s eager negb andb fst]. cbn [evaluations]. unfold evaluate. cbn [fst snd].
    change (setpoint s) with 0. replace (0 - -1) with 1 by lra. replace (0 - -2) with 2 by lra.
    cbn [dinit no_dfile f_control f_previous_control f_error_integral f_previous_time f_previous_error f_previous_derivative f_crossings or_else
      control previous_control error_integral previous_time previous_error previous_derivative number_of_crossings time_buffer error_buffer].
    match goal with |- context [respond s (mkDstate ?c ?pc ?i ?pt ?pe ?pd ?n ?ini false ?tb ?eb) ?t ?e] =>
      destruct (eager_step 1 c pc i pt pe pd n ini t e tb eb 0) as (i1 & n1 & E1) end;
      [lra|lra|cbn; lia|apply single_sample|]. fold s in E1. rewrite E1. cbv zeta. cbn [List.app].
    match goal with |- context [respond s (mkDstate ?c ?pc ?i ?pt ?pe ?pd ?n ?ini false ?tb ?eb) ?t ?e] =>
      destruct (eager_step 1 c pc i pt pe pd n ini t e tb eb 1) as (i2 & n2 & E2) end;
      [lra|lra|cbn; lia|apply two_samples|]. fold s in E2. rewrite E2. cbv zeta. cbn [List.app].
    do 3 eexists. reflexivity. }
  destruct L1 as (c & i & n & L1). exists s, [(1, -1); (2, -2)].
  exists (mkDstate c c i 2 2 1 n false false [1; 2] [1; 2]), [(3, -3)].
  assert (A : exists st1, evaluations s (mkDstate c c i 2 2 1 n false false [1; 2] [1; 2]) [(3, -3)] = Some st1 /\ control st1 = c + 1).
  { cbn [evaluations]. unfold evaluate. cbn [fst snd]. change (setpoint s) with 0. replace (0 - -3) with 3 by lra.
    destruct (eager_step 1 c c i 2 2 1 n false 3 3 [1; 2] [1; 2] 1) as (i2 & n2 & E2); [lra|lra|cbn; lia|apply three_samples|].
    fold s in E2. rewrite E2. cbv zeta. eexists. split; [reflexivity|]. cbn [control]. lra. }
  assert (B : exists st2, evaluations s (mkDstate c c i 2 2 1 n false false [] []) [(3, -3)] = Some st2 /\ control st2 = c).
  { cbn [evaluations]. unfold evaluate. cbn [fst snd]. change (setpoint s) with 0. replace (0 - -3) with 3 by lra.
    destruct (eager_step 1 c c i 2 2 1 n false 3 3 [] [] 0) as (i2 & n2 & E2); [lra|lra|cbn; lia|apply single_sample|].
    fold s in E2. rewrite E2. cbv zeta. eexists. split; [reflexivity|]. cbn [control]. lra. }
  destruct A as (st1 & A & Ac), B as (st2 & B & Bc). exists st1, st2.
  split; [reflexivity|]. split; [split; cbn; lia|]. split; [exact L1|]. split; [exact A|]. split; [exact B|]. lra.
Qed.

(** The call of restartVars on a fresh run switches off the treatment of the first step. *)
Lemma fresh_run_kick : exists s t x st1 st2,
  evaluate s (dinit s) (t, x) = Some st1 /\ evaluate s (fst (restartVars s (dinit s) no_dfile)) (t, x) = Some st2 /\
  control st1 = initial_control s /\ control st2 <> initial_control s.
Proof.
  set (s := eager 10 None 0 true). exists s, 1, (-1).
  assert (A : exists st1, evaluate s (dinit s) (1, -1) = Some st1 /\ control st1 = 1).
  { unfold evaluate, respond. unfold s at 1. cbn [fst snd]. rewrite eager_reevaluate by (cbn [dinit previous_time]; lra). fold s.
    change (buffer_size s) with 10%Z. cbn [dinit time_buffer error_buffer length]. change (buffer_full 0 10) with false. unfold push. cbn [List.app].
    rewrite single_sample. unfold new_control, limit_control.
    cbn [dinit s eager velocity_form integral_time over_time first_step previous_control previous_time previous_error previous_derivative
      response_sign gain derivative_time minval maxval error_integral number_of_crossings initialise initial_control].
    eexists. split; [reflexivity|]. cbn [control]. lra. }
  assert (B : exists st2, evaluate s (fst (restartVars s (dinit s) no_dfile)) (1, -1) = Some st2 /\ control st2 = 2).
  { unfold restartVars. cbn [dinit initialise ignore_restart s eager negb andb fst]. unfold evaluate. cbn [fst snd].
    change (setpoint s) with 0. replace (0 - -1) with 1 by lra.
    cbn [dinit no_dfile f_control f_previous_control f_error_integral f_previous_time f_previous_error f_previous_derivative f_crossings or_else
      control previous_control error_integral previous_time previous_error previous_derivative number_of_crossings time_buffer error_buffer].
    match goal with |- context [respond s (mkDstate ?c ?pc ?i ?pt ?pe ?pd ?n ?ini false ?tb ?eb) ?t ?e] =>
      destruct (eager_step 0 c pc i pt pe pd n ini t e tb eb 0) as (i1 & n1 & E1) end;
      [lra|lra|cbn; lia|apply single_sample|]. fold s in E1. rewrite E1. cbv zeta. eexists. split; [reflexivity|]. cbn [control]. change (initial_control s) with 1. lra. }
  destruct A as (st1 & A & Ac), B as (st2 & B & Bc). exists st1, st2. split; [exact A|]. split; [exact B|]. cbn [initial_control s eager]. lra.
Qed.

(** ** PI controllers *)

Lemma pi_step_integral s st t e : integral_positive s = false -> 0 <= p_lasttime st <= t ->
  p_integral (pi_step s st t e) = p_integral st + (t - p_lasttime st) / 2 * (p_last st + e) /\
  p_lasttime (pi_step s st t e) = t /\ p_last (pi_step s st t e) = e.
Proof.
  intros I [H1 H2]. unfold pi_step. rewrite (Rltb_false (p_lasttime st) 0) by exact H1. cbn [p_integral p_lasttime p_last].
  rewrite I, andb_false_r. split; [|split; reflexivity]. unfold Rltb. destruct (Rlt_dec (p_lasttime st) t); [lra|].
  replace (p_lasttime st) with t by lra. lra.
Qed.

Lemma pi_run_integral s h : integral_positive s = false -> forall st, 0 <= p_lasttime st -> times_increase ((p_lasttime st, p_last st) :: h) ->
  p_integral (pi_run s st h) = p_integral st + trapezium ((p_lasttime st, p_last st) :: h).
Proof.
  intros I. induction h as [|[t e] h IH]; intros st H0 Ht; [cbn; lra|].
  cbn [times_increase] in Ht. destruct Ht as [Ht1 Ht2]. change (pi_run s st ((t, e) :: h)) with (pi_run s (pi_step s st t e) h).
  destruct (pi_step_integral s st t e I (conj H0 Ht1)) as (E1 & E2 & E3).
  rewrite IH; rewrite ?E2, ?E3; [|lra|exact Ht2]. rewrite E1. change (trapezium ((p_lasttime st, p_last st) :: (t, e) :: h))
    with ((t - p_lasttime st) / 2 * (p_last st + e) + trapezium ((t, e) :: h)). lra.
Qed.

Lemma pi_trapezium s I0 h : integral_positive s = false -> times_increase h -> (forall t e r, h = (t, e) :: r -> 0 <= t) ->
  p_integral (pi_run s (mkPstate I0 (-1) 0 None) h) = I0 + trapezium h.
Proof.
  intros I Ht H0. destruct h as [|[t e] h]; [cbn; lra|]. specialize (H0 t e h eq_refl).
  change (pi_run s (mkPstate I0 (-1) 0 None) ((t, e) :: h)) with (pi_run s (pi_step s (mkPstate I0 (-1) 0 None) t e) h).
  assert (E : p_integral (pi_step s (mkPstate I0 (-1) 0 None) t e) = I0).
  { unfold pi_step. cbn [p_integral p_lasttime]. rewrite (Rltb_true (-1) 0) by lra. cbn [p_integral]. rewrite I, andb_false_r.
    rewrite (Rltb_false t t) by lra. reflexivity. }
  assert (E2 : p_lasttime (pi_step s (mkPstate I0 (-1) 0 None) t e) = t /\ p_last (pi_step s (mkPstate I0 (-1) 0 None) t e) = e).
  { unfold pi_step. cbn [p_integral p_lasttime]. destruct (Rltb (-1) 0); split; reflexivity. }
  destruct E2 as [E2 E3]. rewrite pi_run_integral; rewrite ?E2, ?E3; [|exact I|exact H0|exact Ht]. rewrite E. reflexivity.
Qed.

Lemma pi_repeat s st t e1 e2 : 0 <= t -> p_integral (pi_step s (pi_step s st t e1) t e2) = p_integral (pi_step s st t e1).
Proof.
  intros H. set (st1 := pi_step s st t e1).
  assert (T : p_lasttime st1 = t) by (unfold st1, pi_step; destruct (Rltb (p_lasttime st) 0); reflexivity).
  assert (P : integral_positive s = true -> 0 <= p_integral st1).
  { intros I. unfold st1, pi_step. rewrite I. destruct (Rltb (p_lasttime st) 0); cbn [p_integral]; match goal with |- context [Rltb ?x 0 && true] =>
      generalize x end; intros x; rewrite andb_true_r; unfold Rltb; destruct (Rlt_dec x 0); lra. }
  clearbody st1. unfold pi_step. rewrite T. rewrite (Rltb_false t 0) by exact H. cbn [p_integral].
  rewrite !(Rltb_false t t) by lra. destruct (integral_positive s); [|rewrite andb_false_r; reflexivity].
  rewrite andb_true_r. specialize (P eq_refl). unfold Rltb. destruct (Rlt_dec (p_integral st1) 0); [lra|reflexivity].
Qed.

Lemma pi_positive s st t e :
  (integral_positive s = true -> 0 <= p_integral (pi_step s st t e)) /\
  (source_positive s = true -> exists x, p_multiplier (pi_step s st t e) = Some x /\ 0 <= x).
Proof.
  unfold pi_step. destruct (if Rltb (p_lasttime st) 0 then _ else _) as [lt la]. cbn [p_integral p_multiplier]. cbv zeta. split; intros I; rewrite I.
  - match goal with |- context [Rltb ?x 0 && true] => generalize x end. intros x. rewrite andb_true_r. unfold Rltb. destruct (Rlt_dec x 0); lra.
  - eexists. split; [reflexivity|]. match goal with |- context [Rltb ?x 0 && true] => generalize x end. intros x. rewrite andb_true_r. unfold Rltb.
    destruct (Rlt_dec x 0); lra.
Qed.

(** Times as from an adaptive integrator: a step back counts an interval twice. *)
Lemma step_back_counts_twice :
  p_integral (pi_run (mkPsettings 1 1 false false) pinit [(0, 1); (1, 1); (/ 2, 1); (1, 1)]) = 3 / 2.
Proof.
  set (s := mkPsettings 1 1 false false). unfold pi_run. cbn [fold_left fst snd].
  assert (E1 : pi_step s pinit 0 1 = mkPstate 0 0 1 (p_multiplier (pi_step s pinit 0 1))).
  { unfold pi_step, pinit. cbn [p_lasttime p_integral p_last]. rewrite (Rltb_true (-1) 0), (Rltb_false 0 0) by lra. cbn [s integral_positive source_positive p_multiplier andb].
    rewrite ?andb_false_r. reflexivity. }
  rewrite E1. generalize (p_multiplier (pi_step s pinit 0 1)). intros m1. clear E1.
  destruct (pi_step_integral s (mkPstate 0 0 1 m1) 1 1 eq_refl) as (I2 & T2 & L2); [cbn [p_lasttime]; lra|].
  set (st2 := pi_step s (mkPstate 0 0 1 m1) 1 1) in *. clearbody st2. cbn [p_integral p_lasttime p_last] in I2.
  assert (E3 : p_integral (pi_step s st2 (/ 2) 1) = p_integral st2 /\ p_lasttime (pi_step s st2 (/ 2) 1) = / 2 /\ p_last (pi_step s st2 (/ 2) 1) = 1).
  { unfold pi_step. rewrite T2. rewrite (Rltb_false 1 0), (Rltb_false 1 (/ 2)) by lra. cbn [s integral_positive p_integral p_lasttime p_last]. rewrite andb_false_r. auto. }
  destruct E3 as (I3 & T3 & L3). set (st3 := pi_step s st2 (/ 2) 1) in *. clearbody st3.
  destruct (pi_step_integral s st3 1 1 eq_refl) as (I4 & _ & _); [rewrite T3; lra|].
  rewrite I4, I3, I2, T3, L3. lra.
Qed.

(** All processors apply the source multiplier of the one that holds the upstream end. *)
Lemma broadcast_agrees s root time procs lower error st :
  nth_error procs root = Some (lower, error, st) -> lower = true ->
  exists x, p_multiplier (pi_step s st time error) = Some x /\ List.Forall (fun st' => p_multiplier st' = Some x) (pi_all s root time procs) /\
    length (pi_all s root time procs) = length procs.
Proof.
  intros H L. assert (M : exists x, p_multiplier (pi_step s st time error) = Some x).
  { unfold pi_step. destruct (if Rltb (p_lasttime st) 0 then _ else _). eexists. reflexivity. }
  destruct M as [x M]. exists x. split; [exact M|]. split.
  - unfold pi_all, broadcast. rewrite nth_error_map, H. subst lower. cbn [option_map pi_local]. rewrite M. apply List.Forall_forall. intros y Hy.
    apply in_map_iff in Hy. destruct Hy as (z & <- & _). reflexivity.
  - unfold pi_all, broadcast. rewrite !map_length. reflexivity.
Qed.

Lemma target_temperature_unset s time e1 e2 :
  List.Forall (fun st => p_multiplier st = None) (pi_all s (temperature_root true 2) time [(true, e1, pinit); (false, e2, pinit)]).
Proof. unfold pi_all, broadcast. cbn. repeat constructor. Qed.

(** The energy source goes with the particle source: the new particles are at rest, so that the kinetic energy falls as the density
    rises at given momentum, and the internal energy takes it up. *)
Lemma feedback_energy multiplier shape Mi n V e :
  0 < n -> 0 < Mi ->
  let (Sn, Se) := feedback_sources multiplier shape (Some (V, Mi)) in
  is_derive (fun t => total_energy Mi (n + t * Sn) (Mi * n * V) (e + t * Se)) 0 0.
Proof.
  intros Hn Hm. unfold feedback_sources, total_energy. replace 0.5 with (/ 2) by lra.
  set (S := multiplier * shape). replace (/ 2 * Mi * (V * V) * multiplier * shape) with (/ 2 * Mi * (V * V) * S) by (unfold S; ring). clearbody S.
  auto_derive.
  - rewrite Rmult_0_l, Rplus_0_r. apply Rgt_not_eq, Rmult_lt_0_compat; lra.
  - field. lra.
Qed.

(** ** Restart of the PI controllers *)

Lemma one_instance name I st : restart_all true [(name, I)] [(name, st)]
  = (false, [(name, mkPstate I (p_lasttime st) (p_last st) (p_multiplier st))], [(name, I); (name, I)]).
Proof. unfold restart_all, restart_one. cbn [lookup]. rewrite String.eqb_refl. reflexivity. Qed.

Lemma second_instance_lost n1 n2 I1 I2 : String.eqb n1 n2 = false ->
  let '(_, l, _) := restart_all true [(n1, I1); (n2, I2)] [(n1, pinit); (n2, pinit)] in
  map (fun x => p_integral (snd x)) l = [I1; 0].
Proof.
  intros H. unfold restart_all, restart_one. cbn [lookup]. rewrite String.eqb_refl. reflexivity.
Qed.
