From Coq Require Import List Bool Ascii Arith Lia.
From Verif Require Import OptionsModel OptionsSpec OptionsProofs StrModel SchedulerModel SchedulerSpec.
Import ListNotations.

(** ** Strings *)
Lemma pieces_nonempty d s : pieces d s <> [].
Proof.
  destruct s as [|c s]; cbn; [discriminate|].
  destruct (Ascii.eqb c d); [discriminate|]. destruct (pieces d s); discriminate.
Qed.

Lemma pieces_join d s : join d (pieces d s) = s.
Proof.
  induction s as [|c s IH]; [reflexivity|]. cbn [pieces].
  pose proof (pieces_nonempty d s) as N.
  destruct (Ascii.eqb_spec c d) as [->|E].
  - destruct (pieces d s) as [|p ps] eqn:Q; [contradiction|].
    cbn [join] in *. cbn. f_equal. exact IH.
  - destruct (pieces d s) as [|p ps] eqn:Q; [contradiction|].
    destruct ps as [|p' ps']; cbn [join] in *; rewrite <- IH; reflexivity.
Qed.

Lemma pieces_nodelim d s f : In f (pieces d s) -> ~ In d f.
Proof.
  revert f. induction s as [|c s IH]; intros f H.
  - cbn in H. destruct H as [<-|[]]. auto.
  - cbn [pieces] in H. destruct (Ascii.eqb_spec c d) as [->|E].
    + destruct H as [<-|H]; [auto | apply IH; exact H].
    + destruct (pieces d s) as [|p ps] eqn:Q.
      * destruct H as [<-|[]]. intros [H|[]]. congruence.
      * destruct H as [<-|H].
        -- intros [H|H]; [congruence|]. revert H. apply IH. left; reflexivity.
        -- apply IH. right; exact H.
Qed.

Lemma pieces_field d f s : ~ In d f -> pieces d (f ++ d :: s) = f :: pieces d s.
Proof.
  intros N. induction f as [|c f IH]; cbn [app pieces].
  - rewrite Ascii.eqb_refl. reflexivity.
  - destruct (Ascii.eqb_spec c d) as [->|E]; [exfalso; apply N; left; reflexivity|].
    rewrite IH by (intros H; apply N; right; exact H). reflexivity.
Qed.

Lemma pieces_last d f : ~ In d f -> pieces d f = [f].
Proof.
  intros N. induction f as [|c f IH]; cbn [pieces]; [reflexivity|].
  destruct (Ascii.eqb_spec c d) as [->|E]; [exfalso; apply N; left; reflexivity|].
  rewrite IH by (intros H; apply N; right; exact H). reflexivity.
Qed.

Lemma pieces_unique d fs :
  fs <> [] -> (forall f, In f fs -> ~ In d f) -> pieces d (join d fs) = fs.
Proof.
  induction fs as [|f fs IH]; intros Hne Hd; [congruence|].
  destruct fs as [|f' fs'].
  - cbn [join]. apply pieces_last. apply Hd. left; reflexivity.
  - cbn [join]. rewrite pieces_field by (apply Hd; left; reflexivity).
    f_equal. apply IH; [discriminate|]. intros x Hx. apply Hd. right; exact Hx.
Qed.

Lemma mem_char_In c cs : mem_char c cs = true <-> In c cs.
Proof.
  unfold mem_char. rewrite existsb_exists. split.
  - intros (x & Hx & E). apply Ascii.eqb_eq in E. subst; exact Hx.
  - intros H. exists c. split; [exact H | apply Ascii.eqb_refl].
Qed.

Lemma trim_left_spec cs s :
  exists b, s = b ++ trim_left cs s /\ (forall c, In c b -> In c cs) /\
            (forall c t, trim_left cs s = c :: t -> ~ In c cs).
Proof.
  induction s as [|c s IH]; cbn [trim_left].
  - exists []. split; [reflexivity|]. split; [intros c [] | intros c t H; discriminate H].
  - destruct (mem_char c cs) eqn:E.
    + destruct IH as (b & H1 & H2 & H3). exists (c :: b). cbn. repeat split.
      * f_equal. exact H1.
      * intros x [<-|Hx]; [apply mem_char_In; exact E | apply H2; exact Hx].
      * exact H3.
    + exists []. split; [reflexivity|]. split; [intros x []|].
      intros x t H. injection H as <- <-. intros Hin. apply mem_char_In in Hin. congruence.
Qed.

Lemma trim_right_spec cs s :
  exists a, s = trim_right cs s ++ a /\ (forall c, In c a -> In c cs) /\
            (forall c t, trim_right cs s = t ++ [c] -> ~ In c cs).
Proof.
  unfold trim_right. destruct (trim_left_spec cs (rev s)) as (b & H1 & H2 & H3).
  exists (rev b). repeat split.
  - rewrite <- rev_app_distr, <- H1, rev_involutive. reflexivity.
  - intros c Hc. apply H2. apply in_rev. exact Hc.
  - intros c t H. apply (H3 c (rev t)).
    rewrite <- (rev_involutive (trim_left cs (rev s))), H, rev_app_distr. reflexivity.
Qed.

Lemma trim_stripped cs f : stripped cs f (trim cs f).
Proof.
  unfold trim. destruct (trim_right_spec cs f) as (a & A1 & A2 & A3).
  destruct (trim_left_spec cs (trim_right cs f)) as (b & B1 & B2 & B3).
  exists b, a. repeat split; auto.
  - rewrite app_assoc, <- B1. exact A1.
  - intros c t H. apply (A3 c (b ++ t)). rewrite B1 at 1. rewrite H. rewrite app_assoc. reflexivity.
Qed.

(** Stripping is unique. *)
Lemma trim_left_app cs b s :
  (forall c, In c b -> In c cs) -> trim_left cs (b ++ s) = trim_left cs s.
Proof.
  induction b as [|c b IH]; intros H; [reflexivity|]. cbn.
  assert (mem_char c cs = true) as -> by (apply mem_char_In; apply H; left; reflexivity).
  apply IH. intros x Hx. apply H. right; exact Hx.
Qed.

Lemma trim_left_id cs s : (forall c t, s = c :: t -> ~ In c cs) -> trim_left cs s = s.
Proof.
  destruct s as [|c s]; intros H; [reflexivity|]. cbn.
  destruct (mem_char c cs) eqn:E; [|reflexivity].
  apply mem_char_In in E. exfalso. apply (H c s eq_refl E).
Qed.

Lemma trim_right_app cs a s :
  (forall c, In c a -> In c cs) -> trim_right cs (s ++ a) = trim_right cs s.
Proof.
  intros H. unfold trim_right. rewrite rev_app_distr, trim_left_app; [reflexivity|].
  intros c Hc. apply H. apply in_rev. exact Hc.
Qed.

Lemma trim_right_id cs s : (forall c t, s = t ++ [c] -> ~ In c cs) -> trim_right cs s = s.
Proof.
  intros H. unfold trim_right. rewrite trim_left_id; [apply rev_involutive|].
  intros c t E. apply (H c (rev t)). rewrite <- (rev_involutive s), E. reflexivity.
Qed.

Lemma stripped_trim cs f t : stripped cs f t -> trim cs f = t.
Proof.
  intros (b & a & H1 & H2 & H3 & H4 & H5). subst f. unfold trim.
  rewrite app_assoc, trim_right_app by exact H3.
  destruct t as [|c t].
  - rewrite app_nil_r.
    (* everything ignorable *)
    assert (trim_left cs (trim_right cs b) = []) as ->; [|reflexivity].
    destruct (trim_right_spec cs b) as (a' & A1 & A2 & _).
    assert (forall x, In x (trim_right cs b) -> In x cs) as HH.
    { intros x Hx. apply H2. rewrite A1. apply in_or_app. left; exact Hx. }
    rewrite <- (app_nil_r (trim_right cs b)). rewrite trim_left_app by exact HH. reflexivity.
  - rewrite trim_right_id.
    + rewrite trim_left_app by exact H2. apply trim_left_id. exact H4.
    + intros x u E.
      destruct (@exists_last _ (c :: t) ltac:(discriminate)) as (w & y & Hw).
      rewrite Hw in E. rewrite app_assoc in E. apply app_inj_tail in E. destruct E as [_ E].
      rewrite <- E. apply (H5 y w). exact Hw.
Qed.

Definition nonempty (n : str) : bool := match n with [] => false | _ => true end.

Lemma drop_last_empty_filter cs l :
  filter nonempty (map (trim cs) (drop_last_empty l)) = filter nonempty (map (trim cs) l).
Proof.
  induction l as [|p l IH]; [reflexivity|].
  destruct l as [|p' l'].
  - destruct p; reflexivity.
  - change (drop_last_empty (p :: p' :: l')) with (p :: drop_last_empty (p' :: l')).
    cbn [map filter]. rewrite IH. reflexivity.
Qed.

Lemma list_items_pieces s :
  list_items s = filter nonempty (map (trim trim_chars) (pieces comma s)).
Proof.
  unfold list_items, strsplit. rewrite <- (drop_last_empty_filter _ (pieces comma s)).
  apply filter_ext. intros [|a n]; reflexivity.
Qed.

Lemma list_items_listed s : names_listed s (list_items s).
Proof.
  exists (pieces comma s), (map (trim trim_chars) (pieces comma s)).
  split; [apply pieces_nonempty|]. split; [symmetry; apply pieces_join|].
  split; [apply pieces_nodelim|]. split.
  - induction (pieces comma s) as [|p ps IH]; constructor; [apply trim_stripped | exact IH].
  - apply list_items_pieces.
Qed.

Lemma names_listed_unique s names : names_listed s names -> names = list_items s.
Proof.
  intros (fs & ts & Hne & Hs & Hd & HF & Hn). rewrite list_items_pieces.
  rewrite Hs, pieces_unique by assumption. subst names. clear Hs Hne Hd.
  unfold nonempty. f_equal.
  induction HF as [|f t fs ts Hft HF IH]; [reflexivity|]. cbn. f_equal; [|exact IH].
  symmetry. apply stripped_trim. exact Hft.
Qed.

Lemma create_types_some known name ts :
  create_types known name ts =
  if forallb known ts then Some (map (fun t => (t, name)) ts) else None.
Proof.
  induction ts as [|t ts IH]; [reflexivity|]. cbn. rewrite IH.
  destruct (known t); [|reflexivity]. cbn. destruct (forallb known ts); reflexivity.
Qed.

Lemma create_all_requested known type_opt names comps :
  create_all known type_opt names = Some comps -> components_requested type_opt names comps.
Proof.
  revert comps. induction names as [|n ns IH]; intros comps H; cbn in H.
  - injection H as <-. constructor.
  - rewrite create_types_some in H.
    destruct (forallb known (list_items (types_string type_opt n))); [|discriminate H].
    destruct (create_all known type_opt ns) as [cs'|] eqn:E; [|discriminate H].
    injection H as <-. constructor; [apply list_items_listed | apply IH; reflexivity].
Qed.

Lemma requested_unique type_opt names a b :
  components_requested type_opt names a -> components_requested type_opt names b -> a = b.
Proof.
  intros Ha. revert b. induction Ha as [|name types names comps H1 H2 IH]; intros b Hb.
  - inversion Hb; reflexivity.
  - inversion Hb as [|name' types' names' comps' H1' H2']; subst.
    rewrite (IH _ H2'). rewrite (names_listed_unique _ _ H1), (names_listed_unique _ _ H1').
    reflexivity.
Qed.

Lemma create_all_none known type_opt names comps :
  components_requested type_opt names comps ->
  (create_all known type_opt names = None <-> exists t n, In (t, n) comps /\ known t = false).
Proof.
  induction 1 as [|name types names comps H1 H2 IH].
  - cbn. split; [discriminate | intros (t & n & [] & _)].
  - cbn [create_all]. rewrite create_types_some.
    pose proof (names_listed_unique _ _ H1) as E.
    change (match type_opt name with Some t => t | None => name end)
      with (types_string type_opt name) in E. rewrite <- E.
    destruct (forallb known types) eqn:F.
    + destruct (create_all known type_opt names) as [cs|] eqn:Q.
      * split; [discriminate|]. intros (t & n & Hin & Hk).
        apply in_app_or in Hin. destruct Hin as [Hin|Hin].
        -- apply in_map_iff in Hin. destruct Hin as (t' & Ht & Hin). injection Ht as <- <-.
           rewrite forallb_forall in F. rewrite (F _ Hin) in Hk. discriminate.
        -- destruct IH as [_ IH]. specialize (IH (ex_intro _ t (ex_intro _ n (conj Hin Hk)))).
           discriminate IH.
      * split; [intros _|reflexivity]. destruct IH as [IH _].
        destruct (IH eq_refl) as (t & n & Hin & Hk). exists t, n. split; [|exact Hk].
        apply in_or_app. right; exact Hin.
    + split; [intros _|reflexivity].
      assert (exists t, In t types /\ known t = false) as (t & Ht & Hk).
      { clear -F. induction types as [|t ts IH]; [discriminate F|]. cbn in F.
        destruct (known t) eqn:K; [|exists t; split; [left; reflexivity | exact K]].
        destruct (IH F) as (u & Hu & Hk). exists u. split; [right; exact Hu | exact Hk]. }
      exists t, name. split; [|exact Hk]. apply in_or_app. left.
      apply in_map_iff. exists t. auto.
Qed.

Lemma list_items_nonempty s n : In n (list_items s) -> n <> [].
Proof.
  unfold list_items. intros H. apply filter_In in H. destruct H as [_ H].
  destruct n; [discriminate H | discriminate].
Qed.

Lemma create_all_nonempty known type_opt names comps :
  (forall n, In n names -> n <> []) ->
  create_all known type_opt names = Some comps ->
  forall t n, In (t, n) comps -> t <> [] /\ n <> [].
Proof.
  revert comps. induction names as [|nm ns IH]; intros comps Hn H t n Hin; cbn in H.
  - injection H as <-. destruct Hin.
  - rewrite create_types_some in H.
    destruct (forallb known (list_items (types_string type_opt nm))); [|discriminate H].
    destruct (create_all known type_opt ns) as [cs'|] eqn:E; [|discriminate H].
    injection H as <-. apply in_app_or in Hin. destruct Hin as [Hin|Hin].
    + apply in_map_iff in Hin. destruct Hin as (t' & Ht & Hin). injection Ht as <- <-.
      split; [apply (list_items_nonempty _ _ Hin) | apply Hn; left; reflexivity].
    + apply (IH cs' (fun x Hx => Hn x (or_intror Hx)) eq_refl t n Hin).
Qed.

Lemma C06_lemma known type_opt text :
  exists names comps,
    names_listed text names /\ components_requested type_opt names comps /\
    (construct known type_opt text = Some comps \/
     construct known type_opt text = None /\ exists t n, In (t, n) comps /\ known t = false) /\
    (forall t n, In (t, n) comps -> t <> [] /\ n <> []).
Proof.
  exists (list_items text).
  (* the requested list always exists: take every type as known *)
  assert (forall names, exists comps, create_all (fun _ => true) type_opt names = Some comps) as Hall.
  { induction names as [|n ns [cs IH]]; cbn; [eexists; reflexivity|].
    rewrite create_types_some.
    assert (forallb (fun _ : str => true) (list_items (types_string type_opt n)) = true) as ->
      by (apply forallb_forall; reflexivity).
    rewrite IH. eexists; reflexivity. }
  destruct (Hall (list_items text)) as [comps Hc].
  exists comps. pose proof (create_all_requested _ _ _ _ Hc) as Hr.
  split; [apply list_items_listed|]. split; [exact Hr|]. split.
  - unfold construct. destruct (create_all known type_opt (list_items text)) as [cs|] eqn:E.
    + left. f_equal. apply create_all_requested in E. apply (requested_unique _ _ _ _ E Hr).
    + right. split; [reflexivity|]. apply (create_all_none known _ _ _ Hr). exact E.
  - apply (create_all_nonempty _ _ _ _ (list_items_nonempty text) Hc).
Qed.

Lemma C06_roundtrip names pads :
  (* names without commas, not starting or ending with an ignorable character, padded *)
  names <> [] ->
  Forall2 (fun n p => n <> [] /\ stripped trim_chars p n /\ ~ In comma p) names pads ->
  list_items (join comma pads) = names.
Proof.
  intros Hne HF. symmetry. apply names_listed_unique.
  exists pads, names. split; [|split; [reflexivity|split; [|split]]].
  - intros ->. inversion HF; subst. congruence.
  - intros f Hf. clear Hne. induction HF as [|n p ns ps (A & B & C) HF IH]; [destruct Hf|].
    destruct Hf as [<-|Hf]; [exact C | apply IH; exact Hf].
  - clear Hne. induction HF as [|n p ns ps (A & B & C) HF IH]; constructor; auto.
  - clear Hne. induction HF as [|n p ns ps (A & B & C) HF IH]; [reflexivity|].
    cbn. destruct n; [congruence|]. f_equal. exact IH.
Qed.

(** ** Execution order *)
Section Exec.
  Variables (V ty : Type) (cast : ty -> V -> option V)
            (vadd vsub : V -> V -> V) (vneg : V -> V) (invalid : V -> bool)
            (key : Type) (key_eqb : key -> key -> bool).
  Hypothesis key_eqb_spec : forall a b, key_eqb a b = true <-> a = b.
  Variable I : Type.
  Notation exec := (exec cast vadd vsub vneg invalid key_eqb).
  Notation loop := (@loop V ty cast vadd vsub vneg invalid key key_eqb I).
  Notation component := (component V ty key I).
  Notation scheduler_transform := (@scheduler_transform V ty cast vadd vsub vneg invalid key key_eqb I).

  Lemma loop_events meth ev cs :
    forall n s s' cs' vs ok, loop meth ev n cs s = (s', cs', vs, ok) ->
    length cs' = length cs /\
    (if ok then map v_event vs = map ev (seq n (length cs))
     else exists m, 0 < m <= length cs /\ map v_event vs = map ev (seq n m)).
  Proof.
    induction cs as [|[c d] cs IH]; intros n s s' cs' vs ok H; cbn in H.
    - injection H as <- <- <- <-. cbn. auto.
    - destruct (exec s (meth c d)) as [[s1 calls] r].
      destruct r as [d1|].
      + destruct (loop meth ev (S n) cs s1) as [[[s2 ds] vs2] ok2] eqn:E.
        injection H as <- <- <- <-. destruct (IH _ _ _ _ _ _ E) as [L Q].
        split; [cbn; rewrite L; reflexivity|]. destruct ok2.
        * cbn. rewrite Q. reflexivity.
        * destruct Q as (m & Hm & Q). exists (S m). cbn. rewrite Q. split; [lia|reflexivity].
      + injection H as <- <- <- <-. split; [reflexivity|].
        exists 1. cbn. split; [lia|reflexivity].
  Qed.

  Lemma firstn_map_seq (f : nat -> event) n m k :
    m <= k -> firstn m (map f (seq n k)) = map f (seq n m).
  Proof.
    revert n k. induction m as [|m IH]; intros n k H; [reflexivity|].
    destruct k as [|k]; [lia|]. cbn. f_equal. apply IH. lia.
  Qed.

  Lemma C05_order_lemma cs s s' cs' vs ok :
    scheduler_transform cs s = (s', cs', vs, ok) ->
    (ok = true -> map v_event vs = expected_order (length cs)) /\
    (ok = false -> exists m, 0 < m /\ m <= 2 * length cs /\
                    map v_event vs = firstn m (expected_order (length cs))).
  Proof.
    unfold SchedulerModel.scheduler_transform. intros H.
    destruct (loop transform ETransform 0 cs s) as [[[s1 cs1] vs1] ok1] eqn:E1.
    destruct (loop_events _ _ _ _ _ _ _ _ _ E1) as [L1 Q1].
    destruct ok1.
    - destruct (loop finally EFinally 0 cs1 s1) as [[[s2 cs2] vs2] ok2] eqn:E2.
      destruct (loop_events _ _ _ _ _ _ _ _ _ E2) as [L2 Q2]. rewrite L1 in *.
      injection H as <- <- <- <-. split; intros ->.
      + rewrite map_app, Q1, Q2. reflexivity.
      + destruct Q2 as (m & Hm & Q2). exists (length cs + m). split; [lia|]. split; [lia|].
        rewrite map_app, Q1, Q2. unfold expected_order.
        rewrite firstn_app. rewrite map_length, seq_length.
        replace (length cs + m - length cs) with m by lia.
        rewrite firstn_all2 by (rewrite map_length, seq_length; lia).
        f_equal. rewrite firstn_map_seq by lia. reflexivity.
    - injection H as <- <- <- <-. split; [discriminate|]. intros _.
      destruct Q1 as (m & Hm & Q1). exists m. split; [lia|]. split; [lia|].
      unfold expected_order. rewrite firstn_app, map_length, seq_length.
      replace (m - length cs) with 0 by lia. cbn [firstn]. rewrite app_nil_r.
      rewrite firstn_map_seq by lia. exact Q1.
  Qed.

  Lemma nonwrite_keeps e (o : op V ty) :
    ~ is_write o -> e_val (fst (step cast vadd vsub vneg invalid e o)) = e_val e.
  Proof.
    intros N. destruct o; cbn; unfold get, getNoBoundary, getNonFinal, mark_final, mark_final_dom; cbn;
      try (exfalso; apply N; exact Logic.I);
      destruct (e_val e) eqn:E; cbn; try reflexivity; try exact E;
      destruct (cast t v); cbn; congruence.
  Qed.

  Lemma read_only_exec {A} (p : prog V ty key A) :
    read_only p -> forall s s' tr r, exec s p = (s', tr, r) ->
    forall k, e_val (s' k) = e_val (s k).
  Proof.
    induction 1 as [a| |k0 o cont N HR IH]; intros s s' tr r H k; cbn in H.
    - injection H as <- <- <-. reflexivity.
    - injection H as <- <- <-. reflexivity.
    - destruct (step_at cast vadd vsub vneg invalid key_eqb s (k0, o)) as [s1 r1] eqn:E1.
      destruct (exec s1 (cont r1)) as [[s2 tr2] a2] eqn:E2. injection H as <- <- <-.
      rewrite (IH _ _ _ _ _ E2).
      destruct (key_dec key key_eqb key_eqb_spec k0 k) as [->|Nk].
      + pose proof (step_at_same V ty cast vadd vsub vneg invalid key key_eqb key_eqb_spec s k o) as Q.
        rewrite E1 in Q. cbn [fst] in Q. rewrite Q. apply nonwrite_keeps. exact N.
      + pose proof (step_at_other V ty cast vadd vsub vneg invalid key key_eqb key_eqb_spec s k0 k o Nk) as Q.
        rewrite E1 in Q. cbn [fst] in Q. rewrite Q. reflexivity.
  Qed.

  Lemma loop_read_only cs :
    (forall (c : component) d, In c (map fst cs) -> read_only (finally c d)) ->
    forall ev n s s' cs' vs ok, loop finally ev n cs s = (s', cs', vs, ok) ->
    (forall k, e_val (s' k) = e_val (s k)) /\
    (forall v k, In v vs -> e_val (v_entry v k) = e_val (s' k)).
  Proof.
    induction cs as [|[c d] cs IH]; intros HR ev n s s' cs' vs ok H; cbn in H.
    - injection H as <- <- <- <-. split; [reflexivity | intros v k []].
    - destruct (exec s (finally c d)) as [[s1 calls] r] eqn:E.
      pose proof (read_only_exec _ (HR c d (or_introl eq_refl)) _ _ _ _ E) as Q.
      destruct r as [d1|].
      + destruct (loop finally ev (S n) cs s1) as [[[s2 ds] vs2] ok2] eqn:E2.
        injection H as <- <- <- <-.
        destruct (IH (fun c' d' Hc => HR c' d' (or_intror Hc)) _ _ _ _ _ _ _ E2) as [A B].
        split; [intros k; rewrite A; apply Q|].
        intros v k [<-|Hv]; [cbn; rewrite A; symmetry; apply Q | apply B; exact Hv].
      + injection H as <- <- <- <-. split; [exact Q|].
        intros v k [<-|[]]. cbn. symmetry. apply Q.
  Qed.

  Lemma loop_comps meth ev cs :
    forall n s s' cs' vs ok, loop meth ev n cs s = (s', cs', vs, ok) ->
    map fst cs' = map fst cs.
  Proof.
    induction cs as [|[c d] cs IH]; intros n s s' cs' vs ok H; cbn in H.
    - injection H as <- <- <- <-. reflexivity.
    - destruct (exec s (meth c d)) as [[s1 calls] r]. destruct r as [d1|].
      + destruct (loop meth ev (S n) cs s1) as [[[s2 ds] vs2] ok2] eqn:E.
        injection H as <- <- <- <-. cbn. f_equal. apply (IH _ _ _ _ _ _ E).
      + injection H as <- <- <- <-. reflexivity.
  Qed.

  Lemma loop_events_in meth ev cs :
    forall n s s' cs' vs ok, loop meth ev n cs s = (s', cs', vs, ok) ->
    forall v, In v vs -> exists m, v_event v = ev m.
  Proof.
    intros n s s' cs' vs ok H v Hv.
    destruct (loop_events _ _ _ _ _ _ _ _ _ H) as [_ Q].
    assert (In (v_event v) (map v_event vs)) as Hin by (apply in_map; exact Hv).
    destruct ok.
    - rewrite Q in Hin. apply in_map_iff in Hin. destruct Hin as (m & Hm & _). exists m; congruence.
    - destruct Q as (k & _ & Q). rewrite Q in Hin.
      apply in_map_iff in Hin. destruct Hin as (m & Hm & _). exists m; congruence.
  Qed.

  Lemma C05_final_state_lemma cs s s' cs' vs ok :
    (forall (c : component) d, In c (map fst cs) -> read_only (finally c d)) ->
    scheduler_transform cs s = (s', cs', vs, ok) ->
    forall v n, In v vs -> v_event v = EFinally n ->
    forall k, e_val (v_entry v k) = e_val (s' k).
  Proof.
    intros HR H v n Hv Hev k. unfold SchedulerModel.scheduler_transform in H.
    destruct (loop transform ETransform 0 cs s) as [[[s1 cs1] vs1] ok1] eqn:E1.
    pose proof (loop_comps _ _ _ _ _ _ _ _ _ E1) as LC.
    destruct ok1.
    - destruct (loop finally EFinally 0 cs1 s1) as [[[s2 cs2] vs2] ok2] eqn:E2.
      injection H as <- <- <- <-.
      apply in_app_or in Hv. destruct Hv as [Hv|Hv].
      + destruct (loop_events_in _ _ _ _ _ _ _ _ _ E1 v Hv) as [m Hm]. congruence.
      + destruct (loop_read_only cs1) with (ev := EFinally) (n := 0) (s := s1) (s' := s2) (cs' := cs2)
          (vs := vs2) (ok := ok2) as [_ B]; auto.
        intros c d Hc. apply HR. rewrite <- LC. exact Hc.
    - injection H as <- <- <- <-.
      destruct (loop_events_in _ _ _ _ _ _ _ _ _ E1 v Hv) as [m Hm]. congruence.
  Qed.

  (** ** Evaluations *)
  Variables (k_time : key) (units : list (key * V)).
  Notation rhs := (@rhs V ty cast vadd vsub vneg invalid key key_eqb I k_time units).
  Notation rhs_sequence := (@rhs_sequence V ty cast vadd vsub vneg invalid key key_eqb I k_time units).

  Lemma rhs_indep h h' t : h_components h = h_components h' -> rhs h t = rhs h' t.
  Proof. intros E. unfold SchedulerModel.rhs. cbn. rewrite E. reflexivity. Qed.

  Lemma put_units_marks s :
    (forall k, e_final (s k) = false /\ e_final_dom (s k) = false) ->
    forall k, e_final (put_units key_eqb units s k) = false
              /\ e_final_dom (put_units key_eqb units s k) = false.
  Proof.
    unfold put_units. revert s. induction units as [|[ku vu] us IH]; intros s H k; [apply H|].
    cbn [fold_left]. apply IH. intros k'. unfold upd. cbn.
    destruct (key_eqb ku k'); [split; reflexivity | apply H].
  Qed.

  Lemma rhs_start_marks h t h' vs ok v k :
    rhs h t = (h', vs, ok) -> nth_error vs 0 = Some v ->
    e_final (v_entry v k) = false /\ e_final_dom (v_entry v k) = false.
  Proof.
    unfold SchedulerModel.rhs. cbn [h_state h_components].
    destruct (set invalid t (empty_store k_time)) as [e r] eqn:ES. 
    assert (e_final e = false /\ e_final_dom e = false) as HE.
    { unfold set, empty_store, fresh, force in ES. cbn in ES.
      destruct (invalid t); injection ES as <- <-; split; reflexivity. }
    assert (forall vs0 s0 cs0 ok0 s1,
               scheduler_transform (h_components h) s1 = (s0, cs0, vs0, ok0) ->
               nth_error vs0 0 = Some v -> v_entry v = s1) as Hfirst.
    { intros vs0 s0 cs0 ok0 s1 HH Hn. unfold SchedulerModel.scheduler_transform in HH.
      destruct (h_components h) as [|[c d] cs].
      - cbn in HH. injection HH as <- <- <- <-. discriminate Hn.
      - cbn [SchedulerModel.loop] in HH. destruct (exec s1 (transform c d)) as [[s2 calls] [d1|]].
        + destruct (loop transform ETransform 1 cs s2) as [[[s3 ds] vs2] ok2].
          destruct ok2.
          * destruct (loop finally EFinally 0 ((c, d1) :: ds) s3) as [[[s4 ds4] vs4] ok4].
            injection HH as <- <- <- <-. cbn in Hn. injection Hn as <-. reflexivity.
          * injection HH as <- <- <- <-. cbn in Hn. injection Hn as <-. reflexivity.
        + injection HH as <- <- <- <-. cbn in Hn. injection Hn as <-. reflexivity. }
    assert (forall kk, e_final (upd key_eqb empty_store k_time e kk) = false /\
                       e_final_dom (upd key_eqb empty_store k_time e kk) = false) as HU.
    { intros kk. unfold upd. destruct (key_eqb k_time kk); [exact HE | split; reflexivity]. }
    intros H Hn.
    destruct r; try (injection H as <- <- <-; discriminate Hn);
      (destruct (scheduler_transform (h_components h)
                       (put_units key_eqb units (upd key_eqb empty_store k_time e)))
             as [[[s0 cs0] vs0] ok0] eqn:E;
           injection H as <- <- <-;
           rewrite (Hfirst _ _ _ _ _ E Hn); apply put_units_marks; exact HU).
  Qed.
End Exec.
