From Coq Require Import List Bool Ascii NArith Lia.
From Verif Require Import OptionsModel OptionsSpec OptionsProofs StrModel SchedulerSpec SchedulerProofs
  TransformModel.
Import ListNotations.

Lemma str_eqb_spec a b : str_eqb a b = true <-> a = b.
Proof.
  revert b. induction a as [|x a IH]; intros [|y b]; cbn; split; intros H; try discriminate; auto.
  - apply andb_true_iff in H. destruct H as [H1 H2]. apply Ascii.eqb_eq in H1.
    apply IH in H2. congruence.
  - injection H as -> ->. apply andb_true_iff. split; [apply Ascii.eqb_refl | apply IH; reflexivity].
Qed.

Lemma drop_last_empty_two l a b :
  drop_last_empty l = [a; b] <-> (l = [a; b] /\ b <> []) \/ l = [a; b; []].
Proof.
  split.
  - destruct l as [|x [|y [|z l]]]; cbn; try discriminate.
    + destruct x; discriminate.
    + destruct y; intros H; try discriminate. injection H as <- <-. left. split; [reflexivity|discriminate].
    + destruct l as [|w l].
      * destruct z; intros H; try discriminate. injection H as <- <-. right; reflexivity.
      * intros H. injection H as -> -> H. destruct l; [destruct w|]; discriminate H.
  - intros [[-> N] | ->]; [destruct b; [congruence|reflexivity] | reflexivity].
Qed.

(** Exactly which texts are accepted as an assignment. *)
Lemma parse_assign_spec s L R :
  parse_assign s = Some (L, R) <->
  exists l r, ~ In equals_char l /\ ~ In equals_char r /\
    stripped trim_chars l L /\ stripped trim_chars r R /\
    (s = l ++ equals_char :: r /\ r <> [] \/ s = l ++ equals_char :: r ++ [equals_char]).
Proof.
  unfold parse_assign, strsplit. split.
  - intros H.
    destruct (drop_last_empty (pieces equals_char s)) as [|a [|b [|c l]]] eqn:E; try discriminate H.
    injection H as <- <-. exists a, b.
    apply drop_last_empty_two in E.
    pose proof (pieces_join equals_char s) as J.
    pose proof (pieces_nodelim equals_char s) as N.
    assert (In a (pieces equals_char s) /\ In b (pieces equals_char s)) as [Ia Ib].
    { destruct E as [[-> _] | ->]; cbn; auto. }
    split; [apply N; exact Ia|]. split; [apply N; exact Ib|].
    split; [apply trim_stripped|]. split; [apply trim_stripped|].
    destruct E as [[E Hne] | E]; rewrite E in J; cbn in J.
    + left. split; [symmetry; exact J | exact Hne].
    + right. symmetry. exact J.
  - intros (l & r & Nl & Nr & Sl & Sr & Hs).
    assert (drop_last_empty (pieces equals_char s) = [l; r]) as ->.
    { apply drop_last_empty_two. destruct Hs as [[-> Hr] | ->].
      - left. split; [|exact Hr]. rewrite pieces_field by exact Nl. rewrite pieces_last by exact Nr. reflexivity.
      - right. rewrite pieces_field by exact Nl. rewrite pieces_field by exact Nr. reflexivity. }
    rewrite (stripped_trim _ _ _ Sl), (stripped_trim _ _ _ Sr). reflexivity.
Qed.

(** The map holds, for each left-hand side, the last right-hand side. *)
Definition lookup (k : str) (m : list (str * str)) : option str :=
  match find (fun kv => str_eqb k (fst kv)) m with Some kv => Some (snd kv) | None => None end.

Lemma str_eqb_refl a : str_eqb a a = true.
Proof. apply str_eqb_spec. reflexivity. Qed.

Lemma str_eqb_sym a b : str_eqb a b = str_eqb b a.
Proof.
  destruct (str_eqb a b) eqn:E; destruct (str_eqb b a) eqn:F; auto.
  - apply str_eqb_spec in E. subst. rewrite str_eqb_refl in F. discriminate.
  - apply str_eqb_spec in F. subst. rewrite str_eqb_refl in E. discriminate.
Qed.

Lemma lookup_put k v m k' :
  lookup k' (map_put k v m) = if str_eqb k' k then Some v else lookup k' m.
Proof.
  induction m as [|[a b] m IH]; unfold lookup in *; cbn.
  - destruct (str_eqb k' k); reflexivity.
  - destruct (str_eqb k a) eqn:E.
    + apply str_eqb_spec in E. subst a. cbn. destruct (str_eqb k' k); reflexivity.
    + destruct (str_ltb k a); cbn.
      * destruct (str_eqb k' k); reflexivity.
      * destruct (str_eqb k' a) eqn:F.
        -- apply str_eqb_spec in F. subst a. rewrite str_eqb_sym, E. reflexivity.
        -- exact IH.
Qed.

Lemma map_put_keys k v m : incl (map fst (map_put k v m)) (k :: map fst m).
Proof.
  induction m as [|[a b] m IH]; cbn.
  - intros x H. exact H.
  - destruct (str_eqb k a) eqn:E; [intros x [<-|H]; [left; reflexivity | right; right; exact H]|].
    destruct (str_ltb k a); [intros x H; exact H|].
    intros x [<-|H]; [right; left; reflexivity|]. destruct (IH _ H) as [<-|Hx].
    + left; reflexivity.
    + right; right; exact Hx.
Qed.

(** ** Sorted map without duplicates *)
Definition lt_all (k : str) (m : list (str * str)) : Prop :=
  forall k' v', In (k', v') m -> str_ltb k k' = true.

Inductive sorted : list (str * str) -> Prop :=
| sorted_nil : sorted []
| sorted_cons k v m : lt_all k m -> sorted m -> sorted ((k, v) :: m).

Lemma str_ltb_irrefl a : str_ltb a a = false.
Proof. induction a as [|x a IH]; cbn; [reflexivity|]. rewrite N.ltb_irrefl. exact IH. Qed.

Lemma str_ltb_trans a b c : str_ltb a b = true -> str_ltb b c = true -> str_ltb a c = true.
Proof.
  revert b c. induction a as [|x a IH]; intros [|y b] [|z c]; cbn; try discriminate; auto.
  destruct (N.ltb_spec (N_of_ascii x) (N_of_ascii y)); destruct (N.ltb_spec (N_of_ascii y) (N_of_ascii z));
  destruct (N.ltb_spec (N_of_ascii x) (N_of_ascii z)); try reflexivity; try lia;
  destruct (N.ltb_spec (N_of_ascii y) (N_of_ascii x)); try discriminate; try lia;
  destruct (N.ltb_spec (N_of_ascii z) (N_of_ascii y)); try discriminate; try lia;
  destruct (N.ltb_spec (N_of_ascii z) (N_of_ascii x)); try discriminate; try lia.
  apply IH.
Qed.

Lemma str_ltb_total a b : a <> b -> str_ltb a b = false -> str_ltb b a = true.
Proof.
  revert b. induction a as [|x a IH]; intros [|y b]; cbn; try congruence; try discriminate.
  intros N. destruct (N.ltb_spec (N_of_ascii x) (N_of_ascii y)); [discriminate|].
  destruct (N.ltb_spec (N_of_ascii y) (N_of_ascii x)); [reflexivity|].
  intros H1. assert (x = y) as ->.
  { rewrite <- (ascii_N_embedding x), <- (ascii_N_embedding y). f_equal. lia. }
  apply IH; [congruence | exact H1].
Qed.

Lemma map_put_sorted k v m : sorted m -> sorted (map_put k v m).
Proof.
  induction 1 as [|a b m Ha Hm IH]; cbn.
  - constructor; [intros k' v' [] | constructor].
  - destruct (str_eqb k a) eqn:E.
    + apply str_eqb_spec in E. subst a. constructor; assumption.
    + assert (k <> a) as N by (intros ->; rewrite str_eqb_refl in E; discriminate).
      destruct (str_ltb k a) eqn:L.
      * constructor; [|constructor; assumption].
        intros k' v' [H|H]; [injection H as <- <-; exact L|].
        apply (str_ltb_trans _ _ _ L). apply (Ha _ _ H).
      * constructor; [|exact IH].
        intros k' v' H.
        assert (In k' (map fst (map_put k v m))) as Hk by (apply in_map_iff; exists (k', v'); auto).
        destruct (map_put_keys _ _ _ _ Hk) as [<-|Hk'].
        -- apply str_ltb_total; assumption.
        -- apply in_map_iff in Hk'. destruct Hk' as ([u w] & E1 & Hin). cbn in E1. subst u.
           apply (Ha _ _ Hin).
Qed.

Lemma parse_assigns_sorted items : forall m m', sorted m -> parse_assigns items m = Some m' -> sorted m'.
Proof.
  induction items as [|a rest IH]; intros m m' Hm H; cbn in H.
  - injection H as <-. exact Hm.
  - destruct (parse_assign a) as [[l r]|]; [|discriminate H].
    apply (IH _ _ (map_put_sorted l r m Hm) H).
Qed.

Lemma sorted_nodup m : sorted m -> NoDup (map fst m).
Proof.
  induction 1 as [|k v m Hk Hm IH]; cbn; constructor; [|exact IH].
  intros Hin. apply in_map_iff in Hin. destruct Hin as ([a b] & E & Hin). cbn in E. subst a.
  specialize (Hk _ _ Hin). rewrite str_ltb_irrefl in Hk. discriminate.
Qed.

Lemma apply_other {V} m : forall (s : store V str) k,
  ~ In k (map fst m) -> apply_transforms m s k = s k.
Proof.
  unfold apply_transforms. induction m as [|[l r] m IH]; intros s k H; [reflexivity|].
  cbn [fold_left fst snd]. rewrite IH by (intros Q; apply H; right; exact Q).
  apply upd_other; [apply str_eqb_spec|]. intros ->. apply H. left; reflexivity.
Qed.

Lemma apply_lookup {V} m : forall (s : store V str),
  NoDup (map fst m) ->
  (forall l r l' r', In (l, r) m -> In (l', r') m -> r <> l') ->
  forall l r, In (l, r) m -> apply_transforms m s l = s r.
Proof.
  induction m as [|[l0 r0] m IH]; intros s Hn Hd l r Hin; [destruct Hin|].
  cbn in Hn. inversion Hn as [|x xs Hx Hxs]; subst.
  change (apply_transforms ((l0, r0) :: m) s) with (apply_transforms m (upd str_eqb s l0 (s r0))).
  destruct Hin as [H|Hin].
  - injection H as <- <-. rewrite apply_other by exact Hx.
    apply upd_same. apply str_eqb_spec.
  - rewrite (IH _ Hxs (fun a b c d H1 H2 => Hd a b c d (or_intror H1) (or_intror H2)) l r Hin).
    apply upd_other; [apply str_eqb_spec|].
    intros E. apply (Hd l r l0 r0); [right; exact Hin | left; reflexivity | symmetry; exact E].
Qed.

Lemma parse_lookup items : forall m m' k,
  parse_assigns items m = Some m' ->
  exists asg, Forall2 (fun a lr => parse_assign a = Some lr) items asg /\
    lookup k m' = match find (fun kv => str_eqb k (fst kv)) (rev asg) with
                  | Some kv => Some (snd kv) | None => lookup k m end.
Proof.
  induction items as [|a rest IH]; intros m m' k H; cbn in H.
  - injection H as <-. exists []. split; [constructor | reflexivity].
  - destruct (parse_assign a) as [[l r]|] eqn:E; [|discriminate H].
    destruct (IH _ _ k H) as (asg & F & L). exists ((l, r) :: asg). split; [constructor; assumption|].
    rewrite L. cbn [rev]. clear.
    induction (rev asg) as [|[x y] t IHt]; cbn.
    + rewrite lookup_put. destruct (str_eqb k l); reflexivity.
    + destruct (str_eqb k x); [reflexivity|]. exact IHt.
Qed.

Lemma lookup_In m l r : lookup l m = Some r -> In (l, r) m.
Proof.
  unfold lookup. destruct (find (fun kv => str_eqb l (fst kv)) m) as [[a b]|] eqn:E; [|discriminate].
  intros H. injection H as <-. apply find_some in E. destruct E as [Hin E]. cbn in E.
  apply str_eqb_spec in E. subst a. exact Hin.
Qed.

Lemma C08_copy_lemma {V} text m (s : store V str) :
  parse_transforms text = Some m ->
  (forall l r l' r', In (l, r) m -> In (l', r') m -> r <> l') ->
  exists assignments,
    Forall2 (fun item lr => parse_assign item = Some lr)
      (strsplit comma (trim trim_chars text)) assignments /\
    forall k,
      apply_transforms m s k =
      match find (fun lr => str_eqb k (fst lr)) (rev assignments) with
      | Some lr => s (snd lr)
      | None => s k
      end.
Proof.
  intros H Hd. unfold parse_transforms in H.
  pose proof (sorted_nodup _ (parse_assigns_sorted _ _ _ sorted_nil H)) as Hn.
  destruct (parse_lookup _ _ _ [] H) as (asg & F & _). exists asg. split; [exact F|].
  intros k. destruct (parse_lookup _ _ _ k H) as (asg' & F' & L).
  assert (asg' = asg) as ->.
  { clear -F F'. revert asg' F'. induction F as [|a lr items asg Ha F IH]; intros asg' F'; inversion F'; subst.
    - reflexivity.
    - f_equal; [congruence | apply IH; assumption]. }
  destruct (find (fun lr => str_eqb k (fst lr)) (rev asg)) as [[a b]|] eqn:E.
  - apply lookup_In in L. cbn in L. cbn [snd]. apply (apply_lookup m s Hn Hd k b L).
  - apply apply_other. intros Hin. apply in_map_iff in Hin. destruct Hin as ([u w] & E1 & Hin).
    cbn in E1. subst u. unfold lookup in L. cbn in L.
    destruct (find (fun kv => str_eqb k (fst kv)) m) as [x|] eqn:Q; [discriminate L|].
    pose proof (find_none _ _ Q _ Hin) as Z. cbn in Z. rewrite str_eqb_refl in Z. discriminate.
Qed.
