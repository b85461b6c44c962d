(** Property C08: the `transform` component. *)

From Coq Require Import List Bool Ascii String ZArith.
From Verif Require Import OptionsModel OptionsSpec OptionsProps StrModel SchedulerSpec SchedulerProofs
  TransformModel TransformProofs.
Import ListNotations.

(** Number of '=' characters. *)
Fixpoint count_equals (s : str) : nat :=
  match s with
  | [] => 0
  | c :: s' => (if Ascii.eqb c "="%char then 1 else 0) + count_equals s'
  end.

(** Exactly which texts are accepted as one assignment: one '=' with a non-empty
    right-hand text, or two '=' of which the second ends the text. *)
Theorem C08_accepted_assignments_partial :
  forall s L R,
    parse_assign s = Some (L, R) <->
    exists l r, ~ In equals_char l /\ ~ In equals_char r /\
      stripped trim_chars l L /\ stripped trim_chars r R /\
      (s = l ++ equals_char :: r /\ r <> [] \/ s = l ++ equals_char :: r ++ [equals_char]).
Proof. exact parse_assign_spec. Qed.
Print Assumptions C08_accepted_assignments_partial.

(** "Accepted exactly when there is one '='" is false in both directions (given the
    getline-like splitting of BOUT++). *)
Theorem C08_one_equals_sign_refuted :
  (exists s, parse_assign s <> None /\ count_equals s = 2) /\
  (exists s, parse_assign s = None /\ count_equals s = 1).
Proof.
  split.
  - exists (lit "a = b="). split; [vm_compute; discriminate | reflexivity].
  - exists (lit "a ="). split; reflexivity.
Qed.
Print Assumptions C08_one_equals_sign_refuted.

(** If no copied-from path is also a copied-to path, every listed left-hand path
    becomes a copy of the path of its last assignment, and nothing else changes. *)
Theorem C08_copies_right_to_left_partial :
  forall (V : Type) (text : str) (m : list (str * str)) (s : store V str),
    parse_transforms text = Some m ->
    (forall l r l' r', In (l, r) m -> In (l', r') m -> r <> l') ->
    exists assignments,
      Forall2 (fun item lr => parse_assign item = Some lr)
        (strsplit comma (trim trim_chars text)) assignments /\
      forall k,
        apply_transforms m s k =
        match find (fun lr => str_eqb k (fst lr)) (rev assignments) with
        | Some lr => s (snd lr)
        | None => s k
        end.
Proof. exact @C08_copy_lemma. Qed.
Print Assumptions C08_copies_right_to_left_partial.

Example C08_example :
  let text := lit "(a = b, c = d, a = d )" in
  exists m, parse_transforms text = Some m /\
    m = [(lit "a", lit "d"); (lit "c", lit "d")] /\
    (forall l r l' r', In (l, r) m -> In (l', r') m -> r <> l').
Proof.
  eexists. split; [reflexivity|]. split; [reflexivity|].
  intros l r l' r' [H|[H|[]]] [H'|[H'|[]]]; injection H as <- <-; injection H' as <- <-; discriminate.
Qed.

(** Without that condition the listed order is not followed: `b = a, a = c` first
    overwrites a (keys are visited in alphabetical order), so b becomes c. *)
Theorem C08_listed_order_refuted :
  exists (text : str) (m : list (str * str)) (s : store Z str),
    text = lit "b = a, a = c" /\ parse_transforms text = Some m /\
    e_val (s (lit "a")) = Some 1%Z /\
    e_val (apply_transforms m s (lit "b")) <> Some 1%Z.
Proof.
  exists (lit "b = a, a = c"). eexists.
  exists (fun k => if str_eqb k (lit "a") then mkEntry (Some 1%Z) false false
                   else if str_eqb k (lit "c") then mkEntry (Some 2%Z) false false else fresh).
  split; [reflexivity|]. split; [reflexivity|]. split; [reflexivity|].
  vm_compute. discriminate.
Qed.
Print Assumptions C08_listed_order_refuted.

(** A copy overwrites a quantity which has already been read: the next reader sees
    another value, no exception is thrown. *)
Notation stepS := (step_at castZ Z.add Z.sub Z.opp (fun x => Z.ltb x 0) str_eqb).
Theorem C08_copy_respects_read_marks_refuted :
  exists (s s1 : store Z str) (m : list (str * str)) (v v' : Z),
    parse_transforms (lit "a = b") = Some m /\
    stepS s (lit "a", OGet tt) = (s1, RVal v) /\
    snd (stepS (apply_transforms m s1) (lit "a", OGet tt)) = RVal v' /\
    v <> v'.
Proof.
  exists (fun k => if str_eqb k (lit "a") then mkEntry (Some 1%Z) false false
                   else mkEntry (Some 2%Z) false false).
  eexists. eexists. exists 1%Z, 2%Z. split; [reflexivity|]. split; [reflexivity|].
  split; [reflexivity | discriminate].
Qed.
Print Assumptions C08_copy_respects_read_marks_refuted.
