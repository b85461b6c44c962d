(** Model of the `transform` component, src/transform.cxx 6-32. *)

From Coq Require Import List Bool Ascii NArith.
From Verif Require Import OptionsModel StrModel.
Import ListNotations.

(** Order of std::string keys in the std::map `transforms`: lexicographic by
    unsigned character code. *)
Fixpoint str_ltb (a b : str) : bool :=
  match a, b with
  | [], [] => false
  | [], _ :: _ => true
  | _ :: _, [] => false
  | x :: a', y :: b' =>
      if N.ltb (N_of_ascii x) (N_of_ascii y) then true
      else if N.ltb (N_of_ascii y) (N_of_ascii x) then false
      else str_ltb a' b'
  end.

(** `transforms[left] = right` on a std::map kept sorted by key (transform.cxx 24). *)
Fixpoint map_put (k v : str) (m : list (str * str)) : list (str * str) :=
  match m with
  | [] => [(k, v)]
  | (k', v') :: m' =>
      if str_eqb k k' then (k, v) :: m'
      else if str_ltb k k' then (k, v) :: m
      else (k', v') :: map_put k v m'
  end.

Definition equals_char : ascii := "="%char.

(** transform.cxx 16-22: one assignment; [None] stands for the BoutException. *)
Definition parse_assign (s : str) : option (str * str) :=
  match strsplit equals_char s with
  | [l; r] => Some (trim trim_chars l, trim trim_chars r)
  | _ => None
  end.

(** transform.cxx 15-25. *)
Fixpoint parse_assigns (items : list str) (m : list (str * str))
  : option (list (str * str)) :=
  match items with
  | [] => Some m
  | a :: rest =>
      match parse_assign a with
      | Some (l, r) => parse_assigns rest (map_put l r m)
      | None => None
      end
  end.

(** Transform::Transform, transform.cxx 6-26. *)
Definition parse_transforms (option_text : str) : option (list (str * str)) :=
  parse_assigns (strsplit comma (trim trim_chars option_text)) [].

(** Transform::transform, transform.cxx 28-32, for paths which are leaves of the
    state.  [Options] assignment replaces value and attributes of the left entry by
    those of a copy of the right entry; it performs no check of read marks. *)
Definition apply_transforms {V} (m : list (str * str)) (s : store V str) : store V str :=
  fold_left (fun s lr => upd str_eqb s (fst lr) (s (snd lr))) m s.
