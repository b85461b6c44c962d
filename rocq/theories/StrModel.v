(** Model of the BOUT++ string helpers used by hermes-3 when reading lists from
    the input: [strsplit] and [trim] (bout/utils.hxx, BOUT++ source not in /repo; their
    behaviour is an assumption recorded in DESIGN.md).  Strings are lists of
    characters. *)

From Coq Require Import List Bool Ascii String.
Import ListNotations.

Definition str := list ascii.

(** Literals for examples. *)
Definition lit (s : string) : str := list_ascii_of_string s.

(** All pieces between delimiters, including empty ones (never an empty list). *)
Fixpoint pieces (delim : ascii) (s : str) : list str :=
  match s with
  | [] => [[]]
  | c :: s' =>
      if Ascii.eqb c delim then [] :: pieces delim s'
      else match pieces delim s' with
           | p :: ps => (c :: p) :: ps
           | [] => [[c]]
           end
  end.

(** A list without its last element if that is the empty string. *)
Fixpoint drop_last_empty (l : list str) : list str :=
  match l with
  | [] => []
  | [p] => match p with [] => [] | _ => [p] end
  | p :: l' => p :: drop_last_empty l'
  end.

(** [strsplit(s, delim)]: items read by [while (std::getline(ss, item, delim))]: the
    piece after the last delimiter is not produced when it is empty. *)
Definition strsplit (delim : ascii) (s : str) : list str :=
  drop_last_empty (pieces delim s).

Definition mem_char (c : ascii) (cs : str) : bool := existsb (Ascii.eqb c) cs.

(** [trimLeft(s, chars)]. *)
Fixpoint trim_left (chars : str) (s : str) : str :=
  match s with
  | [] => []
  | c :: s' => if mem_char c chars then trim_left chars s' else s
  end.

(** [trimRight(s, chars)]. *)
Definition trim_right (chars : str) (s : str) : str :=
  rev (trim_left chars (rev s)).

(** [trim(s, chars)]. *)
Definition trim (chars : str) (s : str) : str :=
  trim_left chars (trim_right chars s).

(** The characters " \t\r()" (component_scheduler.cxx 18 and 30, transform.cxx 10). *)
Definition trim_chars : str :=
  [" "%char; "009"%char; "013"%char; "("%char; ")"%char].

Definition comma : ascii := ","%char.

Definition is_empty (s : str) : bool := match s with [] => true | _ => false end.

Fixpoint str_eqb (a b : str) : bool :=
  match a, b with
  | [], [] => true
  | x :: a', y :: b' => Ascii.eqb x y && str_eqb a' b'
  | _, _ => false
  end.
