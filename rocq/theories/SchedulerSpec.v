(** Specification vocabulary for C05-C07, independent of the scheduler's code. *)

From Coq Require Import List Bool Ascii.
From Verif Require Import OptionsModel OptionsSpec StrModel SchedulerModel.
Import ListNotations.

(** ** Comma-separated lists (C06) *)

(** Text of a list of fields separated by a delimiter. *)
Fixpoint join (delim : ascii) (fs : list str) : str :=
  match fs with
  | [] => []
  | [f] => f
  | f :: fs' => f ++ delim :: join delim fs'
  end.

(** [t] is the field [f] without the ignorable characters around it. *)
Definition stripped (ignorable : str) (f t : str) : Prop :=
  exists before after,
    f = before ++ t ++ after /\
    (forall c, In c before -> In c ignorable) /\
    (forall c, In c after -> In c ignorable) /\
    (forall c t', t = c :: t' -> ~ In c ignorable) /\
    (forall c t', t = t' ++ [c] -> ~ In c ignorable).

(** [names] are the non-empty names listed in [text], in order: [text] is a
    comma-separated sequence of fields, names are the stripped fields, empty ones ignored. *)
Definition names_listed (text : str) (names : list str) : Prop :=
  exists fields stripped_fields,
    fields <> [] /\
    text = join comma fields /\
    (forall f, In f fields -> ~ In comma f) /\
    Forall2 (stripped trim_chars) fields stripped_fields /\
    names = filter (fun n => match n with [] => false | _ => true end) stripped_fields.

(** The components a user asks for: for each listed name, in order, the types listed
    in its "type" option (the name itself when there is none), in order. *)
Inductive components_requested (type_opt : str -> option str)
  : list str -> list (str * str) -> Prop :=
| requested_none : components_requested type_opt [] []
| requested_name name types names comps :
    names_listed (match type_opt name with Some t => t | None => name end) types ->
    components_requested type_opt names comps ->
    components_requested type_opt (name :: names) (map (fun t => (t, name)) types ++ comps).

(** ** Order of execution (C05) *)
Definition expected_order (n : nat) : list event :=
  map ETransform (seq 0 n) ++ map EFinally (seq 0 n).

Section RunSpec.
  Context {V ty key : Type}.

  (** A method that only reads the state ([const Options&]). *)
  Inductive read_only {A} : prog V ty key A -> Prop :=
  | ro_ret a : read_only (Ret a)
  | ro_raise : read_only Raise
  | ro_call k o cont :
      ~ is_write o -> (forall r, read_only (cont r)) -> read_only (Call k o cont).
End RunSpec.
