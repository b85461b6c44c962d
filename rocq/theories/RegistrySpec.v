(** Specification vocabulary for the registered reactions: reading a reaction formula such as "c+2 + e -> c+3 + 2e", the charge and the
    element which a species name denotes. *)

From Coq Require Import List Bool Ascii String ZArith Reals.
From Verif Require Import OptionsModel StateMonad StateSpec ReactionsModel ReactionsSpec RegistryModel.
Import ListNotations.
Open Scope string_scope.

(** The words of a text (separated by blanks). *)
Fixpoint words (s : string) : list string :=
  match s with
  | EmptyString => [EmptyString]
  | String c s => if Ascii.eqb c " " then EmptyString :: words s
                  else match words s with w :: ws => String c w :: ws | [] => [String c EmptyString] end
  end.

Definition digit (c : ascii) : option nat :=
  let n := nat_of_ascii c in if (Nat.leb 48 n && Nat.leb n 57)%bool then Some (n - 48)%nat else None.
(** Leading decimal number (0 if none) and the rest. *)
Fixpoint number (acc : nat) (s : string) : nat * string :=
  match s with
  | String c s' => match digit c with Some d => number (10 * acc + d) s' | None => (acc, s) end
  | EmptyString => (acc, EmptyString)
  end.

(** A term such as "2e" or "c+2": how many of which species. *)
Definition term (w : string) : nat * string :=
  match w with
  | String c _ => match digit c with Some _ => number 0 w | None => (1%nat, w) end
  | EmptyString => (1%nat, w)
  end.

Definition side := list (nat * string).

(** Both sides of a formula; "+" as a word joins terms, "solkit" is a label. *)
Fixpoint sides (ws : list string) : option (side * side) :=
  match ws with
  | [] => None
  | w :: ws =>
      if String.eqb w "->" then Some ([], map term (filter (fun w => negb (String.eqb w "+")) ws))
      else match sides ws with
           | None => None
           | Some (l, r) => if (String.eqb w "+" || String.eqb w "solkit")%bool then Some (l, r) else Some (term w :: l, r)
           end
  end.
Definition formula (name : string) : option (side * side) := sides (words name).

(** How many of a species there are on a side, and how many more the reaction makes than it uses. *)
Fixpoint count (sp : string) (l : side) : Z :=
  match l with
  | [] => 0
  | (n, x) :: l => (if String.eqb x sp then Z.of_nat n else 0) + count sp l
  end%Z.
Definition made (f : side * side) (sp : string) : Z := (count sp (snd f) - count sp (fst f))%Z.

(** Charge denoted by a name: "e" is -1; "x" is 0; "x+" is 1; "x+2" is 2. *)
Fixpoint after_plus (s : string) : option string :=
  match s with EmptyString => None | String c s => if Ascii.eqb c "+" then Some s else after_plus s end.
Definition charge (sp : string) : Z :=
  if String.eqb sp "e" then (-1)%Z
  else match after_plus sp with None => 0%Z | Some "" => 1%Z | Some s => Z.of_nat (fst (number 0 s)) end.
(** Element or isotope: what is before the "+". *)
Fixpoint nucleus (s : string) : string :=
  match s with EmptyString => EmptyString | String c s => if Ascii.eqb c "+" then EmptyString else String c (nucleus s) end.

(** Total charge of a side, and the number of nuclei of a kind. *)
Fixpoint total_charge (l : side) : Z := match l with [] => 0 | (n, x) :: l => Z.of_nat n * charge x + total_charge l end%Z.
Fixpoint nuclei (k : string) (l : side) : Z :=
  match l with [] => 0 | (n, x) :: l => (if String.eqb (nucleus x) k then Z.of_nat n else 0) + nuclei k l end%Z.

(** The charges in the state are those which the names of the species denote. *)
Definition charges_as_named (s : State * unit) (l : side) : Prop :=
  forall n sp, List.In (n, sp) l -> sp <> "e" -> value s sp "charge" = IZR (charge sp).

(** Densities are nowhere negative, the normalisations and Jacobians are positive, the multiplier and the tabulated rates are not negative, and
    the reconstruction at the cell edges keeps non-negative values non-negative. *)
Open Scope R_scope.
Definition physical (su : setup) (s : State * unit) : Prop :=
  0 < Nnorm (su_norms su) /\ 0 < FreqNorm (su_norms su) /\
  0 < c_Jm (su_cell su) /\ 0 < c_J (su_cell su) /\ 0 < c_Jp (su_cell su) /\
  0 <= su_rate_multiplier su /\
  (forall file level T n, 0 <= su_table su file level T n) /\
  (forall sp, 0 <= value s sp "density" /\ 0 <= c_nm (su_cell su) (sp, "density") /\ 0 <= c_np (su_cell su) (sp, "density")) /\
  (forall m c p, 0 <= m -> 0 <= c -> 0 <= p -> 0 <= fst (c_edges (su_cell su) m c p) /\ 0 <= snd (c_edges (su_cell su) m c p)).

(** Strictly increasing list of integers. *)
Fixpoint increasing_Z (l : list Z) : bool :=
  match l with
  | a :: ((b :: _) as l') => (Z.ltb a b && increasing_Z l')%bool
  | _ => true
  end.
