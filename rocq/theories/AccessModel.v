(** State accesses of components: the state tree which Hermes::rhs hands to the
    components (hermes-3.cxx 292-303), the calls a component can make on it, and the
    evaluation of a list of components (component_scheduler.cxx 51-60).

    What a component *does* is kept as a program over these calls (the programs of the
    registered components are in AccessComponents.v).  The numbers a component
    computes are not modelled here: a field written by a component is an arbitrary
    function of what the component has read so far in this call ([numerics]).
    A program sees of a field only that it is one; it sees the value of a scalar
    entry (charge, AA, ...), because components branch on those.

    Simplifications.  Scalars are rationals.  A leaf is either a Field3D or a BoutReal.
    Reading a missing entry throws whether or not the access is const (in the
    non-const case Options::operator[] first makes an empty leaf, which is lost with the
    state when the exception ends the evaluation). *)

From Coq Require Import List Bool String QArith.
From Verif Require Import OptionsModel.
Import ListNotations.
Open Scope string_scope.
Open Scope list_scope.

(** Paths used by components: state[q], state["fields"][q], state["units"][q],
    state["species"][s][q]. *)
Inductive path :=
| PTop (q : string)
| PField (q : string)
| PUnit (q : string)
| PSp (s q : string).

Definition path_eqb (a b : path) : bool :=
  match a, b with
  | PTop x, PTop y => String.eqb x y
  | PField x, PField y => String.eqb x y
  | PUnit x, PUnit y => String.eqb x y
  | PSp s x, PSp t y => String.eqb s t && String.eqb x y
  | _, _ => false
  end.

(** Type asked for in a read: Field3D or BoutReal. *)
Inductive ty := TField | TReal.

(** get (component.hxx 114), getNoBoundary (182), getNonFinal (86). *)
Inductive rmode := RFinal | RNoBoundary | RNonFinal.

(** set (component.hxx 229), setBoundary (260), add (281), subtract (301). *)
Inductive wmode := WSet | WBoundary | WAdd | WSubtract.

(** What is written: a field computed by the component, or a scalar. *)
Inductive wsrc := SrcField | SrcNum (q : Q).

(** The calls on the state. *)
Inductive aop :=
| AOpen (s : string)                 (* state["species"][s], state not const *)
| AOpenFields                        (* state["fields"], state not const *)
| AKids (const : bool)               (* state["species"].getChildren() *)
| AHasSpecies (s : string)           (* state["species"].isSection(s) *)
| AHasFields                         (* state.isSection("fields") *)
| ARead (m : rmode) (t : ty) (p : path)
| AQuery (const nb : bool) (p : path) (* isSetFinal / isSetFinalNoBoundary (nb) *)
| AHas (p : path)                    (* section.isSet(q): no mark, no new leaf *)
| AWrite (w : wmode) (src : wsrc) (p : path)
| AForce (p : path)                  (* plain assignment of a Field3D *)
| ACopy (l r : path).                (* state[l] = state[r].copy() *)

(** What the component gets back. *)
Inductive resp :=
| RNum (q : Q)
| RFld
| RBoo (b : bool)
| RNames (l : list string)
| ROk.

(** A component method. *)
Inductive prog (A : Type) :=
| Ret (a : A)
| Throw
| Op (o : aop) (k : resp -> prog A).
Arguments Ret {A}.
Arguments Throw {A}.
Arguments Op {A}.

Fixpoint bind {A B} (m : prog A) (f : A -> prog B) : prog B :=
  match m with
  | Ret a => f a
  | Throw => Throw
  | Op o k => Op o (fun r => bind (k r) f)
  end.

(** ** Values and the state tree *)

Inductive val (F : Type) := VF (f : F) | VN (q : Q).
Arguments VF {F}.
Arguments VN {F}.

Section Machine.
  (** [F]: the Field3D values, with their arithmetic, the constant fields, and the
      finiteness check of component.hxx 212-220. *)
  Variable F : Type.
  Variables (fadd fsub : F -> F -> F) (fneg : F -> F) (fconst : Q -> F) (finv : F -> bool).

  Definition as_field (v : val F) : F :=
    match v with VF f => f | VN q => fconst q end.

  (** Options::ValueType to Field3D or BoutReal (variantStaticCastOrThrow): a BoutReal
      becomes a constant field, a Field3D cannot become a BoutReal. *)
  Definition cast (t : ty) (v : val F) : option (val F) :=
    match t, v with
    | TField, v => Some (VF (as_field v))
    | TReal, VN q => Some (VN q)
    | TReal, VF _ => None
    end.

  Definition vadd (a b : val F) : val F :=
    match a, b with
    | VN x, VN y => VN (x + y)
    | _, _ => VF (fadd (as_field a) (as_field b))
    end.
  Definition vsub (a b : val F) : val F :=
    match a, b with
    | VN x, VN y => VN (x - y)
    | _, _ => VF (fsub (as_field a) (as_field b))
    end.
  Definition vneg (a : val F) : val F :=
    match a with VN x => VN (- x) | VF f => VF (fneg f) end.
  Definition invalid (v : val F) : bool :=
    match v with VF f => finv f | VN _ => false end.

  Definition leaf := entry (val F).

  (** The tree: the leaves which exist, the sections below "species" (sorted, as in
      std::map), whether "species" and "fields" exist. *)
  Record st := mkSt {
    s_leaves : list (path * leaf);
    s_names : list string;
    s_species : bool;
    s_fields : bool
  }.

  Fixpoint find_leaf (l : list (path * leaf)) (p : path) : option leaf :=
    match l with
    | [] => None
    | (p', e) :: l' => if path_eqb p p' then Some e else find_leaf l' p
    end.

  Fixpoint put_leaf (l : list (path * leaf)) (p : path) (e : leaf) : list (path * leaf) :=
    match l with
    | [] => [(p, e)]
    | (p', e') :: l' => if path_eqb p p' then (p, e) :: l' else (p', e') :: put_leaf l' p e
    end.

  Fixpoint insert_name (s : string) (l : list string) : list string :=
    match l with
    | [] => [s]
    | s' :: l' => match String.compare s s' with
                  | Eq => l
                  | Lt => s :: l
                  | Gt => s' :: insert_name s l'
                  end
    end.

  Definition lookup (s : st) (p : path) : option leaf := find_leaf (s_leaves s) p.

  (** Value of the entry at a path. *)
  Definition value (s : st) (p : path) : option (val F) :=
    match lookup s p with Some e => e_val e | None => None end.

  Definition open_species (s : st) (n : string) : st :=
    mkSt (s_leaves s) (insert_name n (s_names s)) true (s_fields s).
  Definition open_fields (s : st) : st :=
    mkSt (s_leaves s) (s_names s) (s_species s) true.

  (** Options::operator[] on the way to a leaf makes the sections above it. *)
  Definition open_path (s : st) (p : path) : st :=
    match p with
    | PSp n _ => open_species s n
    | PField _ => open_fields s
    | _ => s
    end.

  Definition put (s : st) (p : path) (e : leaf) : st :=
    let s' := open_path s p in
    mkSt (put_leaf (s_leaves s') p e) (s_names s') (s_species s') (s_fields s').

  (** Replacement of a leaf which exists. *)
  Definition replace (s : st) (p : path) (e : leaf) : st :=
    mkSt (put_leaf (s_leaves s) p e) (s_names s) (s_species s) (s_fields s).

  Definition leaf_or_fresh (s : st) (p : path) : leaf :=
    match lookup s p with Some e => e | None => fresh end.

  (** What is recorded of a call: the entry read with the value it held, a query with its
      answer, the entry written with the value it holds afterwards, a copy. *)
  Inductive event :=
  | EvRead (m : rmode) (p : path) (v : val F)
  | EvQuery (nb : bool) (p : path) (b : bool)
  | EvHas (p : path) (b : bool)
  | EvWrite (w : wmode) (p : path) (v : val F)
  | EvForce (p : path) (v : val F)
  | EvCopy (l r : path) (v : option (val F)).

  Definition do_read (m : rmode) (t : ty) (e : leaf) : leaf * result (val F) :=
    match m with
    | RFinal => OptionsModel.get cast t e
    | RNoBoundary => OptionsModel.getNoBoundary cast t e
    | RNonFinal => OptionsModel.getNonFinal cast t e
    end.

  Definition src_ty (src : wsrc) : ty :=
    match src with SrcField => TField | SrcNum _ => TReal end.

  Definition do_write (w : wmode) (t : ty) (v : val F) (e : leaf) : leaf * result (val F) :=
    match w with
    | WSet => OptionsModel.set invalid v e
    | WBoundary => OptionsModel.setBoundary v e
    | WAdd => OptionsModel.add cast vadd invalid t v e
    | WSubtract => OptionsModel.subtract cast vsub vneg invalid t v e
    end.

  (** One call.  [fld]: the field which is written, should the call write one.
      Result: the state, the answer ([None]: an exception), the record. *)
  Definition astep (fld : F) (s : st) (o : aop) : st * option resp * list event :=
    match o with
    | AOpen n => (open_species s n, Some ROk, [])
    | AOpenFields => (open_fields s, Some ROk, [])
    | AKids c =>
        if c && negb (s_species s) then (s, None, [])
        else (mkSt (s_leaves s) (s_names s) true (s_fields s), Some (RNames (s_names s)), [])
    | AHasSpecies n => (s, Some (RBoo (existsb (String.eqb n) (s_names s))), [])
    | AHasFields => (s, Some (RBoo (s_fields s)), [])
    | ARead m t p =>
        match lookup s p with
        | None => (s, None, [])
        | Some e =>
            let (e', r) := do_read m t e in
            match r, e_val e with
            | RVal w, Some v =>
                (replace s p e', Some (match w with VF _ => RFld | VN q => RNum q end),
                 [EvRead m p v])
            | _, _ => (replace s p e', None, [])
            end
        end
    | AQuery c nb p =>
        match lookup s p with
        | None =>
            if c then (s, None, [])
            else (put s p (if nb then mark_final_dom fresh else mark_final fresh),
                  Some (RBoo false), [EvQuery nb p false])
        | Some e =>
            (replace s p (if nb then mark_final_dom e else mark_final e),
             Some (RBoo (is_set e)), [EvQuery nb p (is_set e)])
        end
    | AHas p =>
        let b := match value s p with Some _ => true | None => false end in
        (s, Some (RBoo b), [EvHas p b])
    | AWrite w src p =>
        let v := match src with SrcField => VF fld | SrcNum q => VN q end in
        let (e', r) := do_write w (src_ty src) v (leaf_or_fresh s p) in
        match r, e_val e' with
        | RUnit, Some v' => (put s p e', Some ROk, [EvWrite w p v'])
        | _, _ => (put s p e', None, [])
        end
    | AForce p =>
        (put s p (mkEntry (Some (VF fld)) (e_final (leaf_or_fresh s p))
                          (e_final_dom (leaf_or_fresh s p))),
         Some ROk, [EvForce p (VF fld)])
    | ACopy l r =>
        let e := leaf_or_fresh s r in
        let s1 := put s r e in
        (put s1 l e, Some ROk, [EvCopy l r (e_val e)])
    end.

  (** Execution of a method.  [num n vs] is the field which the component computes for
      its [n]-th call, having read the values [vs] before. *)
  Definition reads_of (ev : list event) : list (val F) :=
    flat_map (fun e => match e with EvRead _ _ v => [v] | _ => [] end) ev.

  Fixpoint exec {A} (num : nat -> list (val F) -> F) (n : nat) (vs : list (val F))
      (s : st) (m : prog A) : st * list event * option A :=
    match m with
    | Ret a => (s, [], Some a)
    | Throw => (s, [], None)
    | Op o k =>
        match astep (num n vs) s o with
        | (s1, Some r, ev) =>
            let '(s2, tr, a) := exec num (S n) (vs ++ reads_of ev) s1 (k r) in
            (s2, ev ++ tr, a)
        | (s1, None, ev) => (s1, ev, None)
        end
    end.
End Machine.

Arguments as_field {F}.
Arguments cast {F}.
Arguments vadd {F}.
Arguments vsub {F}.
Arguments vneg {F}.
Arguments invalid {F}.
Arguments mkSt {F}.
Arguments s_leaves {F}.
Arguments s_names {F}.
Arguments s_species {F}.
Arguments s_fields {F}.
Arguments find_leaf {F}.
Arguments put_leaf {F}.
Arguments lookup {F}.
Arguments value {F}.
Arguments open_species {F}.
Arguments open_fields {F}.
Arguments open_path {F}.
Arguments put {F}.
Arguments replace {F}.
Arguments leaf_or_fresh {F}.
Arguments EvRead {F}.
Arguments EvQuery {F}.
Arguments EvHas {F}.
Arguments EvWrite {F}.
Arguments EvForce {F}.
Arguments EvCopy {F}.
Arguments do_read {F}.
Arguments do_write {F}.
Arguments astep {F}.
Arguments reads_of {F}.
Arguments exec {F} _ _ _ _ _ {A}.

(** A component: Component::transform and Component::finally (component.hxx 25, 29). *)
Record comp := mkComp {
  c_transform : prog unit;
  c_finally : prog unit
}.

(** The arithmetic of fields, gathered. *)
Record farith (F : Type) := mkArith {
  fa_add : F -> F -> F;
  fa_sub : F -> F -> F;
  fa_neg : F -> F;
  fa_const : Q -> F;
  fa_inv : F -> bool
}.
Arguments fa_add {F}.
Arguments fa_sub {F}.
Arguments fa_neg {F}.
Arguments fa_const {F}.
Arguments fa_inv {F}.

Section Evaluation.
  Variable F : Type.
  Variable A : farith F.

  (** [numerics ph i n vs]: the field computed by component number [i] in phase [ph]
      (false: transform, true: finally) for its [n]-th call after reading [vs]. *)
  Definition numerics := bool -> nat -> nat -> list (val F) -> F.

  Definition run_method (num : nat -> list (val F) -> F) (s : st F) (m : prog unit) :=
    exec (fa_add A) (fa_sub A) (fa_neg A) (fa_const A) (fa_inv A) num 0 [] s m.

  (** component_scheduler.cxx 53-55 and 57-59: a loop over the components, left at the
      first exception.  The events are kept per component. *)
  Fixpoint run_loop (num : nat -> nat -> list (val F) -> F) (meth : comp -> prog unit)
      (i : nat) (cs : list comp) (s : st F) : st F * list (list (event F)) * bool :=
    match cs with
    | [] => (s, [], true)
    | c :: cs' =>
        match run_method (num i) s (meth c) with
        | (s1, tr, Some _) =>
            let '(s2, trs, ok) := run_loop num meth (S i) cs' s1 in (s2, tr :: trs, ok)
        | (s1, tr, None) => (s1, [tr], false)
        end
    end.

  (** ComponentScheduler::transform, component_scheduler.cxx 51-60. *)
  Definition run_components (num : numerics) (cs : list comp) (s : st F)
    : st F * list (list (event F)) * bool :=
    match run_loop (num false) c_transform 0 cs s with
    | (s1, tr1, true) =>
        let '(s2, tr2, ok) := run_loop (num true) c_finally 0 cs s1 in
        (s2, tr1 ++ tr2, ok)
    | (s1, tr1, false) => (s1, tr1, false)
    end.

  (** Units put into the state (hermes-3.cxx 190-198, 297). *)
  Definition unit_names : list string :=
    ["inv_meters_cubed"; "eV"; "Tesla"; "seconds"; "meters"].

  (** The state at the start of an evaluation, hermes-3.cxx 294-297. *)
  Definition initial (t : Q) (u : string -> Q) : st F :=
    mkSt ((PTop "time", mkEntry (Some (VN t)) false false)
          :: map (fun n => (PUnit n, mkEntry (Some (VN (u n))) false false)) unit_names)
         [] false false.

  (** Hermes::rhs, hermes-3.cxx 292-303. *)
  Definition rhs (num : numerics) (t : Q) (u : string -> Q) (cs : list comp) :=
    run_components num cs (initial t u).
End Evaluation.

Arguments run_method {F}.
Arguments run_loop {F}.
Arguments run_components {F}.
Arguments initial {F}.
Arguments rhs {F}.
