(** Specification vocabulary for reactions: changes of the sources of a species. *)

From Coq Require Import List Bool String Reals.
From Verif Require Import OptionsModel StateMonad StateSpec ReactionsModel.
Import ListNotations.
Open Scope R_scope.
Open Scope string_scope.

Definition change (s s' : State * unit) (sp q : string) : R := value s' sp q - value s sp q.

(** Rate of change of the total (thermal plus kinetic) energy of a species moving with
    velocity v: d/dt (3/2 p + 1/2 m n v^2) = S_E + v S_momentum - 1/2 m v^2 S_density. *)
Definition energy_gain (s s' : State * unit) (sp : string) : R :=
  let v := value s sp "velocity" in
  change s s' sp "energy_source" + v * change s s' sp "momentum_source"
  - 1 / 2 * value s sp "AA" * v ^ 2 * change s s' sp "density_source".

(** Nothing outside the given species changes, and in these species only the sources (and collision
    frequencies) do. *)
Definition only_sources (s s' : State * unit) (species : list string) : Prop :=
  forall sp q,
    ~ In sp species \/ ~ In q ["density_source"; "momentum_source"; "energy_source"; "collision_frequency"] ->
    value s' sp q = value s sp q.

(** The double polynomial fit of AMJUEL: exponential of
    sum_n sum_m coefs[n][m] (ln ntilde)^m (ln T)^n, per cm^3, with ntilde the density in
    units of 1e14 per cubic metre. *)
Definition amjuel_fit (k : nat) (coefs : nat -> nat -> R) (T n : R) : R :=
  exp (sumR (fun i => sumR (fun j => coefs i j * ln (n / 1e14) ^ j * ln T ^ i) (seq 0 k)) (seq 0 k)) * 1e-6.

Definition clamp (lo hi x : R) : R := Rmax lo (Rmin hi x).

(** Strictly increasing sequence. *)
Definition increasing (l : list R) : Prop :=
  forall i j a b, (i < j)%nat -> nth_error l i = Some a -> nth_error l j = Some b -> a < b.

(** A rate table whose axes have at least two strictly increasing values and which has one coefficient for
    each pair of axis values. *)
Definition rectangular (a : adas) : Prop :=
  List.length (log_coeff a) = List.length (log_temperature a) /\
  (forall row, In row (log_coeff a) -> List.length row = List.length (log_density a)).
Definition table_ok (a : adas) : Prop :=
  increasing (log_temperature a) /\ increasing (log_density a) /\
  (2 <= List.length (log_temperature a))%nat /\ (2 <= List.length (log_density a))%nat /\ rectangular a.

(** Logarithm of a query after limiting it to the range of the axis of logarithms. *)
Definition clamped (axis : list R) (x : R) : R :=
  log10 (clamp (Rpower 10 (hd 0 axis)) (Rpower 10 (last axis 0)) x).

(** A square array of [k] rows of [k] coefficients. *)
Definition square (k : nat) (t : table) : Prop :=
  List.length t = k /\ forall row, In row t -> List.length row = k.
Definition entry (t : table) (i j : nat) : R := nth j (nth i t []) 0.

(** Cell average of electron density times density of [sp] times the AMJUEL fit, divided by
    [unit] and multiplied by [mult]. *)
Definition amjuel_source (nm : norms) (c : cell) (el sp : string) (k : nat) (t : table) (unit mult : R)
    (s : State * Datatypes.unit) : R :=
  average c (fun a => match a with
      | [ne; n1; te] => ne * n1 * amjuel_fit k (entry t) (clamp 0.1 1e4 (te * Tnorm nm)) (clamp 1e14 1e22 (ne * Nnorm nm))
                        * Nnorm nm / unit * mult
      | _ => 0 end)
    [((el, "density"), value s el "density"); ((sp, "density"), value s sp "density");
     ((el, "temperature"), value s el "temperature")].
