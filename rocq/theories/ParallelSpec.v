(** Specification of conservation along a field line. *)

From Coq Require Import List Bool ZArith Reals.
From Verif Require Import LimitersSpec.
Import ListNotations.
Open Scope R_scope.

(** Sum over the n cells starting at lo. *)
Fixpoint zsum (lo : Z) (n : nat) (g : Z -> R) : R :=
  match n with
  | O => 0
  | S k => zsum lo k g + g (lo + Z.of_nat k)%Z
  end.

(** Cell volume (per dx dz), and area (per dx dz) of the face between j - 1 and j. *)
Definition cell_volume (J dy : Z -> R) (j : Z) : R := J j * dy j.
Definition face_area (J g22 : Z -> R) (j : Z) : R :=
  (J (j - 1)%Z + J j) / (sqrt (g22 (j - 1)%Z) + sqrt (g22 j)).

(** A result r is the divergence of face fluxes G (through the face between j - 1 and j) in cell j: what
    it takes out of the cell is what leaves above minus what enters below. *)
Definition divergence_of (J g22 dy : Z -> R) (G r : Z -> R) (j : Z) : Prop :=
  cell_volume J dy j * r j = face_area J g22 (j + 1) * G (j + 1)%Z - face_area J g22 j * G j.

(** Value of a field at the centre of the face between j - 1 and j. *)
Definition face_value (f : Z -> R) (j : Z) : R := (f (j - 1)%Z + f j) / 2.

(** Largest of the wave and flow speeds on both sides of a face. *)
Definition face_speed (v ws : Z -> R) (j : Z) : R :=
  Rmax (Rmax (ws (j - 1)%Z) (ws j)) (Rmax (Rabs (v (j - 1)%Z)) (Rabs (v j))).

(** Lax-Friedrichs (Rusanov) flux of a quantity with values Ul, Ur and physical fluxes
    Fl, Fr on the two sides of a face, for wave speed a. *)
Definition lax_friedrichs (a Ul Fl Ur Fr : R) : R := (Fl + Fr) / 2 + a * (Ul - Ur) / 2.

(** Values reconstructed on the lower and upper side of the face between j - 1 and j. *)
Definition below (edges : R -> R -> R -> R * R) (f : Z -> R) (j : Z) : R :=
  snd (edges (f (j - 2)%Z) (f (j - 1)%Z) (f j)).
Definition above (edges : R -> R -> R -> R * R) (f : Z -> R) (j : Z) : R :=
  fst (edges (f (j - 1)%Z) (f j) (f (j + 1)%Z)).

(** Interior flux of particles (density f) and of momentum (f v). *)
Definition particle_flux edges (f v ws : Z -> R) (j : Z) : R :=
  lax_friedrichs (face_speed v ws j)
    (below edges f j) (below edges f j * below edges v j)
    (above edges f j) (above edges f j * above edges v j).
Definition momentum_flux edges (f v ws : Z -> R) (j : Z) : R :=
  lax_friedrichs (face_speed v ws j)
    (below edges f j * below edges v j) (below edges f j * below edges v j * below edges v j)
    (above edges f j * above edges v j) (above edges f j * above edges v j * above edges v j).

(** Fluxes through the non-periodic ends (when fixed): face-centred values. *)
Definition end_particle_flux (f v : Z -> R) (j : Z) : R := face_value f j * face_value v j.
Definition end_momentum_flux (f v : Z -> R) (j : Z) : R := face_value f j * face_value v j * face_value v j.

(** Flux through every face of a line with cells lo .. lo + n - 1, with [closed] ends (at which the
    flux is [bndry]) or open ones (a neighbouring processor or periodic). *)
Definition line_flux (interior bndry : Z -> R) (closed_low closed_high : bool) (lo : Z) (n : nat) (j : Z) : R :=
  if (closed_low && Z.eqb j lo || closed_high && Z.eqb j (lo + Z.of_nat n))%bool then bndry j else interior j.

(** Flow through a face: flux times area. *)
Definition flow_through (J g22 dx dz : Z -> R) (G : Z -> R) (j : Z) : R :=
  G j * face_area J g22 j * dx j * dz j.

(** A quantity that repeats after n cells. *)
Definition periodic (n : nat) (f : Z -> R) : Prop := forall j, f (j + Z.of_nat n)%Z = f j.

(** Number of cells and guard cells: an end of the line on this processor is closed (the domain ends there and
    the line is not periodic) or open; a closed end needs one guard cell, an open one two. *)
From Verif Require Import ParallelModel.
Definition closed_low (m : mesh) : bool := (firstY m && negb (periodicY m))%bool.
Definition closed_high (m : mesh) : bool := (lastY m && negb (periodicY m))%bool.
Definition guards_ok (m : mesh) : Prop :=
  ((if closed_low m then 1 else 2) <= ystart m)%Z /\
  (yend m + (if closed_high m then 1 else 2) < LocalNy m)%Z.
Definition mesh_ok (m : mesh) (n : nat) : Prop :=
  (0 < n)%nat /\ yend m = (ystart m + Z.of_nat n - 1)%Z /\ guards_ok m.

(** Cells have volume. *)
Definition positive_metric (c : coords) : Prop :=
  forall j, 0 < c_J c j /\ 0 < c_g22 c j /\ 0 < c_dy c j.

(** Volume integral over the n cells from lo. *)
Definition integral (c : coords) (lo : Z) (n : nat) (r : Z -> R) : R :=
  zsum lo n (fun j => cell_volume (c_J c) (c_dy c) j * r j).

(** Flux through the ends when it is not fixed. *)
Definition free_end_flux_high edges (f v ws : Z -> R) (j : Z) : R :=
  below edges f j * face_value v j + ws (j - 1)%Z * (below edges f j - face_value f j).
Definition free_end_flux_low edges (f v ws : Z -> R) (j : Z) : R :=
  above edges f j * face_value v j - ws j * (above edges f j - face_value f j).


(** Flux of particles through a closed end, by value of fixflux. *)
Definition mod_end edges (m : mesh) (fixflux : bool) (f v ws : Z -> R) (j : Z) : R :=
  if fixflux then end_particle_flux f v j
  else if Z.eqb j (ystart m) then free_end_flux_low edges f v ws j else free_end_flux_high edges f v ws j.


(** The same for momentum. *)
Definition fvv_free_high edges (f v ws : Z -> R) (j : Z) : R :=
  below edges f j * below edges v j * below edges v j
  + Rmax (ws (j - 1)%Z) (Rmax (Rabs (v (j - 1)%Z)) (Rabs (v j))) * face_value f j * (below edges v j - face_value v j).
Definition fvv_free_low edges (f v ws : Z -> R) (j : Z) : R :=
  above edges f j * above edges v j * above edges v j
  - Rmax (ws j) (Rmax (Rabs (v j)) (Rabs (v (j - 1)%Z))) * face_value f j * (above edges v j - face_value v j).
Definition fvv_end edges (m : mesh) (fixflux : bool) (f v ws : Z -> R) (j : Z) : R :=
  if fixflux then end_momentum_flux f v j
  else if Z.eqb j (ystart m) then fvv_free_low edges f v ws j else fvv_free_high edges f v ws j.


(** Flux through every face of the line: of particles and of momentum. *)
Definition mod_line edges m fixflux f v ws n : Z -> R :=
  line_flux (particle_flux edges f v ws) (mod_end edges m fixflux f v ws) (closed_low m) (closed_high m) (ystart m) n.
Definition fvv_line edges m fixflux f v ws n : Z -> R :=
  line_flux (momentum_flux edges f v ws) (fvv_end edges m fixflux f v ws) (closed_low m) (closed_high m) (ystart m) n.

(** ** Splitting a line of N cells between processors *)

(** The processor that owns cells a .. a + n - 1 of a line with cells 0 .. N - 1, with g guard cells on
    each side. *)
Definition piece (N : Z) (per : bool) (g : Z) (a : Z) (n : nat) : mesh :=
  mkMesh g (g + Z.of_nat n - 1) (Z.of_nat n + 2 * g) (Z.eqb a 0) (Z.eqb (a + Z.of_nat n) N) per.
(** Its part of a field on the line, including the guard cells. *)
Definition local (g a : Z) (F : Z -> R) : Z -> R := fun j => F (j + (a - g))%Z.
Definition local_coords (g a : Z) (c : coords) : coords :=
  mkCoords (local g a (c_J c)) (local g a (c_g22 c)) (local g a (c_dy c)) (local g a (c_dx c)) (local g a (c_dz c)).
(** Pieces of the given sizes, from cell a on. *)
Fixpoint pieces (a : Z) (sizes : list nat) : list (Z * nat) :=
  match sizes with
  | [] => []
  | n :: rest => (a, n) :: pieces (a + Z.of_nat n) rest
  end.
(** The values in the cells of one processor, and of all of them one after the other. *)
Definition cells (g : Z) (n : nat) (r : Z -> R) : list R := map (fun k => r (g + Z.of_nat k)%Z) (seq 0 n).
Fixpoint gather {A} (l : list (option (list A))) : option (list A) :=
  match l with
  | [] => Some []
  | None :: _ => None
  | Some x :: rest => match gather rest with None => None | Some y => Some (x ++ y)%list end
  end.

(** What one processor computes for its cells. *)
Definition mod_cells edges N per g c f v ws fixflux (a : Z) (n : nat) : option (list R) :=
  match Div_par_mod edges (piece N per g a n) (local_coords g a c) (local g a f) (local g a v) (local g a ws) fixflux with
  | Some (r, _) => Some (cells g n r)
  | None => None
  end.
Definition fvv_cells edges N per g c f v ws fixflux (a : Z) (n : nat) : option (list R) :=
  match Div_par_fvv edges (piece N per g a n) (local_coords g a c) (local g a f) (local g a v) (local g a ws) fixflux with
  | Some r => Some (cells g n r)
  | None => None
  end.

(** ** Kinetic energy *)

(** Rate of change of n v^2 / 2 when n changes at rate dn and n v at rate dm. *)
Definition kinetic_rate (v dn dm : R) : R := v * dm - v * v * dn / 2.
(** Flux of kinetic energy through a closed end. *)
Definition end_kinetic_flux (f v : Z -> R) (j : Z) : R :=
  face_value f j * (face_value v j * face_value v j * face_value v j) / 2.
(** Reconstructed values do not pass the centre of the face. *)
Definition within_half (edges : R -> R -> R -> R * R) : Prop :=
  forall m c p, between c ((m + c) / 2) (fst (edges m c p)) /\ between c ((c + p) / 2) (snd (edges m c p)).

(** Heating beyond the kinetic energy dissipated at an interior face: wave speed times density times the distance of
    the velocities on the two sides from the velocity at the centre of the face. *)
Definition heating_excess edges (f v ws : Z -> R) (j : Z) : R :=
  face_speed v ws j / 2 * (v (j - 1)%Z - v j)
  * (below edges f j * (below edges v j - face_value v j) - above edges f j * (above edges v j - face_value v j)).
