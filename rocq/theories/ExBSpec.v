(** Specification of advection with the ExB drift. *)

From Coq Require Import List Bool ZArith Reals.
From Verif Require Import StateMonad ParallelModel ParallelSpec DiffusionModel DiffusionSpec ExBModel.
Import ListNotations.
Open Scope R_scope.

(** Value at the corner between i - 1, i and k - 1, k. *)
Definition corner nz (f : Z -> Z -> R) (i k : Z) : R :=
  (f (i - 1)%Z (zminus nz k) + f (i - 1)%Z k + f i (zminus nz k) + f i k) / 4.

(** Flow (with the Jacobian) through the face between i - 1 and i, and through the face between k - 1 and k:
    differences of the stream function between the ends of the face. *)
Definition x_velocity nz (J : Z -> R) (h : R) f i k : R :=
  (J (i - 1)%Z + J i) / 2 * ((corner nz f i (zplus nz k) - corner nz f i k) / h).
Definition z_velocity nz (J dx : Z -> R) f i k : R :=
  - (J i * ((corner nz f (i + 1) k - corner nz f i k) / dx i)).

(** The value carried is the one upstream. *)
Definition upwind (v low high : R) : R := if Rlt_dec 0 v then v * low else v * high.

(** Values of n on the lower and upper side of the face between k - 1 and k (periodic). *)
Definition z_below (edges : R -> R -> R -> R * R) nz (n : Z -> Z -> R) i k : R :=
  snd (edges (n i (zminus nz (zminus nz k))) (n i (zminus nz k)) (n i k)).
Definition z_above (edges : R -> R -> R -> R * R) nz (n : Z -> Z -> R) i k : R :=
  fst (edges (n i (zminus nz k)) (n i k) (n i (zplus nz k))).

(** Fluxes of n g through the two kinds of faces; [gx], [gz]: g on the face. *)
Definition x_flux edges nz J h n (gx : Z -> Z -> R) f i k : R :=
  upwind (x_velocity nz J h f i k) (below edges (fun i => n i k) i) (above edges (fun i => n i k) i) * gx i k.
Definition z_flux_exb edges nz J dx n (gz : Z -> Z -> R) f i k : R :=
  upwind (z_velocity nz J dx f i k) (z_below edges nz n i k) (z_above edges nz n i k) * gz i k.

(** Faces at the ends of a domain of cells 0 .. N - 1: out with the value inside, in with the mean of n. *)
Definition x_flux_low edges nz J h n (gx : Z -> Z -> R) f k : R :=
  upwind (x_velocity nz J h f 0 k) ((n (-1)%Z k + n 0%Z k) / 2) (above edges (fun i => n i k) 0) * gx 0%Z k.
Definition x_flux_high edges nz J h n (gx : Z -> Z -> R) f N k : R :=
  upwind (x_velocity nz J h f N k) (below edges (fun i => n i k) N) ((n (N - 1)%Z k + n N k) / 2) * gx N k.

(** Flux through every radial face of the whole domain. *)
Definition x_line edges nz J h n gx f (bndry_flux : bool) (N i k : Z) : R :=
  if Z.eqb i 0 then (if bndry_flux then x_flux_low edges nz J h n gx f k else 0)
  else if Z.eqb i N then (if bndry_flux then x_flux_high edges nz J h n gx f N k else 0)
  else x_flux edges nz J h n gx f i k.

(** No factor, and the mean of g on a face. *)
Definition one_faces (i k : Z) : R := 1.
Definition mean_x (g : Z -> Z -> R) (i k : Z) : R := (g (i - 1)%Z k + g i k) / 2.
Definition mean_z nz (g : Z -> Z -> R) (i k : Z) : R := (g i (zminus nz k) + g i k) / 2.

(** The processors that follow one another starting at x index a. *)
Fixpoint processors (a : Z) (sizes : list nat) : list (Z * nat) :=
  match sizes with
  | nil => nil
  | cons n rest => cons (a, n) (processors (a + Z.of_nat n) rest)
  end.

(** The poloidal parts: one flux per face. *)
Definition fromm_below (positive : bool) (n : Z -> R) (i : Z) : R :=
  let x := n (i - 1)%Z + (n i - n (i - 2)%Z) / 4 in if positive then Rmax 0 x else x.
Definition fromm_above (positive : bool) (n : Z -> R) (i : Z) : R :=
  let x := n i - (n (i + 1)%Z - n (i - 1)%Z) / 4 in if positive then Rmax 0 x else x.
Definition pol_velocity (J q d : Z -> R) (i : Z) : R :=
  mean J i * mean (fun i => q i * d i) i.

(** A domain in X and Z: cells 0 .. N - 1 in X, spread over processors; dz = h everywhere. *)
Definition xz_domain (nzn : nat) (J dx dz : Z -> R) (h : R) (sizes : list nat) (N : Z) : Prop :=
  (0 < nzn)%nat /\ (forall i, 0 < J i) /\ (forall i, 0 < dx i) /\ 0 < h /\ (forall i, dz i = h) /\
  sizes <> [] /\ Forall (fun s => (0 < s)%nat) sizes /\ N = Z.of_nat (list_sum sizes).

(** Flux through the face between i - 1 and i. *)
Definition pol_x_line (m : xmesh) (J q d n : Z -> R) (bndry_flux positive : bool) (i : Z) : R :=
  if (negb bndry_flux && (firstX m && Z.eqb i (xstart m) || lastX m && Z.eqb i (xend m + 1)))%bool then 0
  else upwind (pol_velocity J q d i) (fromm_below positive n i) (fromm_above positive n i).

(** Y direction: at a closed end nothing enters. *)
Definition pol_y_velocity (m : mesh) (J q d : Z -> R) (j : Z) : R :=
  let v := - pol_velocity J q d j in
  if (closed_low m && Z.eqb j (ystart m))%bool then Rmin v 0
  else if (closed_high m && Z.eqb j (yend m + 1))%bool then Rmax v 0 else v.
Definition pol_y_line (m : mesh) (J q d n : Z -> R) (bndry_flux positive : bool) (j : Z) : R :=
  if closed_face m bndry_flux j then 0
  else upwind (pol_y_velocity m J q d j) (fromm_below positive n j) (fromm_above positive n j).
