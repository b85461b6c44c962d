(** The equations of density, momentum, pressure and energy fit together. *)

From Coq Require Import List Bool ZArith Reals Lra Lia.
From Coquelicot Require Import Coquelicot.
From Verif Require Import StateMonad StateMonadProofs ParallelModel ParallelSpec ParallelProofs DiffusionModel DiffusionSpec DiffusionProofs WallsModel WallsSpec WallsProofs EvolveModel EvolveSpec EvolveProofs.
Import ListNotations.
Open Scope R_scope.

Lemma derive_unique (f : R -> R) x (l1 l2 : R) : is_derive f x l1 -> is_derive f x l2 -> l1 = l2.
Proof. intros H1 H2. rewrite <- (is_derive_unique _ _ _ H1). apply is_derive_unique, H2. Qed.

Lemma dmul (f g : R -> R) s a b : is_derive f s a -> is_derive g s b -> is_derive (fun x => f x * g x) s (a * g s + f s * b).
Proof. intros H1 H2. apply (is_derive_mult f g s a b H1 H2). intros x y. apply Rmult_comm. Qed.
Lemma dadd (f g : R -> R) s a b : is_derive f s a -> is_derive g s b -> is_derive (fun x => f x + g x) s (a + b).
Proof. intros H1 H2. apply (is_derive_plus f g s a b H1 H2). Qed.
Lemma dscale (f : R -> R) s k a : is_derive f s a -> is_derive (fun x => k * f x) s (k * a).
Proof. intros H. apply (is_derive_scal f s k a H). Qed.

Section Flow.
  Variables (A Z s : R) (N V P phi : R -> R) (dN dV dP dphi : R).
  Hypothesis HN : is_derive N s dN.
  Hypothesis HV : is_derive V s dV.
  Hypothesis HP : is_derive P s dP.

  Lemma particle_flux (a : R) : is_derive (fun x => N x * V x) s a -> a = dN * V s + N s * dV.
  Proof using HN HV. intros H. eapply derive_unique; [exact H|]. exact (dmul _ _ _ _ _ HN HV). Qed.
  Lemma momentum_flux (a : R) : is_derive (fun x => N x * V x * V x) s a -> a = dN * V s * V s + 2 * N s * V s * dV.
  Proof using HN HV.
    intros H. transitivity ((dN * V s + N s * dV) * V s + N s * V s * dV); [|ring]. eapply derive_unique; [exact H|].
    exact (dmul _ _ _ _ _ (dmul _ _ _ _ _ HN HV) HV).
  Qed.
  Lemma pressure_flux (a : R) : is_derive (fun x => P x * V x) s a -> a = dP * V s + P s * dV.
  Proof using HP HV. intros H. eapply derive_unique; [exact H|]. exact (dmul _ _ _ _ _ HP HV). Qed.
  Lemma energy_flux C (a : R) : is_derive (fun x => (C * P x + A * N x * (V x * V x) / 2 + P x) * V x) s a ->
    a = (C + 1) * (dP * V s + P s * dV) + A * dN * V s * V s * V s / 2 + 3 / 2 * A * N s * V s * V s * dV.
  Proof using HN HP HV.
    intros H. pose proof (dmul _ _ _ _ _ (dadd _ _ _ _ _ (dscale _ _ (C + 1) _ HP) (dscale _ _ (A / 2) _ (dmul _ _ _ _ _ HN (dmul _ _ _ _ _ HV HV)))) HV) as D.
    assert (X : forall x : R, ((C + 1) * P x + A / 2 * (N x * (V x * V x))) * V x = (C * P x + A * N x * (V x * V x) / 2 + P x) * V x) by (intros x; field).
    pose proof (is_derive_ext _ _ _ _ X D) as D2. clear D X.
    rewrite (derive_unique _ _ _ _ H D2). field.
  Qed.

  Lemma energy_equation (form : bool) an am ap ae q psrc es ms ns :
    is_derive (fun x => N x * V x) s an -> is_derive (fun x => N x * V x * V x) s am -> is_derive (fun x => P x * V x) s ap ->
    is_derive (fun x => (heat_capacity (5 / 3) * P x + A * N x * (V x * V x) / 2 + P x) * V x) s ae -> 0 <= P s -> N s <> 0 ->
    energy_rate (heat_capacity (5 / 3)) A (V s)
      (ddt_P form (mkPterms 0 ap dV dP (V s) 0 q psrc es 1) (P s) (N s) (P s / N s))
      (ddt_N 0 an ns 1)
      (ddt_NV 0 Z (N s) dphi A am dP ms 0 1)
    = ddt_E 0 ae 0 q 0 (energy_sources (3 / 2 * psrc) es ms (V s)) 1 - Z * N s * V s * dphi - A * (V s * V s) / 2 * ns.
  Proof using HN HP HV.
    intros H1 H2 H3 H4 Pp Np. apply particle_flux in H1. apply momentum_flux in H2. apply pressure_flux in H3. apply energy_flux in H4.
    unfold energy_rate, ddt_P, ddt_N, ddt_NV, ddt_E, energy_sources. cbn [p_exb p_adv p_divV p_gradP p_V p_nvh p_cond p_source p_energy_source p_scale].
    rewrite (rfloor_id (P s) 0 Pp). replace (heat_capacity (5 / 3)) with (3 / 2) in * by (unfold heat_capacity; field).
    rewrite H1, H2, H3, H4. destruct form; field; exact Np.
  Qed.
End Flow.

(** A flow without force. *)
Lemma no_work : exists A Z N V dphi, 0 < A /\ 0 < N /\ 0 < Z /\
  energy_rate (heat_capacity (5 / 3)) A V (ddt_P false (mkPterms 0 0 0 0 V 0 0 0 0 1) 1 N (1 / N)) (ddt_N 0 0 0 1) (ddt_NV 0 Z N dphi A 0 0 0 0 1)
  <> ddt_E 0 0 0 0 0 (energy_sources 0 0 0 V) 1.
Proof.
  exists 1, 1, 1, 1, 1. split; [lra|]. split; [lra|]. split; [lra|].
  unfold energy_rate, ddt_P, ddt_N, ddt_NV, ddt_E, energy_sources. cbn [p_exb p_adv p_divV p_gradP p_V p_nvh p_cond p_source p_energy_source p_scale]. lra.
Qed.

(** Momentum of all species together. *)
Definition sum_over {X} (f : X -> R) (l : list X) : R := fold_right (fun x a => f x + a) 0 l.
Record force := mkForce { f_Z : R; f_N : R; f_A : R; f_fvv : R; f_gradP : R; f_source : R }.
Lemma total_momentum gradphi scale l : sum_over (fun s => f_Z s * f_N s) l = 0 ->
  sum_over (fun s => ddt_NV 0 (f_Z s) (f_N s) gradphi (f_A s) (f_fvv s) (f_gradP s) (f_source s) 0 scale) l
  = scale * (sum_over f_source l - sum_over f_gradP l - sum_over (fun s => f_A s * f_fvv s) l).
Proof.
  intros Q. transitivity (scale * (sum_over f_source l - sum_over f_gradP l - sum_over (fun s => f_A s * f_fvv s) l - gradphi * sum_over (fun s => f_Z s * f_N s) l)).
  - clear Q. unfold sum_over. induction l as [|s l IH]; cbn [fold_right]; [ring|]. rewrite IH. unfold ddt_NV. ring.
  - rewrite Q. ring.
Qed.

(** On a line closed at both ends. *)
Lemma line_particles edges m c n N V ws src : mesh_ok m n -> positive_metric c -> closed_low m = true -> closed_high m = true ->
  exists r w, Div_par_mod edges m c (noflow_scalar m true true N) (noflow_flow m true true V) ws true = Some (r, w) /\
  integral c (ystart m) n (fun j => ddt_N 0 (r j) (src j) 1) = integral c (ystart m) n src.
Proof.
  intros M P CL CH. destruct (noflow_conserves edges m c n N V ws M P CL CH) as ((r & w & E & H) & _). exists r, w. split; [exact E|].
  transitivity (integral c (ystart m) n src + -1 * integral c (ystart m) n r); [|rewrite H; ring].
  unfold integral. rewrite <- zsum_scal, <- zsum_plus. apply zsum_ext. intros j _. unfold ddt_N. ring.
Qed.
Lemma line_energy edges m c n EP V ws K T src es ms : mesh_ok m n -> positive_metric c -> closed_low m = true -> closed_high m = true ->
  exists r w, Div_par_mod edges m c (noflow_scalar m true true EP) (noflow_flow m true true V) ws true = Some (r, w) /\
  integral c (ystart m) n (fun j => ddt_E 0 (r j) 0 (fst (Div_par_K_Grad_par_mod m c K T false j)) 0 (energy_sources (src j) (es j) (ms j) (V j)) 1)
  = integral c (ystart m) n (fun j => src j + es j + V j * ms j).
Proof.
  intros M P CL CH. destruct (noflow_conserves edges m c n EP V ws M P CL CH) as ((r & w & E & H) & _). exists r, w. split; [exact E|].
  assert (D : integral c (ystart m) n (fun j => fst (Div_par_K_Grad_par_mod m c K T false j)) = 0).
  { destruct (K_face_closed m n c K T M CL CH) as [E1 E2]. pose proof (K_total m n c K T false M P) as D. rewrite E1, E2 in D.
    unfold DiffusionSpec.total in D. unfold integral. rewrite D. ring. }
  transitivity (integral c (ystart m) n (fun j => src j + es j + V j * ms j) + -1 * integral c (ystart m) n r
                + integral c (ystart m) n (fun j => fst (Div_par_K_Grad_par_mod m c K T false j))); [|rewrite H, D; ring].
  unfold integral. rewrite <- zsum_scal, <- !zsum_plus. apply zsum_ext. intros j _. unfold ddt_E, energy_sources. ring.
Qed.

Lemma smooth_case :
  is_derive (fun x => 2 + x) 0 1 /\ is_derive (fun x => 1 + x) 0 1 /\ is_derive (fun x => 3 + x) 0 1 /\
  is_derive (fun x => (2 + x) * (1 + x)) 0 3 /\ is_derive (fun x => (2 + x) * (1 + x) * (1 + x)) 0 5 /\ is_derive (fun x => (3 + x) * (1 + x)) 0 4 /\
  is_derive (fun x => (heat_capacity (5 / 3) * (3 + x) + 1 * (2 + x) * ((1 + x) * (1 + x)) / 2 + (3 + x)) * (1 + x)) 0 13.5 /\ 0 <= 3 + 0 /\ 2 + 0 <> 0.
Proof. unfold heat_capacity. do 7 (split; [auto_derive; [exact I|lra]|]). split; lra. Qed.
