(** Lemmas for RatesProps.v: each fit of the code. *)

From Coq Require Import List Bool String ZArith Reals Lra Lia Arith.
From Verif Require Import OptionsModel StateMonad StateSpec StateMonadProofs ReactionsModel ReactionsSpec ReactionsTableProofs ReactionsLaws AmjuelTables
  NumericProofs PolyCheck RatesTables RatesProofs RatesLaws.
From Verif Require RadiationModel.
Import ListNotations.
Open Scope R_scope.

Definition sq := tables_square.
Lemma sq_ion : square 9 hyd_ionisation_rate_coefs. Proof. apply tables_square. Qed.
Lemma sq_ion_rad : square 9 hyd_ionisation_radiation_coefs. Proof. apply tables_square. Qed.
Lemma sq_rec : square 9 hyd_recombination_rate_coefs. Proof. apply tables_square. Qed.
Lemma sq_he : square 9 he01_rate_coefs. Proof. apply tables_square. Qed.
Lemma sq_he_rad : square 9 he01_radiation_coefs. Proof. apply tables_square. Qed.
Lemma sq_herec : square 9 he10_rate_coefs. Proof. apply tables_square. Qed.

Ltac logge p q n d := apply ln_ge; match goal with |- exp ?x <= ?y => replace x with (IZR p / IZR q) by lra; replace y with (IZR n / IZR d) by lra end; apply (exp_le_check 40 (10 ^ 40)); check.
Lemma ln_90 : ln 90 <= 4.5. Proof. logle 4500%Z 1000%Z 90%Z 1%Z. Qed.
Lemma ln_115 : 4.74 <= ln 115. Proof. logge 4740%Z 1000%Z 115%Z 1%Z. Qed.
Lemma ln_7 : ln 7.4 <= 2.014. Proof. logle 2014%Z 1000%Z 74%Z 10%Z. Qed.
Lemma ln_239 : ln 239 <= 5.48. Proof. logle 5480%Z 1000%Z 239%Z 1%Z. Qed.
Lemma ln_271 : 5.6 <= ln 271. Proof. logge 5600%Z 1000%Z 271%Z 1%Z. Qed.
Lemma ln_3 : -1.204 <= ln 0.3.
Proof. replace 0.3 with (/ (10 / 3)) by lra. rewrite ln_Rinv by lra. assert (ln (10 / 3) <= 1.204) by logle 1204%Z 1000%Z 10%Z 3%Z. lra. Qed.
Lemma ln_125 : 0.21 <= ln 1.25. Proof. logge 210%Z 1000%Z 125%Z 100%Z. Qed.
Lemma ln_4 : ln 4 <= 1.4. Proof. logle 1400%Z 1000%Z 4%Z 1%Z. Qed.
Lemma ln_31 : 3.432 <= ln 31. Proof. logge 3432%Z 1000%Z 31%Z 1%Z. Qed.

(** ** Hydrogen *)
Lemma ion_energy T n : exists r e, evaluate 9 9 hyd_ionisation_rate_coefs T n = Some r /\ evaluate 9 9 hyd_ionisation_radiation_coefs T n = Some e /\ 13.6 * r < e.
Proof.
  apply (ratio_above zion zion_rad _ _ t_ion_energy (-2303) 11514 2610100000000000000000000000000); try apply zion_link; try apply zion_rad_link; try apply sq_ion; try apply sq_ion_rad.
  - vm_compute. reflexivity.
  - replace (IZR 2610100000000000000000000000000 / big) with (IZR 26101 / IZR 10000) by (unfold big; lra). replace 13.6 with (IZR 136 / IZR 10) by lra.
    apply (exp_ge_check 40 (10 ^ 40)); check.
  - apply lT_range.
Qed.
Lemma ion_rises T1 T2 n : 0.1 <= T1 -> T1 < T2 -> T2 <= 90 ->
  exists r1 r2, evaluate 9 9 hyd_ionisation_rate_coefs T1 n = Some r1 /\ evaluate 9 9 hyd_ionisation_rate_coefs T2 n = Some r2 /\ r1 < r2.
Proof.
  intros H1 H2 H3. apply (rises_T zion _ t_ion_rises (-2303) 6803); [apply zion_link|apply sq_ion|vm_compute; reflexivity|apply lT_range|apply lT_lt; lra|].
  rewrite lT_inside by lra. pose proof (ln_mono T2 90 ltac:(lra) H3). pose proof ln_90. lra.
Qed.
Lemma ion_falls T1 T2 n : 115 <= T1 -> T1 < T2 -> T2 <= 1e4 ->
  exists r1 r2, evaluate 9 9 hyd_ionisation_rate_coefs T1 n = Some r1 /\ evaluate 9 9 hyd_ionisation_rate_coefs T2 n = Some r2 /\ r2 < r1.
Proof.
  intros H1 H2 H3. apply (falls_T zion _ t_ion_falls 4740 4471); [apply zion_link|apply sq_ion|vm_compute; reflexivity| |apply lT_lt; lra|].
  - rewrite lT_inside by lra. pose proof (ln_mono 115 T1 ltac:(lra) H1). pose proof ln_115. lra.
  - pose proof (lT_range T2). lra.
Qed.
Lemma rec_falls T1 T2 n : 0.1 <= T1 -> T1 < T2 -> T2 <= 1e4 ->
  exists r1 r2, evaluate 9 9 hyd_recombination_rate_coefs T1 n = Some r1 /\ evaluate 9 9 hyd_recombination_rate_coefs T2 n = Some r2 /\ r2 < r1.
Proof.
  intros H1 H2 H3. apply (falls_T zrec _ t_rec_falls (-2303) 11514); [apply zrec_link|apply sq_rec|vm_compute; reflexivity|apply lT_range|apply lT_lt; lra|apply lT_range].
Qed.
Lemma rec_density T n1 n2 : T <= 7.4 -> 1e14 <= n1 -> n1 < n2 -> n2 <= 1e22 ->
  exists r1 r2, evaluate 9 9 hyd_recombination_rate_coefs T n1 = Some r1 /\ evaluate 9 9 hyd_recombination_rate_coefs T n2 = Some r2 /\ r1 < r2.
Proof.
  intros H0 H1 H2 H3. apply (rises_N zrec _ t_rec_density (-2303) 4317); [apply zrec_link|apply sq_rec|vm_compute; reflexivity| |apply lN_lt; lra].
  pose proof (lT_range T) as [L1 L2]. split; [exact L1|]. unfold lT. pose proof (clamp_range T 0.1 1e4 ltac:(lra)) as [C1 C2].
  assert (C3 : clamp 0.1 1e4 T <= 7.4). { unfold clamp. rewrite Rmin_right by lra. apply Rmax_lub; lra. }
  pose proof (ln_mono (clamp 0.1 1e4 T) _ ltac:(lra) C3). pose proof ln_7. lra.
Qed.

(** ** Helium *)
Lemma he_energy T n : 0.3 <= T -> exists r e, evaluate 9 9 he01_rate_coefs T n = Some r /\ evaluate 9 9 he01_radiation_coefs T n = Some e /\ 24.586 * r < e.
Proof.
  intros HT. apply (ratio_above zhe zhe_rad _ _ t_he_energy (-1204) 10415 3202300000000000000000000000000); try apply zhe_link; try apply zhe_rad_link; try apply sq_he; try apply sq_he_rad.
  - vm_compute. reflexivity.
  - replace (IZR 3202300000000000000000000000000 / big) with (IZR 32023 / IZR 10000) by (unfold big; lra). replace 24.586 with (IZR 24586 / IZR 1000) by lra.
    apply (exp_ge_check 40 (10 ^ 40)); check.
  - pose proof (lT_range T) as [L1 L2]. split; [|lra]. unfold lT.
    assert (C3 : 0.3 <= clamp 0.1 1e4 T). { unfold clamp. apply Rle_trans with (Rmin 1e4 T); [apply Rmin_glb; lra|apply Rmax_r]. }
    pose proof (ln_mono 0.3 _ ltac:(lra) C3). pose proof ln_3. lra.
Qed.
Lemma he_rises T1 T2 n : 0.1 <= T1 -> T1 < T2 -> T2 <= 239 ->
  exists r1 r2, evaluate 9 9 he01_rate_coefs T1 n = Some r1 /\ evaluate 9 9 he01_rate_coefs T2 n = Some r2 /\ r1 < r2.
Proof.
  intros H1 H2 H3. apply (rises_T zhe _ t_he_rises (-2303) 7783); [apply zhe_link|apply sq_he|vm_compute; reflexivity|apply lT_range|apply lT_lt; lra|].
  rewrite lT_inside by lra. pose proof (ln_mono T2 239 ltac:(lra) H3). pose proof ln_239. lra.
Qed.
Lemma he_falls T1 T2 n : 271 <= T1 -> T1 < T2 -> T2 <= 1e4 ->
  exists r1 r2, evaluate 9 9 he01_rate_coefs T1 n = Some r1 /\ evaluate 9 9 he01_rate_coefs T2 n = Some r2 /\ r2 < r1.
Proof.
  intros H1 H2 H3. apply (falls_T zhe _ t_he_falls 5600 3611); [apply zhe_link|apply sq_he|vm_compute; reflexivity| |apply lT_lt; lra|].
  - rewrite lT_inside by lra. pose proof (ln_mono 271 T1 ltac:(lra) H1). pose proof ln_271. lra.
  - pose proof (lT_range T2). lra.
Qed.
Lemma herec_falls T1 T2 n : 1.25 <= T1 /\ T2 <= 4 \/ 31 <= T1 /\ T2 <= 1e4 -> T1 < T2 ->
  exists r1 r2, evaluate 9 9 he10_rate_coefs T1 n = Some r1 /\ evaluate 9 9 he10_rate_coefs T2 n = Some r2 /\ r2 < r1.
Proof.
  intros [[H1 H3]|[H1 H3]] H2.
  - apply (falls_T zherec _ t_herec_mid 210 1190); [apply zherec_link|apply sq_herec|vm_compute; reflexivity| |apply lT_lt; lra|].
    + rewrite lT_inside by lra. pose proof (ln_mono 1.25 T1 ltac:(lra) H1). pose proof ln_125. lra.
    + rewrite lT_inside by lra. pose proof (ln_mono T2 4 ltac:(lra) H3). pose proof ln_4. lra.
  - apply (falls_T zherec _ t_herec_hot 3432 5779); [apply zherec_link|apply sq_herec|vm_compute; reflexivity| |apply lT_lt; lra|].
    + rewrite lT_inside by lra. pose proof (ln_mono 31 T1 ltac:(lra) H1). pose proof ln_31. lra.
    + pose proof (lT_range T2). lra.
Qed.
(** Cold helium. *)
Lemma lT_cold : IZR (-2303) / IZR 1000 <= lT 0.1 <= (IZR (-2303) + IZR 1) / IZR 1000.
Proof. rewrite lT_inside by lra. rewrite ln_tenth. pose proof ln10_le. pose proof ln10_ge. lra. Qed.
Lemma lN_dense : IZR 18420 / IZR 1000 <= lN 1e22 <= (IZR 18420 + IZR 1) / IZR 1000.
Proof. rewrite lN_inside by lra. replace (1e22 / 1e14) with 1e8 by lra. pose proof ln_1e8_le. pose proof ln_1e8_ge. lra. Qed.
Lemma he_energy_cold : exists T n r e, 0.1 <= T <= 1e4 /\ 1e14 <= n <= 1e22 /\ evaluate 9 9 he01_rate_coefs T n = Some r /\ evaluate 9 9 he01_radiation_coefs T n = Some e /\ e < 4 * r.
Proof.
  exists 0.1, 1e22. do 2 eexists. split; [lra|]. split; [lra|].
  rewrite (fit_value zhe _ _ _ zhe_link sq_he), (fit_value zhe_rad _ _ _ zhe_rad_link sq_he_rad). split; [reflexivity|]. split; [reflexivity|].
  assert (P : positive2 9 t_he_cold (-2303) 1 1000 18420 1 1000 (ratio zhe zhe_rad (-1200000000000000000000000000000)) = true) by (vm_compute; reflexivity).
  pose proof (positive2_sound _ _ _ _ _ _ _ _ _ _ _ P lT_cold lN_dense) as V. rewrite ratio_val in V.
  set (p := val2 zhe _ _) in *. set (q := val2 zhe_rad _ _) in *.
  assert (E : exp (IZR 12 / IZR 10) <= IZR 4 / IZR 1) by (apply (exp_le_check 40 (10 ^ 40)); check).
  apply Rlt_le_trans with (exp (IZR 12 / IZR 10) * (exp (p / big) * 1e-6)).
  - rewrite <- Rmult_assoc, <- exp_plus. replace (IZR 12 / IZR 10 + p / big) with ((p + 1200000000000000000000000000000) / big) by (unfold big; lra). apply value_lt. lra.
  - apply Rmult_le_compat_r; [|lra]. pose proof (exp_pos (p / big)). lra.
Qed.
Lemma herec_cold : exists T1 T2 n r1 r2, 0.1 <= T1 < T2 /\ T2 <= 1e4 /\ 1e14 <= n <= 1e22 /\ evaluate 9 9 he10_rate_coefs T1 n = Some r1 /\ evaluate 9 9 he10_rate_coefs T2 n = Some r2 /\
  1e60 * r1 < r2.
Proof.
  exists 0.1, 1, 1e14. do 2 eexists. split; [lra|]. split; [lra|]. split; [lra|].
  rewrite !(fit_value zherec _ _ _ zherec_link sq_herec). split; [reflexivity|]. split; [reflexivity|].
  assert (N0 : lN 1e14 = 0). { rewrite lN_inside by lra. replace (1e14 / 1e14) with 1 by lra. apply ln_1. }
  assert (T0 : lT 1 = 0). { rewrite lT_inside by lra. apply ln_1. }
  rewrite N0, T0.
  assert (P : positive2 9 t_herec_cold (-2303) 1 1000 0 1 1000
      (padd radd (neg2 zherec) [[(nth 0 (nth 0 zherec []) 0 - 150000000000000000000000000000000)%Z]]) = true) by (vm_compute; reflexivity).
  pose proof (positive2_sound _ _ _ _ _ _ _ _ _ (lT 0.1) 0 P lT_cold ltac:(lra)) as V. rewrite val2_padd, neg2_val in V.
  assert (E0 : val2 zherec 0 0 = IZR (nth 0 (nth 0 zherec []) 0%Z)).
  { unfold val2, rowval, zrow, zherec. cbn [map heval List.length nth]. rewrite !pow1. ring. }
  assert (E1 : val2 [[(nth 0 (nth 0 zherec []) 0 - 150000000000000000000000000000000)%Z]] (lT 0.1) 0 = val2 zherec 0 0 - 150000000000000000000000000000000).
  { rewrite E0. unfold val2 at 1. unfold rowval, zrow. cbn [map heval List.length]. rewrite pow_O, minus_IZR. ring. }
  rewrite E1 in V. clear E0 E1. set (p := val2 zherec (lT 0.1) 0) in *. set (q := val2 zherec 0 0) in *.
  assert (E : 1e60 <= exp (IZR 150 / IZR 1)). { replace 1e60 with (IZR (10 ^ 60) / IZR 1) by (change (10 ^ 60)%Z with 1000000000000000000000000000000000000000000000000000000000000%Z; lra). apply (exp_ge_check 40 (10 ^ 60)); check. }
  apply Rle_lt_trans with (exp (IZR 150 / IZR 1) * (exp (p / big) * 1e-6)).
  - apply Rmult_le_compat_r; [|exact E]. pose proof (exp_pos (p / big)). lra.
  - rewrite <- Rmult_assoc, <- exp_plus. replace (IZR 150 / IZR 1 + p / big) with ((p + 150000000000000000000000000000000) / big) by (unfold big; lra). apply value_lt. lra.
Qed.
