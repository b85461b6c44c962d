(** The fitted cooling curves at the ends of their ranges.  Generated bounds; every number is checked by the kernel. *)

From Coq Require Import List ZArith Reals Lra Lia.
From Verif Require Import NumericProofs RadiationModel.
Import ListNotations.
Open Scope R_scope.

Ltac check := vm_compute; first [ reflexivity | intros E; discriminate E ].

Lemma Argon_adas_lo_exponent : - (79.920922305) <= poly (coefs Argon_adas) (ln 1.5) <= - (79.920922304).
Proof.
  assert (Hx : 0.405465108108 <= ln 1.5 <= 0.405465108109).
  { split; [ apply ln_ge | apply ln_le; [ lra | ] ].
    - replace 0.405465108108 with (IZR 405465108108 / IZR 1000000000000) by lra. replace 1.5 with (IZR 15 / IZR 10) by lra. apply (exp_le_check 48 (2 ^ 100)); check.
    - replace 0.405465108109 with (IZR 405465108109 / IZR 1000000000000) by lra. replace 1.5 with (IZR 15 / IZR 10) by lra. apply (exp_ge_check 48 (2 ^ 100)); check. }
  revert Hx. generalize (ln 1.5). intros x Hx.
  assert (H0 : x ^ 0 = 1) by reflexivity.
  assert (H1 : 0.405465108108 <= x ^ 1 <= 0.405465108109) by (rewrite pow_1; exact Hx).
  assert (H2 : 0.164401953893032127339664000000 <= x ^ 2 <= 0.164401953893843057555881000000) by (apply (pow_step x 0.405465108108 0.405465108109 1 0.405465108108 0.405465108109); first [ exact Hx | exact H1 | lra ]).
  assert (H3 : 0.066659256008404702979694086196 <= x ^ 3 <= 0.066659256008897908841374398974) by (apply (pow_step x 0.405465108108 0.405465108109 2 0.164401953893032127339664000000 0.164401953893843057555881000000); first [ exact Hx | exact H2 | lra ]).
  assert (H4 : 0.027028002443846661450277292388 <= x ^ 4 <= 0.027028002444113298474311897613) by (apply (pow_step x 0.405465108108 0.405465108109 3 0.066659256008404702979694086196 0.066659256008897908841374398974); first [ exact Hx | exact H3 | lra ]).
  assert (H5 : 0.010958911932837574784311558424 <= x ^ 5 <= 0.010958911932972714796531458326) by (apply (pow_step x 0.405465108108 0.405465108109 4 0.027028002443846661450277292388 0.027028002444113298474311897613); first [ exact Hx | exact H4 | lra ]).
  assert (H6 : 0.004443456411594038495125420818 <= x ^ 6 <= 0.004443456411659791966722851689) by (apply (pow_step x 0.405465108108 0.405465108109 5 0.010958911932837574784311558424 0.010958911932972714796531458326); first [ exact Hx | exact H5 | lra ]).
  assert (H7 : 0.001801666534300162563034342382 <= x ^ 7 <= 0.001801666534331266757915730791) by (apply (pow_step x 0.405465108108 0.405465108109 6 0.004443456411594038495125420818 0.004443456411659791966722851689); first [ exact Hx | exact H6 | lra ]).
  assert (H8 : 0.000730512916104581103742693998 <= x ^ 8 <= 0.000730512916118994436017219717) by (apply (pow_step x 0.405465108108 0.405465108109 7 0.001801666534300162563034342382 0.001801666534331266757915730791); first [ exact Hx | exact H7 | lra ]).
  assert (H9 : 0.000296197498502634311463085385 <= x ^ 9 <= 0.000296197498509208927708091476) by (apply (pow_step x 0.405465108108 0.405465108109 8 0.000730512916104581103742693998 0.000730512916118994436017219717); first [ exact Hx | exact H8 | lra ]).
  assert (H10 : 0.000120097750751689789220170059 <= x ^ 10 <= 0.000120097750754651764205229276) by (apply (pow_step x 0.405465108108 0.405465108109 9 0.000296197498502634311463085385 0.000296197498509208927708091476); first [ exact Hx | exact H9 | lra ]).
  unfold poly. cbn [coefs Argon_adas poly_from]. rewrite H0.
  revert H1 H2 H3 H4 H5 H6 H7 H8 H9 H10.
  generalize (x ^ 1). generalize (x ^ 2). generalize (x ^ 3). generalize (x ^ 4). generalize (x ^ 5). generalize (x ^ 6). generalize (x ^ 7). generalize (x ^ 8). generalize (x ^ 9). generalize (x ^ 10).
  clear. intros. lra.
Qed.
Lemma Argon_adas_lo_close : 0.95 * below Argon_adas <= exp (poly (coefs Argon_adas) (ln 1.5)) <= 1.05 * below Argon_adas.
Proof.
  pose proof Argon_adas_lo_exponent as [H1 H2]. apply exp_monotone in H1. apply exp_monotone in H2. cbn [below Argon_adas].
  assert (L : / IZR 51193585305605227306280173883667989 <= exp (- (79.920922305))).
  { apply exp_neg_ge. replace 79.920922305 with (IZR 79920922305 / IZR 1000000000) by lra. replace (IZR 51193585305605227306280173883667989) with (IZR 51193585305605227306280173883667989 / IZR 1) by lra. apply (exp_le_check 48 (2 ^ 100)); check. }
  assert (U : exp (- (79.920922304)) <= / IZR 51193585152024471619835625575550797).
  { apply exp_neg_le; [ apply IZR_lt; reflexivity | ]. replace 79.920922304 with (IZR 79920922304 / IZR 1000000000) by lra. replace (IZR 51193585152024471619835625575550797) with (IZR 51193585152024471619835625575550797 / IZR 1) by lra. apply (exp_ge_check 48 (2 ^ 100)); check. }
  split; [ apply Rle_trans with (2 := H1), Rle_trans with (2 := L) | apply Rle_trans with (1 := H2), Rle_trans with (1 := U) ]; lra.
Qed.
Lemma Argon_adas_hi_exponent : - (73.478761334) <= poly (coefs Argon_adas) (ln 1500) <= - (73.478760057).
Proof.
  assert (Hx : 7.31322038709 <= ln 1500 <= 7.313220387091).
  { split; [ apply ln_ge | apply ln_le; [ lra | ] ].
    - replace 7.31322038709 with (IZR 7313220387090 / IZR 1000000000000) by lra. replace 1500 with (IZR 1500 / IZR 1) by lra. apply (exp_le_check 48 (2 ^ 100)); check.
    - replace 7.313220387091 with (IZR 7313220387091 / IZR 1000000000000) by lra. replace 1500 with (IZR 1500 / IZR 1) by lra. apply (exp_ge_check 48 (2 ^ 100)); check. }
  revert Hx. generalize (ln 1500). intros x Hx.
  assert (H0 : x ^ 0 = 1) by reflexivity.
  assert (H1 : 7.31322038709 <= x ^ 1 <= 7.313220387091) by (rewrite pow_1; exact Hx).
  assert (H2 : 53.483192430148809438668100000000 <= x ^ 2 <= 53.483192430163435879442281000000) by (apply (pow_step x 7.31322038709 7.313220387091 1 7.31322038709 7.313220387091); first [ exact Hx | exact H1 | lra ]).
  assert (H3 : 391.134373246821833949358967896034 <= x ^ 3 <= 391.134373246982283526649436264012) by (apply (pow_step x 7.31322038709 7.313220387091 2 53.483192430148809438668100000000 53.483192430163435879442281000000); first [ exact Hx | exact H2 | lra ]).
  assert (H4 : 2860.451872520326912587394694653996 <= x ^ 4 <= 2860.451872521891450080382302888955) by (apply (pow_step x 7.31322038709 7.313220387091 3 391.134373246821833949358967896034 391.134373246982283526649436264012); first [ exact Hx | exact H3 | lra ]).
  assert (H5 : 20919.114950405420517565731222292108 <= x ^ 5 <= 20919.114950419722776928336768198830) by (apply (pow_step x 7.31322038709 7.313220387091 4 2860.451872520326912587394694653996 2860.451872521891450080382302888955); first [ exact Hx | exact H4 | lra ]).
  assert (H6 : 152986.097935184135589906285034009988 <= x ^ 6 <= 152986.097935309650279608760463893856) by (apply (pow_step x 7.31322038709 7.313220387091 5 20919.114950405420517565731222292108 20919.114950419722776928336768198830); first [ exact Hx | exact H5 | lra ]).
  assert (H7 : 1118821.050360935973809241487333246398 <= x ^ 7 <= 1118821.050362006876494788215583792523) by (apply (pow_step x 7.31322038709 7.313220387091 6 152986.097935184135589906285034009988 152986.097935309650279608760463893856); first [ exact Hx | exact H6 | lra ]).
  assert (H8 : 8182184.915005044566595927131814531554 <= x ^ 8 <= 8182184.915013995134998818903215768314) by (apply (pow_step x 7.31322038709 7.313220387091 7 1118821.050360935973809241487333246398 1118821.050362006876494788215583792523); first [ exact Hx | exact H7 | lra ]).
  assert (H9 : 59838121.531355150774623367502546101905 <= x ^ 9 <= 59838121.531428790438858453181203429215) by (apply (pow_step x 7.31322038709 7.313220387091 8 8182184.915005044566595927131814531554 8182184.915013995134998818903215768314); first [ exact Hx | exact H8 | lra ]).
  assert (H10 : 437609370.308275579320256417035929529934 <= x ^ 10 <= 437609370.308873960535570336741998042969) by (apply (pow_step x 7.31322038709 7.313220387091 9 59838121.531355150774623367502546101905 59838121.531428790438858453181203429215); first [ exact Hx | exact H9 | lra ]).
  unfold poly. cbn [coefs Argon_adas poly_from]. rewrite H0.
  revert H1 H2 H3 H4 H5 H6 H7 H8 H9 H10.
  generalize (x ^ 1). generalize (x ^ 2). generalize (x ^ 3). generalize (x ^ 4). generalize (x ^ 5). generalize (x ^ 6). generalize (x ^ 7). generalize (x ^ 8). generalize (x ^ 9). generalize (x ^ 10).
  clear. intros. lra.
Qed.
Lemma Argon_adas_hi_close : 0.95 * above Argon_adas <= exp (poly (coefs Argon_adas) (ln 1500)) <= 1.05 * above Argon_adas.
Proof.
  pose proof Argon_adas_hi_exponent as [H1 H2]. apply exp_monotone in H1. apply exp_monotone in H2. cbn [above Argon_adas].
  assert (L : / IZR 81549365226372025134748420052250 <= exp (- (73.478761334))).
  { apply exp_neg_ge. replace 73.478761334 with (IZR 73478761334 / IZR 1000000000) by lra. replace (IZR 81549365226372025134748420052250) with (IZR 81549365226372025134748420052250 / IZR 1) by lra. apply (exp_le_check 48 (2 ^ 100)); check. }
  assert (U : exp (- (73.478760057)) <= / IZR 81549260924800601474072102565427).
  { apply exp_neg_le; [ apply IZR_lt; reflexivity | ]. replace 73.478760057 with (IZR 73478760057 / IZR 1000000000) by lra. replace (IZR 81549260924800601474072102565427) with (IZR 81549260924800601474072102565427 / IZR 1) by lra. apply (exp_ge_check 48 (2 ^ 100)); check. }
  split; [ apply Rle_trans with (2 := H1), Rle_trans with (2 := L) | apply Rle_trans with (1 := H2), Rle_trans with (1 := U) ]; lra.
Qed.
Lemma Neon_adas_lo_exponent : - (81.052378723) <= poly (coefs Neon_adas) (ln 2) <= - (81.052378722).
Proof.
  assert (Hx : 0.693147180559 <= ln 2 <= 0.69314718056).
  { split; [ apply ln_ge | apply ln_le; [ lra | ] ].
    - replace 0.693147180559 with (IZR 693147180559 / IZR 1000000000000) by lra. replace 2 with (IZR 2 / IZR 1) by lra. apply (exp_le_check 48 (2 ^ 100)); check.
    - replace 0.69314718056 with (IZR 693147180560 / IZR 1000000000000) by lra. replace 2 with (IZR 2 / IZR 1) by lra. apply (exp_ge_check 48 (2 ^ 100)); check. }
  revert Hx. generalize (ln 2). intros x Hx.
  assert (H0 : x ^ 0 = 1) by reflexivity.
  assert (H1 : 0.693147180559 <= x ^ 1 <= 0.69314718056) by (rewrite pow_1; exact Hx).
  assert (H2 : 0.480453013916890947552481000000 <= x ^ 2 <= 0.480453013918277241913600000000) by (apply (pow_step x 0.693147180559 0.69314718056 1 0.693147180559 0.69314718056); first [ exact Hx | exact H1 | lra ]).
  assert (H3 : 0.333024651987566949443072146835 <= x ^ 3 <= 0.333024651989008308484824899120) by (apply (pow_step x 0.693147180559 0.69314718056 2 0.480453013916890947552481000000 0.480453013918277241913600000000); first [ exact Hx | exact H2 | lra ]).
  assert (H4 : 0.230835098581824206528717953853 <= x ^ 4 <= 0.230835098583156305136671104371) by (apply (pow_step x 0.693147180559 0.69314718056 3 0.333024651987566949443072146835 0.333024651989008308484824899120); first [ exact Hx | exact H3 | lra ]).
  assert (H5 : 0.160002697756050268118358170178 <= x ^ 5 <= 0.160002697757204443611270621459) by (apply (pow_step x 0.693147180559 0.69314718056 4 0.230835098581824206528717953853 0.230835098583156305136671104371); first [ exact Hx | exact H4 | lra ]).
  assert (H6 : 0.110905418831440079330115971767 <= x ^ 6 <= 0.110905418832400095516655735904) by (apply (pow_step x 0.693147180559 0.69314718056 5 0.160002697756050268118358170178 0.160002697757204443611270621459); first [ exact Hx | exact H5 | lra ]).
  assert (H7 : 0.076873778371727715453421179248 <= x ^ 7 <= 0.076873778372504053385244619863) by (apply (pow_step x 0.693147180559 0.69314718056 6 0.110905418831440079330115971767 0.110905418832400095516655735904); first [ exact Hx | exact H6 | lra ]).
  assert (H8 : 0.053284842737280499804177104686 <= x ^ 8 <= 0.053284842737895490031154031764) by (apply (pow_step x 0.693147180559 0.69314718056 7 0.076873778371727715453421179248 0.076873778372504053385244619863); first [ exact Hx | exact H7 | lra ]).
  assert (H9 : 0.036934238509875686398395711724 <= x ^ 9 <= 0.036934238510355249983034003681) by (apply (pow_step x 0.693147180559 0.69314718056 8 0.053284842737280499804177104686 0.053284842737895490031154031764); first [ exact Hx | exact H8 | lra ]).
  assert (H10 : 0.025600863289213973504632852802 <= x ^ 10 <= 0.025600863289583315889734007487) by (apply (pow_step x 0.693147180559 0.69314718056 9 0.036934238509875686398395711724 0.036934238510355249983034003681); first [ exact Hx | exact H9 | lra ]).
  unfold poly. cbn [coefs Neon_adas poly_from]. rewrite H0.
  revert H1 H2 H3 H4 H5 H6 H7 H8 H9 H10.
  generalize (x ^ 1). generalize (x ^ 2). generalize (x ^ 3). generalize (x ^ 4). generalize (x ^ 5). generalize (x ^ 6). generalize (x ^ 7). generalize (x ^ 8). generalize (x ^ 9). generalize (x ^ 10).
  clear. intros. lra.
Qed.
Lemma Neon_adas_lo_close : 0.95 * below Neon_adas <= exp (poly (coefs Neon_adas) (ln 2)) <= 1.05 * below Neon_adas.
Proof.
  pose proof Neon_adas_lo_exponent as [H1 H2]. apply exp_monotone in H1. apply exp_monotone in H2. cbn [below Neon_adas].
  assert (L : / IZR 158708733130576962717422263224008801 <= exp (- (81.052378723))).
  { apply exp_neg_ge. replace 81.052378723 with (IZR 81052378723 / IZR 1000000000) by lra. replace (IZR 158708733130576962717422263224008801) with (IZR 158708733130576962717422263224008801 / IZR 1) by lra. apply (exp_le_check 48 (2 ^ 100)); check. }
  assert (U : exp (- (81.052378722)) <= / IZR 158708732654450764039880673339343220).
  { apply exp_neg_le; [ apply IZR_lt; reflexivity | ]. replace 81.052378722 with (IZR 81052378722 / IZR 1000000000) by lra. replace (IZR 158708732654450764039880673339343220) with (IZR 158708732654450764039880673339343220 / IZR 1) by lra. apply (exp_ge_check 48 (2 ^ 100)); check. }
  split; [ apply Rle_trans with (2 := H1), Rle_trans with (2 := L) | apply Rle_trans with (1 := H2), Rle_trans with (1 := U) ]; lra.
Qed.
Lemma Neon_adas_hi_exponent : - (73.520094647) <= poly (coefs Neon_adas) (ln 1000) <= - (73.520091404).
Proof.
  assert (Hx : 6.907755278982 <= ln 1000 <= 6.907755278983).
  { split; [ apply ln_ge | apply ln_le; [ lra | ] ].
    - replace 6.907755278982 with (IZR 6907755278982 / IZR 1000000000000) by lra. replace 1000 with (IZR 1000 / IZR 1) by lra. apply (exp_le_check 48 (2 ^ 100)); check.
    - replace 6.907755278983 with (IZR 6907755278983 / IZR 1000000000000) by lra. replace 1000 with (IZR 1000 / IZR 1) by lra. apply (exp_ge_check 48 (2 ^ 100)); check. }
  revert Hx. generalize (ln 1000). intros x Hx.
  assert (H0 : x ^ 0 = 1) by reflexivity.
  assert (H1 : 6.907755278982 <= x ^ 1 <= 6.907755278983) by (rewrite pow_1; exact Hx).
  assert (H2 : 47.717082994303688650956324000000 <= x ^ 2 <= 47.717082994317504161514289000000) by (apply (pow_step x 6.907755278982 6.907755278983 1 6.907755278982 6.907755278983); first [ exact Hx | exact H1 | lra ]).
  assert (H3 : 329.617931951523524713918469113717 <= x ^ 3 <= 329.617931951666675962901400902936) by (apply (pow_step x 6.907755278982 6.907755278983 2 47.717082994303688650956324000000 47.717082994317504161514289000000); first [ exact Hx | exact H2 | lra ]).
  assert (H4 : 2276.920009485266277160129846351026 <= x ^ 4 <= 2276.920009486584748887936226752383) by (apply (pow_step x 6.907755278982 6.907755278983 3 329.617931951523524713918469113717 329.617931951666675962901400902936); first [ exact Hx | exact H3 | lra ]).
  assert (H5 : 15728.406215341593638602829281467876 <= x ^ 5 <= 15728.406215352978238650258909033020) by (apply (pow_step x 6.907755278982 6.907755278983 4 2276.920009485266277160129846351026 2276.920009486584748887936226752383); first [ exact Hx | exact H4 | lra ]).
  assert (H6 : 108647.981063999192933455363467900646 <= x ^ 6 <= 108647.981064093563370747447183532571) by (apply (pow_step x 6.907755278982 6.907755278983 5 15728.406215341593638602829281467876 15728.406215352978238650258909033020); first [ exact Hx | exact H5 | lra ]).
  assert (H7 : 750513.664745576798178663797233452237 <= x ^ 7 <= 750513.664746337334046112121880518093) by (apply (pow_step x 6.907755278982 6.907755278983 6 108647.981063999192933455363467900646 108647.981064093563370747447183532571); first [ exact Hx | exact H6 | lra ]).
  assert (H8 : 5184364.729594385073553162048138349337 <= x ^ 8 <= 5184364.729600389182871129704667256359) by (apply (pow_step x 6.907755278982 6.907755278983 7 750513.664745576798178663797233452237 750513.664746337334046112121880518093); first [ exact Hx | exact H7 | lra ]).
  assert (H9 : 35812322.829023702455462959493846177838 <= x ^ 9 <= 35812322.829070361738029335978000141848) by (apply (pow_step x 6.907755278982 6.907755278983 8 5184364.729594385073553162048138349337 5184364.729600389182871129704667256359); first [ exact Hx | exact H8 | lra ]).
  assert (H10 : 247382762.074796073241927094188380769703 <= x ^ 10 <= 247382762.075154196470217564509348609002) by (apply (pow_step x 6.907755278982 6.907755278983 9 35812322.829023702455462959493846177838 35812322.829070361738029335978000141848); first [ exact Hx | exact H9 | lra ]).
  unfold poly. cbn [coefs Neon_adas poly_from]. rewrite H0.
  revert H1 H2 H3 H4 H5 H6 H7 H8 H9 H10.
  generalize (x ^ 1). generalize (x ^ 2). generalize (x ^ 3). generalize (x ^ 4). generalize (x ^ 5). generalize (x ^ 6). generalize (x ^ 7). generalize (x ^ 8). generalize (x ^ 9). generalize (x ^ 10).
  clear. intros. lra.
Qed.
Lemma Neon_adas_hi_close : 0.95 * above Neon_adas <= exp (poly (coefs Neon_adas) (ln 1000)) <= 1.05 * above Neon_adas.
Proof.
  pose proof Neon_adas_hi_exponent as [H1 H2]. apply exp_monotone in H1. apply exp_monotone in H2. cbn [above Neon_adas].
  assert (L : / IZR 84990701652127659950432155451177 <= exp (- (73.520094647))).
  { apply exp_neg_ge. replace 73.520094647 with (IZR 73520094647 / IZR 1000000000) by lra. replace (IZR 84990701652127659950432155451177) with (IZR 84990701652127659950432155451177 / IZR 1) by lra. apply (exp_le_check 48 (2 ^ 100)); check. }
  assert (U : exp (- (73.520091404)) <= / IZR 84990425857748275418737161398804).
  { apply exp_neg_le; [ apply IZR_lt; reflexivity | ]. replace 73.520091404 with (IZR 73520091404 / IZR 1000000000) by lra. replace (IZR 84990425857748275418737161398804) with (IZR 84990425857748275418737161398804 / IZR 1) by lra. apply (exp_ge_check 48 (2 ^ 100)); check. }
  split; [ apply Rle_trans with (2 := H1), Rle_trans with (2 := L) | apply Rle_trans with (1 := H2), Rle_trans with (1 := U) ]; lra.
Qed.
Lemma Nitrogen_adas_lo_exponent : - (76.828452366) <= poly (coefs Nitrogen_adas) (ln 2) <= - (76.828452364).
Proof.
  assert (Hx : 0.693147180559 <= ln 2 <= 0.69314718056).
  { split; [ apply ln_ge | apply ln_le; [ lra | ] ].
    - replace 0.693147180559 with (IZR 693147180559 / IZR 1000000000000) by lra. replace 2 with (IZR 2 / IZR 1) by lra. apply (exp_le_check 48 (2 ^ 100)); check.
    - replace 0.69314718056 with (IZR 693147180560 / IZR 1000000000000) by lra. replace 2 with (IZR 2 / IZR 1) by lra. apply (exp_ge_check 48 (2 ^ 100)); check. }
  revert Hx. generalize (ln 2). intros x Hx.
  assert (H0 : x ^ 0 = 1) by reflexivity.
  assert (H1 : 0.693147180559 <= x ^ 1 <= 0.69314718056) by (rewrite pow_1; exact Hx).
  assert (H2 : 0.480453013916890947552481000000 <= x ^ 2 <= 0.480453013918277241913600000000) by (apply (pow_step x 0.693147180559 0.69314718056 1 0.693147180559 0.69314718056); first [ exact Hx | exact H1 | lra ]).
  assert (H3 : 0.333024651987566949443072146835 <= x ^ 3 <= 0.333024651989008308484824899120) by (apply (pow_step x 0.693147180559 0.69314718056 2 0.480453013916890947552481000000 0.480453013918277241913600000000); first [ exact Hx | exact H2 | lra ]).
  assert (H4 : 0.230835098581824206528717953853 <= x ^ 4 <= 0.230835098583156305136671104371) by (apply (pow_step x 0.693147180559 0.69314718056 3 0.333024651987566949443072146835 0.333024651989008308484824899120); first [ exact Hx | exact H3 | lra ]).
  assert (H5 : 0.160002697756050268118358170178 <= x ^ 5 <= 0.160002697757204443611270621459) by (apply (pow_step x 0.693147180559 0.69314718056 4 0.230835098581824206528717953853 0.230835098583156305136671104371); first [ exact Hx | exact H4 | lra ]).
  assert (H6 : 0.110905418831440079330115971767 <= x ^ 6 <= 0.110905418832400095516655735904) by (apply (pow_step x 0.693147180559 0.69314718056 5 0.160002697756050268118358170178 0.160002697757204443611270621459); first [ exact Hx | exact H5 | lra ]).
  assert (H7 : 0.076873778371727715453421179248 <= x ^ 7 <= 0.076873778372504053385244619863) by (apply (pow_step x 0.693147180559 0.69314718056 6 0.110905418831440079330115971767 0.110905418832400095516655735904); first [ exact Hx | exact H6 | lra ]).
  assert (H8 : 0.053284842737280499804177104686 <= x ^ 8 <= 0.053284842737895490031154031764) by (apply (pow_step x 0.693147180559 0.69314718056 7 0.076873778371727715453421179248 0.076873778372504053385244619863); first [ exact Hx | exact H7 | lra ]).
  assert (H9 : 0.036934238509875686398395711724 <= x ^ 9 <= 0.036934238510355249983034003681) by (apply (pow_step x 0.693147180559 0.69314718056 8 0.053284842737280499804177104686 0.053284842737895490031154031764); first [ exact Hx | exact H8 | lra ]).
  assert (H10 : 0.025600863289213973504632852802 <= x ^ 10 <= 0.025600863289583315889734007487) by (apply (pow_step x 0.693147180559 0.69314718056 9 0.036934238509875686398395711724 0.036934238510355249983034003681); first [ exact Hx | exact H9 | lra ]).
  unfold poly. cbn [coefs Nitrogen_adas poly_from]. rewrite H0.
  revert H1 H2 H3 H4 H5 H6 H7 H8 H9 H10.
  generalize (x ^ 1). generalize (x ^ 2). generalize (x ^ 3). generalize (x ^ 4). generalize (x ^ 5). generalize (x ^ 6). generalize (x ^ 7). generalize (x ^ 8). generalize (x ^ 9). generalize (x ^ 10).
  clear. intros. lra.
Qed.
Lemma Nitrogen_adas_lo_close : 0.95 * below Nitrogen_adas <= exp (poly (coefs Nitrogen_adas) (ln 2)) <= 1.05 * below Nitrogen_adas.
Proof.
  pose proof Nitrogen_adas_lo_exponent as [H1 H2]. apply exp_monotone in H1. apply exp_monotone in H2. cbn [below Nitrogen_adas].
  assert (L : / IZR 2323661787809099682146250406884923 <= exp (- (76.828452366))).
  { apply exp_neg_ge. replace 76.828452366 with (IZR 76828452366 / IZR 1000000000) by lra. replace (IZR 2323661787809099682146250406884923) with (IZR 2323661787809099682146250406884923 / IZR 1) by lra. apply (exp_le_check 48 (2 ^ 100)); check. }
  assert (U : exp (- (76.828452364)) <= / IZR 2323661778514452549499145954437883).
  { apply exp_neg_le; [ apply IZR_lt; reflexivity | ]. replace 76.828452364 with (IZR 76828452364 / IZR 1000000000) by lra. replace (IZR 2323661778514452549499145954437883) with (IZR 2323661778514452549499145954437883 / IZR 1) by lra. apply (exp_ge_check 48 (2 ^ 100)); check. }
  split; [ apply Rle_trans with (2 := H1), Rle_trans with (2 := L) | apply Rle_trans with (1 := H2), Rle_trans with (1 := U) ]; lra.
Qed.
Lemma Nitrogen_adas_hi_exponent : - (73.895126052) <= poly (coefs Nitrogen_adas) (ln 500) <= - (73.895120553).
Proof.
  assert (Hx : 6.214608098422 <= ln 500 <= 6.214608098423).
  { split; [ apply ln_ge | apply ln_le; [ lra | ] ].
    - replace 6.214608098422 with (IZR 6214608098422 / IZR 1000000000000) by lra. replace 500 with (IZR 500 / IZR 1) by lra. apply (exp_le_check 48 (2 ^ 100)); check.
    - replace 6.214608098423 with (IZR 6214608098423 / IZR 1000000000000) by lra. replace 500 with (IZR 500 / IZR 1) by lra. apply (exp_ge_check 48 (2 ^ 100)); check. }
  revert Hx. generalize (ln 500). intros x Hx.
  assert (H0 : x ^ 0 = 1) by reflexivity.
  assert (H1 : 6.214608098422 <= x ^ 1 <= 6.214608098423) by (rewrite pow_1; exact Hx).
  assert (H2 : 38.621353816972306838890084000000 <= x ^ 2 <= 38.621353816984736055086929000000) by (apply (pow_step x 6.214608098422 6.214608098423 1 6.214608098422 6.214608098423); first [ exact Hx | exact H1 | lra ]).
  assert (H3 : 240.016578202977519233469410844311 <= x ^ 3 <= 240.016578203093383294920346408653) by (apply (pow_step x 6.214608098422 6.214608098423 2 38.621353816972306838890084000000 38.621353816984736055086929000000); first [ exact Hx | exact H2 | lra ]).
  assert (H4 : 1491.608970655761374741926266384868 <= x ^ 4 <= 1491.608970656721441054738408189932) by (apply (pow_step x 6.214608098422 6.214608098423 3 240.016578202977519233469410844311 240.016578203093383294920346408653); first [ exact Hx | exact H3 | lra ]).
  assert (H5 : 9269.765188716197995443518935335398 <= x ^ 5 <= 9269.765188723656040296800142374936) by (apply (pow_step x 6.214608098422 6.214608098423 4 1491.608970655761374741926266384868 1491.608970656721441054738408189932); first [ exact Hx | exact H4 | lra ]).
  assert (H6 : 57607.957812266023195892895431228867 <= x ^ 6 <= 57607.957812321641787025214993336377) by (apply (pow_step x 6.214608098422 6.214608098423 5 9269.765188716197995443518935335398 9269.765188723656040296800142374936); first [ exact Hx | exact H5 | lra ]).
  assert (H7 : 358010.881153661349680228090076248920 <= x ^ 7 <= 358010.881154064605384914146903690931) by (apply (pow_step x 6.214608098422 6.214608098423 6 57607.957812266023195892895431228867 57607.957812321641787025214993336377); first [ exact Hx | exact H6 | lra ]).
  assert (H8 : 2224897.321340739997919200288639986229 <= x ^ 8 <= 2224897.321343604084968431192460257971) by (apply (pow_step x 6.214608098422 6.214608098423 7 358010.881153661349680228090076248920 358010.881154064605384914146903690931); first [ exact Hx | exact H7 | lra ]).
  assert (H9 : 13826864.911361577677986957542587898347 <= x ^ 9 <= 13826864.911381601753879037090960962125) by (apply (pow_step x 6.214608098422 6.214608098423 8 2224897.321340739997919200288639986229 2224897.321343604084968431192460257971); first [ exact Hx | exact H8 | lra ]).
  assert (H10 : 85928546.653934649836268368462659429027 <= x ^ 10 <= 85928546.654072918485382084359819190514) by (apply (pow_step x 6.214608098422 6.214608098423 9 13826864.911361577677986957542587898347 13826864.911381601753879037090960962125); first [ exact Hx | exact H9 | lra ]).
  unfold poly. cbn [coefs Nitrogen_adas poly_from]. rewrite H0.
  revert H1 H2 H3 H4 H5 H6 H7 H8 H9 H10.
  generalize (x ^ 1). generalize (x ^ 2). generalize (x ^ 3). generalize (x ^ 4). generalize (x ^ 5). generalize (x ^ 6). generalize (x ^ 7). generalize (x ^ 8). generalize (x ^ 9). generalize (x ^ 10).
  clear. intros. lra.
Qed.
Lemma Nitrogen_adas_hi_close : 0.95 * above Nitrogen_adas <= exp (poly (coefs Nitrogen_adas) (ln 500)) <= 1.05 * above Nitrogen_adas.
Proof.
  pose proof Nitrogen_adas_hi_exponent as [H1 H2]. apply exp_monotone in H1. apply exp_monotone in H2. cbn [above Nitrogen_adas].
  assert (L : / IZR 123664624852783261771464999612364 <= exp (- (73.895126052))).
  { apply exp_neg_ge. replace 73.895126052 with (IZR 73895126052 / IZR 1000000000) by lra. replace (IZR 123664624852783261771464999612364) with (IZR 123664624852783261771464999612364 / IZR 1) by lra. apply (exp_le_check 48 (2 ^ 100)); check. }
  assert (U : exp (- (73.895120553)) <= / IZR 123663944575553050847926301867444).
  { apply exp_neg_le; [ apply IZR_lt; reflexivity | ]. replace 73.895120553 with (IZR 73895120553 / IZR 1000000000) by lra. replace (IZR 123663944575553050847926301867444) with (IZR 123663944575553050847926301867444 / IZR 1) by lra. apply (exp_ge_check 48 (2 ^ 100)); check. }
  split; [ apply Rle_trans with (2 := H1), Rle_trans with (2 := L) | apply Rle_trans with (1 := H2), Rle_trans with (1 := U) ]; lra.
Qed.
Lemma Carbon_adas_lo_exponent : - (78.783789600) <= poly (coefs Carbon_adas) (ln 1) <= - (78.783789600).
Proof.
  rewrite ln_1. unfold poly. cbn [coefs Carbon_adas poly_from].
  change (0 ^ 0) with 1. rewrite ?(pow_i 1), ?(pow_i 2), ?(pow_i 3), ?(pow_i 4), ?(pow_i 5), ?(pow_i 6), ?(pow_i 7), ?(pow_i 8), ?(pow_i 9), ?(pow_i 10) by lia. lra.
Qed.
Lemma Carbon_adas_lo_close : 0.95 * below Carbon_adas <= exp (poly (coefs Carbon_adas) (ln 1)) <= 1.05 * below Carbon_adas.
Proof.
  pose proof Carbon_adas_lo_exponent as [H1 H2]. apply exp_monotone in H1. apply exp_monotone in H2. cbn [below Carbon_adas].
  assert (L : / IZR 16419695053419408988304089860533047 <= exp (- (78.783789600))).
  { apply exp_neg_ge. replace 78.783789600 with (IZR 78783789600 / IZR 1000000000) by lra. replace (IZR 16419695053419408988304089860533047) with (IZR 16419695053419408988304089860533047 / IZR 1) by lra. apply (exp_le_check 48 (2 ^ 100)); check. }
  assert (U : exp (- (78.783789600)) <= / IZR 16419695020580018914304661957924292).
  { apply exp_neg_le; [ apply IZR_lt; reflexivity | ]. replace 78.783789600 with (IZR 78783789600 / IZR 1000000000) by lra. replace (IZR 16419695020580018914304661957924292) with (IZR 16419695020580018914304661957924292 / IZR 1) by lra. apply (exp_ge_check 48 (2 ^ 100)); check. }
  split; [ apply Rle_trans with (2 := H1), Rle_trans with (2 := L) | apply Rle_trans with (1 := H2), Rle_trans with (1 := U) ]; lra.
Qed.
Lemma Carbon_adas_hi_exponent : - (74.473596298) <= poly (coefs Carbon_adas) (ln 500) <= - (74.473594609).
Proof.
  assert (Hx : 6.214608098422 <= ln 500 <= 6.214608098423).
  { split; [ apply ln_ge | apply ln_le; [ lra | ] ].
    - replace 6.214608098422 with (IZR 6214608098422 / IZR 1000000000000) by lra. replace 500 with (IZR 500 / IZR 1) by lra. apply (exp_le_check 48 (2 ^ 100)); check.
    - replace 6.214608098423 with (IZR 6214608098423 / IZR 1000000000000) by lra. replace 500 with (IZR 500 / IZR 1) by lra. apply (exp_ge_check 48 (2 ^ 100)); check. }
  revert Hx. generalize (ln 500). intros x Hx.
  assert (H0 : x ^ 0 = 1) by reflexivity.
  assert (H1 : 6.214608098422 <= x ^ 1 <= 6.214608098423) by (rewrite pow_1; exact Hx).
  assert (H2 : 38.621353816972306838890084000000 <= x ^ 2 <= 38.621353816984736055086929000000) by (apply (pow_step x 6.214608098422 6.214608098423 1 6.214608098422 6.214608098423); first [ exact Hx | exact H1 | lra ]).
  assert (H3 : 240.016578202977519233469410844311 <= x ^ 3 <= 240.016578203093383294920346408653) by (apply (pow_step x 6.214608098422 6.214608098423 2 38.621353816972306838890084000000 38.621353816984736055086929000000); first [ exact Hx | exact H2 | lra ]).
  assert (H4 : 1491.608970655761374741926266384868 <= x ^ 4 <= 1491.608970656721441054738408189932) by (apply (pow_step x 6.214608098422 6.214608098423 3 240.016578202977519233469410844311 240.016578203093383294920346408653); first [ exact Hx | exact H3 | lra ]).
  assert (H5 : 9269.765188716197995443518935335398 <= x ^ 5 <= 9269.765188723656040296800142374936) by (apply (pow_step x 6.214608098422 6.214608098423 4 1491.608970655761374741926266384868 1491.608970656721441054738408189932); first [ exact Hx | exact H4 | lra ]).
  assert (H6 : 57607.957812266023195892895431228867 <= x ^ 6 <= 57607.957812321641787025214993336377) by (apply (pow_step x 6.214608098422 6.214608098423 5 9269.765188716197995443518935335398 9269.765188723656040296800142374936); first [ exact Hx | exact H5 | lra ]).
  assert (H7 : 358010.881153661349680228090076248920 <= x ^ 7 <= 358010.881154064605384914146903690931) by (apply (pow_step x 6.214608098422 6.214608098423 6 57607.957812266023195892895431228867 57607.957812321641787025214993336377); first [ exact Hx | exact H6 | lra ]).
  assert (H8 : 2224897.321340739997919200288639986229 <= x ^ 8 <= 2224897.321343604084968431192460257971) by (apply (pow_step x 6.214608098422 6.214608098423 7 358010.881153661349680228090076248920 358010.881154064605384914146903690931); first [ exact Hx | exact H7 | lra ]).
  assert (H9 : 13826864.911361577677986957542587898347 <= x ^ 9 <= 13826864.911381601753879037090960962125) by (apply (pow_step x 6.214608098422 6.214608098423 8 2224897.321340739997919200288639986229 2224897.321343604084968431192460257971); first [ exact Hx | exact H8 | lra ]).
  assert (H10 : 85928546.653934649836268368462659429027 <= x ^ 10 <= 85928546.654072918485382084359819190514) by (apply (pow_step x 6.214608098422 6.214608098423 9 13826864.911361577677986957542587898347 13826864.911381601753879037090960962125); first [ exact Hx | exact H9 | lra ]).
  unfold poly. cbn [coefs Carbon_adas poly_from]. rewrite H0.
  revert H1 H2 H3 H4 H5 H6 H7 H8 H9 H10.
  generalize (x ^ 1). generalize (x ^ 2). generalize (x ^ 3). generalize (x ^ 4). generalize (x ^ 5). generalize (x ^ 6). generalize (x ^ 7). generalize (x ^ 8). generalize (x ^ 9). generalize (x ^ 10).
  clear. intros. lra.
Qed.
Lemma Carbon_adas_hi_close : 0.95 * above Carbon_adas <= exp (poly (coefs Carbon_adas) (ln 500)) <= 1.05 * above Carbon_adas.
Proof.
  pose proof Carbon_adas_hi_exponent as [H1 H2]. apply exp_monotone in H1. apply exp_monotone in H2. cbn [above Carbon_adas].
  assert (L : / IZR 220532154395554434534683574993388 <= exp (- (74.473596298))).
  { apply exp_neg_ge. replace 74.473596298 with (IZR 74473596298 / IZR 1000000000) by lra. replace (IZR 220532154395554434534683574993388) with (IZR 220532154395554434534683574993388 / IZR 1) by lra. apply (exp_le_check 48 (2 ^ 100)); check. }
  assert (U : exp (- (74.473594609)) <= / IZR 220531781475996655227100213758027).
  { apply exp_neg_le; [ apply IZR_lt; reflexivity | ]. replace 74.473594609 with (IZR 74473594609 / IZR 1000000000) by lra. replace (IZR 220531781475996655227100213758027) with (IZR 220531781475996655227100213758027 / IZR 1) by lra. apply (exp_ge_check 48 (2 ^ 100)); check. }
  split; [ apply Rle_trans with (2 := H1), Rle_trans with (2 := L) | apply Rle_trans with (1 := H2), Rle_trans with (1 := U) ]; lra.
Qed.
Lemma Krypton_adas_lo_exponent : - (78.513581753) <= poly (coefs Krypton_adas) (ln 2) <= - (78.513581750).
Proof.
  assert (Hx : 0.693147180559 <= ln 2 <= 0.69314718056).
  { split; [ apply ln_ge | apply ln_le; [ lra | ] ].
    - replace 0.693147180559 with (IZR 693147180559 / IZR 1000000000000) by lra. replace 2 with (IZR 2 / IZR 1) by lra. apply (exp_le_check 48 (2 ^ 100)); check.
    - replace 0.69314718056 with (IZR 693147180560 / IZR 1000000000000) by lra. replace 2 with (IZR 2 / IZR 1) by lra. apply (exp_ge_check 48 (2 ^ 100)); check. }
  revert Hx. generalize (ln 2). intros x Hx.
  assert (H0 : x ^ 0 = 1) by reflexivity.
  assert (H1 : 0.693147180559 <= x ^ 1 <= 0.69314718056) by (rewrite pow_1; exact Hx).
  assert (H2 : 0.480453013916890947552481000000 <= x ^ 2 <= 0.480453013918277241913600000000) by (apply (pow_step x 0.693147180559 0.69314718056 1 0.693147180559 0.69314718056); first [ exact Hx | exact H1 | lra ]).
  assert (H3 : 0.333024651987566949443072146835 <= x ^ 3 <= 0.333024651989008308484824899120) by (apply (pow_step x 0.693147180559 0.69314718056 2 0.480453013916890947552481000000 0.480453013918277241913600000000); first [ exact Hx | exact H2 | lra ]).
  assert (H4 : 0.230835098581824206528717953853 <= x ^ 4 <= 0.230835098583156305136671104371) by (apply (pow_step x 0.693147180559 0.69314718056 3 0.333024651987566949443072146835 0.333024651989008308484824899120); first [ exact Hx | exact H3 | lra ]).
  assert (H5 : 0.160002697756050268118358170178 <= x ^ 5 <= 0.160002697757204443611270621459) by (apply (pow_step x 0.693147180559 0.69314718056 4 0.230835098581824206528717953853 0.230835098583156305136671104371); first [ exact Hx | exact H4 | lra ]).
  assert (H6 : 0.110905418831440079330115971767 <= x ^ 6 <= 0.110905418832400095516655735904) by (apply (pow_step x 0.693147180559 0.69314718056 5 0.160002697756050268118358170178 0.160002697757204443611270621459); first [ exact Hx | exact H5 | lra ]).
  assert (H7 : 0.076873778371727715453421179248 <= x ^ 7 <= 0.076873778372504053385244619863) by (apply (pow_step x 0.693147180559 0.69314718056 6 0.110905418831440079330115971767 0.110905418832400095516655735904); first [ exact Hx | exact H6 | lra ]).
  assert (H8 : 0.053284842737280499804177104686 <= x ^ 8 <= 0.053284842737895490031154031764) by (apply (pow_step x 0.693147180559 0.69314718056 7 0.076873778371727715453421179248 0.076873778372504053385244619863); first [ exact Hx | exact H7 | lra ]).
  assert (H9 : 0.036934238509875686398395711724 <= x ^ 9 <= 0.036934238510355249983034003681) by (apply (pow_step x 0.693147180559 0.69314718056 8 0.053284842737280499804177104686 0.053284842737895490031154031764); first [ exact Hx | exact H8 | lra ]).
  assert (H10 : 0.025600863289213973504632852802 <= x ^ 10 <= 0.025600863289583315889734007487) by (apply (pow_step x 0.693147180559 0.69314718056 9 0.036934238509875686398395711724 0.036934238510355249983034003681); first [ exact Hx | exact H9 | lra ]).
  unfold poly. cbn [coefs Krypton_adas poly_from]. rewrite H0.
  revert H1 H2 H3 H4 H5 H6 H7 H8 H9 H10.
  generalize (x ^ 1). generalize (x ^ 2). generalize (x ^ 3). generalize (x ^ 4). generalize (x ^ 5). generalize (x ^ 6). generalize (x ^ 7). generalize (x ^ 8). generalize (x ^ 9). generalize (x ^ 10).
  clear. intros. lra.
Qed.
Lemma Krypton_adas_lo_close : 0.95 * below Krypton_adas <= exp (poly (coefs Krypton_adas) (ln 2)) <= 1.05 * below Krypton_adas.
Proof.
  pose proof Krypton_adas_lo_exponent as [H1 H2]. apply exp_monotone in H1. apply exp_monotone in H2. cbn [below Krypton_adas].
  assert (L : / IZR 12531853528175223824026109599252721 <= exp (- (78.513581753))).
  { apply exp_neg_ge. replace 78.513581753 with (IZR 78513581753 / IZR 1000000000) by lra. replace (IZR 12531853528175223824026109599252721) with (IZR 12531853528175223824026109599252721 / IZR 1) by lra. apply (exp_le_check 48 (2 ^ 100)); check. }
  assert (U : exp (- (78.513581750)) <= / IZR 12531853465515956339798159311877617).
  { apply exp_neg_le; [ apply IZR_lt; reflexivity | ]. replace 78.513581750 with (IZR 78513581750 / IZR 1000000000) by lra. replace (IZR 12531853465515956339798159311877617) with (IZR 12531853465515956339798159311877617 / IZR 1) by lra. apply (exp_ge_check 48 (2 ^ 100)); check. }
  split; [ apply Rle_trans with (2 := H1), Rle_trans with (2 := L) | apply Rle_trans with (1 := H2), Rle_trans with (1 := U) ]; lra.
Qed.
Lemma Krypton_adas_hi_exponent : - (71.864292424) <= poly (coefs Krypton_adas) (ln 1500) <= - (71.864281873).
Proof.
  assert (Hx : 7.31322038709 <= ln 1500 <= 7.313220387091).
  { split; [ apply ln_ge | apply ln_le; [ lra | ] ].
    - replace 7.31322038709 with (IZR 7313220387090 / IZR 1000000000000) by lra. replace 1500 with (IZR 1500 / IZR 1) by lra. apply (exp_le_check 48 (2 ^ 100)); check.
    - replace 7.313220387091 with (IZR 7313220387091 / IZR 1000000000000) by lra. replace 1500 with (IZR 1500 / IZR 1) by lra. apply (exp_ge_check 48 (2 ^ 100)); check. }
  revert Hx. generalize (ln 1500). intros x Hx.
  assert (H0 : x ^ 0 = 1) by reflexivity.
  assert (H1 : 7.31322038709 <= x ^ 1 <= 7.313220387091) by (rewrite pow_1; exact Hx).
  assert (H2 : 53.483192430148809438668100000000 <= x ^ 2 <= 53.483192430163435879442281000000) by (apply (pow_step x 7.31322038709 7.313220387091 1 7.31322038709 7.313220387091); first [ exact Hx | exact H1 | lra ]).
  assert (H3 : 391.134373246821833949358967896034 <= x ^ 3 <= 391.134373246982283526649436264012) by (apply (pow_step x 7.31322038709 7.313220387091 2 53.483192430148809438668100000000 53.483192430163435879442281000000); first [ exact Hx | exact H2 | lra ]).
  assert (H4 : 2860.451872520326912587394694653996 <= x ^ 4 <= 2860.451872521891450080382302888955) by (apply (pow_step x 7.31322038709 7.313220387091 3 391.134373246821833949358967896034 391.134373246982283526649436264012); first [ exact Hx | exact H3 | lra ]).
  assert (H5 : 20919.114950405420517565731222292108 <= x ^ 5 <= 20919.114950419722776928336768198830) by (apply (pow_step x 7.31322038709 7.313220387091 4 2860.451872520326912587394694653996 2860.451872521891450080382302888955); first [ exact Hx | exact H4 | lra ]).
  assert (H6 : 152986.097935184135589906285034009988 <= x ^ 6 <= 152986.097935309650279608760463893856) by (apply (pow_step x 7.31322038709 7.313220387091 5 20919.114950405420517565731222292108 20919.114950419722776928336768198830); first [ exact Hx | exact H5 | lra ]).
  assert (H7 : 1118821.050360935973809241487333246398 <= x ^ 7 <= 1118821.050362006876494788215583792523) by (apply (pow_step x 7.31322038709 7.313220387091 6 152986.097935184135589906285034009988 152986.097935309650279608760463893856); first [ exact Hx | exact H6 | lra ]).
  assert (H8 : 8182184.915005044566595927131814531554 <= x ^ 8 <= 8182184.915013995134998818903215768314) by (apply (pow_step x 7.31322038709 7.313220387091 7 1118821.050360935973809241487333246398 1118821.050362006876494788215583792523); first [ exact Hx | exact H7 | lra ]).
  assert (H9 : 59838121.531355150774623367502546101905 <= x ^ 9 <= 59838121.531428790438858453181203429215) by (apply (pow_step x 7.31322038709 7.313220387091 8 8182184.915005044566595927131814531554 8182184.915013995134998818903215768314); first [ exact Hx | exact H8 | lra ]).
  assert (H10 : 437609370.308275579320256417035929529934 <= x ^ 10 <= 437609370.308873960535570336741998042969) by (apply (pow_step x 7.31322038709 7.313220387091 9 59838121.531355150774623367502546101905 59838121.531428790438858453181203429215); first [ exact Hx | exact H9 | lra ]).
  unfold poly. cbn [coefs Krypton_adas poly_from]. rewrite H0.
  revert H1 H2 H3 H4 H5 H6 H7 H8 H9 H10.
  generalize (x ^ 1). generalize (x ^ 2). generalize (x ^ 3). generalize (x ^ 4). generalize (x ^ 5). generalize (x ^ 6). generalize (x ^ 7). generalize (x ^ 8). generalize (x ^ 9). generalize (x ^ 10).
  clear. intros. lra.
Qed.
Lemma Krypton_adas_hi_close : 0.95 * above Krypton_adas <= exp (poly (coefs Krypton_adas) (ln 1500)) <= 1.05 * above Krypton_adas.
Proof.
  pose proof Krypton_adas_hi_exponent as [H1 H2]. apply exp_monotone in H1. apply exp_monotone in H2. cbn [above Krypton_adas].
  assert (L : / IZR 16228024177051118491876280873030 <= exp (- (71.864292424))).
  { apply exp_neg_ge. replace 71.864292424 with (IZR 71864292424 / IZR 1000000000) by lra. replace (IZR 16228024177051118491876280873030) with (IZR 16228024177051118491876280873030 / IZR 1) by lra. apply (exp_le_check 48 (2 ^ 100)); check. }
  assert (U : exp (- (71.864281873)) <= / IZR 16227852923615598413259313471536).
  { apply exp_neg_le; [ apply IZR_lt; reflexivity | ]. replace 71.864281873 with (IZR 71864281873 / IZR 1000000000) by lra. replace (IZR 16227852923615598413259313471536) with (IZR 16227852923615598413259313471536 / IZR 1) by lra. apply (exp_ge_check 48 (2 ^ 100)); check. }
  split; [ apply Rle_trans with (2 := H1), Rle_trans with (2 := L) | apply Rle_trans with (1 := H2), Rle_trans with (1 := U) ]; lra.
Qed.
Lemma Xenon_adas_lo_exponent : - (75.361671493) <= poly (coefs Xenon_adas) (ln 2) <= - (75.361671403).
Proof.
  assert (Hx : 0.693147180559 <= ln 2 <= 0.69314718056).
  { split; [ apply ln_ge | apply ln_le; [ lra | ] ].
    - replace 0.693147180559 with (IZR 693147180559 / IZR 1000000000000) by lra. replace 2 with (IZR 2 / IZR 1) by lra. apply (exp_le_check 48 (2 ^ 100)); check.
    - replace 0.69314718056 with (IZR 693147180560 / IZR 1000000000000) by lra. replace 2 with (IZR 2 / IZR 1) by lra. apply (exp_ge_check 48 (2 ^ 100)); check. }
  revert Hx. generalize (ln 2). intros x Hx.
  assert (H0 : x ^ 0 = 1) by reflexivity.
  assert (H1 : 0.693147180559 <= x ^ 1 <= 0.69314718056) by (rewrite pow_1; exact Hx).
  assert (H2 : 0.480453013916890947552481000000 <= x ^ 2 <= 0.480453013918277241913600000000) by (apply (pow_step x 0.693147180559 0.69314718056 1 0.693147180559 0.69314718056); first [ exact Hx | exact H1 | lra ]).
  assert (H3 : 0.333024651987566949443072146835 <= x ^ 3 <= 0.333024651989008308484824899120) by (apply (pow_step x 0.693147180559 0.69314718056 2 0.480453013916890947552481000000 0.480453013918277241913600000000); first [ exact Hx | exact H2 | lra ]).
  assert (H4 : 0.230835098581824206528717953853 <= x ^ 4 <= 0.230835098583156305136671104371) by (apply (pow_step x 0.693147180559 0.69314718056 3 0.333024651987566949443072146835 0.333024651989008308484824899120); first [ exact Hx | exact H3 | lra ]).
  assert (H5 : 0.160002697756050268118358170178 <= x ^ 5 <= 0.160002697757204443611270621459) by (apply (pow_step x 0.693147180559 0.69314718056 4 0.230835098581824206528717953853 0.230835098583156305136671104371); first [ exact Hx | exact H4 | lra ]).
  assert (H6 : 0.110905418831440079330115971767 <= x ^ 6 <= 0.110905418832400095516655735904) by (apply (pow_step x 0.693147180559 0.69314718056 5 0.160002697756050268118358170178 0.160002697757204443611270621459); first [ exact Hx | exact H5 | lra ]).
  assert (H7 : 0.076873778371727715453421179248 <= x ^ 7 <= 0.076873778372504053385244619863) by (apply (pow_step x 0.693147180559 0.69314718056 6 0.110905418831440079330115971767 0.110905418832400095516655735904); first [ exact Hx | exact H6 | lra ]).
  assert (H8 : 0.053284842737280499804177104686 <= x ^ 8 <= 0.053284842737895490031154031764) by (apply (pow_step x 0.693147180559 0.69314718056 7 0.076873778371727715453421179248 0.076873778372504053385244619863); first [ exact Hx | exact H7 | lra ]).
  assert (H9 : 0.036934238509875686398395711724 <= x ^ 9 <= 0.036934238510355249983034003681) by (apply (pow_step x 0.693147180559 0.69314718056 8 0.053284842737280499804177104686 0.053284842737895490031154031764); first [ exact Hx | exact H8 | lra ]).
  assert (H10 : 0.025600863289213973504632852802 <= x ^ 10 <= 0.025600863289583315889734007487) by (apply (pow_step x 0.693147180559 0.69314718056 9 0.036934238509875686398395711724 0.036934238510355249983034003681); first [ exact Hx | exact H9 | lra ]).
  assert (H11 : 0.017745166208795072730001590044 <= x ^ 11 <= 0.017745166209076682226184975138) by (apply (pow_step x 0.693147180559 0.69314718056 10 0.025600863289213973504632852802 0.025600863289583315889734007487); first [ exact Hx | exact H10 | lra ]).
  assert (H12 : 0.012300011926177143771411949190 <= x ^ 12 <= 0.012300011926390085765919179722) by (apply (pow_step x 0.693147180559 0.69314718056 11 0.017745166208795072730001590044 0.017745166209076682226184975138); first [ exact Hx | exact H11 | lra ]).
  assert (H13 : 0.008525718587471762052341780567 <= x ^ 13 <= 0.008525718587631662207383467562) by (apply (pow_step x 0.693147180559 0.69314718056 12 0.012300011926177143771411949190 0.012300011926390085765919179722); first [ exact Hx | exact H12 | lra ]).
  assert (H14 : 0.005909577801145511886608432583 <= x ^ 14 <= 0.005909577801264871946834156556) by (apply (pow_step x 0.693147180559 0.69314718056 13 0.008525718587471762052341780567 0.008525718587631662207383467562); first [ exact Hx | exact H13 | lra ]).
  assert (H15 : 0.004096207191158066324699455953 <= x ^ 15 <= 0.004096207191246709991717533835) by (apply (pow_step x 0.693147180559 0.69314718056 14 0.005909577801145511886608432583 0.005909577801264871946834156556); first [ exact Hx | exact H14 | lra ]).
  unfold poly. cbn [coefs Xenon_adas poly_from]. rewrite H0.
  revert H1 H2 H3 H4 H5 H6 H7 H8 H9 H10 H11 H12 H13 H14 H15.
  generalize (x ^ 1). generalize (x ^ 2). generalize (x ^ 3). generalize (x ^ 4). generalize (x ^ 5). generalize (x ^ 6). generalize (x ^ 7). generalize (x ^ 8). generalize (x ^ 9). generalize (x ^ 10). generalize (x ^ 11). generalize (x ^ 12). generalize (x ^ 13). generalize (x ^ 14). generalize (x ^ 15).
  clear. intros. lra.
Qed.
Lemma Xenon_adas_lo_close : 0.95 * below Xenon_adas <= exp (poly (coefs Xenon_adas) (ln 2)) <= 1.05 * below Xenon_adas.
Proof.
  pose proof Xenon_adas_lo_exponent as [H1 H2]. apply exp_monotone in H1. apply exp_monotone in H2. cbn [below Xenon_adas].
  assert (L : / IZR 535991715169824563489137666793409 <= exp (- (75.361671493))).
  { apply exp_neg_ge. replace 75.361671493 with (IZR 75361671493 / IZR 1000000000) by lra. replace (IZR 535991715169824563489137666793409) with (IZR 535991715169824563489137666793409 / IZR 1) by lra. apply (exp_le_check 48 (2 ^ 100)); check. }
  assert (U : exp (- (75.361671403)) <= / IZR 535991665858589036182146862415115).
  { apply exp_neg_le; [ apply IZR_lt; reflexivity | ]. replace 75.361671403 with (IZR 75361671403 / IZR 1000000000) by lra. replace (IZR 535991665858589036182146862415115) with (IZR 535991665858589036182146862415115 / IZR 1) by lra. apply (exp_ge_check 48 (2 ^ 100)); check. }
  split; [ apply Rle_trans with (2 := H1), Rle_trans with (2 := L) | apply Rle_trans with (1 := H2), Rle_trans with (1 := U) ]; lra.
Qed.
Lemma Xenon_adas_hi_exponent : - (99.751319708) <= poly (coefs Xenon_adas) (ln 1300) <= - (99.657041329).
Proof.
  assert (Hx : 7.170119543449 <= ln 1300 <= 7.17011954345).
  { split; [ apply ln_ge | apply ln_le; [ lra | ] ].
    - replace 7.170119543449 with (IZR 7170119543449 / IZR 1000000000000) by lra. replace 1300 with (IZR 1300 / IZR 1) by lra. apply (exp_le_check 48 (2 ^ 100)); check.
    - replace 7.17011954345 with (IZR 7170119543450 / IZR 1000000000000) by lra. replace 1300 with (IZR 1300 / IZR 1) by lra. apply (exp_ge_check 48 (2 ^ 100)); check. }
  revert Hx. generalize (ln 1300). intros x Hx.
  assert (H0 : x ^ 0 = 1) by reflexivity.
  assert (H1 : 7.170119543449 <= x ^ 1 <= 7.17011954345) by (rewrite pow_1; exact Hx).
  assert (H2 : 51.410614267349296198815601000000 <= x ^ 2 <= 51.410614267363636437902500000000) by (apply (pow_step x 7.170119543449 7.17011954345 1 7.170119543449 7.17011954345); first [ exact Hx | exact H1 | lra ]).
  assert (H3 : 368.620250099039181288463188176658 <= x ^ 3 <= 368.620250099193413131265257575614) by (apply (pow_step x 7.170119543449 7.17011954345 2 51.410614267349296198815601000000 51.410614267363636437902500000000); first [ exact Hx | exact H2 | lra ]).
  assert (H4 : 2643.051259346179011573598418380062 <= x ^ 4 <= 2643.051259347653492573994883568909) by (apply (pow_step x 7.170119543449 7.17011954345 3 368.620250099039181288463188176658 368.620250099193413131265257575614); first [ exact Hx | exact H3 | lra ]).
  assert (H5 : 18950.993488975529548706715578657318 <= x ^ 5 <= 18950.993488988744805003450159917742) by (apply (pow_step x 7.170119543449 7.17011954345 4 2643.051259346179011573598418380062 2643.051259347653492573994883568909); first [ exact Hx | exact H4 | lra ]).
  assert (H6 : 135880.888783078195542506004513242704 <= x ^ 6 <= 135880.888783191901503439897336304230) by (apply (pow_step x 7.170119543449 7.17011954345 5 18950.993488975529548706715578657318 18950.993488988744805003450159917742); first [ exact Hx | exact H5 | lra ]).
  assert (H7 : 974282.216244768976620099899953832910 <= x ^ 7 <= 974282.216245720142841581845293496557) by (apply (pow_step x 7.170119543449 7.17011954345 6 135880.888783078195542506004513242704 135880.888783191901503439897336304230); first [ exact Hx | exact H6 | lra ]).
  assert (H8 : 6985719.959531422825877789649773747000 <= x ^ 8 <= 6985719.959539217083607751606251614065) by (apply (pow_step x 7.170119543449 7.17011954345 7 974282.216244768976620099899953832910 974282.216245720142841581845293496557); first [ exact Hx | exact H7 | lra ]).
  assert (H9 : 50088447.206898012188252234546304996445 <= x ^ 9 <= 50088447.206960883667888052425897827206) by (apply (pow_step x 7.170119543449 7.17011954345 8 6985719.959531422825877789649773747000 6985719.959539217083607751606251614065); first [ exact Hx | exact H8 | lra ]).
  assert (H10 : 359140154.219192914394736749406406446760 <= x ^ 10 <= 359140154.219693798866806043885688193763) by (apply (pow_step x 7.170119543449 7.17011954345 9 50088447.206898012188252234546304996445 50088447.206960883667888052425897827206); first [ exact Hx | exact H9 | lra ]).
  assert (H11 : 2575077838.604322950433245601822405313798 <= x ^ 11 <= 2575077838.608273492129659478745351295854) by (apply (pow_step x 7.170119543449 7.17011954345 10 359140154.219192914394736749406406446760 359140154.219693798866806043885688193763); first [ exact Hx | exact H10 | lra ]).
  assert (H12 : 18463615936.479265780718175611290152030948 <= x ^ 12 <= 18463615936.510166714781451189945583212239) by (apply (pow_step x 7.170119543449 7.17011954345 11 2575077838.604322950433245601822405313798 2575077838.608273492129659478745351295854); first [ exact Hx | exact H11 | lra ]).
  assert (H13 : 132386333468.886393744097733861359951370010 <= x ^ 13 <= 132386333469.126420751272165172581084332084) by (apply (pow_step x 7.170119543449 7.17011954345 12 18463615936.479265780718175611290152030948 18463615936.510166714781451189945583212239); first [ exact Hx | exact H12 | lra ]).
  assert (H14 : 949225836890.818777958878093252449722379388 <= x ^ 14 <= 949225836892.672186627444182953920074849269) by (apply (pow_step x 7.170119543449 7.17011954345 13 132386333468.886393744097733861359951370010 132386333469.126420751272165172581084332084); first [ exact Hx | exact H13 | lra ]).
  assert (H15 : 6806062724237.592477878307098087502450927724 <= x ^ 15 <= 6806062724251.830865431683280321919679466031) by (apply (pow_step x 7.170119543449 7.17011954345 14 949225836890.818777958878093252449722379388 949225836892.672186627444182953920074849269); first [ exact Hx | exact H14 | lra ]).
  unfold poly. cbn [coefs Xenon_adas poly_from]. rewrite H0.
  revert H1 H2 H3 H4 H5 H6 H7 H8 H9 H10 H11 H12 H13 H14 H15.
  generalize (x ^ 1). generalize (x ^ 2). generalize (x ^ 3). generalize (x ^ 4). generalize (x ^ 5). generalize (x ^ 6). generalize (x ^ 7). generalize (x ^ 8). generalize (x ^ 9). generalize (x ^ 10). generalize (x ^ 11). generalize (x ^ 12). generalize (x ^ 13). generalize (x ^ 14). generalize (x ^ 15).
  clear. intros. lra.
Qed.
Lemma Xenon_adas_hi_tiny : exp (poly (coefs Xenon_adas) (ln 1300)) <= / IZR (10 ^ 43).
Proof.
  pose proof Xenon_adas_hi_exponent as [H1 H2]. apply exp_monotone in H2. apply Rle_trans with (1 := H2).
  apply exp_neg_le; [ apply IZR_lt; reflexivity | ]. replace 99.657041329 with (IZR 99657041329 / IZR 1000000000) by lra.
  replace (IZR (10 ^ 43)) with (IZR (10 ^ 43) / IZR 1) by (unfold Rdiv; rewrite Rinv_1; ring). apply (exp_ge_check 48 (2 ^ 100)); check.
Qed.
Lemma Tungsten_adas_lo_exponent : - (72.974388284) <= poly (coefs Tungsten_adas) (ln 1.25) <= - (72.974388282).
Proof.
  assert (Hx : 0.223143551314 <= ln 1.25 <= 0.223143551315).
  { split; [ apply ln_ge | apply ln_le; [ lra | ] ].
    - replace 0.223143551314 with (IZR 223143551314 / IZR 1000000000000) by lra. replace 1.25 with (IZR 125 / IZR 100) by lra. apply (exp_le_check 48 (2 ^ 100)); check.
    - replace 0.223143551315 with (IZR 223143551315 / IZR 1000000000000) by lra. replace 1.25 with (IZR 125 / IZR 100) by lra. apply (exp_ge_check 48 (2 ^ 100)); check. }
  revert Hx. generalize (ln 1.25). intros x Hx.
  assert (H0 : x ^ 0 = 1) by reflexivity.
  assert (H1 : 0.223143551314 <= x ^ 1 <= 0.223143551315) by (rewrite pow_1; exact Hx).
  assert (H2 : 0.049793044493023751126596000000 <= x ^ 2 <= 0.049793044493470038229225000000) by (apply (pow_step x 0.223143551314 0.223143551315 1 0.223143551314 0.223143551315); first [ exact Hx | exact H1 | lra ]).
  assert (H3 : 0.011110996778909330524538339836 <= x ^ 3 <= 0.011110996779058709658018080521) by (apply (pow_step x 0.223143551314 0.223143551315 2 0.049793044493023751126596000000 0.049793044493470038229225000000); first [ exact Hx | exact H2 | lra ]).
  assert (H4 : 0.002479347279884242908855707571 <= x ^ 4 <= 0.002479347279928686895971643652) by (apply (pow_step x 0.223143551314 0.223143551315 3 0.011110996778909330524538339836 0.011110996779058709658018080521); first [ exact Hx | exact H3 | lra ]).
  assert (H5 : 0.000553250356974075877512284207 <= x ^ 5 <= 0.000553250356986472613911816533) by (apply (pow_step x 0.223143551314 0.223143551315 4 0.002479347279884242908855707571 0.002479347279928686895971643652); first [ exact Hx | exact H4 | lra ]).
  assert (H6 : 0.000123454249420933518341391969 <= x ^ 6 <= 0.000123454249424253020483273616) by (apply (pow_step x 0.223143551314 0.223143551315 5 0.000553250356974075877512284207 0.000553250356986472613911816533); first [ exact Hx | exact H5 | lra ]).
  assert (H7 : 0.000027548019640591433335794959 <= x ^ 7 <= 0.000027548019641455613081753113) by (apply (pow_step x 0.223143551314 0.223143551315 6 0.000123454249420933518341391969 0.000123454249424253020483273616); first [ exact Hx | exact H6 | lra ]).
  assert (H8 : 0.000006147162934269394341874772 <= x ^ 8 <= 0.000006147162934489778499002962) by (apply (pow_step x 0.223143551314 0.223143551315 7 0.000027548019640591433335794959 0.000027548019641455613081753113); first [ exact Hx | exact H7 | lra ]).
  assert (H9 : 0.000001371699767658661405425834 <= x ^ 9 <= 0.000001371699767713985871835252) by (apply (pow_step x 0.223143551314 0.223143551315 8 0.000006147162934269394341874772 0.000006147162934489778499002962); first [ exact Hx | exact H8 | lra ]).
  assert (H10 : 0.000000306085957491942388958190 <= x ^ 10 <= 0.000000306085957505659386635055) by (apply (pow_step x 0.223143551314 0.223143551315 9 0.000001371699767658661405425834 0.000001371699767713985871835252); first [ exact Hx | exact H9 | lra ]).
  assert (H11 : 0.000000068301107562098069212023 <= x ^ 11 <= 0.000000068301107565465014744511) by (apply (pow_step x 0.223143551314 0.223143551315 10 0.000000306085957491942388958190 0.000000306085957505659386635055); first [ exact Hx | exact H10 | lra ]).
  assert (H12 : 0.000000015240951700086063948713 <= x ^ 12 <= 0.000000015240951700905677239480) by (apply (pow_step x 0.223143551314 0.223143551315 11 0.000000068301107562098069212023 0.000000068301107565465014744511); first [ exact Hx | exact H11 | lra ]).
  assert (H13 : 0.000000003400920087762350148955 <= x ^ 13 <= 0.000000003400920087960482521063) by (apply (pow_step x 0.223143551314 0.223143551315 12 0.000000015240951700086063948713 0.000000015240951700905677239480); first [ exact Hx | exact H12 | lra ]).
  assert (H14 : 0.000000000758893386118411363900 <= x ^ 14 <= 0.000000000758893386166024245131) by (apply (pow_step x 0.223143551314 0.223143551315 13 0.000000003400920087762350148955 0.000000003400920087960482521063); first [ exact Hx | exact H13 | lra ]).
  assert (H15 : 0.000000000169342165247168941460 <= x ^ 15 <= 0.000000000169342165258552342253) by (apply (pow_step x 0.223143551314 0.223143551315 14 0.000000000758893386118411363900 0.000000000758893386166024245131); first [ exact Hx | exact H14 | lra ]).
  assert (H16 : 0.000000000037787612140455510181 <= x ^ 16 <= 0.000000000037787612143164984827) by (apply (pow_step x 0.223143551314 0.223143551315 15 0.000000000169342165247168941460 0.000000000169342165258552342253); first [ exact Hx | exact H15 | lra ]).
  assert (H17 : 0.000000000008432061968697263511 <= x ^ 17 <= 0.000000000008432061969339652919) by (apply (pow_step x 0.223143551314 0.223143551315 16 0.000000000037787612140455510181 0.000000000037787612143164984827); first [ exact Hx | exact H16 | lra ]).
  assert (H18 : 0.000000000001881560252594825681 <= x ^ 18 <= 0.000000000001881560252746602798) by (apply (pow_step x 0.223143551314 0.223143551315 17 0.000000000008432061968697263511 0.000000000008432061969339652919); first [ exact Hx | exact H17 | lra ]).
  assert (H19 : 0.000000000000419858036775276285 <= x ^ 19 <= 0.000000000000419858036811025932) by (apply (pow_step x 0.223143551314 0.223143551315 18 0.000000000001881560252594825681 0.000000000001881560252746602798); first [ exact Hx | exact H18 | lra ]).
  assert (H20 : 0.000000000000093688613373759162 <= x ^ 20 <= 0.000000000000093688613382156325) by (apply (pow_step x 0.223143551314 0.223143551315 19 0.000000000000419858036775276285 0.000000000000419858036811025932); first [ exact Hx | exact H19 | lra ]).
  unfold poly. cbn [coefs Tungsten_adas poly_from]. rewrite H0.
  revert H1 H2 H3 H4 H5 H6 H7 H8 H9 H10 H11 H12 H13 H14 H15 H16 H17 H18 H19 H20.
  generalize (x ^ 1). generalize (x ^ 2). generalize (x ^ 3). generalize (x ^ 4). generalize (x ^ 5). generalize (x ^ 6). generalize (x ^ 7). generalize (x ^ 8). generalize (x ^ 9). generalize (x ^ 10). generalize (x ^ 11). generalize (x ^ 12). generalize (x ^ 13). generalize (x ^ 14). generalize (x ^ 15). generalize (x ^ 16). generalize (x ^ 17). generalize (x ^ 18). generalize (x ^ 19). generalize (x ^ 20).
  clear. intros. lra.
Qed.
Lemma Tungsten_adas_lo_close : 0.95 * below Tungsten_adas <= exp (poly (coefs Tungsten_adas) (ln 1.25)) <= 1.05 * below Tungsten_adas.
Proof.
  pose proof Tungsten_adas_lo_exponent as [H1 H2]. apply exp_monotone in H1. apply exp_monotone in H2. cbn [below Tungsten_adas].
  assert (L : / IZR 49246361916734878209349914935237 <= exp (- (72.974388284))).
  { apply exp_neg_ge. replace 72.974388284 with (IZR 72974388284 / IZR 1000000000) by lra. replace (IZR 49246361916734878209349914935237) with (IZR 49246361916734878209349914935237 / IZR 1) by lra. apply (exp_le_check 48 (2 ^ 100)); check. }
  assert (U : exp (- (72.974388282)) <= / IZR 49246361719749430936381296873588).
  { apply exp_neg_le; [ apply IZR_lt; reflexivity | ]. replace 72.974388282 with (IZR 72974388282 / IZR 1000000000) by lra. replace (IZR 49246361719749430936381296873588) with (IZR 49246361719749430936381296873588 / IZR 1) by lra. apply (exp_ge_check 48 (2 ^ 100)); check. }
  split; [ apply Rle_trans with (2 := H1), Rle_trans with (2 := L) | apply Rle_trans with (1 := H2), Rle_trans with (1 := U) ]; lra.
Qed.
Lemma Tungsten_adas_hi_exponent : - (458.183633983) <= poly (coefs Tungsten_adas) (ln 1500) <= - (455.974835609).
Proof.
  assert (Hx : 7.31322038709 <= ln 1500 <= 7.313220387091).
  { split; [ apply ln_ge | apply ln_le; [ lra | ] ].
    - replace 7.31322038709 with (IZR 7313220387090 / IZR 1000000000000) by lra. replace 1500 with (IZR 1500 / IZR 1) by lra. apply (exp_le_check 48 (2 ^ 100)); check.
    - replace 7.313220387091 with (IZR 7313220387091 / IZR 1000000000000) by lra. replace 1500 with (IZR 1500 / IZR 1) by lra. apply (exp_ge_check 48 (2 ^ 100)); check. }
  revert Hx. generalize (ln 1500). intros x Hx.
  assert (H0 : x ^ 0 = 1) by reflexivity.
  assert (H1 : 7.31322038709 <= x ^ 1 <= 7.313220387091) by (rewrite pow_1; exact Hx).
  assert (H2 : 53.483192430148809438668100000000 <= x ^ 2 <= 53.483192430163435879442281000000) by (apply (pow_step x 7.31322038709 7.313220387091 1 7.31322038709 7.313220387091); first [ exact Hx | exact H1 | lra ]).
  assert (H3 : 391.134373246821833949358967896034 <= x ^ 3 <= 391.134373246982283526649436264012) by (apply (pow_step x 7.31322038709 7.313220387091 2 53.483192430148809438668100000000 53.483192430163435879442281000000); first [ exact Hx | exact H2 | lra ]).
  assert (H4 : 2860.451872520326912587394694653996 <= x ^ 4 <= 2860.451872521891450080382302888955) by (apply (pow_step x 7.31322038709 7.313220387091 3 391.134373246821833949358967896034 391.134373246982283526649436264012); first [ exact Hx | exact H3 | lra ]).
  assert (H5 : 20919.114950405420517565731222292108 <= x ^ 5 <= 20919.114950419722776928336768198830) by (apply (pow_step x 7.31322038709 7.313220387091 4 2860.451872520326912587394694653996 2860.451872521891450080382302888955); first [ exact Hx | exact H4 | lra ]).
  assert (H6 : 152986.097935184135589906285034009988 <= x ^ 6 <= 152986.097935309650279608760463893856) by (apply (pow_step x 7.31322038709 7.313220387091 5 20919.114950405420517565731222292108 20919.114950419722776928336768198830); first [ exact Hx | exact H5 | lra ]).
  assert (H7 : 1118821.050360935973809241487333246398 <= x ^ 7 <= 1118821.050362006876494788215583792523) by (apply (pow_step x 7.31322038709 7.313220387091 6 152986.097935184135589906285034009988 152986.097935309650279608760463893856); first [ exact Hx | exact H6 | lra ]).
  assert (H8 : 8182184.915005044566595927131814531554 <= x ^ 8 <= 8182184.915013995134998818903215768314) by (apply (pow_step x 7.31322038709 7.313220387091 7 1118821.050360935973809241487333246398 1118821.050362006876494788215583792523); first [ exact Hx | exact H7 | lra ]).
  assert (H9 : 59838121.531355150774623367502546101905 <= x ^ 9 <= 59838121.531428790438858453181203429215) by (apply (pow_step x 7.31322038709 7.313220387091 8 8182184.915005044566595927131814531554 8182184.915013995134998818903215768314); first [ exact Hx | exact H8 | lra ]).
  assert (H10 : 437609370.308275579320256417035929529934 <= x ^ 10 <= 437609370.308873960535570336741998042969) by (apply (pow_step x 7.31322038709 7.313220387091 9 59838121.531355150774623367502546101905 59838121.531428790438858453181203429215); first [ exact Hx | exact H9 | lra ]).
  assert (H11 : 3200333768.520098284826879633273557027341 <= x ^ 11 <= 3200333768.524911987900273955742772147599) by (apply (pow_step x 7.31322038709 7.313220387091 10 437609370.308275579320256417035929529934 437609370.308873960535570336741998042969); first [ exact Hx | exact H10 | lra ]).
  assert (H12 : 23404746161.433751635006477745285679967351 <= x ^ 12 <= 23404746161.472155640228747806922101927690) by (apply (pow_step x 7.31322038709 7.313220387091 11 3200333768.520098284826879633273557027341 3200333768.524911987900273955742772147599); first [ exact Hx | exact H11 | lra ]).
  assert (H13 : 171164066782.463732761552993571035610873464 <= x ^ 13 <= 171164066782.767994461651881968325071588905) by (apply (pow_step x 7.31322038709 7.313220387091 12 23404746161.433751635006477745285679967351 23404746161.472155640228747806922101927690); first [ exact Hx | exact H12 | lra ]).
  assert (H14 : 1251760542730.748030530330898313117331564209 <= x ^ 14 <= 1251760542733.144327465287520403682923046333) by (apply (pow_step x 7.31322038709 7.313220387091 13 171164066782.463732761552993571035610873464 171164066782.767994461651881968325071588905); first [ exact Hx | exact H13 | lra ]).
  assert (H15 : 9154400720853.349597480281670147243359566592 <= x ^ 15 <= 9154400720872.126005621260862832233587062930) by (apply (pow_step x 7.31322038709 7.313220387091 14 1251760542730.748030530330898313117331564209 1251760542733.144327465287520403682923046333); first [ exact Hx | exact H14 | lra ]).
  assert (H16 : 66948149983336.108378407841204396454779346024 <= x ^ 16 <= 66948149983482.578789941645009221435968172493) by (apply (pow_step x 7.31322038709 7.313220387091 15 9154400720853.349597480281670147243359566592 9154400720872.126005621260862832233587062930); first [ exact Hx | exact H15 | lra ]).
  assert (H17 : 489606575336092.671564713984650707492831232610 <= x ^ 17 <= 489606575337230.790114431943491639698215693310) by (apply (pow_step x 7.31322038709 7.313220387091 16 66948149983336.108378407841204396454779346024 66948149983482.578789941645009221435968172493); first [ exact Hx | exact H16 | lra ]).
  assert (H18 : 3580600788401228.894388609842812383369165590348 <= x ^ 18 <= 3580600788410041.812744669753967504711907275051) by (apply (pow_step x 7.31322038709 7.313220387091 17 489606575336092.671564713984650707492831232610 489606575337230.790114431943491639698215693310); first [ exact Hx | exact H17 | lra ]).
  assert (H19 : 26185722683766394.357252362003539362357294657015 <= x ^ 19 <= 26185722683834425.772232069075257194542249888486) by (apply (pow_step x 7.31322038709 7.313220387091 18 3580600788401228.894388609842812383369165590348 3580600788410041.812744669753967504711907275051); first [ exact Hx | exact H18 | lra ]).
  assert (H20 : 191501960981605464.200478710600340943528666206460 <= x ^ 20 <= 191501960982129178.654154718801636270680655422028) by (apply (pow_step x 7.31322038709 7.313220387091 19 26185722683766394.357252362003539362357294657015 26185722683834425.772232069075257194542249888486); first [ exact Hx | exact H19 | lra ]).
  unfold poly. cbn [coefs Tungsten_adas poly_from]. rewrite H0.
  revert H1 H2 H3 H4 H5 H6 H7 H8 H9 H10 H11 H12 H13 H14 H15 H16 H17 H18 H19 H20.
  generalize (x ^ 1). generalize (x ^ 2). generalize (x ^ 3). generalize (x ^ 4). generalize (x ^ 5). generalize (x ^ 6). generalize (x ^ 7). generalize (x ^ 8). generalize (x ^ 9). generalize (x ^ 10). generalize (x ^ 11). generalize (x ^ 12). generalize (x ^ 13). generalize (x ^ 14). generalize (x ^ 15). generalize (x ^ 16). generalize (x ^ 17). generalize (x ^ 18). generalize (x ^ 19). generalize (x ^ 20).
  clear. intros. lra.
Qed.
Lemma Tungsten_adas_hi_tiny : exp (poly (coefs Tungsten_adas) (ln 1500)) <= / IZR (10 ^ 198).
Proof.
  pose proof Tungsten_adas_hi_exponent as [H1 H2]. apply exp_monotone in H2. apply Rle_trans with (1 := H2).
  apply exp_neg_le; [ apply IZR_lt; reflexivity | ]. replace 455.974835609 with (IZR 455974835609 / IZR 1000000000) by lra.
  replace (IZR (10 ^ 198)) with (IZR (10 ^ 198) / IZR 1) by (unfold Rdiv; rewrite Rinv_1; ring). apply (exp_ge_check 48 (2 ^ 100)); check.
Qed.
