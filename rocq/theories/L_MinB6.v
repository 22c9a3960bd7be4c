(** Correctly rounded logarithms and powers, for the examples of C89. *)
From Coq Require Import Reals QArith Lra Lia.
From Flocq Require Import Core BinarySingleNaN Relative.
From Verif Require Import M_Base M_Num M_Nd M_NumB M_Latent M_Minimize M_Device S_Digits S_MinB L_Base L_Nd L_Digits L_MinB L_MinB2 L_MinB3 L_MinB4 L_MinB5.
Open Scope R_scope.

Notation fexp := (FLT_exp (-1074) 53).
Definition nearest (r : R) : b64t :=
  binary_normalize 53 1024 b64_prec b64_emax mode_NE (ZnearestE (scaled_mantissa radix2 fexp r)) (cexp radix2 fexp r) false.
Lemma nearest_ok r : Rabs r <= big -> fin64 (nearest r) = true /\ val (nearest r) = rnd r.
Proof.
  intros L. unfold nearest.
  assert (C := binary_normalize_correct 53 1024 b64_prec b64_emax mode_NE (ZnearestE (scaled_mantissa radix2 fexp r)) (cexp radix2 fexp r) false). cbv zeta in C.
  change (F2R (Float radix2 (ZnearestE (scaled_mantissa radix2 fexp r)) (cexp radix2 fexp r))) with (rnd r) in C. to_rnd C.
  rewrite (rnd_format (rnd r)) in C by (apply generic_format_round; [apply vexp|apply valid_rnd_N]).
  rewrite rnd_big in C by exact L. tauto.
Qed.

Definition cr_pow (u : b64t) : b64t := if BinarySingleNaN.is_nan u then B754_nan else nearest (Rpower 10 (val u)).
Definition cr_log (x : b64t) : b64t := nearest (ln (val x) / ln 10).

Lemma cr_pow_good : good_pow cr_pow.
Proof.
  split; [reflexivity|]. intros u [F V]. unfold cr_pow. replace (BinarySingleNaN.is_nan u) with false by (destruct u; try discriminate; reflexivity).
  assert (L : Rpower 10 (-4) <= Rpower 10 (val u) <= Rpower 10 11) by (split; apply Rle_Rpower; lra).
  replace (Rpower 10 (-4)) with (/ 10000) in L.
  2:{ replace (-4) with (- INR 4) by (cbn; lra). rewrite Rpower_Ropp, Rpower_pow by lra. f_equal. lra. }
  replace (Rpower 10 11) with 100000000000 in L.
  2:{ replace (Rpower 10 11) with (Rpower 10 (INR 11)) by (f_equal; cbn; lra). rewrite Rpower_pow by lra. lra. }
  set (z := Rpower 10 (val u)) in *. destruct (nearest_ok z) as [NF NV].
  { rewrite Rabs_pos_eq by lra. apply Rle_trans with (bpow radix2 40); [change (bpow radix2 40) with (IZR (2 ^ 40)); lra|apply bpow_le; lia]. }
  split; auto. rewrite NV. eapply Rle_trans; [apply rnd_close|]. rewrite Rabs_pos_eq by lra.
  assert (/ 10 ^ 50 <= / 100000000) by (apply Rinv_le; lra). lra.
Qed.

Lemma ln10_1 : 1 < ln 10.
Proof. rewrite <- (ln_exp 1). apply ln_increasing; [apply exp_pos|]. assert (X := exp_le_3). lra. Qed.
Lemma log_near (v c : R) (k : R) : 0 < c -> ln c = k * ln 10 -> c * (1 - / 10000000) <= v <= c * (1 + / 10000000) ->
  Rabs (ln v / ln 10 - k) <= / 5000000.
Proof.
  intros C K V. assert (T := ln10_1). assert (P : 0 < v) by (assert (0 < c * (1 - / 10000000)) by (apply Rmult_lt_0_compat; lra); lra).
  assert (E : ln v / ln 10 - k = ln (v / c) / ln 10). { replace (ln (v / c)) with (ln v - k * ln 10); [field; lra|].
    change (v / c) with (v * / c). rewrite ln_mult, ln_Rinv, K; auto using Rinv_0_lt_compat. }
  rewrite E. assert (U : 1 - / 10000000 <= v / c <= 1 + / 10000000).
  { split; apply (Rmult_le_reg_r c); auto; unfold Rdiv; rewrite Rmult_assoc, Rinv_l; lra. }
  set (y := v / c) in *. assert (Y : 0 < y) by lra.
  assert (L1 : ln y <= y - 1). { assert (X := exp_ineq1_le (ln y)). rewrite exp_ln in X by auto. lra. }
  assert (L2 : - ln y <= / y - 1). { rewrite <- ln_Rinv by auto. assert (X := exp_ineq1_le (ln (/ y))). rewrite exp_ln in X by (now apply Rinv_0_lt_compat). lra. }
  assert (L3 : / y <= 1 + / 5000000). { apply (Rmult_le_reg_r y); auto. rewrite Rinv_l by lra. lra. }
  assert (L4 : Rabs (ln y) <= / 5000000) by (apply Rabs_le; lra).
  unfold Rdiv. rewrite Rabs_mult. rewrite (Rabs_pos_eq (/ ln 10)) by (apply Rlt_le, Rinv_0_lt_compat; lra).
  assert (/ ln 10 <= 1) by (rewrite <- Rinv_1; apply Rinv_le; lra). assert (Q := Rabs_pos (ln y)).
  assert (Rabs (ln y) * / ln 10 <= Rabs (ln y) * 1) by (apply Rmult_le_compat_l; lra). lra.
Qed.

Lemma cr_log_at (x : b64t) c k : 0 < c -> ln c = k * ln 10 -> c * (1 - / 10000000) <= val x <= c * (1 + / 10000000) -> Rabs k <= 100 ->
  between (k - / 1000000) (k + / 1000000) (cr_log x).
Proof.
  intros C K V KB. assert (N := log_near (val x) c k C K V). unfold cr_log. set (z := ln (val x) / ln 10) in *.
  apply Rabs_le_inv in N, KB.
  assert (Z : Rabs z <= 101) by (apply Rabs_le; lra).
  destruct (nearest_ok z) as [NF NV].
  { apply Rle_trans with (bpow radix2 40); [change (bpow radix2 40) with (IZR (2 ^ 40)); lra|apply bpow_le; lia]. }
  split; auto. rewrite NV. assert (R := rnd_close z). apply Rabs_le_inv in R.
  assert (/ 10 ^ 50 <= / 100000000) by (apply Rinv_le; lra). lra.
Qed.
Lemma cr_log_good : good_log cr_log.
Proof.
  split.
  - apply (cr_log_at _ (/ 1000)); [lra| | |apply Rabs_le; lra].
    + replace (/ 1000) with (/ (10 ^ 3)) by lra. rewrite ln_Rinv by lra. rewrite ln_pow by lra. cbn [INR]. lra.
    + rewrite <- SF2R_B2SF. set (z := B2SF (b_of_Q (1 # 1000))). vm_compute in z. unfold z, SF2R, F2R. cbn. lra.
  - apply (cr_log_at _ 10000000000); [lra| | |apply Rabs_le; lra].
    + replace 10000000000 with (10 ^ 10) by lra. rewrite ln_pow by lra. cbn [INR]. lra.
    + rewrite <- SF2R_B2SF. set (z := B2SF (b_of_Q 10000000000)). vm_compute in z. unfold z, SF2R, F2R. cbn. lra.
Qed.

(** Searches of functions that return an array of the right length end. *)
Section Total.
Context {V : Type} `{NumOps V}.
Variables (F : list V -> M (list V)) (n : nat).
Hypothesis TOTAL : forall pts w, length pts = n -> exists fs, F pts w = (Ok fs, w) /\ length fs = n.
Lemma evalF_total lg xs w : length xs = n -> exists fs, evalF lg F xs w = (Ok fs, w) /\ length fs = n.
Proof.
  intros X. destruct (TOTAL (map (to_point lg) xs) w) as (fs & E & L); [now rewrite map_length|]. exists fs.
  unfold evalF, bind. rewrite E, L, X, Nat.eqb_refl. auto.
Qed.
Lemma zip_length rel abs : forall (ss : list (mst V)) fus, length fus = length ss -> length (zip_update rel abs ss fus) = length ss.
Proof. induction ss as [|s r IH]; intros [|f g] L; cbn in *; auto; discriminate. Qed.
Lemma mloop_total rel abs lg fuel : forall ss ev w, length ss = n ->
  exists r, mloop rel abs lg F fuel ss ev w = (Ok r, w) /\ length (mr_states r) = n.
Proof.
  induction fuel as [|k IH]; intros ss ev w L; cbn [mloop]; destruct (forallb _ ss); try (eexists; split; [reflexivity|exact L]).
  unfold bind. destruct (evalF_total lg (map (next_u rel abs) ss) w) as (fs & E & FL); [now rewrite map_length|].
  rewrite E. apply IH. rewrite zip_length; auto. now rewrite FL, L.
Qed.
Lemma minimize_total lo hi prec eps maxiter lg w : exists xs, minimize F n lo hi prec eps maxiter lg w = (Ok xs, w) /\ length xs = n.
Proof.
  unfold minimize, minimize_run, mrun. unfold bind at 1 2.
  match goal with |- context [evalF lg F ?xs w] => destruct (evalF_total lg xs w) as (fs & E & L); [now rewrite repeat_length|] end. rewrite E.
  match goal with |- context [mloop ?r ?a lg F maxiter ?ss ?ev w] => destruct (mloop_total r a lg maxiter ss ev w) as (r0 & R & RL); [now rewrite map_length|] end.
  rewrite R. eexists; split; [reflexivity|]. now rewrite map_length.
Qed.
End Total.
