(** Error analysis of the floating point conversions. *)
From Verif Require Import M_Base M_Time M_FloatTime.
From Flocq Require Import Relative.
From Coq Require Import Lra Lia.
Open Scope R_scope.

#[local] Instance prec_gt_0_53 : Prec_gt_0 53.
Proof. reflexivity. Qed.

Definition u0 : R := / 9007199254740992.
Definition h0 : R := / IZR (2 ^ 100).

Lemma b64_err x : exists e h, Rabs e <= u0 /\ Rabs h <= h0 /\ b64 x = x * (1 + e) + h.
Proof.
  destruct (error_N_FLT radix2 (-1074) 53 ltac:(lia) (fun x => negb (Z.even x)) x)
    as (e & h & He & Hh & _ & Heq).
  exists e, h. split; [|split; [|exact Heq]].
  - eapply Rle_trans; [exact He|]. apply Req_le. unfold u0. cbn. lra.
  - eapply Rle_trans; [exact Hh|].
    assert (bpow radix2 (-1074) <= bpow radix2 (-100)) as H by (apply bpow_le; lia).
    assert (bpow radix2 (-100) = h0) as E.
    { unfold h0. change (-100)%Z with (Z.opp 100). rewrite bpow_opp. reflexivity. }
    pose proof (bpow_ge_0 radix2 (-1074)). lra.
Qed.

Lemma h0_val : 0 < h0 <= / 1000000000000000000000000000000.
Proof.
  unfold h0. split.
  - apply Rinv_0_lt_compat. apply IZR_lt. reflexivity.
  - apply Rinv_le; [lra|]. apply IZR_le. vm_compute. discriminate.
Qed.

(** A double approximating f has a relative error. *)
Lemma b64_inv f : / 1000000 <= f ->
  exists e, Rabs e <= 1.01 * u0 /\ / b64 f = / f * (1 + e) /\ b64 f > 0.
Proof.
  intros Hf. destruct (b64_err f) as (e & h & He & Hh & Heq).
  pose proof h0_val as H0. unfold u0 in *.
  apply Rabs_le_inv in He, Hh.
  assert (0 < f) as Hfp by lra.
  set (g := e + h / f).
  assert (b64 f = f * (1 + g)) as Hg by (unfold g; rewrite Heq; field; lra).
  assert (Rabs (h / f) <= / 1000000000000000000000000) as Hhf.
  { unfold Rdiv. rewrite Rabs_mult. rewrite (Rabs_pos_eq (/ f)) by (left; apply Rinv_0_lt_compat; lra).
    assert (/ f <= 1000000).
    { rewrite <- (Rinv_inv 1000000). apply Rinv_le; lra. }
    assert (0 < / f) by (apply Rinv_0_lt_compat; lra).
    assert (Rabs h <= h0) by (apply Rabs_le; lra).
    apply Rle_trans with (h0 * 1000000); [|lra].
    apply Rmult_le_compat; try lra. apply Rabs_pos. }
  apply Rabs_le_inv in Hhf.
  assert (Rabs g <= 1.001 * u0) as Hga by (unfold g, u0; apply Rabs_le; lra).
  unfold u0 in Hga. apply Rabs_le_inv in Hga.
  exists (- g / (1 + g)). split; [|split].
  - unfold Rdiv. rewrite Rabs_mult, Rabs_Ropp.
    assert (0 < 1 + g) by lra.
    rewrite (Rabs_pos_eq (/ (1 + g))) by (left; apply Rinv_0_lt_compat; lra).
    assert (/ (1 + g) <= 1.001).
    { replace 1.001 with (/ (/1.001)) by lra. apply Rinv_le; lra. }
    assert (0 < / (1 + g)) by (apply Rinv_0_lt_compat; lra).
    assert (Rabs g <= 1.001 * / 9007199254740992) by (apply Rabs_le; lra).
    apply Rle_trans with ((1.001 * / 9007199254740992) * 1.001); [|lra].
    apply Rmult_le_compat; try lra. apply Rabs_pos.
  - rewrite Hg. field. lra.
  - rewrite Hg. apply Rmult_lt_0_compat; lra.
Qed.

Lemma sec_factor_f_inv u : exists e, Rabs e <= 1.01 * u0 /\
  / sec_factor_f u = (1000000 / IZR (us_per u)) * (1 + e) /\ 0 < sec_factor_f u.
Proof.
  assert (0 <= 1.01 * u0) by (unfold u0; lra).
  destruct u; cbn [sec_factor_f us_per].
  - exists 0. rewrite Rabs_R0. split; [auto|split; lra].
  - exists 0. rewrite Rabs_R0. split; [auto|split; lra].
  - exists 0. rewrite Rabs_R0. split; [auto|split; lra].
  - destruct (b64_inv (1 / 1000)) as (e & He & Heq & Hp); [lra|]. exists e. split; [auto|split; [|lra]].
    rewrite Heq. lra.
  - destruct (b64_inv (1 / 1000000)) as (e & He & Heq & Hp); [lra|]. exists e. split; [auto|split; [|lra]].
    rewrite Heq. lra.
Qed.

(** The number obtained, scaled back to microseconds, is within 0.45 of the original. *)
Lemma td_to_num_f_err u us : (Z.abs us <= 2 ^ 50)%Z ->
  Rabs (td_to_num_f u us * IZR (us_per u) - IZR us) <= 0.45.
Proof.
  intros Hus. unfold td_to_num_f.
  destruct (sec_factor_f_inv u) as (e0 & He0 & Hinv & Hpos).
  destruct (b64_err (IZR us / 1000000)) as (e1 & h1 & He1 & Hh1 & Heq1).
  destruct (b64_err (b64 (IZR us / 1000000) / sec_factor_f u)) as (e2 & h2 & He2 & Hh2 & Heq2).
  rewrite Heq2. unfold Rdiv at 1. rewrite Hinv, Heq1.
  assert (1 <= IZR (us_per u) <= 86400000000) as HN.
  { destruct u; cbn [us_per]; lra. }
  set (N := IZR (us_per u)) in *. set (x := IZR us) in *.
  assert (Rabs x <= 1125899906842624) as Hx.
  { unfold x. rewrite <- abs_IZR. apply IZR_le. change 1125899906842624%Z with (2 ^ 50)%Z. exact Hus. }
  pose proof h0_val as H0. unfold u0 in *.
  replace (((x / 1000000 * (1 + e1) + h1) * (1000000 / N * (1 + e0)) * (1 + e2) + h2) * N - x)
    with (x * ((1 + e1) * (1 + e0) * (1 + e2) - 1) + (1000000 * h1 * ((1 + e0) * (1 + e2)) + h2 * N))
    by (field; lra).
  apply Rabs_le_inv in He0, He1, He2, Hh1, Hh2.
  set (U := / 9007199254740992) in *.
  assert (0 < U < / 1000000000000000) as HU by (unfold U; lra).
  assert (Rabs ((1 + e1) * (1 + e0) * (1 + e2) - 1) <= 3.1 * U /\ Rabs ((1 + e0) * (1 + e2)) <= 2) as [HA HB].
  { assert (-(2.05*U) <= (1 + e0) * (1 + e2) - 1 <= 2.05*U) as Hq.
    { replace ((1 + e0) * (1 + e2) - 1) with (e0 + e2 + e0 * e2) by ring.
      assert (- (0.001 * U) <= e0 * e2 <= 0.001 * U) by (split; nra). lra. }
    set (q := (1 + e0) * (1 + e2) - 1) in *.
    replace ((1 + e1) * (1 + e0) * (1 + e2) - 1) with (e1 + q + e1 * q) by (unfold q; ring).
    replace ((1 + e0) * (1 + e2)) with (1 + q) by (unfold q; ring).
    assert (- (0.001 * U) <= e1 * q <= 0.001 * U) by (split; nra).
    split; apply Rabs_le; lra. }
  eapply Rle_trans; [apply Rabs_triang|].
  assert (Rabs (x * ((1 + e1) * (1 + e0) * (1 + e2) - 1)) <= 1125899906842624 * (3.1 * U)) as P1.
  { rewrite Rabs_mult. apply Rmult_le_compat; auto using Rabs_pos. }
  assert (Rabs (1000000 * h1 * ((1 + e0) * (1 + e2)) + h2 * N) <= 0.0001) as P2.
  { eapply Rle_trans; [apply Rabs_triang|]. rewrite (Rabs_mult (1000000 * h1)), (Rabs_mult h2).
    assert (Rabs (1000000 * h1) <= / 1000000000000000000000000) by (apply Rabs_le; lra).
    assert (Rabs h2 <= / 1000000000000000000000000000000) by (apply Rabs_le; lra).
    assert (Rabs N <= 86400000000) by (apply Rabs_le; lra).
    assert (Rabs (1000000 * h1) * Rabs ((1 + e0) * (1 + e2)) <= / 1000000000000000000000000 * 2)
      by (apply Rmult_le_compat; auto using Rabs_pos).
    assert (Rabs h2 * Rabs N <= / 1000000000000000000000000000000 * 86400000000)
      by (apply Rmult_le_compat; auto using Rabs_pos).
    lra. }
  unfold U in P1. lra.
Qed.

Lemma Ztrunc_frac x : Rabs (x - IZR (Ztrunc x)) <= 1.
Proof.
  unfold Ztrunc. destruct (Rlt_bool_spec x 0) as [H|H].
  - pose proof (Zceil_ub x). assert (IZR (Zceil x) < x + 1).
    { pose proof (Zceil_lb x). lra. }
    apply Rabs_le. lra.
  - pose proof (Zfloor_lb x). pose proof (Zfloor_ub x). apply Rabs_le. lra.
Qed.

Lemma float_round_trip u us : (Z.abs us <= 2 ^ 50)%Z -> num_to_td_f u (td_to_num_f u us) = us.
Proof.
  intros Hus. pose proof (td_to_num_f_err u us Hus) as Herr.
  unfold num_to_td_f. set (x := td_to_num_f u us) in *. set (i := Ztrunc x).
  destruct (b64_err (IZR (us_per u) * (x - IZR i))) as (e & h & He & Hh & Heq).
  apply Znearest_imp. rewrite Heq, mult_IZR.
  assert (1 <= IZR (us_per u) <= 86400000000) as HN by (destruct u; cbn [us_per]; lra).
  set (N := IZR (us_per u)) in *.
  pose proof (Ztrunc_frac x) as Hfr. fold i in Hfr.
  replace (IZR i * N + (N * (x - IZR i) * (1 + e) + h) - IZR us)
    with ((x * N - IZR us) + (N * (x - IZR i) * e + h)) by ring.
  pose proof h0_val as H0.
  eapply Rle_lt_trans; [apply Rabs_triang|].
  assert (Rabs (N * (x - IZR i) * e + h) <= 0.001); [|lra].
  eapply Rle_trans; [apply Rabs_triang|]. rewrite !Rabs_mult.
  assert (Rabs N <= 86400000000) by (apply Rabs_le; lra).
  assert (Rabs N * Rabs (x - IZR i) <= 86400000000 * 1) by (apply Rmult_le_compat; auto using Rabs_pos).
  assert (Rabs N * Rabs (x - IZR i) * Rabs e <= 86400000000 * 1 * u0).
  { apply Rmult_le_compat; auto using Rabs_pos.
    apply Rmult_le_pos; apply Rabs_pos. }
  unfold u0 in *. lra.
Qed.

(** The floating point quotient test agrees with divisibility. *)
Lemma IZR_format m : (Z.abs m <= 2 ^ 53)%Z -> generic_format radix2 (FLT_exp (-1074) 53) (IZR m).
Proof.
  intros H. destruct (Z.eq_dec (Z.abs m) (2 ^ 53)) as [E|E].
  - assert (m = 2 ^ 53 \/ m = - 2 ^ 53)%Z as [-> | ->] by lia.
    + apply generic_format_FLT. apply (FLT_spec radix2 (-1074) 53 _ (Float radix2 1 53)).
      * unfold F2R; cbn. lra.
      * cbn. lia.
      * cbn. lia.
    + apply generic_format_FLT. apply (FLT_spec radix2 (-1074) 53 _ (Float radix2 (-1) 53)).
      * unfold F2R; cbn. lra.
      * cbn. lia.
      * cbn. lia.
  - apply generic_format_FLT. apply (FLT_spec radix2 (-1074) 53 _ (Float radix2 m 0)).
    + unfold F2R; cbn. lra.
    + change (Z.pow radix2 53) with (2 ^ 53)%Z. cbn [Fnum]. lia.
    + cbn. lia.
Qed.

Lemma float_quotient_integer t d : (d <> 0)%Z -> (Z.abs d <= 2 ^ 67)%Z -> (Z.abs t < 2 ^ 53)%Z ->
  (quot_is_integer_f t d <-> (d | t)%Z).
Proof.
  intros Hd Hd2 Ht. unfold quot_is_integer_f.
  assert (IZR d <> 0) as Hd0 by (apply not_0_IZR; auto).
  split.
  - intros (m & Hm).
    destruct (Z.eq_dec t 0) as [->|Ht0]; [apply Z.divide_0_r|].
    assert (0 < Rabs (IZR d)) as Hdp by (apply Rabs_pos_lt; auto).
    assert (bpow radix2 (-1074 + 53 - 1) <= Rabs (IZR t / IZR d)) as Hlow.
    { apply Rle_trans with (bpow radix2 (-67)); [apply bpow_le; lia|].
      unfold Rdiv. rewrite Rabs_mult, Rabs_inv.
      assert (1 <= Rabs (IZR t)) by (rewrite <- abs_IZR; apply IZR_le; lia).
      assert (Rabs (IZR d) <= bpow radix2 67).
      { rewrite <- abs_IZR, <- IZR_Zpower by lia. apply IZR_le. exact Hd2. }
      change (-67)%Z with (Z.opp 67). rewrite bpow_opp. apply Rle_trans with (1 * / Rabs (IZR d)).
      - rewrite Rmult_1_l. apply Rinv_le; auto.
      - apply Rmult_le_compat_r; auto. left. now apply Rinv_0_lt_compat. }
    pose proof (relative_error_N_FLT radix2 (-1074) 53 ltac:(lia) (fun x => negb (Z.even x)) _ Hlow) as He.
    fold (b64 (IZR t / IZR d)) in He. rewrite Hm in He.
    assert (Rabs (IZR (m * d - t)) < 1) as Hlt.
    { rewrite minus_IZR, mult_IZR.
      replace (IZR m * IZR d - IZR t) with ((IZR m - IZR t / IZR d) * IZR d) by (field; auto).
      rewrite Rabs_mult.
      apply Rle_lt_trans with (/ 2 * bpow radix2 (-53 + 1) * Rabs (IZR t / IZR d) * Rabs (IZR d)).
      - apply Rmult_le_compat_r; [apply Rabs_pos|exact He].
      - rewrite Rmult_assoc, <- Rabs_mult. replace (IZR t / IZR d * IZR d) with (IZR t) by (field; auto).
        rewrite <- abs_IZR. assert (IZR (Z.abs t) < 9007199254740992) as Hb.
        { apply IZR_lt. exact Ht. }
        replace (/ 2 * bpow radix2 (-53 + 1)) with (/ 9007199254740992) by (cbn; lra).
        assert (0 <= IZR (Z.abs t)) by (apply IZR_le; lia). lra. }
    rewrite <- abs_IZR in Hlt. apply lt_IZR in Hlt. exists m. lia.
  - intros (m & ->). exists m.
    replace (IZR (m * d) / IZR d) with (IZR m) by (rewrite mult_IZR; field; auto).
    unfold b64. apply round_generic; [apply valid_rnd_N|]. apply IZR_format.
    assert (Z.abs m <= Z.abs (m * d))%Z by (rewrite Z.abs_mul; nia). lia.
Qed.

(** Beyond 2^53 microseconds the test can be fooled: a cycle of 2^54 + 1 us for a
    requested duration of 2^54 us is not a multiple, yet the quotient rounds to 1. *)
Lemma float_quotient_large :
  quot_is_integer_f (2 ^ 54 + 1) (2 ^ 54) /\ ~ (2 ^ 54 | 2 ^ 54 + 1)%Z.
Proof.
  split.
  - exists 1%Z. unfold b64.
    change (IZR (2 ^ 54 + 1) / IZR (2 ^ 54)) with (18014398509481985 / 18014398509481984).
    set (q := 18014398509481985 / 18014398509481984).
    assert (q = 1 + / 18014398509481984) as Hq by (unfold q; lra).
    assert (1 <= round radix2 (FLT_exp (-1074) 53) ZnearestE q) as Hlo.
    { apply Rle_trans with (round radix2 (FLT_exp (-1074) 53) ZnearestE 1).
      - rewrite (round_generic radix2 (FLT_exp (-1074) 53) ZnearestE 1) by (apply (IZR_format 1); lia). lra.
      - apply round_le; [typeclasses eauto|typeclasses eauto|]. lra. }
    set (r := round radix2 (FLT_exp (-1074) 53) ZnearestE q) in *.
    destruct (round_N_pt radix2 (FLT_exp (-1074) 53) (fun x => negb (Z.even x)) q)
      as [Hfmt Hnear]. fold r in Hfmt, Hnear.
    specialize (Hnear 1 (IZR_format 1 ltac:(lia))).
    rewrite (Rabs_left1 (1 - q)) in Hnear by lra.
    assert (r <= 1 + / 9007199254740992) as Hup.
    { destruct (Rle_dec r (1 + / 9007199254740992)) as [|Hn]; auto.
      rewrite Rabs_right in Hnear by lra. lra. }
    (* the only double in [1, 1 + 2^-53] is 1 *)
    destruct (Rle_lt_or_eq_dec _ _ Hlo) as [Hlt|]; [|auto].
    exfalso.
    assert (succ radix2 (FLT_exp (-1074) 53) 1 <= r) as Hs.
    { apply succ_le_lt; try typeclasses eauto; auto. apply (IZR_format 1). lia. }
    assert (succ radix2 (FLT_exp (-1074) 53) 1 = 1 + / 4503599627370496) as Hse.
    { rewrite succ_eq_pos by lra. f_equal. change 1 with (bpow radix2 0).
      rewrite ulp_bpow. unfold FLT_exp. cbn. lra. }
    lra.
  - intros [m Hm]. lia.
Qed.
