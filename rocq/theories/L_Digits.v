(** Rounding to significant figures in binary64. *)
From Coq Require Import Reals QArith Qabs Qpower Qreals Lra Lia.
From Flocq Require Import Core BinarySingleNaN Relative.
From Verif Require Import M_Base M_Num M_NumB M_Nd M_RandVar M_Env S_Digits L_Base L_Export.
Open Scope R_scope.
Notation rnd := nearest_double.
Notation p10 := (powerRZ 10).

Lemma p10_pos k : 0 < p10 k.
Proof. apply powerRZ_lt. lra. Qed.
Lemma p10_add a b : p10 (a + b) = p10 a * p10 b.
Proof. apply powerRZ_add. lra. Qed.
Lemma p10_opp a : p10 (- a) = / p10 a.
Proof. apply powerRZ_neg'. Qed.
Lemma p10_Z n : (0 <= n)%Z -> p10 n = IZR (10 ^ n).
Proof. intros N. rewrite <- (Z2Nat.id n) by auto. generalize (Z.to_nat n). intros m. rewrite <- pow_powerRZ, <- pow_IZR. reflexivity. Qed.
Lemma p10_le a b : (a <= b)%Z -> p10 a <= p10 b.
Proof.
  intros L. replace b with (a + (b - a))%Z by ring. rewrite p10_add. assert (P := p10_pos a). rewrite (p10_Z (b - a)) by lia.
  assert (1 <= IZR (10 ^ (b - a))) by (apply IZR_le; assert (0 < 10 ^ (b - a))%Z by (apply Z.pow_pos_nonneg; lia); lia). nra.
Qed.
Lemma p10_lt_inv a b : p10 a < p10 b -> (a < b)%Z.
Proof. intros L. destruct (Z.lt_ge_cases a b) as [|G]; auto. apply p10_le in G. lra. Qed.

Ltac to_rnd H := repeat match type of H with context [round radix2 ?f ?g ?x] => change (round radix2 f g x) with (nearest_double x) in H end.

Lemma format_Z z e : (Z.abs z < 2 ^ 53)%Z -> (-1074 <= e)%Z -> generic_format radix2 (FLT_exp (-1074) 53) (IZR z * bpow radix2 e).
Proof. intros Z E. apply generic_format_FLT. exists (Float radix2 z e); [reflexivity|exact Z|exact E]. Qed.

Lemma format_p10 n : (0 <= n <= 22)%Z -> generic_format radix2 (FLT_exp (-1074) 53) (p10 n).
Proof.
  intros N. rewrite p10_Z by lia. replace (IZR (10 ^ n)) with (IZR (5 ^ n) * bpow radix2 n).
  - apply format_Z; [|lia]. rewrite Z.abs_eq by (apply Z.pow_nonneg; lia). apply Z.le_lt_trans with (5 ^ 22)%Z; [apply Z.pow_le_mono_r; lia|reflexivity].
  - rewrite <- (IZR_Zpower radix2) by lia. rewrite <- mult_IZR. f_equal. change (Zpower radix2 n) with (2 ^ n)%Z. rewrite <- Z.pow_mul_l. reflexivity.
Qed.
Lemma rnd_format x : generic_format radix2 (FLT_exp (-1074) 53) x -> rnd x = x.
Proof. intros F. apply round_generic; [apply valid_rnd_N|exact F]. Qed.

#[local] Instance vexp : Valid_exp (FLT_exp (-1074) 53).
Proof. apply FLT_exp_valid. reflexivity. Qed.

Lemma rnd_le x y : x <= y -> rnd x <= rnd y.
Proof. apply round_le; [exact vexp|apply valid_rnd_N]. Qed.
Lemma near_le x y : x <= y -> (ZnearestE x <= ZnearestE y)%Z.
Proof. apply (@Zrnd_le _ (valid_rnd_N _)). Qed.
Lemma rnd_abs x : Rabs (rnd x) = rnd (Rabs x).
Proof. unfold rnd. symmetry. apply round_NE_abs. exact vexp. Qed.

Lemma p10_below_emax : p10 40 < bpow radix2 1024.
Proof. rewrite p10_Z by lia. rewrite <- (IZR_Zpower radix2) by lia. apply IZR_lt. vm_compute. reflexivity. Qed.

Lemma rnd_small x : Rabs x <= p10 38 -> Rlt_bool (Rabs (rnd x)) (bpow radix2 1024) = true.
Proof.
  intros L. apply Rlt_bool_true. apply Rle_lt_trans with (bpow radix2 130); [|apply bpow_lt; lia]. rewrite rnd_abs.
  replace (bpow radix2 130) with (rnd (bpow radix2 130)).
  - apply rnd_le. apply Rle_trans with (1 := L). rewrite p10_Z by lia. rewrite <- (IZR_Zpower radix2) by lia. apply IZR_le. vm_compute. discriminate.
  - apply rnd_format, generic_format_bpow. unfold FLT_exp. lia.
Qed.

Lemma bZ_p10 n : (0 <= n <= 22)%Z -> B2R (b_of_Z (10 ^ n)) = p10 n /\ is_finite (b_of_Z (10 ^ n)) = true.
Proof.
  intros N. assert (C := binary_normalize_correct 53 1024 b64_prec b64_emax mode_NE (10 ^ n) 0 false). cbv zeta in C.
  replace (F2R (Float radix2 (10 ^ n) 0)) with (p10 n) in C by (unfold F2R; cbn [Fnum Fexp bpow]; rewrite Rmult_1_r; apply p10_Z; lia).
  to_rnd C. rewrite rnd_small in C.
  - destruct C as (C1 & C2 & _). split; [|exact C2]. unfold b_of_Z. rewrite C1. apply rnd_format, format_p10, N.
  - rewrite Rabs_pos_eq by (apply Rlt_le, p10_pos). apply p10_le. lia.
Qed.

Lemma mult_ok (x y : b64t) : is_finite x = true -> is_finite y = true -> Rabs (B2R x * B2R y) <= p10 38 ->
  B2R (Bmult mode_NE x y) = rnd (B2R x * B2R y) /\ is_finite (Bmult mode_NE x y) = true.
Proof.
  intros X Y L. assert (C := Bmult_correct 53 1024 b64_prec b64_emax mode_NE x y). to_rnd C. rewrite rnd_small in C by exact L.
  destruct C as (C1 & C2 & _). rewrite X, Y in C2. auto.
Qed.
Lemma div_ok (x y : b64t) : is_finite x = true -> B2R y <> 0 -> Rabs (B2R x / B2R y) <= p10 38 ->
  B2R (Bdiv mode_NE x y) = rnd (B2R x / B2R y) /\ is_finite (Bdiv mode_NE x y) = true.
Proof.
  intros X Y L. assert (C := Bdiv_correct 53 1024 b64_prec b64_emax mode_NE x y Y). to_rnd C. rewrite rnd_small in C by exact L.
  destruct C as (C1 & C2 & _). rewrite X in C2. auto.
Qed.
Lemma rint_ok (x : b64t) : B2R (Bnearbyint mode_NE x) = IZR (ZnearestE (B2R x)) /\ is_finite (Bnearbyint mode_NE x) = is_finite x.
Proof.
  destruct (Bnearbyint_correct 53 1024 b64_emax mode_NE x) as (C1 & C2 & _). split; [|exact C2]. rewrite C1. 
  unfold round, F2R, scaled_mantissa, cexp, FIX_exp. cbn [Fnum Fexp bpow Z.opp]. now rewrite !Rmult_1_r.
Qed.

(** The whole rounding, when the powers of ten are exact. *)
Lemma b_round_val (x : b64t) d : is_finite x = true -> (Z.abs d <= 22)%Z -> Rabs (B2R x * p10 d) <= p10 16 ->
  let n := ZnearestE (rnd (B2R x * p10 d)) in (Z.abs n <= 10 ^ 16)%Z ->
  B2R (b_round x d) = rnd (IZR n * p10 (- d)) /\ is_finite (b_round x d) = true.
Proof.
  intros X D L n N. assert (N' : Rabs (IZR n) <= p10 16) by (rewrite p10_Z by lia; rewrite <- abs_IZR; now apply IZR_le).
  assert (L38 : p10 16 <= p10 38) by (apply p10_le; lia).
  assert (NB : Rabs (IZR n * p10 (- d)) <= p10 38).
  { rewrite Rabs_mult, (Rabs_pos_eq (p10 _)) by (apply Rlt_le, p10_pos). change 38%Z with (16 + 22)%Z. rewrite p10_add.
    apply Rmult_le_compat; [apply Rabs_pos|apply Rlt_le, p10_pos|exact N'|apply p10_le; lia]. }
  unfold b_round. destruct (0 <=? d)%Z eqn:Hd; [apply Z.leb_le in Hd|apply Z.leb_gt in Hd].
  - destruct (bZ_p10 d ltac:(lia)) as [P1 P2]. destruct (mult_ok x (b_of_Z (10 ^ d)) X P2) as [M1 M2]; [rewrite P1; lra|]. rewrite P1 in M1.
    destruct (rint_ok (Bmult mode_NE x (b_of_Z (10 ^ d)))) as [I1 I2]. rewrite M1 in I1. rewrite M2 in I2. fold n in I1.
    rewrite p10_opp in *.
    destruct (div_ok (Bnearbyint mode_NE (Bmult mode_NE x (b_of_Z (10 ^ d)))) (b_of_Z (10 ^ d)) I2) as [V1 V2].
    + rewrite P1. assert (Q := p10_pos d). lra.
    + rewrite I1, P1. exact NB.
    + rewrite V1, I1, P1. auto.
  - destruct (bZ_p10 (- d) ltac:(lia)) as [P1 P2]. assert (Pn : B2R (b_of_Z (10 ^ (- d))) <> 0) by (rewrite P1; assert (Q := p10_pos (- d)); lra).
    assert (E : B2R x / B2R (b_of_Z (10 ^ - d)) = B2R x * p10 d).
    { rewrite P1. unfold Rdiv. rewrite <- p10_opp. now rewrite Z.opp_involutive. }
    destruct (div_ok x _ X Pn) as [M1 M2]; [rewrite E; lra|]. rewrite E in M1.
    destruct (rint_ok (Bdiv mode_NE x (b_of_Z (10 ^ - d)))) as [I1 I2]. rewrite M1 in I1. rewrite M2 in I2. fold n in I1.
    destruct (mult_ok _ (b_of_Z (10 ^ - d)) I2 P2) as [V1 V2]; [rewrite I1, P1; exact NB|]. rewrite V1, I1, P1. auto.
Qed.

Lemma rnd_err z : p10 (-30) <= Rabs z -> Rabs (rnd z - z) <= powerRZ 2 (-53) * Rabs z.
Proof.
  intros L. assert (E := relative_error_N_FLT radix2 (-1074) 53 eq_refl (fun n => negb (Z.even n)) z).
  change (round radix2 (FLT_exp (-1074) 53) (Znearest (fun n => negb (Z.even n))) z) with (rnd z) in E.
  replace (powerRZ 2 (-53)) with (/ 2 * bpow radix2 (-53 + 1)).
  2:{ rewrite bpow_powerRZ. change (IZR radix2) with 2. change (-53)%Z with (-1 + (-53 + 1))%Z at 2. rewrite (powerRZ_add 2 (-1)) by lra.
      change (powerRZ 2 (-1)) with (/ (2 * 1)). now rewrite Rmult_1_r. }
  apply E. apply Rle_trans with (2 := L). change (-30)%Z with (- (30))%Z. rewrite p10_opp.
  change (-1074 + 53 - 1)%Z with (- (1022))%Z. rewrite bpow_opp. apply Rinv_le; [apply p10_pos|].
  rewrite p10_Z by lia. rewrite <- (IZR_Zpower radix2) by lia. apply IZR_le. vm_compute. discriminate.
Qed.

Lemma two53 : powerRZ 2 (-53) * p10 15 * (9 / 8) <= / 8.
Proof.
  replace (powerRZ 2 (-53)) with (/ IZR (2 ^ 53)) by (cbn [powerRZ]; rewrite pow_IZR; reflexivity). rewrite p10_Z by lia.
  apply Rmult_le_reg_l with (IZR (2 ^ 53)); [apply IZR_lt; reflexivity|].
  rewrite <- !Rmult_assoc, Rinv_r by (apply not_0_IZR; discriminate). change (2 ^ 53)%Z with 9007199254740992%Z. change (10 ^ 15)%Z with 1000000000000000%Z. lra.
Qed.

Section Figs.
Variables (p : Z) (delta : R).
Hypothesis pr : (1 <= p <= 15)%Z.
Hypothesis dnn : 0 <= delta.
Hypothesis dsmall : p10 p * delta <= / 8.

Let u := powerRZ 2 (-53).
Lemma u_pos : 0 < u. Proof. apply powerRZ_lt. lra. Qed.
Lemma p10_split : p10 p = 10 * p10 (p - 1).
Proof. replace p with (1 + (p - 1))%Z at 1 by ring. rewrite p10_add. change (p10 1) with (10 * 1). ring. Qed.
Lemma p10_pm : p10 (p - 1) = IZR (10 ^ (p - 1)) /\ p10 p = IZR (10 ^ p) /\ 1 <= p10 (p - 1).
Proof. split; [apply p10_Z; lia|]. split; [apply p10_Z; lia|]. apply (p10_le 0). lia. Qed.
Lemma u_bound : u * p10 p * (9 / 8) <= / 8.
Proof.
  apply Rle_trans with (2 := two53). assert (U := u_pos). assert (L := p10_le p 15 ltac:(lia)). fold u. nra.
Qed.
Lemma d_bounds : p10 (p - 1) * delta <= / 80 /\ delta <= / 80.
Proof. assert (S := p10_split). destruct p10_pm as (_ & _ & O). split; nra. Qed.

(** [n] for [z], the scaled value. *)
Lemma figs z : p10 (p - 1) * (1 - delta) <= Rabs z < p10 p * (1 + delta) ->
  let n := ZnearestE (rnd z) in
  (10 ^ (p - 1) <= Z.abs n <= 10 ^ p)%Z /\ Rabs (IZR n - z) <= / 2 + p10 p * u * (9 / 8) /\ 0 < IZR n * z /\
  Rabs (rnd z - z) <= / 8.
Proof.
  intros Hz n. destruct p10_pm as (P1 & P2 & P3). assert (S := p10_split). destruct d_bounds as [D1 D2]. assert (U := u_bound). assert (U' := u_pos).
  assert (E : Rabs (rnd z - z) <= u * Rabs z).
  { apply rnd_err. apply Rle_trans with (p10 0 * (1 - / 80)); [|change (p10 0) with 1; nra]. apply Rle_trans with (p10 (-1)); [apply p10_le; lia|]. change (p10 (-1)) with (/ (10 * 1)). change (p10 0) with 1. lra. }
  assert (E2 : u * Rabs z <= u * p10 p * (9 / 8)).
  { rewrite Rmult_assoc. apply Rmult_le_compat_l; [lra|]. nra. }
  assert (Nn := Znearest_half (fun n => negb (Z.even n)) (rnd z)). fold n in Nn.
  assert (Nz : Rabs (IZR n - z) <= / 2 + p10 p * u * (9 / 8)).
  { replace (IZR n - z) with ((rnd z - z) - (rnd z - IZR n)) by ring. eapply Rle_trans; [apply Rabs_triang|]. rewrite Rabs_Ropp. lra. }
  assert (Nz' := Nz). apply Rabs_le_inv in Nz'.
  assert (B : (10 ^ (p - 1) <= Z.abs n <= 10 ^ p)%Z /\ 0 < IZR n * z).
  { unfold Rabs in Hz. destruct (Rcase_abs z) as [Neg|Pos].
    - assert (A1 : (10 ^ (p - 1) - 1 < - n)%Z) by (apply lt_IZR; rewrite minus_IZR, opp_IZR, <- P1; lra).
      assert (A2 : (- n < 10 ^ p + 1)%Z) by (apply lt_IZR; rewrite plus_IZR, opp_IZR, <- P2; lra).
      assert (0 < 10 ^ (p - 1))%Z by (apply Z.pow_pos_nonneg; lia). split; [lia|].
      assert (IZR n < 0) by (apply IZR_lt; lia). nra.
    - assert (A1 : (10 ^ (p - 1) - 1 < n)%Z) by (apply lt_IZR; rewrite minus_IZR, <- P1; lra).
      assert (A2 : (n < 10 ^ p + 1)%Z) by (apply lt_IZR; rewrite plus_IZR, <- P2; lra).
      assert (0 < 10 ^ (p - 1))%Z by (apply Z.pow_pos_nonneg; lia). split; [lia|].
      assert (0 < IZR n) by (apply IZR_lt; lia). nra. }
  destruct B as [B1 B2]. repeat split; try tauto. lra.
Qed.

(** One value. *)
Definition loga (x : R) (k : Z) : Prop := p10 k * (1 - delta) <= Rabs x < p10 (k + 1) * (1 + delta).

Lemma scaled x k : loga x k -> p10 (p - 1) * (1 - delta) <= Rabs (x * p10 (p - k - 1)) < p10 p * (1 + delta).
Proof.
  intros [A B]. rewrite Rabs_mult, (Rabs_pos_eq (p10 _)) by (apply Rlt_le, p10_pos). assert (Q := p10_pos (p - k - 1)).
  replace (p - 1)%Z with (k + (p - k - 1))%Z at 1 by ring. replace (p10 p) with (p10 (k + 1) * p10 (p - k - 1)) by (rewrite <- p10_add; f_equal; ring). rewrite p10_add.
  split; [apply (Rmult_le_compat_r (p10 (p - k - 1))) in A; lra|apply (Rmult_lt_compat_r (p10 (p - k - 1))) in B; lra].
Qed.

Lemma core (x : b64t) k : is_finite x = true -> loga (B2R x) k -> (Z.abs (p - k - 1) <= 22)%Z ->
  let d := (p - k - 1)%Z in let n := ZnearestE (rnd (B2R x * p10 d)) in
  B2R (b_round x d) = rnd (IZR n * p10 (- d)) /\ is_finite (b_round x d) = true /\
  (10 ^ (p - 1) <= Z.abs n <= 10 ^ p)%Z /\ 0 < IZR n * B2R x /\
  Rabs (IZR n * p10 (- d) - B2R x) <= (/ 2 + p10 p * u * (9 / 8)) * p10 (- d).
Proof.
  intros X L D d n. assert (Sc := scaled _ _ L). fold d in Sc, D. destruct (figs _ Sc) as (F1 & F2 & F3 & _). fold n in F1, F2, F3.
  assert (Pd := p10_pos d). assert (Pd' := p10_pos (- d)). destruct d_bounds as [D1 D2]. destruct p10_pm as (P1 & P2 & P3). assert (S := p10_split).
  assert (One : p10 d * p10 (- d) = 1) by (rewrite <- p10_add; replace (d + - d)%Z with 0%Z by ring; reflexivity).
  destruct (b_round_val x d X D) as [V1 V2].
  - apply Rle_trans with (p10 p * (1 + delta)); [lra|]. apply Rle_trans with (p10 15 * 10); [|right; change 16%Z with (15 + 1)%Z; rewrite p10_add; change (p10 1) with (10 * 1); ring].
    apply Rmult_le_compat; [lra|lra|apply p10_le; lia|lra].
  - fold n. apply Z.le_trans with (1 := proj2 F1). apply Z.pow_le_mono_r; lia.
  - split; [exact V1|]. split; [exact V2|]. split; [exact F1|]. split.
    + rewrite <- Rmult_assoc in F3. apply Rmult_lt_reg_r with (p10 d); lra.
    + replace (IZR n * p10 (- d) - B2R x) with ((IZR n - B2R x * p10 d) * p10 (- d)).
      * rewrite Rabs_mult, (Rabs_pos_eq (p10 (- d))) by lra. apply Rmult_le_compat_r; lra.
      * rewrite Rmult_minus_distr_r, Rmult_assoc, One. ring.
Qed.

Lemma mid_log (x : b64t) k : middling p x -> loga (B2R x) k -> (Z.abs (p - k - 1) <= 21)%Z.
Proof.
  intros [M1 M2] [A B]. destruct d_bounds as [_ D].
  assert (k < p + 21)%Z.
  { apply p10_lt_inv. replace (p + 21)%Z with (p + 20 + 1)%Z by ring. rewrite p10_add. change (p10 1) with (10 * 1). assert (Q := p10_pos k). nra. }
  assert (p - 21 < k + 2)%Z.
  { apply p10_lt_inv. replace (k + 2)%Z with (k + 1 + 1)%Z by ring. rewrite (p10_add (k + 1)). change (p10 1) with (10 * 1). assert (Q := p10_pos (k + 1)). nra. }
  lia.
Qed.

(** Reading a reading. *)
Lemma nearest_int t n : Rabs (t - IZR n) < / 2 -> ZnearestE t = n.
Proof. apply Znearest_imp. Qed.

Lemma again (y : b64t) n e k : is_finite y = true -> (Z.abs e <= 21)%Z -> (10 ^ (p - 1) <= Z.abs n <= 10 ^ p)%Z ->
  B2R y = rnd (IZR n * p10 e) -> loga (B2R y) k ->
  (Z.abs (p - k - 1) <= 22)%Z /\ B2R (b_round y (p - k - 1)) = B2R y /\ is_finite (b_round y (p - k - 1)) = true.
Proof.
  intros Y He Hn V L. assert (Sc := scaled _ _ L). set (d := (p - k - 1)%Z) in *.
  destruct p10_pm as (P1 & P2 & P3). assert (S := p10_split). destruct d_bounds as [D1 D2]. assert (U := u_bound). assert (U' := u_pos).
  assert (An : p10 (p - 1) <= Rabs (IZR n) <= p10 p) by (rewrite P1, P2, <- abs_IZR; split; apply IZR_le; lia).
  assert (Pe := p10_pos e). assert (Pe' := p10_pos (- e)).
  assert (One : p10 e * p10 (- e) = 1) by (rewrite <- p10_add; replace (e + - e)%Z with 0%Z by ring; reflexivity).
  set (c := B2R y * p10 (- e)).
  assert (C : Rabs (c - IZR n) <= u * Rabs (IZR n)).
  { replace (c - IZR n) with ((B2R y - IZR n * p10 e) * p10 (- e)) by (unfold c; rewrite Rmult_minus_distr_r, Rmult_assoc, One; ring).
    rewrite V, Rabs_mult, (Rabs_pos_eq (p10 (- e))) by lra.
    assert (E : Rabs (rnd (IZR n * p10 e) - IZR n * p10 e) <= u * Rabs (IZR n * p10 e)).
    { apply rnd_err. rewrite Rabs_mult, (Rabs_pos_eq (p10 e)) by lra. assert (p10 (-30) <= p10 e) by (apply p10_le; lia). nra. }
    rewrite (Rabs_mult (IZR n)), (Rabs_pos_eq (p10 e)) in E by lra. apply (Rmult_le_compat_r (p10 (- e))) in E; [|lra].
    replace (u * (Rabs (IZR n) * p10 e) * p10 (- e)) with (u * Rabs (IZR n) * (p10 e * p10 (- e))) in E by ring. rewrite One in E. lra. }
  assert (Un : u * Rabs (IZR n) <= / 8) by nra.
  assert (Cn : Rabs (IZR n) - / 8 <= Rabs c <= Rabs (IZR n) + / 8).
  { assert (T1 := Rabs_triang (c - IZR n) (IZR n)). replace (c - IZR n + IZR n) with c in T1 by ring.
    assert (T2 := Rabs_triang (IZR n - c) c). replace (IZR n - c + c) with (IZR n) in T2 by ring. rewrite (Rabs_minus_sym (IZR n)) in T2. lra. }
  set (j := (d + e)%Z).
  assert (Z0 : B2R y * p10 d = c * p10 j) by (unfold c, j; rewrite Rmult_assoc, <- p10_add; do 2 f_equal; ring).
  rewrite Z0 in Sc. rewrite Rabs_mult, (Rabs_pos_eq (p10 j)) in Sc by (apply Rlt_le, p10_pos). assert (Pj := p10_pos j).
  (* the integer of the second rounding *)
  assert (J : (-1 <= j <= 1)%Z).
  { split.
    - destruct (Z.le_gt_cases (-1) j) as [|G]; auto. exfalso. assert (Q := p10_le j (-2) ltac:(lia)). change (p10 (-2)) with (/ (10 * (10 * 1))) in Q. nra.
    - destruct (Z.le_gt_cases j 1) as [|G]; auto. exfalso. assert (Q := p10_le 2 j ltac:(lia)). change (p10 2) with (10 * (10 * 1)) in Q. nra. }
  assert (K : exists n', IZR n' = IZR n * p10 j /\ u * Rabs (IZR n) * p10 j <= / 8).
  { assert (Cs : (j = -1 \/ j = 0 \/ j = 1)%Z) by lia. destruct Cs as [Hj|[Hj|Hj]]; rewrite Hj in *.
    - change (p10 (-1)) with (/ (10 * 1)) in *.
      assert (Q : (Z.abs n > 10 ^ p - 1)%Z) by (apply Z.lt_gt, lt_IZR; rewrite minus_IZR, abs_IZR, <- P2; nra).
      assert (Q2 : (10 ^ p = 10 * 10 ^ (p - 1))%Z) by (apply eq_IZR; rewrite mult_IZR, <- P1, <- P2; exact S).
      exists (Z.sgn n * 10 ^ (p - 1))%Z. split; [|lra]. replace (IZR n) with (10 * IZR (Z.sgn n * 10 ^ (p - 1))); [lra|]. rewrite <- mult_IZR. f_equal. lia.
    - exists n. change (p10 0) with 1. split; lra.
    - change (p10 1) with (10 * 1) in *. exists (10 * n)%Z. split; [rewrite mult_IZR; ring|].
      assert (Q : (Z.abs n < 10 ^ (p - 1) + 1)%Z) by (apply lt_IZR; rewrite plus_IZR, abs_IZR, <- P1; nra).
      assert (Q2 : Rabs (IZR n) = p10 (p - 1)) by (rewrite <- abs_IZR, P1; f_equal; lia). rewrite Q2. replace (u * p10 (p - 1) * (10 * 1)) with (u * p10 p) by (rewrite S; ring). nra. }
  destruct K as (n' & N1 & N2).
  assert (Near : ZnearestE (rnd (c * p10 j)) = n').
  { apply nearest_int. rewrite N1. assert (Scz : p10 (p - 1) * (1 - delta) <= Rabs (c * p10 j) < p10 p * (1 + delta)) by (rewrite Rabs_mult, (Rabs_pos_eq (p10 j)) by lra; exact Sc).
    destruct (figs _ Scz) as (_ & _ & _ & F).
    replace (rnd (c * p10 j) - IZR n * p10 j) with ((rnd (c * p10 j) - c * p10 j) + (c - IZR n) * p10 j) by ring.
    eapply Rle_lt_trans; [apply Rabs_triang|]. rewrite Rabs_mult, (Rabs_pos_eq (p10 j)) by lra.
    apply (Rmult_le_compat_r (p10 j)) in C; lra. }
  assert (D22 : (Z.abs d <= 22)%Z) by (unfold j in J; lia). split; [exact D22|].
  destruct (core y k Y L D22) as (V1 & V2 & _). fold d in V1, V2. cbv zeta in V1. rewrite Z0, Near, N1 in V1. split; [|exact V2].
  rewrite V1, V. f_equal. rewrite Rmult_assoc, <- p10_add. do 2 f_equal. unfold j. ring.
Qed.

(** Larger values do not read lower. *)
Lemma grows (x y : b64t) kx ky : is_finite x = true -> is_finite y = true -> middling p x -> middling p y ->
  loga (B2R x) kx -> loga (B2R y) ky -> B2R x <= B2R y -> B2R (b_round x (p - kx - 1)) <= B2R (b_round y (p - ky - 1)).
Proof.
  intros X Y Mx My Lx Ly H. assert (Dx := mid_log x kx Mx Lx). assert (Dy := mid_log y ky My Ly).
  destruct (core x kx X Lx ltac:(lia)) as (Vx & _ & Nx & Sx & _). destruct (core y ky Y Ly ltac:(lia)) as (Vy & _ & Ny & Sy & _). cbv zeta in *.
  rewrite Vx, Vy. apply rnd_le. 
  assert (Scx := scaled _ _ Lx). assert (Scy := scaled _ _ Ly).
  set (nx := ZnearestE (rnd (B2R x * p10 (p - kx - 1)))) in *. set (ny := ZnearestE (rnd (B2R y * p10 (p - ky - 1)))) in *.
  destruct p10_pm as (P1 & P2 & P3). assert (S := p10_split). destruct d_bounds as [D1 D2].
  assert (Ax : p10 (p - 1) <= Rabs (IZR nx) <= p10 p) by (rewrite P1, P2, <- abs_IZR; split; apply IZR_le; lia).
  assert (Ay : p10 (p - 1) <= Rabs (IZR ny) <= p10 p) by (rewrite P1, P2, <- abs_IZR; split; apply IZR_le; lia).
  assert (Qx := p10_pos (- (p - kx - 1))). assert (Qy := p10_pos (- (p - ky - 1))).
  assert (Zx : B2R x <> 0) by (intros Z; rewrite Z, Rmult_0_r in Sx; lra). assert (Zy : B2R y <> 0) by (intros Z; rewrite Z, Rmult_0_r in Sy; lra).
  (* the size of the decimal numbers grows with the size of the values *)
  assert (Gen : forall a b na nb ka kb, p10 (p - 1) <= Rabs na <= p10 p -> p10 (p - 1) <= Rabs nb <= p10 p ->
    loga a ka -> loga b kb -> Rabs a <= Rabs b ->
    (ka = kb -> Rabs na <= Rabs nb) ->
    (p10 (p - 1) * (1 - delta) <= Rabs (a * p10 (p - ka - 1)) < p10 (p - 1) * (1 + delta) -> Rabs na = p10 (p - 1)) ->
    (p10 p * (1 - delta) <= Rabs (b * p10 (p - kb - 1)) -> Rabs nb = p10 p) ->
    Rabs na * p10 (- (p - ka - 1)) <= Rabs nb * p10 (- (p - kb - 1))).
  { intros a b na nb ka kb Ha Hb La Lb Hab Eq Lo Hi. destruct (Z.lt_trichotomy ka kb) as [C|[C|C]].
    - apply Rle_trans with (p10 (ka + 1)).
      { replace (ka + 1)%Z with (p + - (p - ka - 1))%Z by ring. rewrite p10_add. apply Rmult_le_compat_r; [apply Rlt_le, p10_pos|lra]. }
      apply Rle_trans with (p10 kb); [apply p10_le; lia|]. replace kb with (p - 1 + - (p - kb - 1))%Z at 1 by ring. rewrite p10_add. apply Rmult_le_compat_r; [apply Rlt_le, p10_pos|lra].
    - subst kb. apply Rmult_le_compat_r; [apply Rlt_le, p10_pos|auto].
    - destruct La as [La1 La2], Lb as [Lb1 Lb2]. assert (Ck : (ka = kb + 1)%Z).
      { assert (ka < kb + 2)%Z; [|lia]. apply p10_lt_inv. replace (kb + 2)%Z with (kb + 1 + 1)%Z by ring. rewrite (p10_add (kb + 1)). change (p10 1) with (10 * 1). assert (W := p10_pos (kb + 1)). assert (W' := p10_pos ka). nra. }
      assert (Wa := p10_pos (p - ka - 1)). assert (Wb := p10_pos (p - kb - 1)).
      rewrite Lo, Hi.
      + rewrite <- !p10_add. apply p10_le. lia.
      + rewrite Rabs_mult, (Rabs_pos_eq (p10 _)) by lra.
        replace (p10 p) with (p10 ka * p10 (p - kb - 1)) by (rewrite <- p10_add; f_equal; lia). assert (L1 : p10 ka * (1 - delta) <= Rabs b) by lra. apply (Rmult_le_compat_r (p10 (p - kb - 1))) in L1; lra.
      + rewrite Rabs_mult, (Rabs_pos_eq (p10 _)) by lra. replace (p10 (p - 1)) with (p10 ka * p10 (p - ka - 1)) by (rewrite <- p10_add; f_equal; lia).
        assert (L1 : Rabs a < p10 ka * (1 + delta)) by (rewrite Ck; lra). split; [apply (Rmult_le_compat_r (p10 (p - ka - 1))) in La1|apply (Rmult_lt_compat_r (p10 (p - ka - 1))) in L1]; lra. }
  assert (Edge : forall v, let n := ZnearestE (rnd v) in p10 (p - 1) * (1 - delta) <= Rabs v < p10 p * (1 + delta) ->
     (p10 (p - 1) * (1 - delta) <= Rabs v < p10 (p - 1) * (1 + delta) -> Rabs (IZR n) = p10 (p - 1)) /\
     (p10 p * (1 - delta) <= Rabs v -> Rabs (IZR n) = p10 p)).
  { intros v n Hv. destruct (figs v Hv) as (F1 & F2 & F3 & F4). fold n in F1, F2, F3. assert (U := u_bound).
    assert (T1 := Rabs_triang (IZR n - v) v). replace (IZR n - v + v) with (IZR n) in T1 by ring.
    assert (T2 := Rabs_triang (v - IZR n) (IZR n)). replace (v - IZR n + IZR n) with v in T2 by ring. rewrite (Rabs_minus_sym v) in T2.
    split; intros Hn.
    - assert (Q : (Z.abs n < 10 ^ (p - 1) + 1)%Z) by (apply lt_IZR; rewrite plus_IZR, abs_IZR, <- P1; lra). rewrite <- abs_IZR, P1. f_equal. lia.
    - assert (Q : (10 ^ p - 1 < Z.abs n)%Z) by (apply lt_IZR; rewrite minus_IZR, abs_IZR, <- P2; lra). rewrite <- abs_IZR, P2. f_equal. lia. }
  destruct (Edge _ Scx) as [Ex1 Ex2], (Edge _ Scy) as [Ey1 Ey2]. fold nx in Ex1, Ex2. fold ny in Ey1, Ey2.
  destruct (Rlt_or_le (B2R x) 0) as [Nx0|Px0], (Rlt_or_le (B2R y) 0) as [Ny0|Py0].
  - assert (IZR nx < 0) by nra. assert (IZR ny < 0) by nra.
    assert (G := Gen (B2R y) (B2R x) (IZR ny) (IZR nx) ky kx Ay Ax Ly Lx). rewrite (Rabs_left (IZR nx)), (Rabs_left (IZR ny)), (Rabs_left (B2R x)), (Rabs_left (B2R y)) in G by lra.
    rewrite (Rabs_left (IZR nx)) in Ex2 by lra. rewrite (Rabs_left (IZR ny)) in Ey1 by lra.
    assert (- IZR ny * p10 (- (p - ky - 1)) <= - IZR nx * p10 (- (p - kx - 1))); [|lra]. apply G; auto; [lra|].
    intros E. unfold nx, ny. rewrite <- E. apply Ropp_le_contravar, IZR_le, near_le, rnd_le. apply Rmult_le_compat_r; [apply Rlt_le, p10_pos|lra].
  - assert (IZR nx < 0) by nra. assert (0 < IZR ny) by nra. nra.
  - lra.
  - assert (0 < IZR nx) by nra. assert (0 < IZR ny) by nra.
    assert (G := Gen (B2R x) (B2R y) (IZR nx) (IZR ny) kx ky Ax Ay Lx Ly). rewrite (Rabs_pos_eq (IZR nx)), (Rabs_pos_eq (IZR ny)), (Rabs_pos_eq (B2R x)), (Rabs_pos_eq (B2R y)) in G by lra.
    rewrite (Rabs_pos_eq (IZR ny)) in Ey2 by lra. rewrite (Rabs_pos_eq (IZR nx)) in Ex1 by lra. apply G; auto.
    intros E. unfold nx, ny. rewrite <- E. apply IZR_le, near_le, rnd_le. apply Rmult_le_compat_r; [apply Rlt_le, p10_pos|lra].
Qed.
End Figs.

(** Powers of ten beyond the range. *)
Lemma bZ_inf d : (309 <= d)%Z -> b_of_Z (10 ^ d) = B754_infinity false.
Proof.
  intros D. assert (C := binary_normalize_correct 53 1024 b64_prec b64_emax mode_NE (10 ^ d) 0 false). cbv zeta in C.
  replace (F2R (Float radix2 (10 ^ d) 0)) with (p10 d) in C by (unfold F2R; cbn [Fnum Fexp bpow]; rewrite Rmult_1_r; apply p10_Z; lia).
  to_rnd C. rewrite Rlt_bool_false in C.
  - rewrite Rlt_bool_false in C by (apply Rlt_le, p10_pos). unfold b_of_Z. destruct (binary_normalize _ _ _ _ _ _ _ _); try discriminate C. cbn in C. now injection C as ->.
  - rewrite rnd_abs, Rabs_pos_eq by (apply Rlt_le, p10_pos). replace (bpow radix2 1024) with (rnd (bpow radix2 1024)) at 1.
    + apply rnd_le. apply Rle_trans with (p10 309); [|now apply p10_le]. rewrite p10_Z by lia. rewrite <- (IZR_Zpower radix2) by lia. apply IZR_le. vm_compute. discriminate.
    + apply rnd_format, generic_format_bpow. unfold FLT_exp. lia.
Qed.
Lemma b_round_nan (x : b64t) d : is_finite x = true -> B2R x <> 0 -> (309 <= d)%Z -> b_round x d = B754_nan.
Proof.
  intros F X D. unfold b_round. replace (0 <=? d)%Z with true by (symmetry; apply Z.leb_le; lia). rewrite bZ_inf by auto.
  destruct x as [s|s| |s m e H]; try discriminate F; [now contradiction X|]. cbn. reflexivity.
Qed.

(** ** Instruments *)
Section Instr.
Context (O : NumOps b64t) (Rg : Rng b64t).
Variables (p : Z) (delta : R).
Hypothesis pr : (1 <= p <= 15)%Z.
Hypothesis dnn : 0 <= delta.
Hypothesis dsmall : p10 p * delta <= / 8.
Hypothesis Num : rounds_like_numpy delta O.

Lemma round_sig_cases (x : b64t) : BinarySingleNaN.is_nan x = false ->
  (is_finite x = true /\ B2R x = 0 /\ round_sig p x = Ok x) \/ (is_finite x = false /\ round_sig p x = Ok x) \/
  (is_finite x = true /\ B2R x <> 0 /\ exists k, nflog10 x = Some k /\ loga delta (B2R x) k /\ round_sig p x = Ok (b_round x (p - k - 1))).
Proof.
  intros N. unfold round_sig. rewrite (rn_eq _ _ Num), (rn_zero _ _ Num), (rn_inf _ _ Num).
  destruct x as [s|s| |s m e H]; try discriminate N.
  - left. split; [reflexivity|]. split; [reflexivity|]. cbn. now destruct s.
  - right; left. split; [reflexivity|]. cbn. now destruct s.
  - right; right. split; auto. assert (Z : B2R (B754_finite s m e H : b64t) <> 0) by (cbn; apply F2R_neq_0; now destruct s). split; auto.
    destruct (rn_log _ _ Num (B754_finite s m e H) eq_refl Z) as (k & K & L). exists k. split; auto. split; auto.
    replace (Beqb (B754_finite s m e H) (B754_zero false) || b_isinf (B754_finite s m e H))%bool with false by (cbn; now destruct s).
    rewrite K. now rewrite (rn_round _ _ Num).
Qed.

Lemma core_reads (x : b64t) k : is_finite x = true -> loga delta (B2R x) k -> (Z.abs (p - k - 1) <= 22)%Z -> reads_as p x (b_round x (p - k - 1)).
Proof.
  intros X L D. destruct (core p delta pr dnn dsmall x k X L D) as (V1 & V2 & V3 & V4 & V5). cbv zeta in *. split; [exact V2|].
  eexists _, _. split; [exact V3|]. split; [exact V1|]. split; [exact V5|exact V4].
Qed.

Lemma round_sig_reading (x : b64t) : BinarySingleNaN.is_nan x = false -> exists y : b64t, round_sig p x = Ok y /\ reading p x y.
Proof.
  intros N. destruct (round_sig_cases x N) as [(F & Z & E)|[(F & E)|(F & Z & k & K & L & E)]].
  - exists x. split; auto. split; auto. split; auto. split; [|intros _ [T _]; contradiction].
    intros _ [M _]. rewrite Z, Rabs_R0 in M. assert (Q := p10_pos (p - 21)). lra.
  - exists x. split; auto. split; auto. split; auto. split; intros Q; congruence.
  - eexists. split; [exact E|]. split; [intros; contradiction|]. split; [congruence|]. split.
    + intros _ M. apply core_reads; auto. assert (Q := mid_log p delta pr dnn dsmall x k M L). lia.
    + intros _ [_ T]. apply b_round_nan; auto. destruct (d_bounds p delta pr dnn dsmall) as [_ D2]. destruct L as [L _].
      assert (k < p - 309)%Z; [|lia]. apply p10_lt_inv. assert (Q := p10_pos k). assert (Q' := p10_pos (p - 309)). nra.
Qed.

Lemma measure_round nm (vals : list b64t) w : measure (Instm nm (Some p) None None) vals w = (map_res (round_sig p) vals, w).
Proof.
  unfold measure. cbn [in_err in_prec in_range]. replace (p =? 0)%Z with false by (symmetry; apply Z.eqb_neq; lia).
  unfold bind, lift, ret. destruct (map_res (round_sig p) vals); reflexivity.
Qed.

Lemma measure_readings nm (vals : list b64t) w : (forall x, In x vals -> BinarySingleNaN.is_nan x = false) ->
  exists ys, measure (Instm nm (Some p) None None) vals w = (Ok ys, w) /\ Forall2 (reading p) vals ys.
Proof.
  intros N. rewrite measure_round. enough (E : exists ys : list b64t, map_res (round_sig p) vals = Ok ys /\ Forall2 (reading p) vals ys).
  { destruct E as (ys & -> & F). eauto. }
  induction vals as [|x r IH]; [exists []; split; [reflexivity|constructor]|].
  destruct (round_sig_reading x) as (y & E1 & E2); [apply N; now left|]. destruct IH as (ys & E3 & E4); [intros z Hz; apply N; now right|].
  exists (y :: ys). cbn [map_res]. rewrite E1. cbn [rbind]. rewrite E3. split; [reflexivity|now constructor].
Qed.



Lemma round_twice (x y : b64t) : plain_value p x -> round_sig p x = Ok y -> round_sig p y = Ok y.
Proof.
  intros [N P] E. destruct (round_sig_cases x N) as [(F & Z & E')|[(F & E')|(F & Z & k & K & L & E')]]; rewrite E' in E; injection E as <-; [congruence..|].
  destruct (P F) as [|M]; [contradiction|]. assert (D := mid_log p delta pr dnn dsmall x k M L).
  destruct (core p delta pr dnn dsmall x k F L ltac:(lia)) as (V1 & V2 & V3 & V4 & V5). cbv zeta in *. set (y := b_round x (p - k - 1)) in *.
  set (n := ZnearestE (rnd (B2R x * p10 (p - k - 1)))) in *. set (e := (- (p - k - 1))%Z) in *.
  assert (Yn : B2R y <> 0).
  { rewrite V1. intros Q. assert (Pe := p10_pos e). destruct (p10_pm p pr) as (P1 & P2 & P3).
    assert (An : p10 (p - 1) <= Rabs (IZR n)) by (rewrite P1, <- abs_IZR; apply IZR_le; lia).
    assert (R := rnd_err (IZR n * p10 e)). rewrite Q in R. rewrite Rabs_minus_sym, Rminus_0_r in R.
    rewrite Rabs_mult, (Rabs_pos_eq (p10 e)) in R by lra. assert (p10 (-30) <= p10 e) by (apply p10_le; unfold e; lia).
    assert (Hu : powerRZ 2 (-53) < 1).
    { assert (U := u_bound p pr). assert (W := u_pos). assert (S := p10_split p). nra. }
    assert (p10 e <= Rabs (IZR n) * p10 e) by nra. specialize (R ltac:(lra)). nra. }
  assert (Ny : BinarySingleNaN.is_nan y = false) by (destruct y; auto; discriminate V2).
  destruct (round_sig_cases y Ny) as [(_ & Z' & _)|[(F' & _)|(_ & _ & k' & K' & L' & E2)]]; [contradiction|congruence|].
  rewrite E2. f_equal. destruct (again p delta pr dnn dsmall y n e k' V2 ltac:(unfold e; lia) V3 V1 L') as (_ & W1 & W2).
  assert (St : forall z : b64t, is_finite z = true -> B2R z <> 0 -> is_finite_strict z = true) by (intros [s|s| |s m ex H] A B; auto; now contradiction B).
  apply B2R_inj; [apply St; auto; now rewrite W1|apply St; auto|exact W1].
Qed.

Lemma measure_twice nm (vals : list b64t) w ys : Forall (plain_value p) vals ->
  measure (Instm nm (Some p) None None) vals w = (Ok ys, w) -> measure (Instm nm (Some p) None None) ys w = (Ok ys, w).
Proof.
  intros P. rewrite !measure_round. intros E. f_equal. injection E as E. revert ys E. induction P as [|x r Hx Hr IH]; intros ys E.
  - injection E as <-. reflexivity.
  - cbn [map_res] in E. destruct (round_sig p x) as [y|] eqn:E1; [|discriminate E]. cbn [rbind] in E. destruct (map_res (round_sig p) r) as [ys'|] eqn:E2; [|discriminate E].
    injection E as <-. cbn [map_res]. rewrite (round_twice _ _ Hx E1). cbn [rbind]. now rewrite (IH ys' eq_refl).
Qed.

Lemma round_grows (x x' y y' : b64t) : is_finite x = true -> is_finite x' = true -> plain_value p x -> plain_value p x' ->
  round_sig p x = Ok y -> round_sig p x' = Ok y' -> B2R x <= B2R x' -> B2R y <= B2R y'.
Proof.
  intros F F' [N P] [N' P'] E E' H.
  assert (Z0 : rnd 0 = 0) by apply rnd_format, generic_format_0.
  assert (Sgn : forall k (v : b64t), is_finite v = true -> middling p v -> loga delta (B2R v) k -> 0 <= B2R (b_round v (p - k - 1)) * B2R v).
  { intros k v Fv Mv Lv. assert (D := mid_log p delta pr dnn dsmall v k Mv Lv). destruct (core p delta pr dnn dsmall v k Fv Lv ltac:(lia)) as (V1 & _ & _ & V4 & _). cbv zeta in *.
    rewrite V1. assert (Pe := p10_pos (- (p - k - 1))). match type of V4 with 0 < IZR ?a * _ => set (n := IZR a) in * end. set (e := (- (p - k - 1))%Z) in *.
    destruct (Rlt_or_le (B2R v) 0) as [Lt|Ge].
    - assert (n < 0) by nra. assert (rnd (n * p10 e) <= 0); [|nra]. apply Rle_trans with (rnd 0); [apply rnd_le; nra|rewrite Z0; lra].
    - assert (0 < n) by nra. assert (0 <= rnd (n * p10 e)); [|nra]. apply Rle_trans with (rnd 0); [rewrite Z0; lra|apply rnd_le; nra]. }
  destruct (round_sig_cases x N) as [(_ & Z & Q)|[(F2 & _)|(_ & Z & k & K & L & Q)]]; [|congruence|]; rewrite Q in E; injection E as <-;
  (destruct (round_sig_cases x' N') as [(_ & Z' & Q')|[(F2 & _)|(_ & Z' & k' & K' & L' & Q')]]; [|congruence|]); rewrite Q' in E'; injection E' as <-; auto.
  - destruct (P' F') as [|M']; [contradiction|]. specialize (Sgn k' x' F' M' L'). rewrite Z in *. nra.
  - destruct (P F) as [|M]; [contradiction|]. specialize (Sgn k x F M L). rewrite Z' in *. nra.
  - destruct (P F) as [|M]; [contradiction|]. destruct (P' F') as [|M']; [contradiction|]. now apply (grows p delta pr dnn dsmall x x' k k').
Qed.

Lemma measure_grows nm (vals : list b64t) w ys : Forall (plain_value p) vals -> measure (Instm nm (Some p) None None) vals w = (Ok ys, w) ->
  forall i j x x' y y', nth_error vals i = Some x -> nth_error vals j = Some x' -> nth_error ys i = Some y -> nth_error ys j = Some y' ->
    is_finite x = true -> is_finite x' = true -> B2R x <= B2R x' -> B2R y <= B2R y'.
Proof.
  intros P. rewrite measure_round. intros E. injection E as E.
  assert (At : forall k x y, nth_error vals k = Some x -> nth_error ys k = Some y -> plain_value p x /\ round_sig p x = Ok y).
  { revert ys E. induction P as [|x r Hx Hr IH]; intros ys E; [intros [|] ? ? Q; discriminate Q|].
    cbn [map_res] in E. destruct (round_sig p x) as [y|] eqn:E1; [|discriminate E]. cbn [rbind] in E. destruct (map_res (round_sig p) r) as [ys'|] eqn:E2; [|discriminate E].
    injection E as <-. intros [|k] v z Hv Hz; [injection Hv as <-; injection Hz as <-; auto|]. now apply (IH ys' eq_refl k v z). }
  intros i j x x' y y' H1 H2 H3 H4 F F' L. destruct (At _ _ _ H1 H3) as [A1 A2], (At _ _ _ H2 H4) as [B1 B2]. now apply (round_grows x x').
Qed.
End Instr.

(** ** The exact logarithm *)
Lemma Q2R_power b e : (0 < b)%Z -> Q2R (Qpower (inject_Z b) e) = powerRZ (IZR b) e.
Proof.
  intros B. assert (Bp : 0 < IZR b) by (apply IZR_lt; lia).
  assert (Pos : forall n, (0 <= n)%Z -> Q2R (Qpower (inject_Z b) n) = powerRZ (IZR b) n).
  { intros n N. rewrite <- (Qeq_eqR _ _ (Zpower_Qpower b n N)). rewrite <- (Z2Nat.id n) by auto. generalize (Z.to_nat n). intros m.
    rewrite <- pow_powerRZ. unfold Q2R, inject_Z. cbn [Qnum Qden]. rewrite <- pow_IZR. lra. }
  destruct (Z.le_gt_cases 0 e) as [E|E]; auto. replace e with (- (- e))%Z by ring. rewrite powerRZ_neg'. rewrite <- Pos by lia.
  rewrite (Qeq_eqR _ _ (Qpower_opp (inject_Z b) (- e))). rewrite Q2R_inv; [reflexivity|].
  intros Q. apply Qeq_eqR in Q. rewrite Pos in Q by lia. assert (P := powerRZ_lt (IZR b) (- e) Bp). unfold Q2R in Q. cbn in Q. lra.
Qed.

Lemma to_Q_exact (x : b64t) : is_finite x = true -> exists q, b_to_Q x = Some q /\ Q2R q = B2R x.
Proof.
  destruct x as [s|s| |s m e H]; intros F; try discriminate F.
  - exists 0%Q. split; [reflexivity|]. unfold Q2R. cbn. lra.
  - eexists. split; [reflexivity|]. rewrite Q2R_mult. change (2%Q) with (inject_Z 2). rewrite Q2R_power by lia. cbn [B2R]. unfold F2R. cbn [Fnum Fexp].
    rewrite bpow_powerRZ. change (IZR radix2) with 2. f_equal. unfold Q2R, inject_Z. cbn [Qnum Qden]. destruct s; cbn [cond_Zopp Z.opp]; lra.
Qed.

Lemma numpy_BOps : rounds_like_numpy 0 BOps.
Proof.
  constructor; try reflexivity. intros x F X. cbn [nflog10 BOps]. unfold b_flog10. destruct (to_Q_exact x F) as (q & -> & Q).
  destruct (flog_spec q) as (k & -> & L).
  - intros Z. apply Qeq_eqR in Z. rewrite Q in Z. unfold Q2R at 1 in Z. cbn in Z. lra.
  - exists k. split; [reflexivity|]. destruct L as [L1 L2]. apply Qle_Rle in L1. apply Qlt_Rlt in L2. unfold q_pow10 in *. change (10%Q) with (inject_Z 10) in *. rewrite Q2R_power in L1, L2 by lia.
    rewrite <- Q. replace (Rabs (Q2R q)) with (Q2R (Qabs.Qabs q)); [lra|].
    unfold Q2R. destruct q as [n dn]. cbn [Qabs.Qabs Qnum Qden]. rewrite abs_IZR, Rabs_mult. f_equal. rewrite Rabs_pos_eq; [reflexivity|]. apply Rlt_le, Rinv_0_lt_compat, IZR_lt. reflexivity.
Qed.
