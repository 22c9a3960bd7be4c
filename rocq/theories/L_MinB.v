(** The minimiser in binary64: which points it evaluates (C89). *)
From Coq Require Import Reals QArith Lra Lia.
From Flocq Require Import Core BinarySingleNaN Relative.
From Verif Require Import M_Base M_Num M_NumB M_Minimize S_Digits S_MinB L_Base L_Digits.
Open Scope R_scope.

(** ** Rounding *)
Lemma rnd_close z : Rabs (rnd z - z) <= Rabs z / 1000000000000000 + / 10 ^ 50.
Proof.
  destruct (error_N_FLT radix2 (-1074) 53 ltac:(lia) (fun n => negb (Z.even n)) z) as (eps & eta & E1 & E2 & _ & E).
  change (round radix2 (FLT_exp (-1074) 53) (Znearest (fun n => negb (Z.even n))) z) with (rnd z) in E. rewrite E.
  replace (z * (1 + eps) + eta - z) with (z * eps + eta) by ring.
  eapply Rle_trans; [apply Rabs_triang|]. rewrite Rabs_mult.
  assert (A1 : Rabs eps <= / 1000000000000000).
  { eapply Rle_trans; [exact E1|]. replace (bpow radix2 (-(53) + 1)) with (/ 4503599627370496) by reflexivity. lra. }
  assert (A2 : Rabs eta <= / 10 ^ 50).
  { eapply Rle_trans; [exact E2|]. apply Rle_trans with (bpow radix2 (-200)).
    - assert (bpow radix2 (-1074) <= bpow radix2 (-200)) by (apply bpow_le; lia). pose proof (bpow_gt_0 radix2 (-1074)). lra.
    - change (bpow radix2 (-200)) with (/ IZR (2 ^ 200)). replace (10 ^ 50) with (IZR (10 ^ 50)%Z) by (change (10 ^ 50)%Z with (10 ^ Z.of_nat 50)%Z; now rewrite <- pow_IZR).
      apply Rinv_le; [apply IZR_lt; reflexivity|]. apply IZR_le. vm_compute. discriminate. }
  assert (P := Rabs_pos z). assert (Q := Rabs_pos eps).
  assert (Rabs z * Rabs eps <= Rabs z * / 1000000000000000) by (apply Rmult_le_compat_l; auto). lra.
Qed.

Lemma val_format (x : b64t) : generic_format radix2 (FLT_exp (-1074) 53) (val x).
Proof. apply (generic_format_B2R 53 1024 x). Qed.
Lemma rnd_val (x : b64t) : rnd (val x) = val x.
Proof. apply rnd_format, val_format. Qed.
Lemma rnd_ge_val (x : b64t) z : val x <= z -> val x <= rnd z.
Proof. intros L. rewrite <- rnd_val. now apply rnd_le. Qed.
Lemma rnd_le_val (x : b64t) z : z <= val x -> rnd z <= val x.
Proof. intros L. rewrite <- (rnd_val x). now apply rnd_le. Qed.

Definition big : R := bpow radix2 1000.
Lemma rnd_big z : Rabs z <= big -> Rlt_bool (Rabs (rnd z)) (bpow radix2 1024) = true.
Proof.
  intros L. apply Rlt_bool_true. apply Rle_lt_trans with (bpow radix2 1000); [|apply bpow_lt; lia]. rewrite rnd_abs.
  replace (bpow radix2 1000) with (rnd (bpow radix2 1000)).
  - now apply rnd_le.
  - apply rnd_format, generic_format_bpow. unfold FLT_exp. lia.
Qed.

Lemma plus_ok (x y : b64t) : fin64 x = true -> fin64 y = true -> Rabs (val x + val y) <= big ->
  val (Bplus mode_NE x y) = rnd (val x + val y) /\ fin64 (Bplus mode_NE x y) = true.
Proof.
  intros X Y L. assert (C := Bplus_correct 53 1024 b64_prec b64_emax mode_NE x y X Y). to_rnd C. rewrite rnd_big in C by exact L. tauto.
Qed.
Lemma minus_ok (x y : b64t) : fin64 x = true -> fin64 y = true -> Rabs (val x - val y) <= big ->
  val (Bminus mode_NE x y) = rnd (val x - val y) /\ fin64 (Bminus mode_NE x y) = true.
Proof.
  intros X Y L. assert (C := Bminus_correct 53 1024 b64_prec b64_emax mode_NE x y X Y). to_rnd C. rewrite rnd_big in C by exact L. tauto.
Qed.
Lemma times_ok (x y : b64t) : fin64 x = true -> fin64 y = true -> Rabs (val x * val y) <= big ->
  val (Bmult mode_NE x y) = rnd (val x * val y) /\ fin64 (Bmult mode_NE x y) = true.
Proof.
  intros X Y L. assert (C := Bmult_correct 53 1024 b64_prec b64_emax mode_NE x y). to_rnd C. rewrite rnd_big in C by exact L.
  destruct C as (C1 & C2 & _). rewrite X, Y in C2. auto.
Qed.
Lemma over_ok (x y : b64t) : fin64 x = true -> val y <> 0 -> Rabs (val x / val y) <= big ->
  val (Bdiv mode_NE x y) = rnd (val x / val y) /\ fin64 (Bdiv mode_NE x y) = true.
Proof.
  intros X Y L. assert (C := Bdiv_correct 53 1024 b64_prec b64_emax mode_NE x y Y). to_rnd C. rewrite rnd_big in C by exact L.
  destruct C as (C1 & C2 & _). rewrite X in C2. auto.
Qed.

(** A finite sum is the rounded one. *)
Lemma plus_fin (x y : b64t) : fin64 x = true -> fin64 (Bplus mode_NE x y) = true ->
  fin64 y = true /\ val (Bplus mode_NE x y) = rnd (val x + val y).
Proof.
  intros X S. assert (Y : fin64 y = true) by (destruct x, y; try discriminate; reflexivity).
  split; auto. assert (C := Bplus_correct 53 1024 b64_prec b64_emax mode_NE x y X Y). to_rnd C.
  destruct (Rlt_bool _ _); [tauto|]. destruct C as [C _].
  destruct (Bplus mode_NE x y); try discriminate; destruct (Bsign x); discriminate C.
Qed.
Lemma minus_fin (x y : b64t) : fin64 x = true -> fin64 y = true -> fin64 (Bminus mode_NE x y) = true ->
  val (Bminus mode_NE x y) = rnd (val x - val y).
Proof.
  intros X Y S. assert (C := Bminus_correct 53 1024 b64_prec b64_emax mode_NE x y X Y). to_rnd C.
  destruct (Rlt_bool _ _); [tauto|]. destruct C as [C _].
  destruct (Bminus mode_NE x y); try discriminate; destruct (Bsign x); discriminate C.
Qed.

(** ** Comparisons with numbers that may be infinite or NaN *)
Lemma ltb_true (x y : b64t) : fin64 x = true -> fin64 y = true -> Bltb x y = true -> val x < val y.
Proof. intros X Y E. rewrite Bltb_correct in E by auto. destruct (Rlt_bool_spec (val x) (val y)); auto; discriminate. Qed.
Lemma ltb_false (x y : b64t) : fin64 x = true -> fin64 y = true -> Bltb x y = false -> val y <= val x.
Proof. intros X Y E. rewrite Bltb_correct in E by auto. destruct (Rlt_bool_spec (val x) (val y)); auto; discriminate. Qed.
Lemma leb_true (x y : b64t) : fin64 x = true -> fin64 y = true -> Bleb x y = true -> val x <= val y.
Proof. intros X Y E. rewrite Bleb_correct in E by auto. destruct (Rle_bool_spec (val x) (val y)); auto; discriminate. Qed.
Lemma leb_false (x y : b64t) : fin64 x = true -> fin64 y = true -> Bleb x y = false -> val y < val x.
Proof. intros X Y E. rewrite Bleb_correct in E by auto. destruct (Rle_bool_spec (val x) (val y)); auto; discriminate. Qed.
Lemma nan_cmp (y : b64t) : Bltb (B754_nan : b64t) y = false /\ Bltb y (B754_nan : b64t) = false /\
  Bleb (B754_nan : b64t) y = false /\ Bleb y (B754_nan : b64t) = false.
Proof. destruct y as [[]|[]| |[]]; auto. Qed.


Section Run.
Variables log10 pow10 : b64t -> b64t.
#[local] Instance OB : NumOps b64t := b_ops log10 pow10.
Variables rel abs : b64t.

Lemma b_two : val (nofQ 2 : b64t) = 2 /\ fin64 (nofQ 2 : b64t) = true.
Proof.
  split; [|reflexivity]. rewrite <- SF2R_B2SF. replace (B2SF (nofQ 2 : b64t)) with (SpecFloat.S754_finite false 4503599627370496 (-51)) by (vm_compute; reflexivity).
  unfold SF2R, F2R. cbn. lra.
Qed.
Lemma b_zero : val (n0 : b64t) = 0 /\ fin64 (n0 : b64t) = true.
Proof. split; reflexivity. Qed.
Lemma b_gf2 : fin64 (gf2 : b64t) = true /\ 38 / 100 <= val (gf2 : b64t) <= 39 / 100.
Proof.
  split; [reflexivity|]. rewrite <- SF2R_B2SF. replace (B2SF (gf2 : b64t)) with (SpecFloat.S754_finite false 6880887943736672 (-54)) by (vm_compute; reflexivity).
  unfold SF2R, F2R. cbn. lra.
Qed.

(** ** The shape of the step *)
Definition finb (s : mst b64t) (st0 : b64t) : b64t :=
  let t := tol rel abs s in
  let st := if Bltb (Bminus mode_NE (Bplus mode_NE (mx s) st0) (ma s)) (tol2 rel abs s) ||
               Bltb (Bminus mode_NE (mb s) (Bplus mode_NE (mx s) st0)) (tol2 rel abs s)
            then (if Bltb (mx s) (mid s) then t else Bopp t) else st0 in
  if Bltb (Babs st) t then (if Bltb n0 st then t else Bopp t) else st.
Lemma step_finb (s : mst b64t) : exists st0, step rel abs s = finb s st0.
Proof.
  unfold M_Minimize.step, finb. cbn [nadd nsub nmul ndiv nneg nabs nltb nleb neqb OB b_ops].
  match goal with |- exists st0, (if Bltb (Babs (if (Bltb (Bminus _ (if ?c then ?x1 else ?x2) _) _ || _)%bool then _ else (if ?c then ?s1 else ?s2))) _ then _ else _) = _ =>
    exists (if c then s1 else s2); destruct c; reflexivity end.
Qed.

(** ** Sizes *)
Hypothesis REL : between 0 (/ 1000) rel.
Hypothesis ABS : between (/ 10 ^ 30) (10 ^ 30) abs.
Notation A := (val abs).

Lemma ten30 : / 10 ^ 50 <= / 10 ^ 30 / 1000000000000000.
Proof.
  replace (10 ^ 50) with (10 ^ 30 * 10 ^ 20) by (rewrite <- pow_add; reflexivity).
  assert (0 < 10 ^ 30) by (apply pow_lt; lra). assert (0 < 10 ^ 20) by (apply pow_lt; lra).
  rewrite Rinv_mult. apply Rmult_le_compat_l; [apply Rlt_le, Rinv_0_lt_compat; lra|]. apply Rinv_le; lra.
Qed.
Lemma A_pos : 0 < A.
Proof. destruct ABS as [_ [L _]]. assert (0 < / 10 ^ 30) by (apply Rinv_0_lt_compat; lra). lra. Qed.
Lemma A_big z : Rabs z <= 10000000000000 * A -> Rabs z <= big.
Proof.
  intros L. destruct ABS as [_ [_ U]]. eapply Rle_trans; [exact L|]. apply Rle_trans with (10000000000000 * 10 ^ 30); [lra|].
  apply Rle_trans with (bpow radix2 200); [|apply bpow_le; lia].
  change (bpow radix2 200) with (IZR (2 ^ 200)). lra.
Qed.
Lemma rnd_near z : Rabs z <= 10000000000000 * A -> Rabs (rnd z - z) <= A / 64.
Proof.
  intros L. assert (C := rnd_close z). assert (T := ten30). destruct ABS as [_ [U _]]. assert (P := A_pos).
  assert (/ 10 ^ 30 / 1000000000000000 <= A / 1000000000000000) by (apply Rmult_le_compat_r; lra). lra.
Qed.

Section Radius.
Variable B : R.
Hypothesis ROOM : 0 <= B <= 2000000000000 * A.
Notation inside := (between (- B) B).

Lemma inside_abs x : inside x -> Rabs (val x) <= B.
Proof. intros [_ H]. now apply Rabs_le. Qed.

Ltac absin := repeat match goal with H : between (- B) B _ |- _ => let H1 := fresh in let H2 := fresh in destruct H as [H1 H2] end.
Ltac small := assert (P := A_pos); apply Rabs_le; lra.

Lemma tol_b s : inside (mx s) -> fin64 (tol rel abs s) = true /\
  A <= val (tol rel abs s) <= 3000000000 * A /\ val (tol rel abs s) <= val rel * B + A + A / 16.
Proof.
  intros X. assert (P := A_pos). destruct REL as [RF RV], ABS as [AF _]. assert (XA := inside_abs _ X). destruct X as [XF XV].
  assert (XP := Rabs_pos (val (mx s))).
  assert (M0 : 0 <= val rel * Rabs (val (mx s))) by (apply Rmult_le_pos; lra).
  assert (M1 : val rel * Rabs (val (mx s)) <= val rel * B) by (apply Rmult_le_compat_l; lra).
  assert (M2 : val rel * B <= / 1000 * B) by (apply Rmult_le_compat_r; lra).
  destruct (times_ok rel (Babs (mx s))) as [V1 F1]; auto.
  { now rewrite is_finite_Babs. }
  { rewrite B2R_Babs. apply A_big. apply Rabs_le. lra. }
  rewrite B2R_Babs in V1.
  assert (N1 := rnd_near (val rel * Rabs (val (mx s))) ltac:(apply Rabs_le; lra)). apply Rabs_le_inv in N1.
  assert (Z1 : 0 <= rnd (val rel * Rabs (val (mx s)))).
  { replace 0 with (val (n0 : b64t)) by reflexivity. apply rnd_ge_val. exact M0. }
  destruct (plus_ok (Bmult mode_NE rel (Babs (mx s))) abs) as [V2 F2]; auto.
  { rewrite V1. apply A_big, Rabs_le. lra. }
  rewrite V1 in V2.
  assert (N2 := rnd_near (rnd (val rel * Rabs (val (mx s))) + A) ltac:(apply Rabs_le; lra)). apply Rabs_le_inv in N2.
  assert (G := rnd_ge_val abs (rnd (val rel * Rabs (val (mx s))) + A) ltac:(lra)).
  unfold tol. cbn [nadd nmul nabs OB b_ops]. rewrite V2. repeat split; auto; lra.
Qed.

Lemma tol2_b s : inside (mx s) -> fin64 (tol2 rel abs s) = true /\
  Rabs (val (tol2 rel abs s) - 2 * val (tol rel abs s)) <= A / 64.
Proof.
  intros X. assert (P := A_pos). destruct (tol_b s X) as (F & V & _). destruct b_two as [V2 F2].
  unfold tol2. cbn [nmul OB b_ops].
  destruct (times_ok (tol rel abs s) (nofQ 2)) as [V1 F1]; auto.
  { rewrite V2. apply A_big, Rabs_le. lra. }
  rewrite V2 in V1. split; auto. rewrite V1.
  assert (N := rnd_near (val (tol rel abs s) * 2) ltac:(apply Rabs_le; lra)).
  replace (2 * val (tol rel abs s)) with (val (tol rel abs s) * 2) by ring. exact N.
Qed.

Lemma mid_b s : inside (ma s) -> inside (mb s) -> fin64 (mid s) = true /\
  Rabs (val (mid s) - (val (ma s) + val (mb s)) / 2) <= A / 32.
Proof.
  intros [AF AV] [BF BV]. assert (P := A_pos). destruct b_two as [V2 F2]. unfold mid. cbn [nadd ndiv OB b_ops].
  destruct (plus_ok (mb s) (ma s)) as [V1 F1]; auto; [apply A_big, Rabs_le; lra|].
  assert (N1 := rnd_near (val (mb s) + val (ma s)) ltac:(apply Rabs_le; lra)). apply Rabs_le_inv in N1.
  destruct (over_ok (Bplus mode_NE (mb s) (ma s)) (nofQ 2)) as [V3 F3]; auto.
  { rewrite V2. lra. }
  { rewrite V2, V1. apply A_big, Rabs_le. lra. }
  split; auto. rewrite V3, V1, V2.
  assert (N2 := rnd_near (rnd (val (mb s) + val (ma s)) / 2) ltac:(apply Rabs_le; lra)). apply Rabs_le_inv in N2.
  apply Rabs_le. lra.
Qed.

(** What a failed loop test says. *)
Lemma converged_b s : inside (ma s) -> inside (mb s) -> inside (mx s) -> converged rel abs s = false ->
  2 * val (tol rel abs s) - A / 8 <=
  Rabs (val (mx s) - (val (ma s) + val (mb s)) / 2) + (val (mb s) - (val (ma s) + val (mb s)) / 2).
Proof.
  intros IA IB IX. assert (P := A_pos). destruct (tol_b s IX) as (TF & TV & _), (tol2_b s IX) as (T2F & T2V), (mid_b s IA IB) as (MF & MV).
  destruct IA as [AF AV], IB as [BF BV], IX as [XF XV]. apply Rabs_le_inv in T2V, MV.
  unfold converged. cbn [nltb nabs nsub OB b_ops].
  destruct (minus_ok (mx s) (mid s)) as [V1 F1]; auto; [apply A_big, Rabs_le; lra|].
  destruct (minus_ok (mb s) (mid s)) as [V2 F2]; auto; [apply A_big, Rabs_le; lra|].
  assert (N1 := rnd_near (val (mx s) - val (mid s)) ltac:(apply Rabs_le; lra)).
  assert (N2 := rnd_near (val (mb s) - val (mid s)) ltac:(apply Rabs_le; lra)).
  apply Rabs_le_inv in N1, N2.
  destruct (minus_ok (tol2 rel abs s) (Bminus mode_NE (mb s) (mid s))) as [V3 F3]; auto.
  { rewrite V2. apply A_big, Rabs_le; lra. }
  assert (N3 := rnd_near (val (tol2 rel abs s) - val (Bminus mode_NE (mb s) (mid s))) ltac:(rewrite V2; apply Rabs_le; lra)).
  apply Rabs_le_inv in N3.
  intros E. apply ltb_false in E; auto; [|now rewrite is_finite_Babs]. rewrite B2R_Babs, V1, V3 in E. rewrite V2 in *.
  revert E. unfold Rabs. destruct (Rcase_abs (rnd (val (mx s) - val (mid s)))), (Rcase_abs (val (mx s) - (val (ma s) + val (mb s)) / 2)); lra.
Qed.

(** A difference that may overflow, compared with a positive number. *)
Lemma sign_neg (u : b64t) : val u < 0 -> Bsign u = true.
Proof. intros P. destruct u as [| | |[]]; auto; cbn in P; try lra. exfalso. revert P. apply Rle_not_lt. apply F2R_ge_0. easy. Qed.
Lemma sign_pos (u : b64t) : 0 < val u -> Bsign u = false.
Proof. intros P. destruct u as [| | |[]]; auto; cbn in P; try lra. exfalso. revert P. apply Rle_not_lt. apply F2R_le_0. easy. Qed.
Lemma overflow_cmp (z t : b64t) : fin64 t = true -> B2SF z = binary_overflow 53 1024 mode_NE true -> Bltb z t = true.
Proof. intros T C. destruct z as [|[]| |]; try discriminate C. destruct t as [|[]| |]; auto; discriminate. Qed.
Lemma rnd_neg z : z <= 0 -> rnd z <= 0.
Proof. intros H. replace 0 with (val (n0 : b64t)) by reflexivity. apply rnd_le_val. exact H. Qed.

Lemma minus_low (u a t : b64t) : fin64 u = true -> inside a -> fin64 t = true -> 0 < val t ->
  Bltb (Bminus mode_NE u a) t = false -> val a <= val u.
Proof.
  intros U [AF AV] T TP E. destruct (Rle_or_lt (val a) (val u)) as [|L]; auto. exfalso. assert (P2 := A_pos).
  assert (C := Bminus_correct 53 1024 b64_prec b64_emax mode_NE u a U AF). to_rnd C. destruct (Rlt_bool _ _) eqn:OV.
  - destruct C as (CV & CF & _). apply ltb_false in E; auto. rewrite CV in E. assert (N := rnd_neg (val u - val a) ltac:(lra)). lra.
  - destruct C as [C SG]. destruct (Rle_or_lt 0 (val u)) as [P|P].
    + rewrite rnd_big in OV; [discriminate|]. apply A_big, Rabs_le. lra.
    + rewrite (sign_neg u P) in C. rewrite (overflow_cmp _ t T C) in E. discriminate.
Qed.
Lemma minus_high (u b t : b64t) : fin64 u = true -> inside b -> fin64 t = true -> 0 < val t ->
  Bltb (Bminus mode_NE b u) t = false -> val u <= val b.
Proof.
  intros U [BF BV] T TP E. destruct (Rle_or_lt (val u) (val b)) as [|L]; auto. exfalso. assert (P2 := A_pos).
  assert (C := Bminus_correct 53 1024 b64_prec b64_emax mode_NE b u BF U). to_rnd C. destruct (Rlt_bool _ _) eqn:OV.
  - destruct C as (CV & CF & _). apply ltb_false in E; auto. rewrite CV in E. assert (N := rnd_neg (val b - val u) ltac:(lra)). lra.
  - destruct C as [C SG]. destruct (Rle_or_lt (val u) 0) as [P|P].
    + rewrite rnd_big in OV; [discriminate|]. apply A_big, Rabs_le. lra.
    + rewrite (sign_pos u P) in SG. cbn in SG. rewrite SG in C. rewrite (overflow_cmp _ t T C) in E. discriminate.
Qed.
Lemma inf_near (x st a b t : b64t) : fin64 a = true -> fin64 b = true -> fin64 t = true ->
  Bplus mode_NE x st <> B754_nan -> fin64 (Bplus mode_NE x st) = false ->
  Bltb (Bminus mode_NE (Bplus mode_NE x st) a) t || Bltb (Bminus mode_NE b (Bplus mode_NE x st)) t = true.
Proof.
  intros FA FB FT N I. destruct (Bplus mode_NE x st) as [| [] | |]; try discriminate; try easy.
  - destruct a, t as [|[]| |]; try discriminate; reflexivity.
  - destruct b, t as [|[]| |]; try discriminate; apply orb_true_r.
Qed.
Lemma opp_fin (t : b64t) : fin64 t = true -> fin64 (Bopp t) = true /\ val (Bopp t) = - val t.
Proof. intros F. split; [now rewrite is_finite_Bopp|apply B2R_Bopp]. Qed.

(** The point reached with any proposed step. *)
Lemma next_b s st0 : inside (ma s) -> inside (mb s) -> inside (mx s) ->
  let u := Bplus mode_NE (mx s) (finb s st0) in
  let t := val (tol rel abs s) in
  (st0 = B754_nan /\ u = B754_nan) \/
  (fin64 u = true /\
   (val (ma s) <= val u <= val (mb s) \/ val u = rnd (val (mx s) + t) \/ val u = rnd (val (mx s) - t)) /\
   (converged rel abs s = false -> val (ma s) <= val (mx s) <= val (mb s) -> val (ma s) <= val u <= val (mb s))).
Proof.
  intros IA IB IX u t. assert (P := A_pos). destruct (tol_b s IX) as (TF & TV & _), (tol2_b s IX) as (T2F & T2V), (mid_b s IA IB) as (MF & MV).
  assert (CV := converged_b s IA IB IX). fold t in TV, T2V, CV.
  destruct (opp_fin _ TF) as [OF OV]. apply Rabs_le_inv in T2V, MV.
  assert (IA' := IA). assert (IB' := IB). assert (IX' := IX).
  destruct IA' as [AF AV], IB' as [BF BV], IX' as [XF XV].
  assert (UP : fin64 (Bplus mode_NE (mx s) (tol rel abs s)) = true /\ val (Bplus mode_NE (mx s) (tol rel abs s)) = rnd (val (mx s) + t)).
  { destruct (plus_ok (mx s) (tol rel abs s)) as [V F]; auto. fold t. apply A_big, Rabs_le; lra. }
  assert (DN : fin64 (Bplus mode_NE (mx s) (Bopp (tol rel abs s))) = true /\ val (Bplus mode_NE (mx s) (Bopp (tol rel abs s))) = rnd (val (mx s) - t)).
  { destruct (plus_ok (mx s) (Bopp (tol rel abs s))) as [V F]; auto. rewrite OV. fold t. apply A_big, Rabs_le; lra.
    split; auto. rewrite V, OV. reflexivity. }
  assert (EUP : val (mx s) + t <= val (mb s) -> val (ma s) <= val (mx s) -> val (ma s) <= rnd (val (mx s) + t) <= val (mb s)).
  { intros. split; [apply rnd_ge_val|apply rnd_le_val]; lra. }
  assert (EDN : val (ma s) <= val (mx s) - t -> val (mx s) <= val (mb s) -> val (ma s) <= rnd (val (mx s) - t) <= val (mb s)).
  { intros. split; [apply rnd_ge_val|apply rnd_le_val]; lra. }
  destruct (Bltb (Bminus mode_NE (Bplus mode_NE (mx s) st0) (ma s)) (tol2 rel abs s) || Bltb (Bminus mode_NE (mb s) (Bplus mode_NE (mx s) st0)) (tol2 rel abs s)) eqn:NEAR.
  - right. unfold u, finb. rewrite NEAR. destruct (Bltb (mx s) (mid s)) eqn:XM.
    + assert (N : Bltb (Babs (tol rel abs s)) (tol rel abs s) = false).
      { rewrite Bltb_correct, B2R_Babs; auto; [|now rewrite is_finite_Babs]. apply Rlt_bool_false. apply Rle_abs. }
      rewrite N. destruct UP as [F V]. rewrite V. split; [exact F|]. split; [auto|]. intros C (OA & OB). apply EUP; auto.
      apply ltb_true in XM; auto. specialize (CV C). revert CV. unfold Rabs. destruct (Rcase_abs _); lra.
    + assert (N : Bltb (Babs (Bopp (tol rel abs s))) (tol rel abs s) = false).
      { rewrite Bltb_correct, B2R_Babs; auto; [|now rewrite is_finite_Babs]. rewrite OV, Rabs_Ropp. apply Rlt_bool_false. apply Rle_abs. }
      rewrite N. destruct DN as [F V]. rewrite V. split; [exact F|]. split; [auto|]. intros C (OA & OB). apply EDN; auto.
      apply ltb_false in XM; auto. specialize (CV C). revert CV. unfold Rabs. destruct (Rcase_abs _); lra.
  - destruct (fin64 (Bplus mode_NE (mx s) st0)) eqn:FU.
    + right. apply orb_false_elim in NEAR as NN. destruct NN as [N1 N2].
      destruct (plus_fin _ _ XF FU) as [SF SV].
      assert (L := minus_low _ _ _ FU IA T2F ltac:(lra) N1). assert (H := minus_high _ _ _ FU IB T2F ltac:(lra) N2).
      unfold u, finb. rewrite NEAR. destruct (Bltb (Babs st0) (tol rel abs s)) eqn:ST.
      * apply ltb_true in ST; auto; [|now rewrite is_finite_Babs]. rewrite B2R_Babs in ST. fold t in ST. apply Rabs_lt_inv in ST.
        destruct (minus_ok (Bplus mode_NE (mx s) st0) (ma s)) as [V1 F1]; auto; [apply A_big, Rabs_le; lra|].
        destruct (minus_ok (mb s) (Bplus mode_NE (mx s) st0)) as [V2 F2]; auto; [apply A_big, Rabs_le; lra|].
        apply ltb_false in N1, N2; auto. rewrite V1 in N1. rewrite V2 in N2.
        assert (E1 := rnd_near (val (Bplus mode_NE (mx s) st0) - val (ma s)) ltac:(apply Rabs_le; lra)).
        assert (E2 := rnd_near (val (mb s) - val (Bplus mode_NE (mx s) st0)) ltac:(apply Rabs_le; lra)).
        assert (E3 := rnd_near (val (mx s) + val st0) ltac:(apply Rabs_le; lra)). rewrite <- SV in E3.
        apply Rabs_le_inv in E1, E2, E3.
        destruct (Bltb n0 st0) eqn:SG.
        -- apply ltb_true in SG; auto. change (0 < val st0) in SG.
           destruct UP as [F V]. rewrite V. split; [exact F|]. split; [auto|]. intros C (OA & OB). apply EUP; auto. lra.
        -- apply ltb_false in SG; auto. change (val st0 <= 0) in SG.
           destruct DN as [F V]. rewrite V. split; [exact F|]. split; [auto|]. intros C (OA & OB). apply EDN; auto. lra.
      * auto.
    + assert (NN : Bplus mode_NE (mx s) st0 = B754_nan).
      { destruct (Bplus mode_NE (mx s) st0) eqn:E; auto; try discriminate.
        rewrite <- E in NEAR. rewrite inf_near in NEAR; auto; try discriminate; rewrite E; [discriminate|reflexivity]. }
      left. assert (SN : st0 = B754_nan).
      { destruct st0 as [| | |]; auto.
        - destruct (mx s); discriminate NN || discriminate XF || (destruct s0, s1; discriminate NN).
        - destruct (mx s); discriminate.
        - exfalso. assert (Q := Bplus_correct 53 1024 b64_prec b64_emax mode_NE (mx s) (B754_finite s0 m e e0) XF eq_refl). to_rnd Q. rewrite NN in Q.
          destruct (Rlt_bool _ _); [destruct Q as (_ & Q & _); discriminate Q|]. destruct Q as [Q _]. destruct (Bsign (mx s)); discriminate Q. }
      split; auto. unfold u, finb. rewrite NEAR, SN. cbn. destruct (mx s); try discriminate; reflexivity.
Qed.
End Radius.
End Run.
