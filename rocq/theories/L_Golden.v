(** A search over a function that rises in proportion to the logarithm of the time
    consists of golden section steps only and converges.  For the examples of C88. *)
From Coq Require Import Reals QArith Qreals Lra Lia.
From Flocq Require Import Core.
From Verif Require Import M_Base M_Num M_NumR M_Nd M_Minimize S_Minimize S_Brent L_Base L_Minimize L_DeviceR L_Brent L_Search.
Open Scope R_scope.

Lemma gf2_bounds : 3819 / 10000 <= gf2 (V := R) <= 382 / 1000 /\ (1 - gf2) * (1 - gf2) = gf2 (V := R).
Proof.
  rewrite golden_eq. unfold golden. assert (S := sqrt_sqrt 5 ltac:(lra)). assert (P := sqrt_pos 5).
  assert (sqrt 5 <= 22362 / 10000) by (apply Rsqr_incr_0_var; unfold Rsqr; lra).
  assert (2236 / 1000 <= sqrt 5) by (apply Rsqr_incr_0_var; unfold Rsqr; lra).
  split; [lra|]. lra.
Qed.

Section Golden.
Variables (rel abs_ A B : R).
Hypothesis rel_small : 0 <= rel <= 2 / 100000000.
Hypothesis abs_val : abs_ = / 300000.
Hypothesis HB : 0 < B.
Local Notation tol := (tol rel abs_).
Local Notation converged := (converged rel abs_).
Local Notation next_u := (next_u rel abs_).
Local Notation update := (update rel abs_).
Local Notation step := (M_Minimize.step rel abs_).
Let f (x : R) : R := A + B * x.

(** All values are values of [f]; the left limit is still -3; the best point lies in
    the right half. *)
Record golden_st (s : mst R) : Prop := {
  gs_x : mfx s = f (mx s); gs_w : mfw s = f (mw s); gs_v : mfv s = f (mv s);
  gs_a : ma s = -3; gs_in : -3 < mx s <= mb s; gs_b : mb s <= 10; gs_half : mid s <= mx s;
  gs_far : gf2 * (mx s + 3) <= mb s - mx s }.

Lemma no_parabola s : mfx s = f (mx s) -> mfw s = f (mw s) -> mfv s = f (mv s) ->
  step s = fin rel abs_ s (gf2 * ((if Rle_bool (mid s) (mx s) then ma s else mb s) - mx s)).
Proof.
  intros Ex Ew Ev. destruct (step_exact rel abs_ s) as (st0 & E & [(_ & Q & _)|(-> & _)]); [|exact E].
  exfalso. apply Q. rewrite Ex, Ew, Ev. unfold f. ring.
Qed.

Lemma update_rise s u : u = next_u s -> mfx s = f (mx s) -> mfw s = f (mw s) -> mfv s = f (mv s) ->
  let s' := update s (f u) in
  (mfx s' = f (mx s') /\ mfw s' = f (mw s') /\ mfv s' = f (mv s')) /\
  (u < mx s -> mx s' = u /\ ma s' = ma s /\ mb s' = mx s) /\
  (mx s < u -> mx s' = mx s /\ ma s' = ma s /\ mb s' = u).
Proof.
  intros Eu Ex Ew Ev s'. assert (M : forall a b, a < b -> f a < f b) by (intros; unfold f; apply Rplus_lt_compat_l, Rmult_lt_compat_l; auto).
  split.
  - unfold s', M_Minimize.update. cbn [mx mw mv mfx mfw mfv]. rewrite <- Eu.
    destruct (nleb (f u) (mfx s)); cbn [orb]; [auto|].
    destruct (nleb (f u) (mfw s) || neqb (mw s) (mx s)); cbn [orb]; [auto|].
    destruct (nleb (f u) (mfv s) || neqb (mv s) (mw s) || neqb (mv s) (mx s)); auto.
  - assert (H := update_x rel abs_ s (f u)). cbv zeta in H. fold s' in H. rewrite <- Eu, Ex in H. split; intros L; specialize (M _ _ L).
    + destruct H as [(_ & E1 & _ & [(? & _)|(_ & E2 & E3)])|(Q & _)]; try lra; auto.
    + destruct H as [(Q & _)|(_ & E1 & _ & [(_ & E2 & E3)|(? & _)])]; try lra; auto.
Qed.

Lemma tol_range s : -3 <= mx s <= 10 -> abs_ <= tol s <= 107 / 100 * abs_.
Proof.
  intros Hx. unfold M_Minimize.tol. cbn [nadd nmul nabs ROps].
  assert (P := Rabs_pos (mx s)). assert (Q : Rabs (mx s) <= 10) by (apply Rabs_le; lra).
  assert (0 <= rel * Rabs (mx s)) by (apply Rmult_le_pos; lra).
  assert (rel * Rabs (mx s) <= 2 / 100000000 * 10) by (apply Rmult_le_compat; lra). lra.
Qed.

Lemma mid_eq s : mid s = (mb s + ma s) / 2.
Proof. unfold mid. cbn [ndiv nadd nofQ ROps]. unfold Q2R. cbn. lra. Qed.

Lemma not_converged s : golden_st s -> converged s = false -> 2 * tol s <= mx s + 3.
Proof.
  intros G C. destruct G. unfold M_Minimize.converged in C. cbn [nltb nabs nsub ROps] in C.
  rewrite mid_eq in *. rewrite gs_a0 in *.
  unfold tol2 in C. cbn [nmul nofQ ROps] in C. replace (Q2R 2) with 2 in C by (unfold Q2R; cbn; lra).
  destruct (Rlt_le_dec (mx s + 3) (2 * tol s)) as [L|L]; auto. exfalso.
  rewrite Rlt_bool_true in C; [discriminate|]. rewrite Rabs_pos_eq by lra. lra.
Qed.
Lemma small_converged s : golden_st s -> mx s + 3 < 2 * tol s -> converged s = true.
Proof. intros G L. destruct (converged s) eqn:C; auto. apply not_converged in C; auto. lra. Qed.

(** One step. *)
Lemma golden_step s : golden_st s -> converged s = false -> let u := next_u s in let s' := update s (f u) in
  -3 < u < mx s /\ golden_st s' /\ mx s' = u /\ u + 3 <= (mx s + 3) - abs_ /\
  (7 / 2 * abs_ <= mx s + 3 -> u + 3 = (1 - gf2) * (mx s + 3)).
Proof.
  intros G C u s'. pose proof (not_converged s G C) as Nc. pose proof G as [Ex Ew Ev Ea Hi Hb Hh Hf].
  destruct gf2_bounds as [Gb G2]. assert (Tr := tol_range s ltac:(lra)).
  remember (mx s + 3) as y eqn:Ey.
  assert (Es : step s = fin rel abs_ s (- (gf2 * y))).
  { rewrite no_parabola by auto. rewrite Rle_bool_true by auto. f_equal. rewrite Ea, Ey. ring. }
  assert (Gy : 0 <= gf2 * y <= 382 / 1000 * y) by (split; [apply Rmult_le_pos|apply Rmult_le_compat_r]; lra).
  assert (Gy2 : 3819 / 10000 * y <= gf2 * y) by (apply Rmult_le_compat_r; lra).
  assert (Hs : (step s = - tol s /\ y < 7 / 2 * abs_) \/ (step s = - (gf2 * y) /\ tol s <= gf2 * y)).
  { rewrite Es. unfold fin. rewrite (Rlt_bool_false (mx s) (mid s)) by auto. rewrite Ea.
    destruct (Rlt_bool_spec (mx s + - (gf2 * y) - -3) (2 * tol s)) as [L|L]; cbn [orb].
    - left. rewrite Rabs_Ropp, Rabs_pos_eq, Rlt_bool_false by lra. lra.
    - destruct (Rlt_bool_spec (mb s - (mx s + - (gf2 * y))) (2 * tol s)) as [L2|L2].
      + left. rewrite Rabs_Ropp, Rabs_pos_eq, Rlt_bool_false by lra. lra.
      + rewrite Rabs_Ropp, Rabs_pos_eq by lra. destruct (Rlt_bool_spec (gf2 * y) (tol s)) as [L3|L3].
        * left. rewrite Rlt_bool_false by lra. lra.
        * right. lra. }
  assert (Hu : u = mx s + step s) by reflexivity.
  assert (Hu1 : -3 < u < mx s /\ u + 3 <= y - abs_) by (destruct Hs as [[Hs Ht]|[Hs Ht]]; lra).
  destruct (update_rise s u eq_refl Ex Ew Ev) as ((E1 & E2 & E3) & Lt & _). destruct (Lt (proj2 (proj1 Hu1))) as (X1 & X2 & X3). fold s' in E1, E2, E3, X1, X2, X3.
  split; [apply Hu1|]. split; [|split; [exact X1|split; [apply Hu1|]]].
  - constructor; auto.
    + rewrite X2. exact Ea.
    + rewrite X1, X3. lra.
    + rewrite X3. lra.
    + rewrite mid_eq, X1, X2, X3, Ea. destruct Hs as [[Hs Ht]|[Hs Ht]]; lra.
    + rewrite X1, X3. destruct Hs as [[Hs Ht]|[Hs Ht]].
      * assert (gf2 * (u + 3) <= 382 / 1000 * (y - abs_)) by (apply Rmult_le_compat; lra). lra.
      * assert (gf2 * (u + 3) <= gf2 * y) by (apply Rmult_le_compat_l; lra). lra.
  - intros Big. destruct Hs as [[Hs Ht]|[Hs Ht]]; [lra|]. rewrite Hu, Hs. lra.
Qed.

Definition arr1 (x : R) : list R := x :: nil.

(** The loop, for an objective that returns [f] of the exponent. *)
Section Loop.
Variable F : list R -> M (list R).
Hypothesis HF : forall x w, -3 <= x <= 10 -> exists w', F (arr1 (Rpower 10 x)) w = (Ok (arr1 (f x)), w').

Lemma loop_golden : forall j fuel s ev w, golden_st s -> (j + 2 <= fuel)%nat -> (1 - gf2) ^ j * (mx s + 3) <= 7 / 2 * abs_ ->
  exists r w', mloop rel abs_ true F fuel [s] ev w = (Ok r, w') /\ mr_conv r = true.
Proof.
  assert (One : forall fuel s ev w, golden_st s -> converged s = false ->
    exists w1 ev', mloop rel abs_ true F (S fuel) [s] ev w = mloop rel abs_ true F fuel [update s (f (next_u s))] ev' w1).
  { intros fuel s ev w G C. destruct (golden_step s G C) as (Hu & _). cbv zeta in Hu. pose proof (gs_in s G). pose proof (gs_b s G).
    assert (Hr : -3 <= next_u s <= 10) by lra.
    destruct (HF (next_u s) w Hr) as [w1 E]. exists w1, (ev ++ [(arr1 (next_u s), arr1 (f (next_u s)))]).
    cbn [mloop forallb map]. rewrite C. cbn [andb]. unfold bind, evalF, bind.
    change (map (to_point true) [next_u s]) with (arr1 (Rpower 10 (next_u s))). rewrite E. reflexivity. }
  assert (Done : forall fuel s ev w, converged s = true -> exists r w', mloop rel abs_ true F fuel [s] ev w = (Ok r, w') /\ mr_conv r = true).
  { intros fuel s ev w C. exists (Mres [s] true ev), w. destruct fuel; cbn [mloop forallb]; rewrite C; auto. }
  assert (Small : forall k fuel s ev w, golden_st s -> (k <= fuel)%nat -> mx s + 3 < (INR k + 2) * abs_ ->
    exists r w', mloop rel abs_ true F fuel [s] ev w = (Ok r, w') /\ mr_conv r = true).
  { induction k as [|k IH]; intros fuel s ev w G Hk L.
    - apply Done, small_converged; auto. pose proof (gs_in s G). pose proof (gs_b s G).
      assert (T := tol_range s ltac:(lra)). cbn [INR] in L. lra.
    - destruct (converged s) eqn:C; [now apply Done|]. destruct fuel as [|fuel]; [lia|].
      destruct (One fuel s ev w G C) as (w1 & ev' & ->). destruct (golden_step s G C) as (_ & G' & Ex & Hy & _).
      apply IH; auto; [lia|]. rewrite Ex. rewrite S_INR in L. lra. }
  destruct gf2_bounds as [Gb _].
  induction j as [|j IH]; intros fuel s ev w G Hf Hy.
  - apply Small with 2%nat; auto. cbn [INR]. cbn [pow] in Hy. lra.
  - destruct (converged s) eqn:C; [now apply Done|]. destruct fuel as [|fuel]; [lia|].
    destruct (Rlt_le_dec (mx s + 3) (7 / 2 * abs_)) as [L|L].
    + apply Small with 2%nat; auto; [lia|]. cbn [INR]. lra.
    + destruct (One fuel s ev w G C) as (w1 & ev' & ->). destruct (golden_step s G C) as (_ & G' & Ex & _ & Hg).
      apply IH; auto; [lia|]. rewrite Ex, (Hg L). rewrite <- tech_pow_Rmult in Hy. lra.
Qed.

Lemma first_step : exists s1, golden_st s1 /\ mx s1 + 3 <= 5 /\
  next_u (minit (-3) 10 (f (-3 + gf2 * 13))) <= 10 /\ -3 <= next_u (minit (-3) 10 (f (-3 + gf2 * 13))) /\
  converged (minit (-3) 10 (f (-3 + gf2 * 13))) = false /\
  update (minit (-3) 10 (f (-3 + gf2 * 13))) (f (next_u (minit (-3) 10 (f (-3 + gf2 * 13))))) = s1.
Proof.
  set (s := minit (-3) 10 (f (-3 + gf2 * 13))). destruct gf2_bounds as [Gb G2].
  assert (X0 : -3 + gf2 * (10 - -3) = -3 + gf2 * 13) by ring.
  assert (Ex : mx s = -3 + gf2 * 13) by exact X0.
  assert (Ew : mw s = -3 + gf2 * 13) by exact X0. assert (Ev : mv s = -3 + gf2 * 13) by exact X0.
  assert (Ea : ma s = -3) by reflexivity. assert (Eb : mb s = 10) by reflexivity.
  assert (Ef : mfx s = f (mx s) /\ mfw s = f (mw s) /\ mfv s = f (mv s)) by (rewrite Ex, Ew, Ev; auto).
  destruct Ef as (F1 & F2 & F3).
  assert (Tr := tol_range s ltac:(lra)).
  assert (Es : step s = gf2 * (13 - gf2 * 13)).
  { rewrite no_parabola by auto. rewrite Rle_bool_false by (rewrite mid_eq; lra). rewrite Eb, Ex.
    replace (gf2 * (10 - (-3 + gf2 * 13))) with (gf2 * (13 - gf2 * 13)) by ring.
    assert (2 <= gf2 * (13 - gf2 * 13) <= 4) by lra.
    unfold fin. rewrite Ea, Eb, Ex.
    rewrite (Rlt_bool_false (-3 + gf2 * 13 + gf2 * (13 - gf2 * 13) - -3)) by lra.
    rewrite (Rlt_bool_false (10 - (-3 + gf2 * 13 + gf2 * (13 - gf2 * 13)))) by lra. cbn [orb].
    rewrite Rlt_bool_false; auto. rewrite Rabs_pos_eq; lra. }
  assert (Eu : next_u s = mx s + step s) by reflexivity.
  assert (P2 : 2 <= gf2 * (13 - gf2 * 13) <= 4) by lra.
  exists (update s (f (next_u s))).
  destruct (update_rise s _ eq_refl F1 F2 F3) as ((E1 & E2 & E3) & _ & Gt). destruct (Gt ltac:(lra)) as (X1 & X2 & X3).
  repeat split; auto; rewrite ?mid_eq, ?X1, ?X2, ?X3, ?Eu, ?Es, ?Ea, ?Ex; try lra.
  unfold M_Minimize.converged. cbn [nltb nabs nsub ROps]. apply Rlt_bool_false.
  rewrite mid_eq, Ea, Eb, Ex. unfold tol2. cbn [nmul nofQ ROps]. replace (Q2R 2) with 2 by (unfold Q2R; cbn; lra).
  rewrite Rabs_left by lra. lra.
Qed.

Lemma run_golden w : exists r w', mrun rel abs_ true F 1 (-3) 10 50 w = (Ok r, w') /\ mr_conv r = true.
Proof.
  destruct gf2_bounds as [Gb G2]. remember 49%nat as k eqn:Ek. replace 50%nat with (S k) by now subst. unfold mrun. cbn [nadd nmul nsub ROps repeat].
  replace (-3 + gf2 * (10 - -3)) with (-3 + gf2 * 13) by ring.
  assert (R0 : -3 <= -3 + gf2 * 13 <= 10) by lra. destruct (HF _ w R0) as [w1 E1].
  unfold bind at 1, evalF at 1, bind at 1. change (map (to_point true) [-3 + gf2 * 13]) with (arr1 (Rpower 10 (-3 + gf2 * 13))).
  rewrite E1. cbn [length arr1 Nat.eqb ret map].
  destruct first_step as (s1 & G1 & Y1 & U2 & U1 & C & Es).
  set (s0 := minit (-3) 10 (f (-3 + gf2 * 13))) in *.
  destruct (HF _ w1 (conj U1 U2)) as [w2 E2].
  cbn [mloop forallb map]. rewrite C. cbn [andb]. unfold bind at 1, evalF at 1, bind at 1.
  change (map (to_point true) [next_u s0]) with (arr1 (Rpower 10 (next_u s0))). rewrite E2. cbn [length arr1 Nat.eqb ret].
  cbn [zip_update arr1]. rewrite Es. apply (loop_golden 30); auto; [lia|].
  assert (P : (1 - gf2) ^ 30 <= (6181 / 10000) ^ 30) by (apply pow_incr; lra).
  assert (Q : (6181 / 10000) ^ 30 <= / 500000 ) by (cbn [pow]; lra).
  pose proof (gs_in _ G1).
  assert ((1 - gf2) ^ 30 * (mx s1 + 3) <= / 500000 * 5) by (apply Rmult_le_compat; try lra; apply Rfunctions.pow_le; lra).
  rewrite abs_val. lra.
Qed.
End Loop.
End Golden.

Lemma lim_high : lim true 10000000000 = 10.
Proof.
  unfold lim. cbn [nlog10 ROps]. assert (P := ln10_p). replace 10000000000 with (10 ^ 10) by ring. rewrite ln_pow by lra.
  replace (INR 10) with 10 by (cbn; lra). field. lra.
Qed.

(** The search of an equivalent time as the library calls it. *)
Lemma golden_converges (F : list R -> M (list R)) A B w : 0 < B ->
  (forall x w, -3 <= x <= 10 -> exists w', F [Rpower 10 x] w = (Ok [A + B * x], w')) ->
  exists r w', minimize_run F 1 (/ 1000) 10000000000 (/ 100000) mach_64bit_eps 50 true w = (Ok r, w') /\ mr_conv r = true.
Proof.
  intros HB HF. rewrite run_unfold, lim_low, lim_high.
  apply (run_golden _ _ A B mach_small); auto. lra.
Qed.
