(** The minimiser in binary64: what the library's searches find (C89). *)
From Coq Require Import Reals QArith Lra Lia.
From Flocq Require Import Core BinarySingleNaN Relative.
From Verif Require Import M_Base M_Num M_Nd M_NumB M_Latent M_Minimize M_Device S_Digits S_MinB L_Base L_Nd L_Digits L_MinB L_MinB2 L_MinB3 L_MinB4.
Open Scope R_scope.

Section Run.
Variables log10 pow10 : b64t -> b64t.
#[local] Instance OB : NumOps b64t := b_ops log10 pow10.

Lemma minimize_guard F G n lo hi prec eps maxiter lg w :
  minimize_run F n lo hi prec eps maxiter lg w = minimize_run G n lo hi prec eps maxiter lg w ->
  minimize F n lo hi prec eps maxiter lg w = minimize G n lo hi prec eps maxiter lg w.
Proof. intros E. unfold minimize, bind. now rewrite E. Qed.
Lemma minimize_ok F n lo hi prec eps maxiter lg w xs w' :
  minimize F n lo hi prec eps maxiter lg w = (Ok xs, w') ->
  exists r, minimize_run F n lo hi prec eps maxiter lg w = (Ok r, w') /\ xs = map (received lg pow10) (map mx (mr_states r)).
Proof.
  unfold minimize, bind. destruct (minimize_run F n lo hi prec eps maxiter lg w) as [[r|] w1]; [|discriminate].
  intros E. injection E as <- <-. exists r. split; auto. rewrite map_map. reflexivity.
Qed.

(** ** Searches in which a function's value is never a number *)
Lemma nan_update rel abs (s : mst b64t) : mx (update rel abs s B754_nan) = mx s.
Proof.
  unfold M_Minimize.update. cbn [mx]. replace (nleb (B754_nan : b64t) (mfx s)) with false; [reflexivity|].
  symmetry. apply (nan_cmp (mfx s)).
Qed.
Lemma nth_zip rel abs (ss : list (mst b64t)) : forall fus i s, length fus = length ss ->
  nth_error (zip_update rel abs ss fus) i = Some s ->
  exists s0 f, nth_error ss i = Some s0 /\ nth_error fus i = Some f /\ s = update rel abs s0 f.
Proof.
  induction ss as [|s0 r IH]; intros [|f g] [|i] s L E; try discriminate; cbn in *.
  - injection E as <-. eauto.
  - apply IH; auto.
Qed.
Lemma run_nan rel abs lo hi lg F n i maxiter w r w' :
  (forall pts w w' fs, F pts w = (Ok fs, w') -> forall f, nth_error fs i = Some f -> f = B754_nan) ->
  mrun rel abs lg F n lo hi maxiter w = (Ok r, w') ->
  forall s, nth_error (mr_states r) i = Some s -> mx s = nadd lo (nmul gf2 (nsub hi lo)).
Proof.
  intros HF R s E.
  destruct (mrun_guard log10 pow10 rel abs (fun _ => true) ValueError lg F (fun fs => forall f, nth_error fs i = Some f -> f = B754_nan) HF
    (fun _ ss => forall s, nth_error ss i = Some s -> mx s = nadd lo (nmul gf2 (nsub hi lo)))) with (n := n) (a0 := lo) (b0 := hi) (maxiter := maxiter) (w := w) as [_ E2].
  - intros. apply Forall_forall. auto.
  - intros k ss fus IH _ LE Q s1 E1. destruct (nth_zip _ _ _ _ _ _ LE E1) as (s0 & f & S0 & F0 & ->). rewrite (Q f F0), nan_update. auto.
  - auto.
  - intros f0 _ _ s1 E1. rewrite nth_error_map in E1. destruct (nth_error f0 i); [|discriminate]. injection E1 as <-. reflexivity.
  - destruct (E2 r w' R) as (_ & _ & H). auto.
Qed.

(** ** The library's numbers *)
Definition rel0 : b64t := nsqrt mach_64bit_eps.
Definition abs0 : b64t := ndiv default_precision (nofQ 3).
Lemma rel0_val : fin64 rel0 = true /\ 1 / 100000000 <= val rel0 <= 2 / 100000000.
Proof.
  split; [vm_compute; reflexivity|]. rewrite <- SF2R_B2SF.
  replace (B2SF rel0) with (SpecFloat.S754_finite false 6369051672525773 (-79)) by (vm_compute; reflexivity).
  unfold SF2R, F2R. cbn. lra.
Qed.
Lemma abs0_val : fin64 abs0 = true /\ 33333 / 10000000000 <= val abs0 <= 33334 / 10000000000.
Proof.
  split; [vm_compute; reflexivity|]. rewrite <- SF2R_B2SF.
  replace (B2SF abs0) with (SpecFloat.S754_finite false 7870610804782743 (-71)) by (vm_compute; reflexivity).
  unfold SF2R, F2R. cbn. lra.
Qed.

Lemma library_sane : good_log log10 -> sane rel0 abs0 (log10 (nofQ (1 # 1000))) (log10 (nofQ 10000000000)).
Proof.
  intros GL. assert (LIM : between (- 3 - / 1000000) (- 3 + / 1000000) (log10 (nofQ (1 # 1000))) /\ between (10 - / 1000000) (10 + / 1000000) (log10 (nofQ 10000000000))) by exact GL.
  destruct LIM as ((LF & LV) & (HF & HV)). destruct rel0_val as [RF RV], abs0_val as [AF AV]. constructor; auto.
  - split; auto. lra.
  - split; auto. assert (/ 10 ^ 30 <= / 1000000) by (apply Rinv_le; lra). lra.
  - lra.
  - split; apply Rabs_le; lra.
Qed.
Lemma library_room : 0 <= 11 <= 2000000000000 * val abs0.
Proof. destruct abs0_val as [_ V]. lra. Qed.
Lemma library_drift : 0 < INR 50 * drift rel0 abs0 11 <= 20000 / 100000000.
Proof.
  destruct rel0_val as [_ R], abs0_val as [_ V]. unfold drift. replace (INR 50) with 50 by (cbn; lra). lra.
Qed.

(** ** Searches for equivalent times *)
Lemma ln10_3 : 0 < ln 10 < 3.
Proof.
  split; [rewrite <- ln_1; apply ln_increasing; lra|].
  rewrite <- (ln_exp 3). apply ln_increasing; [lra|].
  replace 3 with (1/2 + (1/2 + (1/2 + (1/2 + (1/2 + 1/2))))) by lra. rewrite !exp_plus.
  assert (E : 3 / 2 < exp (1/2)) by (assert (X := exp_ineq1 (1/2) ltac:(lra)); lra).
  set (y := exp (1/2)) in *. assert (9/4 < y * y) by nra. assert (27/8 < y * (y * y)) by nra. assert (10 < (y * (y * y)) * (y * (y * y))) by nra. nra.
Qed.
Lemma pow_lo u : - 3 - 201 / 1000000 <= u -> 9990 / 10000000 <= Rpower 10 u.
Proof.
  intros L. apply Rle_trans with (Rpower 10 (- 3 - 201 / 1000000)); [|apply Rle_Rpower; lra].
  unfold Rminus. rewrite Rpower_plus. replace (Rpower 10 (-3)) with (/ 1000).
  2:{ replace (-3) with (- INR 3) by (cbn; lra). rewrite Rpower_Ropp, Rpower_pow by lra. f_equal. lra. }
  assert (X : 1 - 201 / 1000000 * 3 <= Rpower 10 (- (201 / 1000000))).
  { unfold Rpower. assert (T := ln10_3). assert (E := exp_ineq1_le (- (201 / 1000000) * ln 10)). lra. }
  lra.
Qed.
Lemma pow_hi u : u <= 10 + 201 / 1000000 -> Rpower 10 u <= 10010000000.
Proof.
  intros L. apply Rle_trans with (Rpower 10 (10 + 201 / 1000000)); [apply Rle_Rpower; lra|].
  rewrite Rpower_plus. replace (Rpower 10 10) with 10000000000.
  2:{ replace (Rpower 10 10) with (Rpower 10 (INR 10)) by (f_equal; cbn; lra). rewrite Rpower_pow by lra. lra. }
  assert (X : 1 - 201 / 1000000 * 3 <= Rpower 10 (- (201 / 1000000))).
  { unfold Rpower. assert (T := ln10_3). assert (E := exp_ineq1_le (- (201 / 1000000) * ln 10)). lra. }
  rewrite Rpower_Ropp in X. set (y := Rpower 10 (201 / 1000000)) in *. assert (Y : 0 < y) by apply exp_pos.
  assert (Z : y * / y = 1) by (field; lra). assert (y * (1 - 201 / 1000000 * 3) <= 1) by (rewrite <- Z; apply Rmult_le_compat_l; lra). lra.
Qed.

Lemma pow_range u : good_pow pow10 -> between (- 3 - 201 / 1000000) (10 + 201 / 1000000) u ->
  between (998 / 1000000) 10020100000 (pow10 u).
Proof.
  intros [_ GP] [UF UV]. destruct (GP u) as [F V]; [split; auto; lra|]. split; auto.
  assert (L := pow_lo (val u) ltac:(lra)). assert (H := pow_hi (val u) ltac:(lra)). apply Rabs_le_inv in V. lra.
Qed.

Lemma equiv_times (m : mech b64t) (deg : pyval b64t) conds lats L C D w p w' : good_log log10 -> good_pow pow10 -> mc_kind m = KDeg ->
  mech_equiv_time m deg conds lats L C D w = (Ok p, w') ->
  exists a xs, to_nd deg = Ok a /\ p = of_nd (Nd (nshape a) xs) /\ Forall (nan_or_between (998 / 1000000) 10020100000) xs /\
    (values moderate (equiv_obj m deg a conds lats L C D) -> Forall (between (998 / 1000000) 10020100000) xs).
Proof.
  intros GL GP K. unfold mech_equiv_time. rewrite K. unfold bind at 1, lift.
  destruct (to_nd deg) as [a|] eqn:A; [|discriminate]. unfold bind.
  destruct (minimize _ _ _ _ _ _ _ _ w) as [[xs|] w1] eqn:E; [|discriminate]. intros R. injection R as <- <-.
  exists a, xs. split; auto. split; auto.
  destruct (minimize_ok _ _ _ _ _ _ _ _ _ _ _ E) as (r & R & ->). unfold minimize_run in R.
  assert (SN := library_sane GL). assert (LD := library_drift).
  assert (LIM : between (- 3 - / 1000000) (- 3 + / 1000000) (log10 (nofQ (1 # 1000))) /\ between (10 - / 1000000) (10 + / 1000000) (log10 (nofQ 10000000000))) by exact GL.
  destruct LIM as [(_ & LV) (_ & HV)].
  assert (WD : - (11) <= val (log10 (nofQ (1 # 1000))) - INR 50 * drift rel0 abs0 11 /\
          val (log10 (nofQ 10000000000)) + INR 50 * drift rel0 abs0 11 <= 11) by lra.
  split.
  - destruct (run_many log10 pow10 rel0 abs0 _ _ SN (fun _ => true) ValueError true (equiv_obj m deg a conds lats L C D) 11 50 library_room WD (length (ndata a)) w (fun _ _ => eq_refl)) as [_ H].
    specialize (H r w1 R). rewrite map_map. apply Forall_map. eapply Forall_impl; [|exact H].
    intros s (_ & _ & [X|X]).
    + left. cbn [received]. rewrite X. apply GP.
    + right. apply pow_range; auto. eapply between_mono; [| |exact X]; lra.
  - intros VM.
    destruct (run_many_moderate log10 pow10 rel0 abs0 _ _ SN (fun _ => true) ValueError true (equiv_obj m deg a conds lats L C D) 11 50 library_room WD (length (ndata a)) w VM (fun _ _ => eq_refl)) as [_ H].
    specialize (H r w1 R). rewrite map_map. apply Forall_map. eapply Forall_impl; [|exact H].
    intros s (_ & _ & X & _). apply pow_range; auto. eapply between_mono; [| |exact X]; lra.
Qed.

(** ** Devices whose degradation is not a number *)
Lemma to_of_nd (a : nd b64t) : to_nd (of_nd a) = Ok a.
Proof. destruct a as [[|n s] [|x [|y l]]]; reflexivity. Qed.
Lemma nan_minus (x : b64t) : nabs (nsub (B754_nan : b64t) x) = B754_nan.
Proof. destruct x as [[]|[]| |[]]; reflexivity. Qed.
Lemma residue_diff (m : mech b64t) (curr : pyval b64t) conds lats L C D time w x w' : residue m curr conds lats L C D time w = (Ok x, w') ->
  exists d, pmap2 (fun x y => nabs (nsub x y)) curr d = Ok x.
Proof.
  unfold residue, try_value_error, bind, lift.
  destruct (call (lm_eqn (mc_mdl m)) (mech_args m time conds lats) w) as [[d|e] w1].
  - destruct (pmap2 _ curr d) eqn:E.
    + intros R. injection R as <- <-. eauto.
    + destruct e; try discriminate.
      destruct (loop_compute _ _ L C D _) as [[d2|] w2]; [|discriminate]. destruct (pmap2 _ curr d2) eqn:E2; [|discriminate].
      intros R. injection R as <- <-. eauto.
  - destruct e; try discriminate.
    destruct (loop_compute _ _ L C D _) as [[d2|] w2]; [|discriminate]. destruct (pmap2 _ curr d2) eqn:E2; [|discriminate].
    intros R. injection R as <- <-. eauto.
Qed.
Lemma obj_nan (m : mech b64t) (deg : pyval b64t) (a : nd b64t) conds lats L C D idx : to_nd deg = Ok a -> valid (nshape a) idx -> aget a idx = B754_nan ->
  forall pts w w' fs, equiv_obj m deg a conds lats L C D pts w = (Ok fs, w') -> forall f, nth_error fs (flat (nshape a) idx) = Some f -> f = B754_nan.
Proof.
  intros A VI N pts w w' fs. unfold equiv_obj, bind, lift.
  destruct (residue m deg conds lats L C D _ w) as [[x|] w1] eqn:R; [|discriminate].
  destruct (residue_diff _ _ _ _ _ _ _ _ _ _ _ R) as [d E]. unfold pmap2 in E. rewrite A in E. cbn [rbind] in E.
  destruct (to_nd d) as [b|]; [|discriminate]. cbn [rbind] in E. unfold bmap2 in E.
  destruct (bshape (nshape a) (nshape b)) as [s|]; [|discriminate]. cbn [rbind] in E. injection E as <-. rewrite to_of_nd.
  rewrite nshape_nbuild. destruct (list_eq_dec Nat.eq_dec s (nshape a)) as [->|]; [|discriminate].
  intros EE. injection EE as <- <-. intros f F.
  assert (F2 := ndata_aget (nbuild (nshape a) (fun idx => nabs (nsub (bget a idx) (bget b idx)))) idx (awf_nbuild _ _) VI).
  rewrite nshape_nbuild in F2.
  rewrite (aget_nbuild (nshape a) (fun idx => nabs (nsub (bget a idx) (bget b idx))) idx VI), (bget_same a idx VI), N, nan_minus in F2.
  assert (K := eq_trans (eq_sym F) F2). now injection K.
Qed.
Lemma nan_times (m : mech b64t) (deg : pyval b64t) conds lats L C D w p w' (a : nd b64t) idx : mc_kind m = KDeg -> to_nd deg = Ok a -> valid (nshape a) idx -> aget a idx = B754_nan ->
  mech_equiv_time m deg conds lats L C D w = (Ok p, w') ->
  exists xs, p = of_nd (Nd (nshape a) xs) /\ forall x, nth_error xs (flat (nshape a) idx) = Some x ->
    let lo := log10 (nofQ (1 # 1000)) in let hi := log10 (nofQ 10000000000) in
    x = pow10 (nadd lo (nmul gf2 (nsub hi lo))).
Proof.
  intros K A VI N. unfold mech_equiv_time. rewrite K. unfold bind at 1, lift. rewrite A. unfold bind.
  destruct (minimize _ _ _ _ _ _ _ _ w) as [[xs|] w1] eqn:E; [|discriminate]. intros R. injection R as <- <-.
  exists xs. split; auto. intros x X. cbv zeta.
  destruct (minimize_ok _ _ _ _ _ _ _ _ _ _ _ E) as (r & R & ->). unfold minimize_run in R.
  rewrite map_map, nth_error_map in X. destruct (nth_error (mr_states r) (flat (nshape a) idx)) as [s|] eqn:S; [|discriminate].
  injection X as <-. cbn [received].
  exact (f_equal pow10 (run_nan _ _ _ _ _ _ _ (flat (nshape a) idx) _ _ _ _ (obj_nan m deg a conds lats L C D idx A VI N) R s S)).
Qed.
End Run.
