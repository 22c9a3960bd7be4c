(** Equivalent stress times over the reals: C28, C33, C34. *)
From Coq Require Import Reals QArith Qreals Lra.
From Flocq Require Import Core.
From Verif Require Import M_Base M_Num M_NumR M_Nd M_RandVar M_Latent M_Time M_Minimize M_Device
  S_Minimize S_Device S_DeviceR L_Base L_Nd L_Minimize L_Device L_Device2.
Open Scope R_scope.

Lemma residue_unimodal (P : R -> Prop) g T : strictly_monotone P g -> P T -> unimodal P (fun t => Rabs (g T - g t)) T.
Proof.
  intros Mo PT. split; auto.
  assert (Ge : forall x y, P x -> P y -> x <= y -> (g x <= g y /\ (x < y -> g x < g y)) \/ (g y <= g x /\ (x < y -> g y < g x))).
  { intros x y Px Py [L|L].
    - destruct Mo as [Mo|Mo]; specialize (Mo x y Px Py L); [left|right]; split; auto; lra.
    - subst y. left. split; [lra|]. intros. lra. }
  split; intros x y Px Py L1 L2; destruct Mo as [Mo|Mo].
  - assert (A := Mo x y Px Py L1). assert (B : g y <= g T) by (destruct L2 as [L2|L2]; [left; apply Mo; auto|rewrite L2; lra]).
    rewrite !Rabs_pos_eq; lra.
  - assert (A := Mo x y Px Py L1). assert (B : g T <= g y) by (destruct L2 as [L2|L2]; [left; apply Mo; auto|rewrite L2; lra]).
    rewrite !Rabs_left1; lra.
  - assert (A := Mo x y Px Py L2). assert (B : g T <= g x) by (destruct L1 as [L1|L1]; [left; apply Mo; auto|rewrite L1; lra]).
    rewrite !Rabs_left1; lra.
  - assert (A := Mo x y Px Py L2). assert (B : g x <= g T) by (destruct L1 as [L1|L1]; [left; apply Mo; auto|rewrite L1; lra]).
    rewrite !Rabs_pos_eq; lra.
Qed.

Lemma residue_ok {V} `{NumOps V} (m : mech V) curr conds lats L C D time w d x w' :
  call_or_loop (lm_eqn (mc_mdl m)) (mech_args m time conds lats) L C D w = (Ok d, w') ->
  pmap2 (fun x y => nabs (nsub x y)) curr d = Ok x ->
  residue m curr conds lats L C D time w = (Ok x, w').
Proof.
  intros E P. unfold residue. apply try_ok in E as [E|(w1 & E1 & E2)].
  - apply try_succ. erewrite bind_eval by exact E. unfold lift. now rewrite P.
  - unfold try_value_error. erewrite bind_eval_err by exact E1. erewrite bind_eval by exact E2. unfold lift. now rewrite P.
Qed.

(** Elementwise arithmetic on two arrays of one shape. *)
Lemma bmap2_data {V} `{NumOps V} (f : V -> V -> V) s xs ys : length xs = prod s -> length ys = prod s ->
  bmap2 f (Nd s xs) (Nd s ys) = Ok (Nd s (map (fun xy => f (fst xy) (snd xy)) (List.combine xs ys))).
Proof.
  intros Lx Ly. rewrite bmap2_same by reflexivity. cbn [nshape].
  assert (Wx : awf (Nd s xs)) by exact Lx. assert (Wy : awf (Nd s ys)) by exact Ly.
  set (b := Nd s (map _ _)).
  assert (Wb : awf b). { unfold awf, b. cbn. rewrite map_length, combine_length, Lx, Ly. apply Nat.min_id. }
  f_equal. apply nd_ext; auto using awf_nbuild. intros idx Hv. cbn [nshape nbuild] in Hv. rewrite aget_nbuild by auto.
  assert (Ex := ndata_aget (Nd s xs) idx Wx Hv). assert (Ey := ndata_aget (Nd s ys) idx Wy Hv).
  assert (Eb := ndata_aget b idx Wb Hv). cbn [ndata nshape b] in Ex, Ey, Eb.
  rewrite nth_error_map in Eb.
  assert (Ec : forall (l1 l2 : list V) i a c, nth_error l1 i = Some a -> nth_error l2 i = Some c -> nth_error (List.combine l1 l2) i = Some (a, c)).
  { induction l1 as [|z l1 IH]; intros [|z2 l2] [|i] a c Q1 Q2; cbn in *; try discriminate; try congruence; auto. }
  rewrite (Ec _ _ _ _ _ Ex Ey) in Eb. cbn [option_map fst snd] in Eb. injection Eb as Eb. exact Eb.
Qed.

Lemma nth_error_map_combine {A B E} (f : A * B -> E) l1 l2 i a b : nth_error l1 i = Some a -> nth_error l2 i = Some b ->
  nth_error (map f (List.combine l1 l2)) i = Some (f (a, b)).
Proof.
  revert l2 i. induction l1 as [|z l1 IH]; intros [|z2 l2] [|i] Q1 Q2; cbn in *; try discriminate; try congruence; auto.
Qed.

Lemma lo_val : Q2R (1 # 1000) = / 1000. Proof. unfold Q2R. cbn. lra. Qed.
Lemma hi_val : Q2R 10000000000 = 10000000000. Proof. unfold Q2R. cbn. lra. Qed.
Lemma prec_val : default_precision (V := R) = / 100000. Proof. unfold default_precision. cbn. unfold Q2R. cbn. lra. Qed.

Section S.
Variables (m : mech R) (conds lats : dict (pyval R)).
Hypothesis K : mc_kind m = KDeg.

(** The objective computed from a law. *)
Lemma obj_ok deg s vs ts fs L C D w w' : s <> [] -> deg = PArr (Nd s vs) -> length vs = prod s -> length ts = prod s -> length fs = prod s ->
  call_or_loop (lm_eqn (mc_mdl m)) (mech_args m (PArr (Nd s ts)) conds lats) L C D w = (Ok (PArr (Nd s fs)), w') ->
  equiv_obj m deg (Nd s vs) conds lats L C D ts w = (Ok (map (fun xy => Rabs (fst xy - snd xy)) (List.combine vs fs)), w').
Proof.
  intros Ne -> Lv Lt Lf E. unfold equiv_obj. cbn [nshape].
  assert (O : of_nd (Nd s ts) = PArr (Nd s ts)) by now apply of_nd_arr.
  rewrite O.
  erewrite bind_eval.
  2:{ eapply residue_ok; [exact E|]. unfold pmap2. cbn [to_nd rbind]. rewrite bmap2_data by auto. cbn [rbind].
      rewrite of_nd_arr by auto. reflexivity. }
  cbn [to_nd]. erewrite (bind_eval (lift _)) by reflexivity. cbn [nshape ndata].
  destruct (list_eq_dec _ _ _); [reflexivity|congruence].
Qed.

Lemma equiv_time_eq s vs L C D w : s <> [] ->
  mech_equiv_time m (PArr (Nd s vs)) conds lats L C D w =
  bind (minimize (equiv_obj m (PArr (Nd s vs)) (Nd s vs) conds lats L C D) (length vs) (/ 1000) 10000000000
          (/ 100000) mach_64bit_eps 50 true) (fun xs => ret (PArr (Nd s xs))) w.
Proof.
  intros Ne. unfold mech_equiv_time. rewrite K. cbn [to_nd]. erewrite (bind_eval (lift _)) by reflexivity.
  cbn [ndata nshape nofQ ROps]. rewrite lo_val, hi_val, prec_val. unfold bind.
  destruct (minimize _ _ _ _ _ _ _ _ w) as [[xs|e] w1]; auto. rewrite of_nd_arr; auto.
Qed.

(** C34 *)
Lemma equiv_time_range v L C D w t w' :
  mech_equiv_time m (PArr (Nd [1%nat; 1%nat; 1%nat] [v])) conds lats L C D w = (Ok t, w') ->
  exists y, t = PArr (Nd [1%nat; 1%nat; 1%nat] [y]) /\ / 1000 <= y <= 10000000000.
Proof.
  intros E. rewrite equiv_time_eq in E by discriminate. mstep E. apply ret_ok in E as [-> _].
  cbn [length] in E0. unfold minimize in E0. mstep E0. apply ret_ok in E0 as [-> ->].
  pose proof (fun P1 P2 P3 => minimize_result _ _ _ _ _ _ _ _ _ _ P1 P2 P3 E) as G.
  destruct G as [(y & Ey & B) _]; try lra.
  unfold minimize in Ey. erewrite bind_eval in Ey by exact E. apply ret_ok in Ey as [<- _]. eauto.
Qed.

Lemma stress_fresh v dur L C D w r w' :
  stress_mech m conds lats L C D (PArr (Nd [1%nat; 1%nat; 1%nat] [v])) dur w = (Ok r, w') ->
  exists t d w1, / 1000 + dur <= t <= 10000000000 + dur /\
    call_or_loop (lm_eqn (mc_mdl m)) (mech_args m (PArr (Nd [1%nat; 1%nat; 1%nat] [t])) conds lats) L C D w1 = (Ok d, w').
Proof.
  intros E. unfold stress_mech in E. mstep E. apply equiv_time_range in E0 as (y & -> & B).
  mstep E. unfold pmap2 in E0. cbn [to_nd rbind] in E0. rewrite bmap2_scalar_r in E0. cbn in E0. injection E0 as <-.
  apply mech_deg_ok in E as (t & p & d & e & a & _ & _ & Ec & _). exists (y + dur), d, w0. split; [lra|]. exact Ec.
Qed.
End S.

(** ** C28 *)
Lemma mach_small : 0 <= sqrt (mach_64bit_eps (V := R)) <= 2 / 100000000.
Proof.
  split; [apply sqrt_pos|]. replace (2 / 100000000) with (sqrt (2 / 100000000 * (2 / 100000000))) by (apply sqrt_square; lra).
  apply sqrt_le_1_alt. unfold mach_64bit_eps. cbn. unfold Q2R. cbn. lra.
Qed.

Lemma log_bounds y : / 1000 <= y <= 10000000000 -> -3 <= ln y / ln 10 <= 10.
Proof.
  intros [A B]. assert (P := ln10_p).
  assert (E1 : ln (/ 1000) / ln 10 = -3).
  { rewrite ln_Rinv by lra. replace 1000 with (10 ^ 3) by ring. rewrite ln_pow by lra. cbn [INR]. field. lra. }
  assert (E2 : ln 10000000000 / ln 10 = 10).
  { replace 10000000000 with (10 ^ 10) by ring. rewrite ln_pow by lra. replace (INR 10) with 10 by (cbn; lra). field. lra. }
  assert (I := Rinv_0_lt_compat _ P). split.
  - apply Rle_trans with (ln (/ 1000) / ln 10); [lra|]. apply Rmult_le_compat_r; [lra|].
    destruct A as [A|A]; [left; apply ln_increasing; lra|rewrite A; lra].
  - apply Rle_trans with (ln 10000000000 / ln 10); [|lra]. apply Rmult_le_compat_r; [lra|].
    destruct B as [B|B]; [left; apply ln_increasing; lra|rewrite B; lra].
Qed.

Lemma close_factor y T : 0 < y -> 0 < T ->
  Rabs (ln y / ln 10 - ln T / ln 10) < 8 / 1000000 ->
  T * Rpower 10 (- (8 / 1000000)) < y < T * Rpower 10 (8 / 1000000).
Proof.
  intros Py PT A. assert (P := ln10_p). apply Rabs_def2 in A as [A1 A2].
  assert (B1 : ln y < ln T + 8 / 1000000 * ln 10).
  { apply (Rmult_lt_compat_r (ln 10)) in A1; auto. rewrite Rmult_minus_distr_r in A1. unfold Rdiv in A1 at 1 2.
    rewrite !Rmult_assoc, Rinv_l in A1 by lra. lra. }
  assert (B2 : ln T - 8 / 1000000 * ln 10 < ln y).
  { apply (Rmult_lt_compat_r (ln 10)) in A2; auto. rewrite Rmult_minus_distr_r in A2. unfold Rdiv in A2 at 2 3.
    rewrite !Rmult_assoc, Rinv_l in A2 by lra. lra. }
  unfold Rpower. replace T with (exp (ln T)) by now apply exp_ln. replace y with (exp (ln y)) by now apply exp_ln.
  rewrite <- !exp_plus. split; apply exp_increasing; lra.
Qed.

Lemma equiv_time_inverts (m : mech R) conds lats g T L C D w :
  mc_kind m = KDeg ->
  strictly_monotone (fun t => / 1000 <= t <= 10000000000) g ->
  (forall t w, / 1000 <= t <= 10000000000 ->
     exists w', call_or_loop (lm_eqn (mc_mdl m)) (mech_args m (PArr (Nd [1%nat; 1%nat; 1%nat] [t])) conds lats) L C D w
                = (Ok (PArr (Nd [1%nat; 1%nat; 1%nat] [g t])), w')) ->
  / 1000 <= T <= 10000000000 ->
  let a := Nd [1%nat; 1%nat; 1%nat] [g T] in
  exists r w' y,
    minimize_run (equiv_obj m (PArr a) a conds lats L C D) 1 (/ 1000) 10000000000 (/ 100000) mach_64bit_eps 50 true w = (Ok r, w') /\
    mech_equiv_time m (PArr a) conds lats L C D w = (Ok (PArr (Nd [1%nat; 1%nat; 1%nat] [y])), w') /\
    / 1000 <= y <= 10000000000 /\
    (mr_conv r = true -> T * Rpower 10 (- (8 / 1000000)) < y < T * Rpower 10 (8 / 1000000)).
Proof.
  intros K Mo Law HT a.
  destruct (minimize_unimodal (equiv_obj m (PArr a) a conds lats L C D) (fun t => Rabs (g T - g t)) (/ 1000) 10000000000 T
    (/ 100000) mach_64bit_eps 50 true w) as (r & w' & y & b & E1 & E2 & Es & B1 & B2 & A); try lra.
  - now apply (residue_unimodal (fun t => / 1000 <= t <= 10000000000)).
  - intros x w0 X. destruct (Law x w0 X) as [w1 E]. exists w1.
    apply (obj_ok m conds lats (PArr a) [1; 1; 1]%nat [g T] [x] [g x] L C D w0 w1); auto; discriminate.
  - assert (Et : mech_equiv_time m (PArr a) conds lats L C D w = (Ok (PArr (Nd [1; 1; 1]%nat [y])), w')).
    { unfold a. rewrite equiv_time_eq by (auto; discriminate). cbn [length]. erewrite bind_eval by exact E2. reflexivity. }
    exists r, w', y. split; [exact E1|]. split; [exact Et|].
    destruct (equiv_time_range m conds lats K _ _ _ _ _ _ _ Et) as (y' & Q & By). injection Q as <-.
    split; [exact By|]. intros Cv. specialize (A Cv). apply close_factor; try lra.
    unfold lim in A. cbn [nlog10 ROps] in A. eapply Rlt_le_trans; [exact A|].
    assert (Hl := log_bounds y By). assert (Ha : Rabs (ln y / ln 10) <= 10) by (apply Rabs_le; lra).
    assert (Hs := mach_small). assert (Hp := Rabs_pos (ln y / ln 10)).
    assert (sqrt mach_64bit_eps * Rabs (ln y / ln 10) <= 2 / 100000000 * 10) by (apply Rmult_le_compat; lra). lra.
Qed.

(** Arrays of any shape: accuracy for every sample once the whole search converged. *)
Lemma equiv_time_inverts_vec (m : mech R) conds lats (g : nat -> R -> R) (T : nat -> R) s vs L C D w :
  mc_kind m = KDeg -> s <> [] -> length vs = prod s ->
  (forall i, (i < prod s)%nat -> strictly_monotone (fun t => 0 < t) (g i) /\ / 1000 <= T i <= 10000000000 /\
     nth_error vs i = Some (g i (T i))) ->
  (forall ts w, length ts = prod s -> (forall t, In t ts -> 0 < t) ->
     exists fs w', call_or_loop (lm_eqn (mc_mdl m)) (mech_args m (PArr (Nd s ts)) conds lats) L C D w
                   = (Ok (PArr (Nd s fs)), w') /\ length fs = prod s /\
       forall i t, nth_error ts i = Some t -> nth_error fs i = Some (g i t)) ->
  exists r w' ys,
    minimize_run (equiv_obj m (PArr (Nd s vs)) (Nd s vs) conds lats L C D) (prod s) (/ 1000) 10000000000 (/ 100000) mach_64bit_eps 50 true w = (Ok r, w') /\
    mech_equiv_time m (PArr (Nd s vs)) conds lats L C D w = (Ok (PArr (Nd s ys)), w') /\ length ys = prod s /\
    (mr_conv r = true -> forall i y, nth_error ys i = Some y ->
       Rabs (ln y / ln 10 - ln (T i) / ln 10) < 2 * (sqrt mach_64bit_eps * Rabs (ln y / ln 10) + / 300000)).
Proof.
  intros K Ne Lv Law F.
  destruct (minimize_vec (equiv_obj m (PArr (Nd s vs)) (Nd s vs) conds lats L C D) (prod s)
    (fun i t => Rabs (g i (T i) - g i t)) T (/ 1000) 10000000000 (/ 100000) mach_64bit_eps 50 true w)
    as (r & w' & ys & E1 & E2 & Ly & A); try lra.
  - intros i Hi. destruct (Law i Hi) as (Mo & B & _). split; [exact B|].
    apply (residue_unimodal (fun x => true = true -> 0 < x)); [|intros; lra].
    destruct Mo as [Mo|Mo]; [left|right]; intros x y Px Py; apply Mo; auto.
  - intros xs w0 Lx Px. destruct (F xs w0 Lx ltac:(intros; now apply Px)) as (fs & w1 & E & Lf & G).
    exists (map (fun xy => Rabs (fst xy - snd xy)) (List.combine vs fs)), w1. split; [|split].
    + now apply (obj_ok m conds lats (PArr (Nd s vs)) s vs xs fs L C D w0 w1).
    + rewrite map_length, combine_length, Lv, Lf. apply Nat.min_id.
    + intros i x Hx. assert (Hi : (i < prod s)%nat) by (rewrite <- Lx; apply nth_error_Some; congruence).
      destruct (Law i Hi) as (_ & _ & Ev). rewrite (nth_error_map_combine _ vs fs i _ _ Ev (G i x Hx)). reflexivity.
  - exists r, w', ys. split; [exact E1|]. split; [|split; [exact Ly|]].
    + rewrite equiv_time_eq by auto. rewrite Lv. erewrite bind_eval by exact E2. reflexivity.
    + intros Cv i y Hy. specialize (A Cv i y Hy). unfold lim in A. cbn [nlog10 ROps] in A.
      replace (/ 300000) with (/ 100000 / 3) by lra. exact A.
Qed.

(** ** C33 *)
Lemma deg_vals_law (m : mech R) conds lats s ts vs fs L C D w w' :
  mc_kind m = KDeg -> length ts = prod s -> length vs = prod s -> length fs = prod s ->
  (forall t, In t ts -> t <= 9000000000) ->
  call_or_loop (lm_eqn (mc_mdl m)) (mech_args m (PArr (Nd s ts)) conds lats) L C D w = (Ok (PArr (Nd s fs)), w') ->
  mech_deg_vals m (PArr (Nd s ts)) (PArr (Nd s vs)) conds lats L C D w = (Ok (PArr (Nd s fs)), w').
Proof.
  intros K Lt Lv Lf B E. unfold mech_deg_vals. rewrite K. unfold base_deg_vals. cbn [to_nd].
  erewrite (bind_eval (lift _)) by reflexivity. erewrite (bind_eval (lift _)) by reflexivity.
  cbn [nshape]. rewrite bshape_same. erewrite bind_eval by exact E. cbn [to_nd].
  erewrite (bind_eval (lift _)) by reflexivity. rewrite bmap3_same by reflexivity.
  erewrite (bind_eval (lift _)) by reflexivity. cbn [nshape].
  assert (Q : nbuild s (fun idx => keep_or (aget (Nd s ts) idx) (aget (Nd s vs) idx) (aget (Nd s fs) idx)) = Nd s fs).
  { assert (Wf : awf (Nd s fs)) by exact Lf. transitivity (nbuild s (aget (Nd s fs))); [|exact (nbuild_aget _ Wf)].
    apply nbuild_ext. intros idx Hv. unfold keep_or, deg_limit. cbn [nltb ROps nofQ].
    rewrite Rlt_bool_false; auto.
    assert (Wt : awf (Nd s ts)) by exact Lt. assert (Ei := ndata_aget (Nd s ts) idx Wt Hv). cbn [ndata nshape] in Ei.
    apply nth_error_In in Ei. replace (Q2R 9000000000) with 9000000000 by (unfold Q2R; cbn; lra). auto. }
  now rewrite Q.
Qed.

Lemma total_nn ds : (forall d, In d ds -> 0 <= d) -> 0 <= total ds.
Proof.
  induction ds as [|d r IH]; intros A; [cbn; lra|]. change (0 <= d + total r).
  assert (0 <= d) by (apply A; now left). assert (0 <= total r) by (apply IH; intros; apply A; now right). lra.
Qed.

Lemma stresses_law (m : mech R) conds lats (g : nat -> R -> R) s L C D eps ds :
  mc_kind m = KDeg ->
  (forall ts w, length ts = prod s -> (forall t, In t ts -> 0 <= t <= 9000000000) ->
     exists fs w', call_or_loop (lm_eqn (mc_mdl m)) (mech_args m (PArr (Nd s ts)) conds lats) L C D w
                   = (Ok (PArr (Nd s fs)), w') /\ length fs = prod s /\
       forall i t, nth_error ts i = Some t -> nth_error fs i = Some (g i t)) ->
  0 <= eps <= 1 -> (forall d, In d ds -> 0 <= d) ->
  forall vs w vs' w' (T : nat -> R),
  stresses m conds lats L C D s
    (fun vs ys => length ys = length vs /\ forall i y t, nth_error ys i = Some y -> nth_error vs i = Some (g i t) -> 0 <= t ->
                  (1 - eps) * t <= y <= (1 + eps) * t) ds vs w vs' w' ->
  length vs = prod s ->
  (forall i, (i < prod s)%nat -> nth_error vs i = Some (g i (T i)) /\ 0 <= T i /\
             (1 + eps) ^ length ds * (T i + total ds) <= 9000000000) ->
  forall i, (i < prod s)%nat -> exists t, nth_error vs' i = Some (g i t) /\
    (1 - eps) ^ length ds * (T i + total ds) <= t <= (1 + eps) ^ length ds * (T i + total ds).
Proof.
  intros K Law He Hd vs w vs' w' T St. revert T.
  induction St as [vs w|d ds vs w ys w1 vs1 w2 vs2 w3 Ee [Ly Hf] Ed St IH]; intros T Lv HT i Hi.
  - destruct (HT i Hi) as (E & P & _). exists (T i). split; auto. cbn [length pow total fold_right]. lra.
  - assert (Hd0 : 0 <= d) by (apply Hd; now left). assert (Hds : forall x, In x ds -> 0 <= x) by (intros; apply Hd; now right).
    assert (Tn := total_nn ds Hds). cbn [total fold_right length pow] in *. fold (total ds) in *.
    set (n := length ds) in *.
    assert (P1 : 1 <= (1 + eps) ^ n) by (apply pow_R1_Rle; lra).
    assert (Hy : forall j y, nth_error ys j = Some y -> (1 - eps) * T j <= y <= (1 + eps) * T j).
    { intros j y Ej. assert (Hj : (j < prod s)%nat) by (rewrite <- Lv, <- Ly; apply nth_error_Some; congruence).
      destruct (HT j Hj) as (E & P & _). eapply Hf; eauto. }
    assert (Bd : forall j, (j < prod s)%nat -> (1 + eps) * T j + d <= (1 + eps) * (T j + (d + total ds)) /\ (1 + eps) * (T j + (d + total ds)) <= 9000000000).
    { intros j Hj. destruct (HT j Hj) as (_ & P & B). split.
      - assert (0 <= eps * (d + total ds)) by (apply Rmult_le_pos; lra). lra.
      - eapply Rle_trans; [|exact B]. rewrite Rmult_assoc. apply Rmult_le_compat_l; [lra|].
        rewrite <- (Rmult_1_l (T j + (d + total ds))) at 1. apply Rmult_le_compat_r; lra. }
    set (ts := map (fun y => nadd y d) ys) in *.
    assert (Lt : length ts = prod s) by (unfold ts; rewrite map_length; lia).
    assert (Bt : forall t, In t ts -> 0 <= t <= 9000000000).
    { intros t It. unfold ts in It. apply in_map_iff in It as (y & <- & Iy). apply In_nth_error in Iy as [j Ej].
      assert (Hj : (j < prod s)%nat) by (rewrite <- Lv, <- Ly; apply nth_error_Some; congruence).
      destruct (HT j Hj) as (_ & P & _). specialize (Hy j y Ej). specialize (Bd j Hj). cbn [nadd ROps].
      assert (0 <= (1 - eps) * T j) by (apply Rmult_le_pos; lra). lra. }
    destruct (Law ts w1 Lt Bt) as (fs & w1' & Ef & Lf & Gf).
    rewrite (deg_vals_law m conds lats s ts vs fs L C D w1 w1' K Lt Lv Lf) in Ed by (auto; intros t It; apply Bt in It; lra).
    injection Ed as <- <-.
    set (T' := fun j => nth j ys 0 + d).
    assert (HT' : forall j, (j < prod s)%nat -> nth_error fs j = Some (g j (T' j)) /\ 0 <= T' j /\
      (1 - eps) * T j + d <= T' j <= (1 + eps) * T j + d).
    { intros j Hj. assert (Ej : nth_error ys j = Some (nth j ys 0)) by (apply nth_error_nth'; lia).
      specialize (Hy j _ Ej). destruct (HT j Hj) as (_ & P & _).
      assert (0 <= (1 - eps) * T j) by (apply Rmult_le_pos; lra).
      split; [|unfold T'; lra]. apply Gf. unfold ts. rewrite nth_error_map, Ej. reflexivity. }
    destruct (IH Hds T' Lf) with (i := i) as (t & Et & Bt1); auto.
    { intros j Hj. destruct (HT' j Hj) as (E & P & B). split; [exact E|]. split; [exact P|].
      destruct (HT j Hj) as (_ & Pj & Bj). eapply Rle_trans; [|exact Bj]. rewrite (Rmult_comm (1 + eps)), Rmult_assoc.
      apply Rmult_le_compat_l; [lra|]. assert (0 <= eps * (d + total ds)) by (apply Rmult_le_pos; lra). lra. }
    exists t. split; [exact Et|]. destruct (HT' i Hi) as (_ & Pi & Bi). destruct (HT i Hi) as (_ & Pti & _).
    assert (P0 : 0 <= (1 - eps) ^ n) by (apply Rfunctions.pow_le; lra).
    assert (0 <= eps * (d + total ds)) by (apply Rmult_le_pos; lra).
    split.
    + eapply Rle_trans; [|apply Bt1]. rewrite (Rmult_comm (1 - eps)), Rmult_assoc. apply Rmult_le_compat_l; lra.
    + eapply Rle_trans; [apply Bt1|]. rewrite (Rmult_comm (1 + eps)), Rmult_assoc. apply Rmult_le_compat_l; lra.
Qed.

(** A search that starts at the optimum stays there. *)
Lemma mloop_stay rel abs_ lg (F : list R -> M (list R)) g x0 : 0 <= rel -> 0 < abs_ ->
  (forall x w, exists w', F [to_point lg x] w = (Ok [g x], w')) -> (forall x, x <> x0 -> g x0 < g x) ->
  forall fuel s ev w, mx s = x0 -> mfx s = g x0 ->
  exists r w' s', mloop rel abs_ lg F fuel [s] ev w = (Ok r, w') /\ mr_states r = [s'] /\ mx s' = x0.
Proof.
  intros Hr Ha HF Hm. induction fuel as [|k IH]; intros s ev w Ex Ef; cbn [mloop].
  - destruct (forallb _ _); do 3 eexists; split; try reflexivity; cbn; eauto.
  - destruct (forallb _ _); [do 3 eexists; split; try reflexivity; cbn; eauto|].
    cbn [map]. destruct (HF (next_u rel abs_ s) w) as [w1 E].
    assert (Ev : evalF lg F [next_u rel abs_ s] w = (Ok [g (next_u rel abs_ s)], w1)).
    { unfold evalF. cbn [map]. erewrite bind_eval by exact E. reflexivity. }
    erewrite bind_eval by exact Ev. cbn [zip_update].
    assert (Fa := next_u_far rel abs_ Hr (Rlt_le _ _ Ha) s).
    assert (Tp := tol_p rel abs_ Hr Ha s).
    assert (Nx : next_u rel abs_ s <> x0).
    { intros Q. rewrite Q, Ex, Rminus_eq_0, Rabs_R0 in Fa. lra. }
    specialize (Hm _ Nx). destruct (update_x rel abs_ s (g (next_u rel abs_ s))) as [(A & _)|(_ & A & B & _)]; [lra|].
    apply IH; lra.
Qed.

Lemma minimize_stay (F : list R -> M (list R)) g lo hi prec eps maxiter lg w : 0 < prec ->
  let x0 := lim lg lo + gf2 * (lim lg hi - lim lg lo) in
  (forall x w, exists w', F [to_point lg x] w = (Ok [g x], w')) -> (forall x, x <> x0 -> g x0 < g x) ->
  exists w', minimize F 1 lo hi prec eps maxiter lg w = (Ok [to_point lg x0], w').
Proof.
  intros Hp x0 HF Hm. unfold minimize. rewrite run_unfold. unfold mrun. cbn [repeat nadd nmul nsub ROps].
  destruct (HF x0 w) as [w1 E].
  assert (Ev : evalF lg F [x0] w = (Ok [g x0], w1)).
  { unfold evalF. cbn [map]. erewrite bind_eval by exact E. reflexivity. }
  assert (M1 : mx (minit (V := R) (lim lg lo) (lim lg hi) (g x0)) = x0) by reflexivity.
  destruct (mloop_stay (sqrt eps) (prec / 3) lg F g x0 (sqrt_pos _) ltac:(lra) HF Hm maxiter
    (minit (lim lg lo) (lim lg hi) (g x0)) [([x0], [g x0])] w1 M1 eq_refl) as (r & w2 & s & E2 & Es & Ex).
  exists w2. unfold bind at 1. erewrite (bind_eval (evalF _ _ _)) by exact Ev. cbn [map].
  match goal with |- (let '(_, _) := ?t in _) = _ => change t with (mloop (sqrt eps) (prec / 3) lg F maxiter [minit (lim lg lo) (lim lg hi) (g x0)] [([x0], [g x0])] w1) end.
  rewrite E2. unfold ret. rewrite Es. cbn [map]. now rewrite Ex.
Qed.

(** With an increasing objective the search never ends right of its start. *)
Lemma mloop_below rel abs_ lg (F : list R -> M (list R)) g x0 : 0 <= rel -> 0 <= abs_ ->
  (forall x w, exists w', F [to_point lg x] w = (Ok [g x], w')) -> (forall x y, x < y -> g x < g y) ->
  forall fuel s ev w, mx s <= x0 -> mfx s = g (mx s) ->
  exists r w' s', mloop rel abs_ lg F fuel [s] ev w = (Ok r, w') /\ mr_states r = [s'] /\ mx s' <= x0.
Proof.
  intros Hr Ha HF Hm. induction fuel as [|k IH]; intros s ev w Ex Ef; cbn [mloop].
  - destruct (forallb _ _); do 3 eexists; split; try reflexivity; cbn; eauto.
  - destruct (forallb _ _); [do 3 eexists; split; try reflexivity; cbn; eauto|].
    cbn [map]. destruct (HF (next_u rel abs_ s) w) as [w1 E].
    assert (Ev : evalF lg F [next_u rel abs_ s] w = (Ok [g (next_u rel abs_ s)], w1)).
    { unfold evalF. cbn [map]. erewrite bind_eval by exact E. reflexivity. }
    erewrite bind_eval by exact Ev. cbn [zip_update].
    destruct (update_x rel abs_ s (g (next_u rel abs_ s))) as [(A & B & C & _)|(_ & A & B & _)].
    + apply IH; [|rewrite B; exact C]. rewrite B. destruct (Rle_or_lt (next_u rel abs_ s) (mx s)) as [L|L]; [lra|].
      apply Hm in L. lra.
    + apply IH; [lra|]. rewrite A, B. exact Ef.
Qed.

Lemma minimize_below (F : list R -> M (list R)) g lo hi prec eps maxiter lg w : 0 <= prec ->
  let x0 := lim lg lo + gf2 * (lim lg hi - lim lg lo) in
  (forall x w, exists w', F [to_point lg x] w = (Ok [g x], w')) -> (forall x y, x < y -> g x < g y) ->
  exists x w', minimize F 1 lo hi prec eps maxiter lg w = (Ok [to_point lg x], w') /\ x <= x0.
Proof.
  intros Hp x0 HF Hm. unfold minimize. rewrite run_unfold. unfold mrun. cbn [repeat nadd nmul nsub ROps].
  destruct (HF x0 w) as [w1 E].
  assert (Ev : evalF lg F [x0] w = (Ok [g x0], w1)).
  { unfold evalF. cbn [map]. erewrite bind_eval by exact E. reflexivity. }
  assert (M1 : mx (minit (V := R) (lim lg lo) (lim lg hi) (g x0)) = x0) by reflexivity.
  destruct (mloop_below (sqrt eps) (prec / 3) lg F g x0 (sqrt_pos _) ltac:(lra) HF Hm maxiter
    (minit (lim lg lo) (lim lg hi) (g x0)) [([x0], [g x0])] w1 (Req_le _ _ M1) eq_refl) as (r & w2 & s & E2 & Es & Ex).
  exists (mx s), w2. split; [|exact Ex]. unfold bind at 1. erewrite (bind_eval (evalF _ _ _)) by exact Ev. cbn [map].
  match goal with |- (let '(_, _) := ?t in _) = _ => change t with (mloop (sqrt eps) (prec / 3) lg F maxiter [minit (lim lg lo) (lim lg hi) (g x0)] [([x0], [g x0])] w1) end.
  rewrite E2. unfold ret. rewrite Es. reflexivity.
Qed.

(** The degradation reached at the first time the search tries is inverted exactly. *)
Definition first_guess : R := npow10 (lim true (/ 1000) + gf2 * (lim true 10000000000 - lim true (/ 1000))).
Lemma equiv_time_exact (m : mech R) conds lats g L C D w :
  mc_kind m = KDeg -> strictly_monotone (fun t => 0 < t) g ->
  (forall t w, 0 < t ->
     exists w', call_or_loop (lm_eqn (mc_mdl m)) (mech_args m (PArr (Nd [1%nat; 1%nat; 1%nat] [t])) conds lats) L C D w
                = (Ok (PArr (Nd [1%nat; 1%nat; 1%nat] [g t])), w')) ->
  exists w', mech_equiv_time m (PArr (Nd [1%nat; 1%nat; 1%nat] [g first_guess])) conds lats L C D w
             = (Ok (PArr (Nd [1%nat; 1%nat; 1%nat] [first_guess])), w').
Proof.
  intros K Mo Law. rewrite equiv_time_eq by (auto; discriminate). cbn [length].
  set (a := Nd [1%nat; 1%nat; 1%nat] [g first_guess]).
  destruct (minimize_stay (equiv_obj m (PArr a) a conds lats L C D) (fun x => Rabs (g first_guess - g (npow10 x)))
    (/ 1000) 10000000000 (/ 100000) mach_64bit_eps 50 true w) as [w' E]; [lra| | |].
  - intros x w0. destruct (Law (npow10 x) w0 (pow_p x)) as [w1 E]. exists w1.
    apply (obj_ok m conds lats (PArr a) [1; 1; 1]%nat [g first_guess] [npow10 x] [g (npow10 x)] L C D w0 w1); auto; discriminate.
  - intros x Nx. fold first_guess. rewrite Rminus_eq_0, Rabs_R0. apply Rabs_pos_lt.
    assert (Px := pow_p x). assert (Pf : 0 < first_guess) by apply pow_p.
    assert (Ne : npow10 x <> first_guess).
    { intros Q. apply Nx. unfold first_guess in Q. apply (f_equal (nlog10 (V := R))) in Q. rewrite !log_pow in Q. exact Q. }
    destruct (Rtotal_order (npow10 x) first_guess) as [T|[T|T]]; [|contradiction|].
    + destruct Mo as [Mo|Mo]; specialize (Mo _ _ Px Pf T); lra.
    + destruct Mo as [Mo|Mo]; specialize (Mo _ _ Pf Px T); lra.
  - exists w'. erewrite bind_eval by exact E. reflexivity.
Qed.

(** C33 with exact equivalent times *)
Lemma splitting (m : mech R) conds lats (g : nat -> R -> R) s L C D ds ds' :
  mc_kind m = KDeg ->
  (forall ts w, length ts = prod s -> (forall t, In t ts -> 0 <= t <= 9000000000) ->
     exists fs w', call_or_loop (lm_eqn (mc_mdl m)) (mech_args m (PArr (Nd s ts)) conds lats) L C D w
                   = (Ok (PArr (Nd s fs)), w') /\ length fs = prod s /\
       forall i t, nth_error ts i = Some t -> nth_error fs i = Some (g i t)) ->
  (forall d, In d ds -> 0 <= d) -> (forall d, In d ds' -> 0 <= d) -> total ds = total ds' ->
  forall vs w vs1 w1 w2' vs2 w2 (T : nat -> R),
  let exact := fun vs ys : list R => length ys = length vs /\
    forall i y t, nth_error ys i = Some y -> nth_error vs i = Some (g i t) -> 0 <= t -> y = t in
  stresses m conds lats L C D s exact ds vs w vs1 w1 ->
  stresses m conds lats L C D s exact ds' vs w2' vs2 w2 ->
  length vs = prod s ->
  (forall i, (i < prod s)%nat -> nth_error vs i = Some (g i (T i)) /\ 0 <= T i /\ T i + total ds <= 9000000000) ->
  forall i, (i < prod s)%nat -> nth_error vs1 i = Some (g i (T i + total ds)) /\ nth_error vs2 i = nth_error vs1 i.
Proof.
  intros K Law D1 D2 Et vs w vs1 w1 w2' vs2 w2 T exact S1 S2 Lv HT i Hi.
  assert (W : forall ds vs w vs' w', stresses m conds lats L C D s exact ds vs w vs' w' ->
    stresses m conds lats L C D s
    (fun vs ys => length ys = length vs /\ forall i y t, nth_error ys i = Some y -> nth_error vs i = Some (g i t) -> 0 <= t ->
                  (1 - 0) * t <= y <= (1 + 0) * t) ds vs w vs' w').
  { induction 1 as [|d0 ds0 v0 u0 ys u1 v1 u2 v2 u3 A [B1 B2] C0 _ IH]; [constructor|]. econstructor; eauto.
    split; auto. intros j y t Q1 Q2 P. rewrite (B2 j y t Q1 Q2 P). lra. }
  assert (G : forall ds vs' w w', total ds = total ds' -> (forall d, In d ds -> 0 <= d) ->
    stresses m conds lats L C D s exact ds vs w vs' w' -> nth_error vs' i = Some (g i (T i + total ds'))).
  { intros e vs' u u' Q P S. apply W in S.
    destruct (stresses_law m conds lats g s L C D 0 e K Law ltac:(lra) P _ _ _ _ T S Lv) with (i := i) as (t & E & B); auto.
    - intros j Hj. destruct (HT j Hj) as (A1 & A2 & A3). rewrite Rplus_0_r, pow1. repeat split; auto. rewrite Q, <- Et. lra.
    - rewrite Rminus_0_r, Rplus_0_r, pow1, Q in B. rewrite E. do 2 f_equal. lra. }
  rewrite (G ds vs1 w w1), (G ds' vs2 w2' w2); auto. now rewrite Et.
Qed.

(** Examples *)
Section Ex.
Variables (m : mech R) (conds lats : dict (pyval R)) (c : R).
Hypotheses (K : mc_kind m = KDeg) (Hc : 0 < c)
  (Law : forall t w, call_or_loop (lm_eqn (mc_mdl m)) (mech_args m (PArr (Nd [1%nat; 1%nat; 1%nat] [t])) conds lats) 1 1 1 w
                     = (Ok (PArr (Nd [1%nat; 1%nat; 1%nat] [t * c])), w)).

Lemma first_guess_small : 0 < first_guess < 100000.
Proof.
  split; [apply pow_p|]. unfold first_guess, lim. cbn [nlog10 npow10 ROps].
  assert (A : ln (/ 1000) / ln 10 = -3).
  { rewrite ln_Rinv by lra. replace 1000 with (10 ^ 3) by ring. rewrite ln_pow by lra. cbn [INR]. field. generalize ln10_p; lra. }
  assert (B : ln 10000000000 / ln 10 = 10).
  { replace 10000000000 with (10 ^ 10) by ring. rewrite ln_pow by lra. replace (INR 10) with 10 by (cbn; lra). field. generalize ln10_p; lra. }
  rewrite A, B. replace 100000 with (Rpower 10 5).
  - apply Rpower_lt; [lra|]. assert (G := gf2_range). lra.
  - replace 5 with (INR 5) by (cbn; lra). rewrite Rpower_pow by lra. ring.
Qed.

Lemma lin_stay w : exists w', mech_equiv_time m (PArr (Nd [1%nat; 1%nat; 1%nat] [first_guess * c])) conds lats 1 1 1 w
             = (Ok (PArr (Nd [1%nat; 1%nat; 1%nat] [first_guess])), w').
Proof.
  apply (equiv_time_exact m conds lats (fun t => t * c)); auto.
  - left. intros x y _ _ L. now apply Rmult_lt_compat_r.
  - intros t w0 _. exists w0. apply Law.
Qed.

Lemma lin_stresses w : exists w',
  stresses m conds lats 1 1 1 [1%nat; 1%nat; 1%nat]
    (fun vs ys : list R => length ys = length vs /\
       forall i y t, nth_error ys i = Some y -> nth_error vs i = Some (t * c) -> 0 <= t -> y = t)
    [0; 5] [first_guess * c] w [(first_guess + 0 + 5) * c] w' /\ first_guess + total [0; 5] <= 9000000000.
Proof.
  assert (F := first_guess_small).
  destruct (lin_stay w) as [w1 E1]. destruct (lin_stay w1) as [w2 E2]. exists w2.
  assert (Ok1 : forall t v w, t <= 9000000000 ->
    mech_deg_vals m (PArr (Nd [1%nat; 1%nat; 1%nat] [t])) (PArr (Nd [1%nat; 1%nat; 1%nat] [v])) conds lats 1 1 1 w
    = (Ok (PArr (Nd [1%nat; 1%nat; 1%nat] [t * c])), w)).
  { intros t v w3 Ht. apply deg_vals_law; auto. intros x [<-|[]]. exact Ht. }
  assert (Q : first_guess + 0 = first_guess) by lra.
  split; [|unfold total; cbn [fold_right]; lra].
  assert (Fd : length [first_guess] = length [first_guess * c] /\
     forall i y t, nth_error [first_guess] i = Some y -> nth_error [first_guess * c] i = Some (t * c) -> 0 <= t -> y = t).
  { split; [reflexivity|]. intros [|[|i]] y t Q1 Q2 _; try discriminate. injection Q1 as <-. injection Q2 as Q2.
    apply Rmult_eq_reg_r in Q2; [exact Q2|now apply Rgt_not_eq]. }
  econstructor; [exact E1|exact Fd| |].
  - cbn [map nadd ROps]. apply Ok1. lra.
  - rewrite Q. econstructor; [exact E2|exact Fd| |constructor].
    cbn [map nadd ROps]. apply Ok1. lra.
Qed.

Lemma lin_fresh w dur : 0 <= dur <= 1000000000 -> exists x w',
  stress_mech m conds lats 1 1 1 (PArr (Nd [1%nat; 1%nat; 1%nat] [0])) dur w = (Ok (PArr (Nd [1%nat; 1%nat; 1%nat] [x])), w') /\
  (dur + / 1000) * c <= x.
Proof.
  intros Hd. unfold stress_mech.
  assert (exists y w', mech_equiv_time m (PArr (Nd [1%nat; 1%nat; 1%nat] [0])) conds lats 1 1 1 w = (Ok (PArr (Nd [1%nat; 1%nat; 1%nat] [y])), w') /\ y <= first_guess) as (y & w' & E & By).
  { rewrite equiv_time_eq by (auto; discriminate). set (a := Nd _ _).
    destruct (minimize_below (equiv_obj m (PArr a) a conds lats 1 1 1) (fun x => Rabs (0 - npow10 x * c)) (/ 1000) 10000000000
      (/ 100000) mach_64bit_eps 50 true w) as (x & w' & E1 & E2); try lra.
    - intros x w0. exists w0. apply (obj_ok m conds lats (PArr a) [1; 1; 1]%nat [0] [npow10 x] [npow10 x * c] 1 1 1 w0 w0); auto; discriminate.
    - intros x z L. apply pow_lt in L. assert (Px := pow_p x). assert (Pz := pow_p z).
      assert (0 < npow10 x * c) by (apply Rmult_lt_0_compat; lra). assert (npow10 x * c < npow10 z * c) by now apply Rmult_lt_compat_r.
      rewrite !Rabs_left by lra. lra.
    - exists (npow10 x), w'. cbn [length]. erewrite bind_eval by exact E1. split; [reflexivity|]. now apply pow_le. }
  erewrite bind_eval by exact E. destruct (equiv_time_range m conds lats K _ _ _ _ _ _ _ E) as (y' & Q & B). injection Q as <-.
  erewrite (bind_eval (lift _)) by reflexivity.
  assert (F := first_guess_small).
  exists ((y + dur) * c), w'. split; [|apply Rmult_le_compat_r; lra].
  apply (deg_vals_law m conds lats [1; 1; 1]%nat [y + dur] [0] [(y + dur) * c] 1 1 1 w' w'); auto. intros x [<-|[]]. lra.
Qed.
End Ex.
