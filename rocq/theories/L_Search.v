(** Converged searches for equivalent times are accurate: C88. *)
From Coq Require Import Reals QArith Qreals Lra Lia.
From Flocq Require Import Core.
From Verif Require Import M_Base M_Num M_NumR M_Nd M_RandVar M_Latent M_Time M_TestSpec M_Minimize M_Device M_Report M_Env M_Sim
  S_Latent S_TestSpec S_Minimize S_Device S_DeviceR S_Env S_Sim S_Shape S_Total S_Reading S_CookEnv S_History S_HistoryR S_Search
  L_Base L_Nd L_Minimize L_Rising L_Device L_Device2 L_DeviceR L_Env L_Env2 L_Env3 L_CookEnv L_Shape L_Total L_Total2 L_Reading L_History L_HistoryR.
Open Scope R_scope.

(** ** Numbers *)
Lemma ln10_le : ln 10 <= 24 / 10.
Proof.
  assert (A : 10 <= exp (24 / 10)).
  { replace (24 / 10) with (INR 48 * (/ 20)) by (cbn; lra).
    assert (B : forall n, (21 / 20) ^ n <= exp (INR n * / 20)).
    { induction n as [|n IH]; [cbn; rewrite Rmult_0_l, exp_0; lra|]. rewrite S_INR, Rmult_plus_distr_r, exp_plus. cbn [pow].
      rewrite (Rmult_comm (21 / 20)). apply Rmult_le_compat; try lra.
      - apply Rfunctions.pow_le. lra.
      - pose proof (exp_ineq1_le (1 * / 20)). lra. }
    eapply Rle_trans; [|apply (B 48%nat)]. cbn [pow]. lra. }
  rewrite <- (ln_exp (24 / 10)). destruct A as [A|A]; [left; apply ln_increasing; lra|rewrite <- A; lra].
Qed.

Lemma exp_small z : 0 <= z <= / 1000 -> exp z <= 1 + z + 2 * z * z.
Proof.
  intros [A B]. assert (P := exp_ineq1_le (- z)). rewrite exp_Ropp in P. assert (E := exp_pos z).
  assert (Q : (1 - z) * exp z <= 1).
  { apply (Rmult_le_compat_r (exp z)) in P; [|lra]. rewrite Rinv_l in P by lra. lra. }
  assert (1 <= (1 - z) * (1 + z + 2 * z * z)).
  { replace ((1 - z) * (1 + z + 2 * z * z)) with (1 + z * z * (1 - 2 * z)) by ring.
    assert (0 <= z * z * (1 - 2 * z)) by (apply Rmult_le_pos; [now apply Rmult_le_pos|lra]). lra. }
  apply Rmult_le_reg_l with (1 - z); lra.
Qed.

Lemma pow10_small : Rpower 10 (8 / 1000000) <= 1 + rel_error /\ 1 - rel_error <= Rpower 10 (- (8 / 1000000)).
Proof.
  assert (L := ln10_le). assert (P := ln10_p). unfold Rpower, rel_error. split.
  - assert (Q := exp_small (8 / 1000000 * ln 10) ltac:(lra)).
    assert (8 / 1000000 * ln 10 * (8 / 1000000 * ln 10) <= 192 / 10000000 * (192 / 10000000)) by (apply Rmult_le_compat; lra). lra.
  - assert (Q := exp_ineq1_le (- (8 / 1000000) * ln 10)). lra.
Qed.

Lemma close_rel y T : 0 < y -> / 1000 <= T <= 10000000000 ->
  Rabs (ln y / ln 10 - ln T / ln 10) < 2 * (sqrt mach_64bit_eps * Rabs (ln y / ln 10) + / 300000) ->
  (1 - rel_error) * T <= y <= (1 + rel_error) * T.
Proof.
  intros Py HT A. assert (M := mach_small). assert (B := log_bounds T HT). set (a := ln y / ln 10) in *. set (b := ln T / ln 10) in *.
  assert (Hb : Rabs b <= 10) by (apply Rabs_le; lra).
  assert (Ha : Rabs a <= Rabs (a - b) + Rabs b) by (replace a with (a - b + b) at 1 by ring; apply Rabs_triang).
  assert (Ra := Rabs_pos a).
  assert (C : sqrt mach_64bit_eps * Rabs a <= 2 / 100000000 * Rabs a) by (apply Rmult_le_compat_r; lra).
  assert (D : Rabs (a - b) < 8 / 1000000) by lra.
  apply close_factor in D; [|lra..]. destruct pow10_small as [P1 P2].
  assert (T * Rpower 10 (8 / 1000000) <= T * (1 + rel_error)) by (apply Rmult_le_compat_l; lra).
  assert (T * (1 - rel_error) <= T * Rpower 10 (- (8 / 1000000))) by (apply Rmult_le_compat_l; lra). lra.
Qed.

Lemma fresh_small y : 0 < y -> ln y / ln 10 < -3 + 2 * (sqrt mach_64bit_eps * Rabs (ln y / ln 10) + / 300000) -> y <= abs_error.
Proof.
  intros Py A. assert (M := mach_small). assert (P := ln10_p). assert (L := ln10_le). set (a := ln y / ln 10) in *.
  assert (Ra := Rabs_pos a).
  assert (C : sqrt mach_64bit_eps * Rabs a <= 2 / 100000000 * Rabs a) by (apply Rmult_le_compat_r; lra).
  assert (D : a < -3 + / 10000). { unfold Rabs in *. destruct (Rcase_abs a); lra. }
  assert (Ey : y = exp (ln y)) by (symmetry; now apply exp_ln).
  assert (El : ln y = a * ln 10) by (unfold a; field; lra).
  assert (E3 : ln (/ 1000) = -3 * ln 10).
  { rewrite ln_Rinv by lra. replace 1000 with (10 ^ 3) by ring. rewrite ln_pow by lra. cbn [INR]. ring. }
  assert (E : ln y <= ln (/ 1000) + / 10000 * ln 10).
  { rewrite El, E3. assert (a * ln 10 < (-3 + / 10000) * ln 10) by (apply Rmult_lt_compat_r; lra). lra. }
  rewrite Ey. apply Rle_trans with (exp (ln (/ 1000) + / 10000 * ln 10)).
  { destruct E as [E|E]; [left; now apply exp_increasing|rewrite E; lra]. }
  rewrite exp_plus, exp_ln by lra. assert (Q := exp_small (/ 10000 * ln 10) ltac:(lra)). unfold abs_error.
  assert (/ 10000 * ln 10 * (/ 10000 * ln 10) <= 24 / 100000 * (24 / 100000)) by (apply Rmult_le_compat; lra). lra.
Qed.

(** ** Fresh devices *)
Lemma residue_rising (P : R -> Prop) g : strictly_monotone (fun t => 0 <= t) g -> (forall x, P x -> 0 <= x) ->
  rising P (fun t => Rabs (g 0 - g t)).
Proof.
  intros Mo HP x y Px Py L. assert (Hx := HP x Px). assert (Hy := HP y Py).
  destruct Mo as [Mo|Mo].
  - assert (A := Mo x y Hx Hy L). assert (B : g 0 <= g x) by (destruct Hx as [Hx|<-]; [left; apply Mo; lra|lra]).
    rewrite !Rabs_left1; lra.
  - assert (A := Mo x y Hx Hy L). assert (B : g x <= g 0) by (destruct Hx as [Hx|<-]; [left; apply Mo; lra|lra]).
    rewrite !Rabs_pos_eq; lra.
Qed.

Lemma lim_low : lim true (/ 1000) = -3.
Proof.
  unfold lim. cbn [nlog10 ROps]. assert (P := ln10_p). rewrite ln_Rinv by lra. replace 1000 with (10 ^ 3) by ring. rewrite ln_pow by lra.
  cbn [INR]. field. lra.
Qed.

Lemma equiv_time_fresh (m : mech R) conds lats (g : nat -> R -> R) s vs L C D w :
  mc_kind m = KDeg -> s <> [] -> length vs = prod s ->
  (forall i, (i < prod s)%nat -> strictly_monotone (fun t => 0 <= t) (g i) /\ nth_error vs i = Some (g i 0)) ->
  (forall ts w, length ts = prod s -> (forall t, In t ts -> 0 < t) ->
     exists fs w', call_or_loop (lm_eqn (mc_mdl m)) (mech_args m (PArr (Nd s ts)) conds lats) L C D w
                   = (Ok (PArr (Nd s fs)), w') /\ length fs = prod s /\
       forall i t, nth_error ts i = Some t -> nth_error fs i = Some (g i t)) ->
  exists r w' ys,
    minimize_run (equiv_obj m (PArr (Nd s vs)) (Nd s vs) conds lats L C D) (prod s) (/ 1000) 10000000000 (/ 100000) mach_64bit_eps 50 true w = (Ok r, w') /\
    mech_equiv_time m (PArr (Nd s vs)) conds lats L C D w = (Ok (PArr (Nd s ys)), w') /\ length ys = prod s /\
    (mr_conv r = true -> forall i y, nth_error ys i = Some y -> 0 < y <= abs_error).
Proof.
  intros K Ne Lv Law F.
  destruct (minimize_rising (equiv_obj m (PArr (Nd s vs)) (Nd s vs) conds lats L C D) (prod s)
    (fun i t => Rabs (g i 0 - g i t)) (/ 1000) 10000000000 (/ 100000) mach_64bit_eps 50 w)
    as (r & w' & ys & E1 & E2 & Ly & A); try lra.
  - intros i Hi. destruct (Law i Hi) as (Mo & _). apply residue_rising; auto. intros; lra.
  - intros xs w0 Lx Px. destruct (F xs w0 Lx Px) as (fs & w1 & E & Lf & G).
    exists (map (fun xy => Rabs (fst xy - snd xy)) (List.combine vs fs)), w1. split; [|split].
    + now apply (obj_ok m conds lats (PArr (Nd s vs)) s vs xs fs L C D w0 w1).
    + rewrite map_length, combine_length, Lv, Lf. apply Nat.min_id.
    + intros i x Hx. assert (Hi : (i < prod s)%nat) by (rewrite <- Lx; apply nth_error_Some; congruence).
      destruct (Law i Hi) as (_ & Ev). rewrite (nth_error_map_combine _ vs fs i _ _ Ev (G i x Hx)). reflexivity.
  - exists r, w', ys. split; [exact E1|]. split; [|split; [exact Ly|]].
    + rewrite equiv_time_eq by auto. rewrite Lv. erewrite bind_eval by exact E2. reflexivity.
    + intros Cv i y Hy. destruct (A Cv i y Hy) as (Py & _ & Hi). split; auto. apply fresh_small; auto.
      rewrite lim_low in Hi. unfold lim in Hi. cbn [nlog10 ROps] in Hi. replace (/ 300000) with (/ 100000 / 3) by lra. exact Hi.
Qed.

(** ** Searches of a history *)
Section L.
Context `{Rng R} `{HashOrd}.
Variables (s : scene R) (base : dict R) (f : formula R) (u : tunit).
Hypothesis Env : sc_env s = [].
Hypothesis K : mc_kind (sc_mech s) = KDeg.
Hypothesis U : unit_map (mc_unit (sc_mech s)) = Some u.
Hypothesis F : given_by (lm_eqn (mc_mdl (sc_mech s))) f.
Hypothesis Nb : dget base "time" = None.
Hypothesis W : dwf base.
Hypothesis Pg : progresses f s base.
Notation sh := [sc_lots s; sc_chps s; sc_num s].
Notation idx i := (nth i (indices sh) []).

Lemma idx_valid i : (i < prod sh)%nat -> valid sh (idx i) /\ flat sh (idx i) = i.
Proof.
  intros Hi. assert (E : nth_error (indices sh) i = Some (idx i)) by (apply nth_error_nth'; now rewrite length_indices).
  split; [apply In_indices; eapply nth_error_In; eauto|].
  assert (Q := nth_error_seq 0 (prod sh) i Hi). rewrite <- flat_indices, nth_error_map, E in Q. cbn [option_map] in Q. now injection Q.
Qed.

Lemma everywhere_idx (P : list nat -> Prop) : everywhere s P -> forall i, (i < prod sh)%nat -> P (idx i).
Proof.
  intros E i Hi. destruct (idx_valid i Hi) as [V _]. apply valid3_inv in V as (l & c & d & -> & Hl & Hc & Hd). now apply E.
Qed.

(** The time is an argument of the equation. *)
Lemma time_used i : (i < prod sh)%nat -> In "time"%string (fnames f) /\ dget (sc_lats s) "time" = None.
Proof.
  intros Hi. destruct (everywhere_idx _ Pg i Hi) as [_ Mo].
  assert (G : forall t t', (In "time"%string (fnames f) -> dget (sc_lats s) "time" <> None) -> device_law f s base (idx i) t = device_law f s base (idx i) t').
  { intros t t' N. apply feval_ext. intros x Hx. destruct (dget (sc_lats s) x) eqn:E; auto. destruct (dget base x); auto.
    destruct (String.eqb_spec x "time") as [->|]; auto. destruct (N Hx E). }
  assert (Ne : device_law f s base (idx i) 0 <> device_law f s base (idx i) 1).
  { destruct Mo as [Mo|Mo]; specialize (Mo 0 1 ltac:(lra) ltac:(lra) ltac:(lra)); intros E; rewrite E in Mo; lra. }
  destruct (in_dec string_dec "time"%string (fnames f)) as [Ht|Ht]; [|destruct Ne; apply G; intros; contradiction].
  destruct (dget (sc_lats s) "time") eqn:E; [destruct Ne; apply G; congruence|auto].
Qed.

(** What the equation returns for further times. *)
Lemma law_arrays cs t args y w0 w1 q : (0 < prod sh)%nat -> dget (sc_counts s) (sc_name s) = Some (sc_num s) -> dget (sc_dev s) (sc_name s) = Some q ->
  produced s base cs -> law_args s cs t args -> operands (sc_lots s) (sc_chps s) (sc_num s) args ->
  call_or_loop (lm_eqn (mc_mdl (sc_mech s))) args (sc_lots s) (sc_chps s) (sc_num s) w0 = (Ok y, w1) ->
  forall ts w, length ts = prod sh -> exists fs w',
    call_or_loop (lm_eqn (mc_mdl (sc_mech s))) (mech_args (sc_mech s) (PArr (Nd sh ts)) cs (sc_lats s)) (sc_lots s) (sc_chps s) (sc_num s) w
      = (Ok (PArr (Nd sh fs)), w') /\ length fs = prod sh /\
    forall i t, nth_error ts i = Some t -> nth_error fs i = Some (device_law f s base (idx i) t).
Proof.
  intros Ps Hn Hq Pr (Wa0 & La0) Oa0 Ey ts w Lt. destruct (time_used 0 Ps) as [Ht Nl].
  assert (Nc : dget cs "time" = None).
  { destruct (dget cs "time") as [p|] eqn:Ep; auto. destruct (produced_exact s base Env W cs q Hn Hq Pr _ _ Ep) as (c & Q & _). congruence. }
  set (a2 := mech_args (sc_mech s) (PArr (Nd sh ts)) cs (sc_lats s)).
  assert (La : law_args s cs (Nd sh ts) a2) by apply law_args_mech.
  assert (St : shaped (sc_lots s) (sc_chps s) (sc_num s) (PArr (Nd sh ts))).
  { eexists. split; [reflexivity|]. cbn [nshape ndata]. rewrite Lt, prod3. auto. }
  assert (Oa : operands (sc_lots s) (sc_chps s) (sc_num s) a2).
  { intros x p Hx. apply dget_wf_In in Hx; [|apply La]. rewrite (proj2 La) in Hx. pose proof (La0 x) as Q.
    destruct (if smem x _ then _ else _) as [p0|].
    - injection Hx as ->. apply dget_In in Q. eapply Oa0; eauto.
    - destruct (String.eqb x "time"); [|discriminate]. injection Hx as <-. now right. }
  assert (Ac : accepts (lm_eqn (mc_mdl (sc_mech s))) (dkeys a2)).
  { split.
    - intros x Hx. assert (Dm := called_with _ _ _ _ _ _ _ _ Ey x Hx). unfold dmem in Dm. rewrite La0 in Dm.
      destruct (dget a2 x) as [p|] eqn:E; [apply dget_In in E; apply in_map_iff; exists (x, p); auto|].
      rewrite (proj2 La) in E. destruct (if smem x _ then _ else _); [discriminate|]. destruct (String.eqb x "time"); [discriminate|]. discriminate Dm.
    - intros Ek x Hx. destruct (dget a2 x) as [p|] eqn:E; [|apply dget_None_keys in E; contradiction].
      rewrite (proj2 La) in E. destruct (smem x _) eqn:Sm.
      + apply smem_In in Sm. unfold compute_args in Sm. rewrite Ek, app_nil_r in Sm. now apply in_app_or in Sm.
      + destruct (String.eqb_spec x "time") as [->|]; [|discriminate]. left. now apply F. }
  destruct (computes_now _ (formula_computes _ _ F) _ _ _ a2 w (proj1 La) Oa Ac) as (z & w' & E).
  pose proof (law_value s base f Env F Nb W cs (Nd sh ts) a2 z w w' q Hn Hq Pr La Oa E) as G.
  assert (Sy : shaped (sc_lots s) (sc_chps s) (sc_num s) z).
  { pose proof E as E0. apply try_ok in E as [E|(w2 & _ & E)]; [|eapply loop_shape; eauto]. apply (formula_respects _ _ F _ _ _ a2 w z w' (proj1 La) Oa E).
    exists "time"%string, (Nd sh ts). apply dget_In. rewrite (proj2 La). cbn [first_of]. rewrite Nl, Nc. now destruct (smem _ _). }
  destruct Sy as ([sh' data] & -> & S1 & S2). cbn [nshape ndata] in S1, S2. subst sh'. rewrite <- prod3 in S2.
  exists data, w'. split; [exact E|]. split; [exact S2|]. intros i ti Hi.
  assert (Hlt : (i < prod sh)%nat) by (rewrite <- Lt; apply nth_error_Some; congruence).
  destruct (idx_valid i Hlt) as [Vi Fi]. assert (Gi := everywhere_idx _ G i Hlt). cbv beta in Gi. cbn [elem] in Gi.
  assert (D1 := ndata_aget (Nd sh data) (idx i) S2 Vi). assert (D2 := ndata_aget (Nd sh ts) (idx i) Lt Vi).
  cbn [nshape ndata] in D1, D2. rewrite Fi in D1, D2. rewrite D1. rewrite Hi in D2. injection D2 as ->. now rewrite Gi.
Qed.

(** One search. *)
Lemma search_accurate cs dur v t x q T : dget (sc_counts s) (sc_name s) = Some (sc_num s) -> dget (sc_dev s) (sc_name s) = Some q ->
  produced s base cs -> advanced s cs dur v t x -> settles s base v ->
  everywhere s (fun i => aget v i = device_law f s base i (T i)) ->
  (everywhere s (fun i => T i = 0) \/ everywhere s (fun i => / 1000 <= T i <= 10000000000)) ->
  everywhere s (fun i => (1 - rel_error) * T i - abs_error <= aget t i <= (1 + rel_error) * T i + abs_error).
Proof.
  intros Hn Hq Pr ((V1 & V2) & (T1 & T2) & _ & Ht & (u' & t' & args & y & w & w' & _ & _ & _ & La & Ey & Oa & _)) Se Hv HT.
  intros l c d Hl Hc Hd.
  assert (Vd : valid sh [l; c; d]) by now apply valid3.
  assert (Hp : (0 < prod sh)%nat) by (pose proof (flat_lt _ _ Vd); lia).
  pose proof (law_arrays cs t' args y w w' q Hp Hn Hq Pr La Oa Ey) as Law.
  rewrite K in Ht. destruct Ht as (w1 & w1' & Ht). destruct v as [sv vs]. destruct t as [st ts].
  cbn [nshape ndata] in V1, V2, T1, T2. subst sv st. rewrite <- prod3 in V2, T2.
  assert (Ev : forall i, (i < prod sh)%nat -> nth_error vs i = Some (device_law f s base (idx i) (T (idx i)))).
  { intros i Hi. destruct (idx_valid i Hi) as [Vi Fi]. assert (D := ndata_aget (Nd sh vs) (idx i) V2 Vi). cbn [nshape ndata] in D. rewrite Fi in D.
    rewrite D. f_equal. exact (everywhere_idx _ Hv i Hi). }
  set (i := flat sh [l; c; d]). assert (Hi : (i < prod sh)%nat) by now apply flat_lt.
  assert (Ei : idx i = [l; c; d]) by (apply nth_error_nth; now apply nth_error_indices).
  assert (Et : nth_error ts i = Some (aget (Nd sh ts) [l; c; d])) by (exact (ndata_aget (Nd sh ts) [l; c; d] T2 Vd)).
  assert (Ne : sh <> []) by discriminate.
  assert (Pe : 0 < rel_error /\ 0 < abs_error) by (unfold rel_error, abs_error; lra).
  destruct HT as [HT|HT].
  - destruct (equiv_time_fresh (sc_mech s) cs (sc_lats s) (fun i => device_law f s base (idx i)) sh vs (sc_lots s) (sc_chps s) (sc_num s) w1 K Ne V2)
      as (r & w2 & ys & E1 & E2 & Ly & A).
    + intros j Hj. split; [apply (everywhere_idx _ Pg j Hj)|]. rewrite (Ev j Hj). f_equal. f_equal. exact (everywhere_idx _ HT j Hj).
    + intros zs w0 Lz _. now apply Law.
    + rewrite E2 in Ht. injection Ht as <- _. rewrite <- V2 in E1. pose proof (Se _ _ _ _ Pr E1) as Cv.
      specialize (A Cv i _ Et). rewrite (HT l c d Hl Hc Hd). lra.
  - destruct (equiv_time_inverts_vec (sc_mech s) cs (sc_lats s) (fun i => device_law f s base (idx i)) (fun i => T (idx i)) sh vs (sc_lots s) (sc_chps s) (sc_num s) w1 K Ne V2)
      as (r & w2 & ys & E1 & E2 & Ly & A).
    + intros j Hj. split; [|split; [exact (everywhere_idx _ HT j Hj)|exact (Ev j Hj)]].
      destruct (everywhere_idx _ Pg j Hj) as [_ [Mo|Mo]]; [left|right]; intros a b Ha Hb; apply Mo; lra.
    + intros zs w0 Lz _. now apply Law.
    + pose proof (equiv_positive _ (Nd sh vs) _ _ _ _ _ _ _ _ K Ne Ht) as Pos. cbn [ndata] in Pos.
      rewrite E2 in Ht. injection Ht as <- _. rewrite <- V2 in E1. pose proof (Se _ _ _ _ Pr E1) as Cv.
      specialize (A Cv i _ Et). rewrite Ei in A. specialize (HT l c d Hl Hc Hd). cbv beta in HT.
      assert (Py := Pos _ (nth_error_In _ _ Et)). apply close_rel in A; lra.
Qed.

(** All searches of a history. *)
Lemma history_accurate q l v found x :
  dget (sc_counts s) (sc_name s) = Some (sc_num s) -> dget (sc_dev s) (sc_name s) = Some q ->
  (forall k, In (SStrs k) l -> ss_conds k = base /\ / 1000 <= td_num u (ss_dur k)) ->
  history s l v found x -> (forall v t, In (v, t) found -> settles s base v) ->
  forall T : list nat -> R,
  everywhere s (fun i => aget v i = device_law f s base i (T i) /\ 0 <= T i /\
    (1 + rel_error) ^ length found * (T i + total (stress_times u l) + INR (length found) * abs_error) <= 9000000000) ->
  (everywhere s (fun i => T i = 0) \/ everywhere s (fun i => / 1000 <= T i)) ->
  accurate f s base rel_error abs_error found.
Proof.
  intros Hn Hq Hk Hi. assert (Pe : 0 < rel_error <= 1 /\ 0 < abs_error) by (unfold rel_error, abs_error; lra).
  set (eps := rel_error) in *. set (del := abs_error) in *.
  induction Hi as [v Fv|m l v found x Hi IH|o l v found x Hi IH|k l v t v1 cs found x Pr Ad Hi IH]; intros Se T HT Hz.
  - intros v' t' [].
  - apply (IH ltac:(intros; apply Hk; now right) Se T); auto.
  - apply (IH ltac:(intros; apply Hk; now right) Se T); auto.
  - destruct (Hk k (or_introl eq_refl)) as [Eb Hdk]. rewrite Eb in Pr.
    pose proof (advanced_law s base f u Env K U F Nb W _ _ _ _ _ _ Hn Hq Pr Ad) as Al.
    set (dk := td_num u (ss_dur k)) in *.
    assert (Hk' : forall k0, In (SStrs k0) l -> ss_conds k0 = base /\ / 1000 <= td_num u (ss_dur k0)) by (intros; apply Hk; now right).
    assert (Tn : 0 <= total (stress_times u l)).
    { apply total_nn. intros y Hy. unfold stress_times in Hy. apply in_flat_map in Hy as (z & Hin & Hy). destruct z as [?|z|?]; try (destruct Hy; fail).
      destruct Hy as [<-|[]]. destruct (Hk' z Hin) as [_ B]. lra. }
    change (stress_times u (SStrs k :: l)) with (dk :: stress_times u l) in HT. cbn [total fold_right length pow] in HT.
    fold (total (stress_times u l)) in HT. rewrite S_INR in HT. set (tot := total (stress_times u l)) in *. set (n := length found) in *.
    assert (P1 : 1 <= (1 + eps) ^ n) by (apply pow_R1_Rle; lra).
    assert (Pn : 0 <= INR n) by apply pos_INR. assert (Nd0 : 0 <= INR n * del) by (apply Rmult_le_pos; lra).
    assert (Bd : everywhere s (fun i => T i <= 9000000000)).
    { intros a b c Ha Hb Hc. destruct (HT a b c Ha Hb Hc) as (_ & P & B). eapply Rle_trans; [|exact B].
      rewrite <- (Rmult_1_l (T [a; b; c])) at 1. apply Rmult_le_compat; try lra.
      assert (1 * 1 <= (1 + eps) * (1 + eps) ^ n) by (apply Rmult_le_compat; lra). lra. }
    assert (Ac1 : everywhere s (fun i => (1 - eps) * T i - del <= aget t i <= (1 + eps) * T i + del)).
    { apply (search_accurate cs (ss_dur k) v t v1 q T Hn Hq Pr Ad).
      - apply (Se v t). now left.
      - intros a b c Ha Hb Hc. now apply HT.
      - destruct Hz as [Hz|Hz]; [now left|right]. intros a b c Ha Hb Hc. specialize (Hz a b c Ha Hb Hc). specialize (Bd a b c Ha Hb Hc). cbv beta in Hz, Bd. lra. }
    set (T' := fun i => aget t i + dk).
    assert (Key : everywhere s (fun i => 0 < aget t i /\ T' i <= (1 + eps) * T i + del + dk /\
      (1 + eps) ^ n * (T' i + tot + INR n * del) <= (1 + eps) * (1 + eps) ^ n * (T i + (dk + tot) + (INR n + 1) * del))).
    { intros a b c Ha Hb Hc. destruct (HT a b c Ha Hb Hc) as (E & P & B). destruct (Al a b c Ha Hb Hc) as (Pt & _).
      pose proof (Ac1 a b c Ha Hb Hc) as A. cbv beta in A. split; auto. unfold T'. split; [lra|].
      rewrite (Rmult_comm (1 + eps)), Rmult_assoc. apply Rmult_le_compat_l; [lra|].
      assert (0 <= eps * (dk + tot + (INR n + 1) * del)) by (apply Rmult_le_pos; [lra|]; rewrite Rmult_plus_distr_r; lra). lra. }
    assert (Rest : accurate f s base eps del found).
    { apply (IH Hk' (fun v0 t0 Hin => Se v0 t0 (or_intror Hin)) T').
      - intros a b c Ha Hb Hc. destruct (HT a b c Ha Hb Hc) as (E & P & B). destruct (Al a b c Ha Hb Hc) as (Pt & Al1 & _). destruct (Key a b c Ha Hb Hc) as (_ & K2 & K3).
        assert (Q : T' [a; b; c] <= 9000000000).
        { eapply Rle_trans; [|exact B]. eapply Rle_trans; [|exact K3]. rewrite <- (Rmult_1_l (T' _)) at 1.
          apply Rmult_le_compat; unfold T'; try lra. }
        split; [apply Al1; exact Q|]. split; [unfold T'; lra|]. lra.
      - right. intros a b c Ha Hb Hc. destruct (Key a b c Ha Hb Hc) as (Pt & _). unfold T'. lra. }
    intros v' t' [Q|Hin]; [|now apply Rest]. injection Q as <- <-.
    intros a b c Ha Hb Hc tau Ptau Etau. destruct (HT a b c Ha Hb Hc) as (E & P & _). rewrite Etau in E.
    destruct (Pg a b c Ha Hb Hc) as [_ Mo].
    assert (tau = T [a; b; c]) as ->; [|now apply Ac1].
    destruct (Rtotal_order tau (T [a; b; c])) as [Lt|[Eq|Gt]]; auto; exfalso.
    + destruct Mo as [Mo|Mo]; specialize (Mo _ _ Ptau P Lt); rewrite E in Mo; lra.
    + destruct Mo as [Mo|Mo]; specialize (Mo _ _ P Ptau Gt); rewrite E in Mo; lra.
Qed.
End L.
