(** Total stress time over the reals. *)
From Coq Require Import Reals QArith Qreals Lra.
From Flocq Require Import Core.
From Verif Require Import M_Base M_Num M_NumR M_Nd M_RandVar M_Latent M_Time M_TestSpec M_Minimize M_Device M_Report M_Env M_Sim
  S_Latent S_TestSpec S_Minimize S_Device S_DeviceR S_Env S_Sim S_Shape S_Total S_Reading S_CookEnv S_History S_HistoryR
  L_Base L_Nd L_Minimize L_Device L_Device2 L_DeviceR L_Env L_Env2 L_Env3 L_CookEnv L_Shape L_Total L_Total2 L_Reading L_History.
Open Scope R_scope.

Section L.
Context `{Rng R} `{HashOrd}.

Lemma In_aget (a : nd R) L C n l c d : nshape a = [L; C; n] -> length (ndata a) = (L * C * n)%nat -> (l < L -> c < C -> d < n ->
  In (aget a [l; c; d]) (ndata a))%nat.
Proof.
  intros A1 A2 Hl Hc Hd. eapply nth_error_In, ndata_aget; [unfold awf; rewrite A1, A2, prod3; reflexivity|]. rewrite A1. now apply valid3.
Qed.

(** Equivalent times are positive. *)
Lemma equiv_positive (m : mech R) v conds lats L C D w t w' : mc_kind m = KDeg -> nshape v <> [] ->
  mech_equiv_time m (PArr v) conds lats L C D w = (Ok (PArr t), w') -> forall y, In y (ndata t) -> 0 < y.
Proof.
  intros K Ns E y Hy. destruct v as [s vs]. cbn [nshape] in Ns. rewrite equiv_time_eq in E by auto.
  apply bind_ok in E as (xs & w1 & E & E2). apply ret_ok in E2 as [E2 _]. injection E2 as ->. cbn [ndata] in Hy.
  pose proof E as E0. unfold minimize in E. apply bind_ok in E as (r & w2 & E & Er). apply ret_ok in Er as [-> ->].
  pose proof (fun P => minimize_best _ _ _ _ _ _ _ _ _ _ _ P E) as G. destruct G as (ys & G1 & G2 & G3); [lra|].
  rewrite E0 in G1. injection G1 as <-. apply In_nth_error in Hy as [i Hi].
  destruct (G3 _ _ Hi) as (us0 & fus0 & u0 & f0 & _ & _ & _ & -> & _). unfold to_point. cbn [npow10 ROps].
  apply exp_pos.
Qed.

Lemma called_with (g : eqn R) args L C n w v w' : call_or_loop g args L C n w = (Ok v, w') -> forall x, In x (e_req g) -> dmem args x = true.
Proof.
  intros E. assert (Fb : forallb (dmem args) (e_req g) = true); [|now rewrite forallb_forall in Fb].
  apply try_ok in E as [E|(w1 & E & _)]; unfold call in E; destruct (forallb (dmem args) (e_req g)); auto; cbn [andb] in E; discriminate E.
Qed.

Section Law.
Variables (s : scene R) (base : dict R) (f : formula R) (u : tunit).
Hypothesis Env : sc_env s = [].
Hypothesis K : mc_kind (sc_mech s) = KDeg.
Hypothesis U : unit_map (mc_unit (sc_mech s)) = Some u.
Hypothesis F : given_by (lm_eqn (mc_mdl (sc_mech s))) f.
Hypothesis Nb : dget base "time" = None.
Hypothesis W : dwf base.

Lemma produced_exact cs q : dget (sc_counts s) (sc_name s) = Some (sc_num s) -> dget (sc_dev s) (sc_name s) = Some q ->
  produced s base cs -> forall x p, dget cs x = Some p -> exists c, dget base x = Some c /\ everywhere s (fun i => elem p i = c).
Proof.
  intros Hn Hq (all & w & w' & E & Hcs) x p Hx. rewrite Env in E.
  pose proof (env_conds_ok _ _ _ _ _ _ _ _ _ _ _ W E) as (_ & _ & G). specialize (G _ _ Hcs). cbn [dev_prm] in G. rewrite Hq in G.
  assert (Kx : In x (dkeys base)) by (apply G; unfold dmem; now rewrite Hx).
  destruct (dget base x) as [c|] eqn:Eb; [|apply dget_None_keys in Eb; contradiction]. exists c. split; auto.
  destruct (ideal_exact _ _ _ _ _ _ _ _ _ _ W E _ _ _ _ _ Hcs Hx Eb) as (n & a & -> & A1 & A2 & A3 & A4).
  cbn [dev_prm] in A2. rewrite Hq in A2. cbn [ti_lots ti_chps request_count] in A1, A2. rewrite A2 in A3.
  cbn [ti_counts] in A1. rewrite Hn in A1. injection A1 as <-.
  intros l c' d Hl Hc Hd. cbn [elem]. rewrite (A4 (aget a [l; c'; d])); [cbn [nadd n0 ROps]; unfold n0; cbn; lra|].
  eapply In_aget; eauto. rewrite A3, prod3. reflexivity.
Qed.

Lemma law_value cs t args y w w' q : dget (sc_counts s) (sc_name s) = Some (sc_num s) -> dget (sc_dev s) (sc_name s) = Some q ->
  produced s base cs -> law_args s cs t args -> operands (sc_lots s) (sc_chps s) (sc_num s) args ->
  call_or_loop (lm_eqn (mc_mdl (sc_mech s))) args (sc_lots s) (sc_chps s) (sc_num s) w = (Ok y, w') ->
  everywhere s (fun i => elem y i = device_law f s base i (aget t i)).
Proof.
  intros Hn Hq Pr (Wa & La) Oa Ey l c d Hl Hc Hd. pose proof (produced_exact cs q Hn Hq Pr) as Ec.
  pose proof (formula_elem _ _ _ _ _ _ _ _ _ l c d F Wa Oa Hl Hc Hd Ey) as Ef. rewrite Ef. unfold device_law. apply feval_ext.
  intros z Hz. unfold at_idx. assert (Rq : forall z, In z (fnames f) -> In z (e_req (lm_eqn (mc_mdl (sc_mech s))))) by (intros; now apply F).
  assert (Dm := called_with _ _ _ _ _ _ _ _ Ey z (Rq z Hz)). unfold dmem in Dm. rewrite La in Dm |- *.
  assert (Sm : smem z (compute_args (lm_eqn (mc_mdl (sc_mech s)))) = true) by (apply smem_In, in_or_app; left; now apply Rq).
  rewrite Sm in Dm |- *. cbn [first_of] in Dm |- *. destruct (dget (sc_lats s) z) as [p|]; [reflexivity|]. destruct (dget cs z) as [p|] eqn:Ez.
  - destruct (Ec _ _ Ez) as (c0 & -> & E0). apply E0; auto.
  - destruct (String.eqb_spec z "time") as [->|Nz]; [rewrite Nb; reflexivity|].
    destruct (dget base z) as [c0|] eqn:Eb; [|reflexivity]. discriminate Dm.
Qed.

(** A single device: the equation returns the law at the given time. *)
Lemma law_one cs q : dget (sc_counts s) (sc_name s) = Some (sc_num s) -> dget (sc_dev s) (sc_name s) = Some q -> produced s base cs ->
  sc_lots s = 1%nat -> sc_chps s = 1%nat -> sc_num s = 1%nat ->
  operands 1 1 1 (sc_lats s) -> operands 1 1 1 cs -> In "time"%string (fnames f) -> dget (sc_lats s) "time" = None ->
  (forall x, In x (fnames f) -> x = "time"%string \/ In x (dkeys (sc_lats s)) \/ In x (dkeys cs)) ->
  forall t w, exists w', call_or_loop (lm_eqn (mc_mdl (sc_mech s))) (mech_args (sc_mech s) (PArr (Nd [1; 1; 1] [t])%nat) cs (sc_lats s)) 1 1 1 w
    = (Ok (PArr (Nd [1; 1; 1] [device_law f s base [0; 0; 0] t])%nat), w').
Proof.
  intros Hn Hq Pr L1 C1 N1 Ol Oc Ht Nl Hx t w.
  assert (St : shaped 1 1 1 (PArr (Nd [1; 1; 1]%nat [t]))) by (eexists; split; [reflexivity|split; reflexivity]).
  set (args := mech_args (sc_mech s) (PArr (Nd [1; 1; 1]%nat [t])) cs (sc_lats s)).
  assert (Oa : operands 1 1 1 args) by (apply mech_args_operands; auto; now right).
  assert (La : law_args s cs (Nd [1; 1; 1]%nat [t]) args) by apply law_args_mech.
  assert (Ac : accepts (lm_eqn (mc_mdl (sc_mech s))) (dkeys args)).
  { apply gather_accepts; cbn [dkeys map fst].
    - intros x Hr. apply F in Hr. destruct (Hx x Hr) as [->|[Q|Q]]; [left; now left|right; exists (sc_lats s)|right; exists cs]; cbn; auto.
    - intros _ x [<-|[]]. left. now apply F. }
  destruct (computes_now _ (formula_computes _ _ F) _ _ _ args w (proj1 La) Oa Ac) as (y & w' & E).
  pose proof (law_value cs (Nd [1; 1; 1]%nat [t]) args y w w' q Hn Hq Pr La) as G. rewrite L1, C1, N1 in G. specialize (G Oa E).
  unfold everywhere in G. rewrite L1, C1, N1 in G. specialize (G 0%nat 0%nat 0%nat ltac:(lia) ltac:(lia) ltac:(lia)).
  change (aget (Nd [1; 1; 1]%nat [t]) [0; 0; 0]%nat) with t in G.
  assert (Sy : shaped 1 1 1 y).
  { apply try_ok in E as [E|(w1 & _ & E)]; [|eapply loop_shape; eauto]. eapply (formula_respects _ _ F); eauto; [apply La|].
    exists "time"%string, (Nd [1; 1; 1]%nat [t]). apply dget_In. rewrite (proj2 La). cbn [first_of]. rewrite Nl.
    assert (dget cs "time" = None) as ->.
    { destruct (dget cs "time") as [p|] eqn:Ep; auto. destruct (produced_exact cs q Hn Hq Pr _ _ Ep) as (c & Q & _). congruence. }
    now destruct (smem _ _). }
  destruct Sy as ([sh data] & -> & S1 & S2). cbn [nshape ndata] in S1, S2. subst sh. destruct data as [|z [|]]; try discriminate.
  exists w'. rewrite E. cbn [elem] in G. change (aget (Nd [1; 1; 1]%nat [z]) [0; 0; 0]%nat) with z in G. now rewrite G.
Qed.

Lemma advanced_law cs dur v t x q : dget (sc_counts s) (sc_name s) = Some (sc_num s) -> dget (sc_dev s) (sc_name s) = Some q ->
  produced s base cs -> advanced s cs dur v t x ->
  everywhere s (fun i => 0 < aget t i /\
    (aget t i + td_num u dur <= 9000000000 -> aget x i = device_law f s base i (aget t i + td_num u dur)) /\
    (9000000000 < aget t i + td_num u dur -> aget x i = aget v i)).
Proof.
  intros Hn Hq Pr ((V1 & V2) & (T1 & T2) & (X1 & X2) & Ht & (u' & t' & args & y & w & w' & Eu & (T'1 & T'2) & Et' & (Wa & La) & Ey & Oa & Ex)) l c d Hl Hc Hd.
  pose proof (produced_exact cs q Hn Hq Pr) as Ec.
  rewrite K in Ht. destruct Ht as (w1 & w1' & Ht). rewrite U in Eu. injection Eu as <-. specialize (Et' l c d Hl Hc Hd). specialize (Ex l c d Hl Hc Hd).
  cbv zeta in Ex. rewrite K in Ex. cbv beta in Et'. cbn [nadd ROps] in Et'.
  split; [eapply equiv_positive; [exact K| |exact Ht|eapply In_aget; eauto]; rewrite V1; discriminate|].
  cbn [nltb nofQ nposinf ROps negb andb] in Ex. replace (Q2R 9000000000) with 9000000000 in Ex by (unfold Q2R; cbn; lra).
  rewrite Et' in Ex. cbn [negb] in Ex. rewrite Bool.andb_true_r in Ex. split; intros Lim.
  - rewrite Rlt_bool_false in Ex by lra. rewrite Ex.
    rewrite <- Et'. exact (law_value cs t' args y w w' q Hn Hq Pr (conj Wa La) Oa Ey l c d Hl Hc Hd).
  - rewrite Rlt_bool_true in Ex by lra. exact Ex.
Qed.

Lemma td_num_nn (d : Z) : (0 <= d)%Z -> 0 <= td_num (V := R) u d.
Proof.
  intros Hd. unfold td_num. cbn [ndiv nofQ ROps]. apply Rmult_le_pos.
  - rewrite <- RMicromega.Q2R_0. apply Qle_Rle. unfold Qle. cbn. lia.
  - left. apply Rinv_0_lt_compat. rewrite <- RMicromega.Q2R_0. apply Qlt_Rlt. now destruct u.
Qed.

Lemma history_total q eps del l v found x :
  dget (sc_counts s) (sc_name s) = Some (sc_num s) -> dget (sc_dev s) (sc_name s) = Some q ->
  (forall k, In (SStrs k) l -> ss_conds k = base /\ (0 <= ss_dur k)%Z) -> 0 <= eps <= 1 -> 0 <= del ->
  history s l v found x -> accurate f s base eps del found ->
  forall T : list nat -> R,
  everywhere s (fun i => aget v i = device_law f s base i (T i) /\ 0 <= T i /\
    (1 + eps) ^ length found * (T i + total (stress_times u l) + INR (length found) * del) <= 9000000000) ->
  everywhere s (fun i => exists tau, aget x i = device_law f s base i tau /\
    (1 - eps) ^ length found * (T i + total (stress_times u l)) - INR (length found) * del <= tau <=
    (1 + eps) ^ length found * (T i + total (stress_times u l) + INR (length found) * del)).
Proof.
  intros Hn Hq Hk He Hd Hi. induction Hi as [v Fv|m l v found x Hi IH|o l v found x Hi IH|k l v t v1 cs found x Pr Ad Hi IH]; intros Ac T HT.
  - intros a b c Ha Hb Hc. destruct (HT a b c Ha Hb Hc) as (E & P & B). exists (T [a; b; c]). split; auto.
    cbn [length pow stress_times flat_map total fold_right INR]. lra.
  - apply IH; auto. intros k Hin. apply Hk. now right.
  - apply IH; auto. intros k Hin. apply Hk. now right.
  - destruct (Hk k (or_introl eq_refl)) as [Eb Hdk]. rewrite Eb in Pr.
    pose proof (advanced_law _ _ _ _ _ _ Hn Hq Pr Ad) as Al.
    assert (Dk := td_num_nn _ Hdk). set (dk := td_num u (ss_dur k)) in *.
    assert (Hk' : forall k0, In (SStrs k0) l -> ss_conds k0 = base /\ (0 <= ss_dur k0)%Z) by (intros; apply Hk; now right).
    assert (Tn : 0 <= total (stress_times u l)).
    { apply total_nn. intros y Hy. unfold stress_times in Hy. apply in_flat_map in Hy as (z & Hz & Hy). destruct z as [?|z|?]; try (destruct Hy; fail).
      destruct Hy as [<-|[]]. apply td_num_nn. now apply Hk'. }
    change (stress_times u (SStrs k :: l)) with (dk :: stress_times u l) in HT |- *. cbn [total fold_right length pow] in HT |- *.
    fold (total (stress_times u l)) in HT |- *. rewrite S_INR in HT |- *. set (tot := total (stress_times u l)) in *. set (n := length found) in *.
    assert (P1 : 1 <= (1 + eps) ^ n) by (apply pow_R1_Rle; lra).
    assert (P0 : 0 <= (1 - eps) ^ n <= 1) by (split; [apply Rfunctions.pow_le; lra|eapply Rle_trans; [apply pow_incr with (y := 1); lra|rewrite pow1; lra]]).
    assert (Pn : 0 <= INR n) by apply pos_INR. assert (Nd0 : 0 <= INR n * del) by now apply Rmult_le_pos.
    set (T' := fun i => aget t i + dk).
    assert (Key : everywhere s (fun i => 0 < aget t i /\ (1 - eps) * T i - del + dk <= T' i <= (1 + eps) * T i + del + dk /\
      (1 + eps) ^ n * (T' i + tot + INR n * del) <= (1 + eps) * (1 + eps) ^ n * (T i + (dk + tot) + (INR n + 1) * del))).
    { intros a b c Ha Hb Hc. destruct (HT a b c Ha Hb Hc) as (E & P & B). destruct (Al a b c Ha Hb Hc) as (Pt & _).
      pose proof (Ac v t (or_introl eq_refl) a b c Ha Hb Hc (T [a; b; c]) P E) as A. split; auto. unfold T'. split; [lra|].
      rewrite (Rmult_comm (1 + eps)), Rmult_assoc. apply Rmult_le_compat_l; [lra|].
      assert (0 <= eps * (dk + tot + (INR n + 1) * del)) by (apply Rmult_le_pos; [lra|]; rewrite Rmult_plus_distr_r; lra). lra. }
    assert (IH' := IH Hk' (fun v0 t0 Hin => Ac v0 t0 (or_intror Hin)) T').
    assert (Pre : everywhere s (fun i => aget v1 i = device_law f s base i (T' i) /\ 0 <= T' i /\ (1 + eps) ^ n * (T' i + tot + INR n * del) <= 9000000000)).
    { intros a b c Ha Hb Hc. destruct (HT a b c Ha Hb Hc) as (E & P & B). destruct (Al a b c Ha Hb Hc) as (Pt & Al1 & _). destruct (Key a b c Ha Hb Hc) as (_ & K2 & K3).
      assert (Q : T' [a; b; c] <= 9000000000).
      { eapply Rle_trans; [|exact B]. eapply Rle_trans; [|exact K3]. rewrite <- (Rmult_1_l (T' _)) at 1.
        apply Rmult_le_compat; unfold T'; try lra. }
      split; [apply Al1; exact Q|]. split; [unfold T'; lra|]. lra. }
    specialize (IH' Pre). intros a b c Ha Hb Hc. destruct (IH' a b c Ha Hb Hc) as (tau & E & B1 & B2). exists tau. split; auto.
    destruct (Key a b c Ha Hb Hc) as (_ & (K1 & K2) & K3). destruct (HT a b c Ha Hb Hc) as (_ & P & _). split; [|lra].
    eapply Rle_trans; [|exact B1].
    assert ((1 - eps) ^ n * ((1 - eps) * T [a; b; c] - del + dk + tot) <= (1 - eps) ^ n * (T' [a; b; c] + tot)) by (apply Rmult_le_compat_l; lra).
    assert ((1 - eps) ^ n * del <= 1 * del) by (apply Rmult_le_compat_r; lra).
    assert ((1 - eps) ^ n * ((1 - eps) * (dk + tot)) <= (1 - eps) ^ n * (dk + tot)).
    { apply Rmult_le_compat_l; [lra|]. rewrite <- (Rmult_1_l (dk + tot)) at 2. apply Rmult_le_compat_r; lra. }
    lra.
Qed.

(** Whatever was found, a stress leaves the value of the law at a time above its
    duration, unless that time exceeds the limit. *)
Lemma history_last q l k v found x : dget (sc_counts s) (sc_name s) = Some (sc_num s) -> dget (sc_dev s) (sc_name s) = Some q ->
  ss_conds k = base -> history s (l ++ [SStrs k]) v found x ->
  exists rest before t, found = rest ++ [(before, t)] /\ everywhere s (fun i => 0 < aget t i /\
    (aget t i + td_num u (ss_dur k) <= 9000000000 -> aget x i = device_law f s base i (aget t i + td_num u (ss_dur k))) /\
    (9000000000 < aget t i + td_num u (ss_dur k) -> aget x i = aget before i)).
Proof.
  intros Hn Hq Eb. revert v found. induction l as [|a l IH]; intros v found Hi; cbn [app] in Hi.
  - inversion Hi as [| | |k' l' v' t v1 cs found' x' Pr Ad Hi' E1 E2 E3]. rewrite Eb in Pr. clear Eb. inversion Hi'; subst. exists [], v, t. split; auto. eapply advanced_law; eauto.
  - clear Eb. inversion Hi as [| | |k' l' v' t v1 cs found' x' Pr Ad Hi' E1 E2 E3]; subst; eauto. apply IH in Hi' as (rest & before & t' & -> & B). exists ((v, t) :: rest), before, t'. auto.
Qed.
End Law.
End L.
