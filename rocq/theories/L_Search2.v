(** Readings of tests whose searches converge: C88. *)
From Coq Require Import Reals QArith Qreals Lra Lia Znumtheory.
From Flocq Require Import Core.
From Verif Require Import M_Base M_Num M_NumR M_Nd M_RandVar M_Latent M_Time M_TestSpec M_Minimize M_Device M_Report M_Env M_Sim M_CookEnv M_Cookbook M_CookMech
  S_Latent S_TestSpec S_Minimize S_Device S_DeviceR S_Env S_Sim S_Shape S_Sum S_Total S_Reading S_CookEnv S_Cookbook S_CookMech S_History S_HistoryR S_Const S_Search
  L_Base L_TestSpec L_Nd L_Latent L_Device L_DeviceR L_Sim3 L_Shape L_Total L_Reading L_History L_HistoryR L_Const L_Cookbook L_CookMech L_Search T_Cookbook.
Open Scope R_scope.

Lemma errors_small : 0 < rel_error <= 1 /\ 0 < abs_error.
Proof. unfold rel_error, abs_error. lra. Qed.

Lemma pow_le_3 n : INR n <= 50000 -> (1 + rel_error) ^ n <= 3.
Proof.
  intros Hn. assert (A : forall n, (1 + rel_error) ^ n <= exp (INR n * rel_error)).
  { induction n0 as [|j IH]; [cbn [pow INR]; rewrite Rmult_0_l, exp_0; lra|]. rewrite S_INR, Rmult_plus_distr_r, Rmult_1_l, exp_plus. cbn [pow].
    rewrite (Rmult_comm (1 + rel_error)). assert (P := errors_small). apply Rmult_le_compat; try lra; [apply Rfunctions.pow_le; lra|apply exp_ineq1_le]. }
  eapply Rle_trans; [apply A|]. eapply Rle_trans; [|apply exp_le_3].
  assert (INR n * rel_error <= 1).
  { unfold rel_error. lra. }
  destruct (Req_dec (INR n * rel_error) 1) as [->|]; [lra|]. left. apply exp_increasing. lra.
Qed.

Lemma limit_ok n t : INR n <= 50000 -> 0 <= t <= 2900000000 -> (1 + rel_error) ^ n * (0 + t + INR n * abs_error) <= 9000000000.
Proof.
  intros Hn Ht. assert (A := pow_le_3 n Hn). assert (P := pos_INR n). assert (E := errors_small).
  assert (B : 0 <= INR n * abs_error <= 55).
  { split; [apply Rmult_le_pos; lra|]. replace 55 with (50000 * abs_error) by (unfold abs_error; lra). apply Rmult_le_compat_r; lra. }
  replace 9000000000 with (3 * 3000000000) by lra. apply Rmult_le_compat; try lra. apply Rfunctions.pow_le; lra.
Qed.

Lemma stresses_app {V} (l1 l2 : list (M_TestSpec.step V)) : stresses (l1 ++ l2) = stresses l1 ++ stresses l2.
Proof. unfold stresses. now rewrite flat_map_app. Qed.

Section L.
Context `{Rng R} `{HashOrd}.

Lemma history_length (s : scene R) l v found x : history s l v found x -> length found = length (stresses l).
Proof. induction 1; auto. cbn [length]. now rewrite IHhistory. Qed.

Lemma readings_converged e d l chps lots w st rep w' name p laws units base :
  ideal_env = Ok e -> device_wf d -> regular d -> (forall s, In s l -> step_wf s) ->
  (forall q p, dget d q = Some (PDeg p) -> ~ In "init"%string (dkeys (dp_mechs p)) /\ ~ In "cond"%string (dkeys (dp_mechs p))) ->
  dget d name = Some (PDeg p) -> additive p laws units -> dwf base -> dget base "time" = None ->
  (forall k, In (SStrs k) l -> ss_conds k = base /\ (0 <= ss_dur k)%Z /\ forall nm, In nm (dkeys (dp_mechs p)) -> / 1000 <= td_num (units nm) (ss_dur k)) ->
  simulate e d l chps lots None w = (Ok (st, rep), w') ->
  exists n ls (init : nd R) (sc : string -> scene R),
    dget (rp_counts rep) name = Some n /\ dget (st_lat st) name = Some ls /\ dget (st_prm0 st) name = Some (PArr init) /\
    nshape init = [lots; chps; n] /\
    (forall nm m, dget (dp_mechs p) nm = Some m -> exists lats, dget ls nm = Some (PDict lats) /\
       sc nm = Scene e d lots chps (rp_counts rep) name n m lats) /\
    forall l1 m l2 k, l = l1 ++ SMeas m :: l2 -> In (name, k) (ms_counts m) ->
    exists pre g post (found : string -> list (nd R * nd R)),
      rp_meas rep = pre ++ g ++ post /\ labelled lots chps k g /\ stamped (length l1) (TD (stress_time l1)) (name, k) g /\
      (forall nm, In nm (dkeys (dp_mechs p)) -> exists x, history (sc nm) l1 (nfull [lots; chps; n] 0) (found nm) x) /\
      (INR (length (stresses l1)) <= 50000 ->
       (forall nm, In nm (dkeys (dp_mechs p)) -> progresses (laws nm) (sc nm) base /\ total (stress_times (units nm) l1) <= 2900000000 /\
          forall v t, In (v, t) (found nm) -> settles (sc nm) base v) ->
       forall a b c, (a < lots)%nat -> (b < chps)%nat -> (c < k)%nat -> exists r (tau : string -> R),
         nth_error g ((a * chps + b) * k + c) = Some r /\ r_lot r = Some a /\ r_chp r = Some b /\ r_dev r = Some c /\
         r_val r = aget init [a; b; c]%nat + total (map (fun nm => device_law (laws nm) (sc nm) base [a; b; c]%nat (tau nm)) (dkeys (dp_mechs p))) /\
         forall nm, In nm (dkeys (dp_mechs p)) ->
           within rel_error abs_error (length (stresses l1)) (total (stress_times (units nm) l1)) (tau nm)).
Proof.
  intros He Wd Rg Ws Pn Hp Ad Wb Nb Hk E. pose proof errors_small as [P1 P2].
  destruct (constant_stress e d l chps lots w st rep w' name p laws units base He Wd Rg Ws Pn Hp Ad Wb Nb) as (n & ls & init & sc & A1 & A2 & A3 & A4 & A5 & A6); auto.
  { intros k Hin. destruct (Hk k Hin) as (B1 & B2 & _). auto. }
  exists n, ls, init, sc. do 5 (split; [assumption|]). intros l1 m l2 k El Hin.
  destruct (A6 l1 m l2 k El Hin) as (pre & g & post & found & B1 & B2 & B3 & B4 & B5). exists pre, g, post, found. do 4 (split; [assumption|]).
  intros Hl Hm a b c Ha Hb Hc.
  destruct (B5 rel_error abs_error (fun _ _ => 0)) with (a := a) (b := b) (c := c) as (r & tau & C1 & C2 & C3 & C4 & C5 & C6); auto; try lra.
  - intros nm Hnm. destruct (Hm nm Hnm) as (M1 & M2 & M3). destruct (B4 nm Hnm) as (x & Hx). pose proof (history_length _ _ _ _ _ Hx) as Len.
    assert (T0 : 0 <= total (stress_times (units nm) l1)).
    { apply total_nn. intros y Hy. unfold stress_times in Hy. apply in_flat_map in Hy as (z & Hz & Hy). destruct z as [?|z|?]; try (destruct Hy; fail).
      destruct Hy as [<-|[]]. destruct (Hk z) as (_ & _ & D); [rewrite El; apply in_or_app; now left|]. specialize (D nm Hnm). lra. }
    assert (Lim : (1 + rel_error) ^ length (found nm) * (0 + total (stress_times (units nm) l1) + INR (length (found nm)) * abs_error) <= 9000000000)
      by (rewrite Len; apply limit_ok; auto).
    split; [|intros i j z Hi Hj Hz; split; [now apply M1|]; split; [lra|exact Lim]].
    destruct (dget (dp_mechs p) nm) as [mm|] eqn:Em; [|now apply dget_None_keys in Em].
    destruct (A5 nm mm Em) as (lats & L1 & L2). destruct (ad_mech _ _ _ Ad nm mm Em) as (D1 & D2 & D3 & D4).
    injection He as <-.
    apply (history_accurate (sc nm) base (laws nm) (units nm)) with (q := PDeg p) (l := l1) (v := nfull [lots; chps; n] 0) (x := x) (T := fun _ => 0);
      try (rewrite L2; cbn [sc_env sc_dev sc_lots sc_chps sc_counts sc_name sc_num sc_mech sc_lats]; assumption); auto.
    + now rewrite L2.
    + intros k0 Hk0. destruct (Hk k0) as (Q1 & _ & Q3); [rewrite El; apply in_or_app; now left|]. auto.
    + intros i j z Hi Hj Hz. split; [|split; [lra|exact Lim]]. destruct (M1 i j z Hi Hj Hz) as [Q _]. rewrite Q.
      rewrite L2 in Hi, Hj, Hz. cbn [sc_lots sc_chps sc_num] in Hi, Hj, Hz. unfold nfull. rewrite aget_nbuild by (apply valid3; auto). reflexivity.
    + left. intros i j z _ _ _. reflexivity.
  - exists r, tau. do 5 (split; [assumption|]). intros nm Hnm. destruct (B4 nm Hnm) as (x & Hx). specialize (C6 nm Hnm).
    rewrite (history_length _ _ _ _ _ Hx), Rplus_0_l in C6. exact C6.
Qed.

(** ** NBTI *)
Lemma nbti_given : given_by nbti_eqn nbti_form.
Proof.
  split; [reflexivity|]. split; [reflexivity|]. split; [|reflexivity]. intros x. cbn. tauto.
Qed.

Lemma nbti_device_law s base lats temp vdd i t : sc_lats s = nbti_dict lats -> dget base "temp" = Some temp -> dget base "vdd" = Some vdd -> dget base "time" = None ->
  0 < vdd -> 0 < aget (nl_n lats) i -> 0 <= t -> device_law nbti_form s base i t = nbti_at lats temp vdd i t.
Proof.
  intros El Et Ev Nt Hv Hn Ht. unfold device_law, nbti_form, nbti_at. rewrite El. cbn [feval nbti_dict dget String.eqb Ascii.eqb Bool.eqb]. rewrite Et, Ev, Nt.
  cbn [elem]. rewrite <- nbti_val_law; auto.
Qed.

Lemma nbti_progresses s base lats temp vdd : sc_lats s = nbti_dict lats -> dget base "temp" = Some temp -> dget base "vdd" = Some vdd -> dget base "time" = None ->
  0 < vdd -> 0 < temp -> everywhere s (fun i => 0 < aget (nl_a0 lats) i /\ 0 < aget (nl_n lats) i) -> progresses nbti_form s base.
Proof.
  intros El Et Ev Nt Hv Hp Ha l c d Hl Hc Hd. destruct (Ha l c d Hl Hc Hd) as [A1 A2].
  assert (G : forall t, 0 <= t -> device_law nbti_form s base [l; c; d] t = nbti_at lats temp vdd [l; c; d] t) by (intros; now apply nbti_device_law).
  split; [rewrite G by lra; apply law_zero|]. left. intros x y Hx Hy Hxy. rewrite !G by auto. now apply law_time.
Qed.

(** All stresses of the prebuilt test. *)
Lemma htol_stresses fuel (tm : dict nat) v k i d c l t test : (0 < d)%Z -> htol (V := R) fuel tm v k i d c l t = Some (Ok test) ->
  forall x, In (SStrs x) (t_steps test) -> ss_conds x = htol_conds t (v * k) /\ (hour <= ss_dur x)%Z.
Proof.
  intros Hd E.
  assert (Ms : forall tm a b z x, measures_at (V := R) tm a b z -> SStrs x = z -> False) by (intros tm0 a b z x (m & -> & _) Q; discriminate).
  assert (Ss : forall us z x, stresses_at (V := R) t (v * k) us z -> (hour <= us)%Z -> SStrs x = z -> ss_conds x = htol_conds t (v * k) /\ (hour <= ss_dur x)%Z).
  { intros us z x (y & -> & D & Cd) Hu Q. injection Q as ->. split; [exact Cd|lia]. }
  destruct (Z_le_gt_dec d i) as [L|L].
  - destruct (htol_single fuel tm v k i d c l t ltac:(lia) L) as (r & s & e & E' & A1 & A2 & A3). rewrite E' in E. injection E as <-. cbn [t_steps].
    intros x [Q|[Q|[Q|[]]]]; [exfalso; eapply (Ms _ _ _ _ _ A1); eauto| |exfalso; eapply (Ms _ _ _ _ _ A3); eauto].
    eapply Ss; [exact A2| |symmetry; exact Q]. unfold hour. lia.
  - destruct (Z.eq_dec i 0) as [->|Ni]; [rewrite htol_interval_zero in E by lia; discriminate|].
    destruct (Zdivide_dec i d) as [Dv|Dv]; [|rewrite htol_nondivisor_any in E by (auto; lia); discriminate].
    destruct (Z_lt_le_dec i 0) as [Li|Li]; [rewrite htol_negative in E by (auto; lia); discriminate|].
    destruct Dv as [n ->].
    destruct (htol_periodic tm v k i (n * i) c l t n) as (r & b & s & p & e & fuel0 & E' & A1 & A2 & A3 & A4 & A5); [lia|nia|auto|].
    assert (G : htol (V := R) (max fuel fuel0) tm v k i (n * i) c l t = Some (Ok test)).
    { revert E. unfold htol. rewrite strs_dur_hours by lia. destruct (Z.leb_spec (n * i) i); [auto|]. destruct (Z.eqb_spec i 0); [auto|].
      destruct (_ =? 0)%Z; [|auto]. match goal with |- match append_steps fuel ?a ?b ?cc ?dd with _ => _ end = _ -> _ => destruct (append_steps fuel a b cc dd) as [x|] eqn:A; [|discriminate] end.
      eapply append_steps_mono_le in A; [rewrite A; auto|lia]. }
    rewrite E' in G by lia. injection G as <-. cbn [t_steps].
    assert (Cy : forall j x, In (SStrs x) (cycles j [s; p]) -> SStrs x = s).
    { induction j as [|j IH]; cbn [cycles app]; [intros x []|]. intros x [Q|[Q|Q]]; [now symmetry| |now apply IH].
      exfalso. eapply (Ms _ _ _ _ _ A4); eauto. }
    intros x [Q|[Q|Q]]; [exfalso; eapply (Ms _ _ _ _ _ A1); eauto|exfalso; eapply (Ms _ _ _ _ _ A2); eauto|].
    apply in_app_or in Q as [Q|[Q|[]]]; [|exfalso; eapply (Ms _ _ _ _ _ A5); eauto].
    apply Cy in Q. eapply Ss; [exact A3| |exact Q]. unfold hour. nia.
Qed.

Lemma hours_num z : td_num (V := R) UHours z = IZR z / 3600000000.
Proof. unfold td_num. cbn [ndiv nofQ ROps]. unfold Q2R. cbn [sec_factor Qnum Qden]. lra. Qed.

Lemma hours_total l : S_DeviceR.total (stress_times (V := R) UHours l) = IZR (stress_time l) / 3600000000.
Proof.
  induction l as [|[m|k|o] l IH]; [cbn; lra|exact IH| |exact IH].
  change (stress_times UHours (SStrs k :: l)) with (td_num (V := R) UHours (ss_dur k) :: stress_times UHours l).
  cbn [S_DeviceR.total fold_right]. fold (S_DeviceR.total (stress_times (V := R) UHours l)). rewrite IH, hours_num.
  change (stress_time (SStrs k :: l)) with (ss_dur k + stress_time l)%Z. rewrite plus_IZR. lra.
Qed.

Lemma htol_steps_wf fuel (tm : dict nat) v k i d c l t test : dwf tm -> htol (V := R) fuel tm v k i d c l t = Some (Ok test) -> forall x, In x (t_steps test) -> step_wf x.
Proof.
  intros Wt E.
  assert (Wc : forall a b : R, dwf (htol_conds a b)) by (intros; repeat constructor; cbn; intuition discriminate).
  assert (Ms : forall a b z, measures_at (V := R) tm a b z -> step_wf z).
  { intros a b z (m & -> & Ec & Ed). cbn [step_wf]. rewrite Ec, Ed. split; [apply Wc|exact Wt]. }
  assert (Ss : forall us z, stresses_at (V := R) t (v * k) us z -> step_wf z).
  { intros us z (y & -> & _ & Cd). cbn [step_wf]. rewrite Cd. apply Wc. }
  destruct (Z.eq_dec d 0) as [->|D]; [rewrite htol_zero in E; discriminate|].
  destruct (Z_le_gt_dec d i) as [L|L].
  - destruct (htol_single fuel tm v k i d c l t D L) as (r & s & e & E' & A1 & A2 & A3). rewrite E' in E. injection E as <-. cbn [t_steps].
    intros x [<-|[<-|[<-|[]]]]; eauto.
  - destruct (Z.eq_dec i 0) as [->|Ni]; [rewrite htol_interval_zero in E by lia; discriminate|].
    destruct (Zdivide_dec i d) as [Dv|Dv]; [|rewrite htol_nondivisor_any in E by (auto; lia); discriminate].
    destruct (Z_lt_le_dec d 0) as [Ld|Ld].
    { exfalso. apply Z.divide_abs_l, Z.divide_abs_r in Dv. apply Z.divide_pos_le in Dv; lia. }
    destruct (Z_lt_le_dec i 0) as [Li|Li]; [rewrite htol_negative in E by (auto; lia); discriminate|].
    destruct Dv as [n ->].
    destruct (htol_periodic tm v k i (n * i) c l t n) as (r & b & s & p & e & fuel0 & E' & A1 & A2 & A3 & A4 & A5); [lia|nia|auto|].
    assert (G : htol (V := R) (max fuel fuel0) tm v k i (n * i) c l t = Some (Ok test)).
    { revert E. unfold htol. rewrite strs_dur_hours by lia. destruct (Z.leb_spec (n * i) i); [auto|]. destruct (Z.eqb_spec i 0); [auto|].
      destruct (_ =? 0)%Z; [|auto]. match goal with |- match append_steps fuel ?a ?b ?cc ?dd with _ => _ end = _ -> _ => destruct (append_steps fuel a b cc dd) as [x|] eqn:A; [|discriminate] end.
      eapply append_steps_mono_le in A; [rewrite A; auto|lia]. }
    rewrite E' in G by lia. injection G as <-. cbn [t_steps].
    assert (Cy : forall j x, In x (cycles j [s; p]) -> x = s \/ x = p).
    { induction j as [|j IH]; cbn [cycles app]; [intros x []|]. intros x [Q|[Q|Q]]; auto. }
    intros x [<-|[<-|Q]]; eauto. apply in_app_or in Q as [Q|[<-|[]]]; eauto. destruct (Cy _ _ Q) as [->| ->]; eauto.
Qed.

Lemma jedec_latents g (m : mech R) D C L w lats w' : jedec_nbti_mdl g = Ok m -> gen_latents (mc_mdl m) D C L w = (Ok lats, w') ->
  exists x, lats = nbti_dict x.
Proof.
  intros Em E. injection Em as <-. cbn [mc_mdl] in E. unfold gen_latents in E. cbn [lm_vars] in E. cbn [foldM fst snd] in E.
  apply bind_ok in E as (d1 & w1 & E1 & E). apply bind_ok in E1 as (a1 & w1' & G1 & E1). injection E1 as <- <-.
  apply bind_ok in E as (d2 & w2 & E2 & E). apply bind_ok in E2 as (a2 & w2' & G2 & E2). injection E2 as <- <-.
  apply bind_ok in E as (d3 & w3 & E3 & E). apply bind_ok in E3 as (a3 & w3' & G3 & E3). injection E3 as <- <-.
  apply bind_ok in E as (d4 & w4 & E4 & E). apply bind_ok in E4 as (a4 & w4' & G4 & E4). injection E4 as <- <-.
  injection E as <- <-. exists (NbtiLats a1 a2 a3 a4). reflexivity.
Qed.

Lemma stress_time_nn (l : list (M_TestSpec.step R)) : (forall x, In (SStrs x) l -> (0 <= ss_dur x)%Z) -> (0 <= stress_time l)%Z.
Proof.
  induction l as [|[m|k|o] l IH]; intros Hx; [reflexivity| | |]; try (apply IH; intros; apply Hx; now right).
  change (stress_time (SStrs k :: l)) with (ss_dur k + stress_time l)%Z. specialize (Hx k (or_introl eq_refl)) as Hk.
  assert (0 <= stress_time l)%Z by (apply IH; intros; apply Hx; now right). lia.
Qed.

Lemma stress_time_count (l : list (M_TestSpec.step R)) : (forall x, In (SStrs x) l -> (hour <= ss_dur x)%Z) ->
  (Z.of_nat (length (stresses l)) * hour <= stress_time l)%Z.
Proof.
  induction l as [|[m|k|o] l IH]; intros Hx; [reflexivity| | |]; try (apply IH; intros; apply Hx; now right).
  change (stress_time (SStrs k :: l)) with (ss_dur k + stress_time l)%Z. change (stresses (SStrs k :: l)) with (k :: stresses l).
  cbn [length]. rewrite Nat2Z.inj_succ. specialize (Hx k (or_introl eq_refl)) as Hk.
  assert (Z.of_nat (length (stresses l)) * hour <= stress_time l)%Z by (apply IH; intros; apply Hx; now right). lia.
Qed.

Lemma within_nn k t tau : INR k <= 50000 -> within rel_error abs_error k t tau -> INR k <= t -> 0 <= tau.
Proof.
  intros Hk [A _] Ht. assert (Pk := pos_INR k).
  assert (G : forall n, exp (- (INR n * (/ 49999))) <= (1 - rel_error) ^ n).
  { induction n as [|n IH]; [cbn [pow INR]; rewrite Rmult_0_l, Ropp_0, exp_0; lra|]. rewrite S_INR. cbn [pow].
    replace (- ((INR n + 1) * / 49999)) with (- (/ 49999) + - (INR n * / 49999)) by ring. rewrite exp_plus.
    assert (E := exp_pos (- (INR n * / 49999))). assert (E1 := exp_pos (- / 49999)).
    apply Rmult_le_compat; try lra. rewrite exp_Ropp. unfold rel_error.
    assert (Q := exp_ineq1_le (/ 49999)). apply Rle_trans with (/ (1 + / 49999)); [apply Rinv_le_contravar; lra|]. right. field. }
  assert (B : / 4 <= (1 - rel_error) ^ k).
  { eapply Rle_trans; [|apply G]. rewrite exp_Ropp. apply Rinv_le_contravar; [apply exp_pos|].
    apply Rle_trans with (exp (1 + / 10000)).
    - assert (INR k * / 49999 < 1 + / 10000) by lra. left. now apply exp_increasing.
    - rewrite exp_plus. assert (E3 := exp_le_3). assert (E4 := exp_small (/ 10000) ltac:(lra)). assert (E5 := exp_pos 1). assert (E6 := exp_pos (/ 10000)).
      apply Rle_trans with (3 * (4 / 3)); [|lra]. apply Rmult_le_compat; lra. }
  assert (/ 4 * INR k <= (1 - rel_error) ^ k * t) by (apply Rmult_le_compat; lra). unfold abs_error in A. lra.
Qed.

Lemma nbti_htol e d name p nm g m0 m u fuel (tm : dict nat) v k i dur c l t test chps lots w st rep w' :
  ideal_env = Ok e -> device_wf d -> regular d ->
  (forall q p, dget d q = Some (PDeg p) -> ~ In "init"%string (dkeys (dp_mechs p)) /\ ~ In "cond"%string (dkeys (dp_mechs p))) ->
  dget d name = Some (PDeg p) -> dp_mechs p = [(nm, m)] ->
  jedec_nbti_mdl g = Ok m0 -> m = Mech (mc_kind m0) (mc_mdl m0) (mc_unitary m0) u -> unit_map u = Some UHours -> nm <> "mechs"%string ->
  lm_eqn (dp_own p) = eqn_basic_sum -> lm_vars (dp_own p) = [] -> lm_eqn (dp_cond p) = eqn_const 0 -> dp_cunit p = 0 -> lm_vars (dp_init p) <> [] ->
  htol fuel tm v k i dur c l t = Some (Ok test) -> dwf tm -> (0 < dur <= 2900000000)%Z -> INR (length (stresses (t_steps test))) <= 50000 ->
  0 < t + 27315 / 100 -> 0 < v * k ->
  simulate e d (t_steps test) chps lots None w = (Ok (st, rep), w') ->
  exists n ls (init : nd R) (x : nbti_lats),
    dget (rp_counts rep) name = Some n /\ dget (st_lat st) name = Some ls /\ dget (st_prm0 st) name = Some (PArr init) /\ nshape init = [lots; chps; n] /\
    dget ls nm = Some (PDict (nbti_dict x)) /\ (exists wa wb, gen_latents (mc_mdl m) n chps lots wa = (Ok (nbti_dict x), wb)) /\
    let sc := Scene e d lots chps (rp_counts rep) name n m (nbti_dict x) in
    forall l1 ms l2 j, t_steps test = l1 ++ SMeas ms :: l2 -> In (name, j) (ms_counts ms) ->
    exists pre gr post found y,
      rp_meas rep = pre ++ gr ++ post /\ labelled lots chps j gr /\ stamped (length l1) (TD (stress_time l1)) (name, j) gr /\
      history sc l1 (nfull [lots; chps; n] 0) found y /\
      (everywhere sc (fun i => 0 < aget (nl_a0 x) i /\ 0 < aget (nl_n x) i) ->
       (forall v0 t0, In (v0, t0) found -> settles sc (htol_conds t (v * k)) v0) ->
       forall a b c, (a < lots)%nat -> (b < chps)%nat -> (c < j)%nat -> exists r tau,
         nth_error gr ((a * chps + b) * j + c) = Some r /\ r_lot r = Some a /\ r_chp r = Some b /\ r_dev r = Some c /\
         r_val r = aget init [a; b; c]%nat + nbti_at x (t + 27315 / 100) (v * k) [a; b; c]%nat tau /\ 0 <= tau /\
         within rel_error abs_error (length (stresses l1)) (IZR (stress_time l1) / 3600000000) tau).
Proof.
  intros He Wd Rg Pn Hp Hm Em Eu Hu Nm Eo Vo Ec Uc Vi Eh Wt Hd Hs Ht Hv E.
  assert (Emm : mc_mdl m = mc_mdl m0) by now subst m.
  assert (J : mc_kind m = KDeg /\ mc_unitary m = 0 /\ mc_unit m = u /\ lm_eqn (mc_mdl m) = nbti_eqn).
  { subst m. injection Em as <-. cbn [mc_kind mc_unitary mc_unit mc_mdl lm_eqn]. rewrite <- RMicromega.Q2R_0. auto. }
  destruct J as (J1 & J2 & J3 & J4).
  destruct (Pn _ _ Hp) as [Ni Nc]. rewrite Hm in Ni, Nc.
  assert (Ad : additive p (fun _ => nbti_form) (fun _ => UHours)).
  { constructor; auto.
    - rewrite Hm. split; [split; [repeat constructor; intros []|auto]|]. intros [Q|[]]. now apply Nm.
    - intros z mm Hz. rewrite Hm in Hz. cbn [dget] in Hz. destruct (String.eqb z nm); [|discriminate]. injection Hz as <-.
      rewrite J3, J4. split; auto. split; auto. split; [apply nbti_given|exact Hu]. }
  set (base := htol_conds (V := R) t (v * k)).
  assert (Wb : dwf base) by (repeat constructor; cbn; intuition discriminate).
  assert (Hst := htol_stresses fuel tm v k i dur c l t test ltac:(lia) Eh).
  assert (Kel : forall a : R, nadd a celsius_to_kelvin = a + 27315 / 100) by (intros a; unfold celsius_to_kelvin; cbn [nadd nofQ ROps]; unfold Q2R; cbn; lra).
  assert (Hk : forall k0, In (SStrs k0) (t_steps test) -> ss_conds k0 = base /\ (0 <= ss_dur k0)%Z /\
    forall nm0, In nm0 (dkeys (dp_mechs p)) -> / 1000 <= td_num UHours (ss_dur k0)).
  { intros k0 Hin. destruct (Hst k0 Hin) as [Q1 Q2]. unfold hour in Q2. split; [exact Q1|]. split; [lia|]. intros _ _. rewrite hours_num.
    apply IZR_le in Q2. lra. }
  destruct (readings_converged e d (t_steps test) chps lots w st rep w' name p (fun _ => nbti_form) (fun _ => UHours) base He Wd Rg
    (htol_steps_wf _ _ _ _ _ _ _ _ _ _ Wt Eh) Pn Hp Ad Wb eq_refl Hk E) as (n & ls & init & sc & A1 & A2 & A3 & A4 & A5 & A6).
  assert (Dm : dget (dp_mechs p) nm = Some m) by (rewrite Hm; cbn [dget]; now rewrite String.eqb_refl).
  destruct (A5 nm m Dm) as (lats & L1 & L2).
  assert (exists x, lats = nbti_dict x /\ exists wa wb, gen_latents (mc_mdl m) n chps lots wa = (Ok (nbti_dict x), wb)) as (x & -> & Gx).
  { destruct (simulate_started e d (t_steps test) chps lots w st rep w' name p (fun _ => nbti_form) (fun _ => UHours) Wd Rg Hp Ad E)
      as (st0 & w0 & n' & ls' & init' & (Ei & _ & G1 & G2 & _) & S2 & _). rewrite A2 in S2. injection S2 as <-.
    apply dev_init_ok in Ei as (_ & _ & _ & _ & _ & G & _); [|apply Wd]. destruct (G _ _ Hp) as (n2 & ls2 & v2 & wa & wb & wc & B1 & B2 & B3 & _).
    rewrite G2 in B2. injection B2 as <-. unfold prm_latents in B3. apply bind_ok in B3 as (c1 & w1 & _ & B3). apply bind_ok in B3 as (ml & w2 & B3 & B4).
    apply bind_ok in B4 as (own & w3 & B5 & B4). unfold gen_latents in B5. rewrite Vo in B5. cbn [foldM] in B5. apply ret_ok in B5 as [-> ->].
    apply ret_ok in B4 as [-> ->]. eapply mech_latents_get in B3 as (xl & wx & wy & B3 & B4).
    2:{ rewrite Hm. repeat constructor; intros []. } 2:{ rewrite Hm. now left. }
    assert (Q : Some (PDict lats) = Some (PDict xl)) by (rewrite <- L1, <- B4; reflexivity). injection Q as ->.
    rewrite Emm in B3 |- *. destruct (jedec_latents _ _ _ _ _ _ _ _ Em B3) as [x ->]. exists x. split; [reflexivity|].
    rewrite A1 in B1. injection B1 as ->. eauto. }
  exists n, ls, init, x. do 6 (split; [assumption|]). intros s l1 ms l2 j El Hin.
  destruct (A6 l1 ms l2 j El Hin) as (pre & gr & post & found & B1 & B2 & B3 & B4 & B5).
  assert (Hnm : In nm (dkeys (dp_mechs p))) by (rewrite Hm; now left). destruct (B4 nm Hnm) as [y Hy]. rewrite L2 in Hy.
  exists pre, gr, post, (found nm), y. do 4 (split; [assumption|]). intros Ph Se a b cc Ha Hb Hc.
  assert (Tb : dget base "temp" = Some (t + 27315 / 100) /\ dget base "vdd" = Some (v * k)) by (split; [exact (f_equal Some (Kel t))|reflexivity]).
  assert (St1 : (0 <= stress_time l1 <= dur * hour)%Z).
  { assert (Q : stress_time (t_steps test) = (dur * hour)%Z).
    { exact (proj1 (C53_total_stress _ _ _ _ _ _ _ _ _ _ _ _ Eh)). }
    rewrite El, stress_time_app in Q.
    assert (0 <= stress_time l1)%Z by (apply stress_time_nn; intros z Hz; destruct (Hk z) as (_ & D & _); [rewrite El; apply in_or_app; now left|exact D]).
    assert (0 <= stress_time (SMeas ms :: l2))%Z by (apply stress_time_nn; intros z Hz; destruct (Hk z) as (_ & D & _); [rewrite El; apply in_or_app; now right|exact D]).
    lia. }
  destruct B5 with (a := a) (b := b) (c := cc) as (r & tau & C1 & C2 & C3 & C4 & C5 & C6); auto.
  - eapply Rle_trans; [|exact Hs]. apply le_INR. rewrite El, stresses_app, app_length. lia.
  - intros z Hz. rewrite Hm in Hz. destruct Hz as [<-|[]]. cbn [fst]. rewrite L2. split; [|split; [|exact Se]].
    + apply nbti_progresses with (lats := x) (temp := t + 27315 / 100) (vdd := v * k); auto; try apply Tb.
    + rewrite hours_total. destruct St1 as [Z1 Z2]. apply IZR_le in Z1, Z2. assert (Z3 : (dur * hour <= 2900000000 * hour)%Z) by (unfold hour; lia).
      apply IZR_le in Z3. unfold hour in Z3. replace (IZR (2900000000 * 3600000000)) with (2900000000 * 3600000000) in Z3 by (rewrite mult_IZR; reflexivity). unfold hour in Z2. lra.
  - specialize (C6 nm Hnm). rewrite hours_total in C6.
    assert (Pt : 0 <= tau nm).
    { eapply within_nn; [|exact C6|]; [eapply Rle_trans; [|exact Hs]; apply le_INR; rewrite El, stresses_app, app_length; lia|].
      assert (Q := stress_time_count l1). specialize (Q ltac:(intros z Hz; apply (Hst z); rewrite El; apply in_or_app; now left)).
      apply IZR_le in Q. rewrite mult_IZR, <- INR_IZR_INZ in Q. unfold hour in Q. lra. }
    exists r, (tau nm). do 4 (split; [assumption|]). split; [|auto]. rewrite C5, Hm. cbn [dkeys map fst S_DeviceR.total fold_right]. rewrite L2, Rplus_0_r. f_equal.
    apply nbti_device_law; auto; try apply Tb. apply Ph; auto.
    change (cc < n)%nat. assert (Q : (j <= n)%nat); [|lia].
    destruct (simulate_started e d (t_steps test) chps lots w st rep w' name p (fun _ => nbti_form) (fun _ => UHours) Wd Rg Hp Ad E)
      as (st0 & w0 & n' & ls' & init' & _ & _ & _ & Hub).
    apply (Hub name j n); auto. exists ms. split; [rewrite El; apply in_or_app; right; now left|exact Hin].
Qed.
End L.
