(** Lemmas about the development of mechanisms. *)
From Coq Require Import QArith Arith.
From Verif Require Import M_Base M_Num M_Nd M_RandVar M_Latent M_Time M_TestSpec M_Minimize M_Device M_Report M_Env M_Sim
  S_Latent S_TestSpec S_Device S_Env S_Sim S_Report S_Shape S_Total S_Reading S_History
  L_Base L_Nd L_Latent L_TestSpec L_Device L_Device2 L_Device3 L_Env L_Env2 L_Env3 L_Sim L_Sim2 L_Sim3 L_Report L_Shape L_Shape2
  L_Total L_Reading L_Value.
Open Scope nat_scope.

Section L.
Context {V : Type} `{NumOps V} `{Rng V} `{HashOrd}.

Lemma full_shaped (s : scene V) p : shaped (sc_lots s) (sc_chps s) (sc_num s) p <-> exists a, p = PArr a /\ full s a.
Proof. unfold shaped, full. split; intros (a & A); exists a; tauto. Qed.

Lemma law_args_mech (s : scene V) cs t : law_args s cs t (mech_args (sc_mech s) (PArr t) cs (sc_lats s)).
Proof.
  split; [apply gather_wf; repeat constructor; intros []|]. intros x. unfold mech_args. rewrite gather_get. cbn [dget].
  destruct (smem x _); [|now destruct (String.eqb x "time")]. destruct (first_of _ x); auto; now destruct (String.eqb x "time").
Qed.

Lemma aget_build3 L C n (f : list nat -> V) l c d : l < L -> c < C -> d < n -> aget (nbuild [L; C; n] f) [l; c; d] = f [l; c; d].
Proof. intros. apply aget_nbuild. now apply valid3. Qed.

Lemma base_deg_elem m (t v : nd V) conds l L C n w x w' : numeric_at L C n (lm_eqn (mc_mdl m)) ->
  shaped L C n (PArr t) -> shaped L C n (PArr v) -> operands L C n conds -> operands L C n l ->
  base_deg_vals m (PArr t) (PArr v) conds l L C n w = (Ok x, w') ->
  exists y a, call_or_loop (lm_eqn (mc_mdl m)) (mech_args m (PArr t) conds l) L C n w = (Ok y, w') /\
    x = PArr a /\ shaped L C n (PArr a) /\
    forall i j k, i < L -> j < C -> k < n -> aget a [i; j; k] =
      if nltb (nofQ 9000000000) (aget t [i; j; k]) && negb (nposinf (aget v [i; j; k])) then aget v [i; j; k] else elem y [i; j; k].
Proof.
  intros Nm St Sv Oc Ol E. pose proof (base_deg_shape _ _ _ _ _ _ _ _ _ _ _ Nm St Sv Oc Ol E) as Sx.
  pose proof St as (a & Q & A1 & A2). injection Q as <-. pose proof Sv as (b & Q & B1 & B2). injection Q as <-. unfold base_deg_vals in E.
  apply bind_ok in E as (a' & w1 & E1 & E). apply lift_ok in E1 as [E1 ->]. injection E1 as <-.
  apply bind_ok in E as (b' & w1 & E1 & E). apply lift_ok in E1 as [E1 ->]. injection E1 as <-.
  destruct (bshape (nshape t) (nshape v)); [|discriminate].
  apply bind_ok in E as (d & w1 & E1 & E). pose proof E1 as Ec.
  apply numeric_call in E1; [|exact Nm|apply gather_wf; repeat constructor; intros []|apply mech_args_operands; auto; now right].
  apply bind_ok in E as (e & w2 & E2 & E). apply lift_ok in E2 as [E2 ->].
  apply bind_ok in E as (r & w2 & E3 & E). apply lift_ok in E3 as [E3 ->]. apply ret_ok in E as [-> ->].
  exists d, r. split; auto. split; auto. split; auto.
  destruct E1 as [[y ->]|(g & -> & G1 & G2)]; injection E2 as <-.
  - rewrite bmap3_scalar3 in E3 by congruence. injection E3 as <-. rewrite A1. intros i j k Hi Hj Hk. now rewrite aget_build3 by auto.
  - rewrite bmap3_same in E3 by congruence. injection E3 as <-. rewrite A1. intros i j k Hi Hj Hk. now rewrite aget_build3 by auto.
Qed.

Lemma deg_elem m (t v : nd V) conds l L C n w x w' : numeric_at L C n (lm_eqn (mc_mdl m)) ->
  shaped L C n (PArr t) -> shaped L C n (PArr v) -> operands L C n conds -> operands L C n l ->
  mech_deg_vals m (PArr t) (PArr v) conds l L C n w = (Ok x, w') ->
  exists y a w1, call_or_loop (lm_eqn (mc_mdl m)) (mech_args m (PArr t) conds l) L C n w = (Ok y, w1) /\
    x = PArr a /\ shaped L C n (PArr a) /\
    forall i j k, i < L -> j < C -> k < n ->
      let z := if nltb (nofQ 9000000000) (aget t [i; j; k]) && negb (nposinf (aget v [i; j; k])) then aget v [i; j; k] else elem y [i; j; k] in
      aget a [i; j; k] = match mc_kind m with KDeg => z | KFail => if neqb (aget v [i; j; k]) (mc_unitary m) then z else aget v [i; j; k] end.
Proof.
  intros Nm St Sv Oc Ol E. pose proof (deg_shape _ _ _ _ _ _ _ _ _ _ _ Nm St Sv Oc Ol E) as Sx. unfold mech_deg_vals in E. destruct (mc_kind m).
  - apply base_deg_elem in E as (y & a & E1 & -> & E2 & E3); auto. exists y, a, w'. auto.
  - apply bind_ok in E as (b & w1 & E1 & E). apply lift_ok in E1 as [E1 ->]. injection E1 as <-.
    apply bind_ok in E as (sv & w1 & E2 & E). apply base_deg_elem in E2 as (y & a & E1 & -> & E2 & E3); auto.
    apply bind_ok in E as (e & w2 & E4 & E). apply lift_ok in E4 as [E4 ->]. injection E4 as <-.
    apply bind_ok in E as (r & w2 & E4 & E). apply lift_ok in E4 as [E4 ->]. apply ret_ok in E as [-> ->].
    exists y, r, w1. split; auto. split; auto. split; auto. destruct Sv as (b & Q & B1 & B2). injection Q as <-.
    destruct E2 as (a' & Q & G1 & G2). injection Q as <-. rewrite bmap2_same in E4 by congruence. injection E4 as <-. rewrite B1.
    intros i j k Hi Hj Hk. cbv zeta. rewrite aget_build3, E3 by auto. reflexivity.
Qed.

Lemma equiv_fail m (a : nd V) conds l L C n w t w' : mc_kind m = KFail -> nshape a = [L; C; n] ->
  mech_equiv_time m (PArr a) conds l L C n w = (Ok t, w') -> t = PArr (nfull [L; C; n] n0).
Proof. intros K S E. unfold mech_equiv_time in E. rewrite K in E. apply ret_ok in E as [-> _]. now rewrite S. Qed.

(** ** One stress *)
Lemma stress_advances e d i (k : strs_spec V) st rep w st' rep' w' name nm (m : mech V) ns :
  device_wf d -> regular_at d (rp_lots rep) (rp_chps rep) ns -> (forall name n, dget (rp_counts rep) name = Some n -> ns name n) -> dwf (ss_conds k) ->
  state_fits d (rp_lots rep) (rp_chps rep) (rp_counts rep) st -> has_mech d name nm m ->
  stress_step e d i k st rep w = (Ok (st', rep'), w') ->
  exists n ls lats v x t cs,
    dget (rp_counts rep) name = Some n /\ dget (st_lat st) name = Some ls /\ dget ls nm = Some (PDict lats) /\
    mech_val st name nm (PArr v) /\ mech_val st' name nm (PArr x) /\
    let s := Scene e d (rp_lots rep) (rp_chps rep) (rp_counts rep) name n m lats in
    produced s (ss_conds k) cs /\ advanced s cs (ss_dur k) v t x.
Proof.
  intros W Rg Hns Wc F (p & Hp & Hm) E. apply stress_step_ok in E as (conds & st1 & w1 & x0 & Ec & Ef & _ & -> & _).
  destruct (F _ _ Hp) as (n & mv & v0 & pv & ls & F1 & F2 & F3 & _ & _ & _ & _ & F4 & F5).
  apply (stress_fold_get _ _ _ name p) in Ef as (s1 & wa & s2 & wb & B1 & B2 & B3 & B4 & B5 & B6 & B7);
    [|apply deg_prms_nodup; apply W|apply deg_prms_get; auto; apply W].
  apply stress_mech_get with (nm := nm) (mm := m) in B5 as (n' & cs & ls' & lats & v & t & u & t' & x & w2 & w3 & w4 & w5 & C1 & C2 & C3 & C4 & C5 & C6 & C7 & C8 & C9 & C10); auto; [|destruct W as [_ W]; eauto].
  destruct B1 as (L1 & L2 & L3). rewrite F1 in C1. injection C1 as <-. rewrite L1, F4 in C3. injection C3 as <-.
  destruct C5 as (mv' & M1 & M2). rewrite B3, F2 in M1. injection M1 as <-. destruct (F3 _ _ Hm) as (v' & M3 & Sv). rewrite M2 in M3. injection M3 as <-.
  assert (Oc : operands (rp_lots rep) (rp_chps rep) n cs) by exact (conds_operands _ _ _ _ _ _ _ _ _ _ _ _ _ _ _ Wc Ec Hp C2 F1).
  assert (Ol := latent_operands _ _ _ _ _ _ _ F5 C4).
  destruct (Rg _ _ _ Hp (Hns _ _ F1)) as (_ & _ & _ & Nm). specialize (Nm _ _ Hm).
  pose proof (equiv_shape _ _ _ _ _ _ _ _ _ _ Sv C6) as St. destruct (pmap2_shape _ _ _ _ _ _ _ (or_intror St) (or_introl (ex_intro _ _ eq_refl)) C8) as [_ St'].
  specialize (St' (or_introl St)). destruct Sv as (va & -> & Sv1 & Sv2), St as (ta & -> & St1 & St2), St' as (ta' & -> & St'1 & St'2).
  assert (Sv : shaped (rp_lots rep) (rp_chps rep) n (PArr va)) by (exists va; auto).
  assert (St : shaped (rp_lots rep) (rp_chps rep) n (PArr ta)) by (exists ta; auto).
  assert (St' : shaped (rp_lots rep) (rp_chps rep) n (PArr ta')) by (exists ta'; auto).
  pose proof (deg_elem _ _ _ _ _ _ _ _ _ _ _ Nm St' Sv Oc Ol C9) as (y & xa & w6 & D1 & -> & (xa' & Q & Sx1 & Sx2) & D2). injection Q as <-.
  exists n, ls, lats, va, xa, ta, cs. split; auto. split; auto. split; auto. split; [exists mv; auto|].
  split; [destruct C10 as (mv' & M4 & M5); exists mv'; cbn [set_elapsed st_mech]; split; congruence|].
  cbv zeta. split; [exists conds, w, w1; auto|]. unfold advanced. cbn [sc_mech sc_lats sc_lots sc_chps sc_num].
  split; [split; auto|]. split; [split; auto|]. split; [split; auto|]. split.
  - destruct (mc_kind m) eqn:K; [eauto|]. apply equiv_fail in C6; auto. injection C6 as ->. intros l c j Hl Hc Hj.
    unfold nfull. now apply aget_build3.
  - exists u, ta', (mech_args m (PArr ta') cs lats), y, w4, w6. split; auto. split; [split; auto|].
    split; [intros l c j Hl Hc Hj; cbn [sc_lots sc_chps sc_num] in *;
      exact (pmap2_elem nadd _ _ _ (PArr ta) (PNum (td_num u (ss_dur k))) (PArr ta') l c j (or_intror St) (or_introl (ex_intro _ _ eq_refl)) Hl Hc Hj C8)|].
    split; [exact (law_args_mech (Scene e d (rp_lots rep) (rp_chps rep) (rp_counts rep) name n m lats) cs ta')|].
    split; auto. split; [apply mech_args_operands; auto; now right|].
    intros l c j Hl Hc Hj. cbn [sc_lots sc_chps sc_num] in *. now apply D2.
Qed.

(** ** Sequences of steps *)
Lemma run_history e d l name nm (m : mech V) ns n ls lats : device_wf d -> has_mech d name nm m -> (forall s, In s l -> step_wf s) ->
  forall i st rep w st' rep' w' v,
  regular_at d (rp_lots rep) (rp_chps rep) ns -> (forall name n, dget (rp_counts rep) name = Some n -> ns name n) ->
  state_fits d (rp_lots rep) (rp_chps rep) (rp_counts rep) st ->
  dget (rp_counts rep) name = Some n -> dget (st_lat st) name = Some ls -> dget ls nm = Some (PDict lats) -> mech_val st name nm (PArr v) ->
  run_steps e d i l st rep w = (Ok (st', rep'), w') ->
  exists found x, mech_val st' name nm (PArr x) /\
    history (Scene e d (rp_lots rep) (rp_chps rep) (rp_counts rep) name n m lats) l v found x.
Proof.
  intros W Hm. induction l as [|a l IH]; intros Ws i st rep w st' rep' w' v Rg Hns F Hn Hl Hs Hv E.
  - apply ret_ok in E as [E ->]. injection E as -> ->. exists [], v. split; auto. constructor.
    destruct Hm as (p & Hp & Hm). destruct (F _ _ Hp) as (n' & mv & v0 & pv & ls' & F1 & F2 & F3 & _). rewrite Hn in F1. injection F1 as <-.
    destruct (F3 _ _ Hm) as (y & Y1 & (b & -> & Y2 & Y3)). destruct Hv as (mv' & M1 & M2). rewrite F2 in M1. injection M1 as <-.
    rewrite Y1 in M2. injection M2 as ->. split; auto.
  - rewrite run_cons in E. apply bind_ok in E as ([st1 rep1] & w1 & E1 & E). cbn [fst snd] in E. unfold sim_step in E1. cbn [fst snd] in E1.
    assert (Ws' : forall s, In s l -> step_wf s) by (intros; apply Ws; now right).
    destruct a as [k|k|o].
    + destruct (meas_step_ok _ _ _ _ _ _ _ _ _ _ E1) as (conds & rows & w2 & _ & _ & -> & ->).
      eapply IH in E as (found & x & X1 & X2); eauto. exists found, x. split; auto. now constructor.
    + pose proof (stress_advances _ _ _ _ _ _ _ _ _ _ _ _ _ _ W Rg Hns (Ws _ (or_introl eq_refl)) F Hm E1)
        as (n' & ls' & lats' & v' & x1 & t & cs & A1 & A2 & A3 & A4 & A5 & A6 & A7).
      assert (n' = n) by congruence. subst n'. assert (ls' = ls) by congruence. subst ls'. assert (lats' = lats) by congruence. subst lats'.
      assert (v' = v). { destruct Hv as (mv & M1 & M2), A4 as (mv' & M3 & M4). congruence. } subst v'.
      pose proof (stress_step_shape _ _ _ _ _ _ _ _ _ _ _ W Rg Hns (Ws _ (or_introl eq_refl)) F E1) as F'.
      apply stress_step_ok in E1 as (cc & stx & wx & tx & _ & Es & _ & -> & ->). apply stress_fold_same in Es as ((L1 & _) & _).
      eapply IH in E as (found & x & X1 & X2); eauto; [|cbn [set_elapsed st_lat]; now rewrite L1].
      exists ((v, t) :: found), x. split; auto. econstructor; eauto.
    + apply ret_ok in E1 as [E1 ->]. injection E1 as -> ->. eapply IH in E as (found & x & X1 & X2); eauto. exists found, x. split; auto. now constructor.
Qed.

Lemma run_mech_latents e d l name nm (m : mech V) ls : device_wf d -> has_mech d name nm m ->
  forall i st rep w st' rep' w', dget (st_lat st) name = Some ls ->
  run_steps e d i l st rep w = (Ok (st', rep'), w') -> (exists s, In (SStrs s) l) -> exists lats, dget ls nm = Some (PDict lats).
Proof.
  intros W Hm. induction l as [|a l IH]; intros i st rep w st' rep' w' Hl E [s Hs]; [destruct Hs|].
  rewrite run_cons in E. apply bind_ok in E as ([st1 rep1] & w1 & E1 & E). cbn [fst snd] in E. unfold sim_step in E1. cbn [fst snd] in E1.
  destruct a as [k|k|o].
  - destruct (meas_step_ok _ _ _ _ _ _ _ _ _ _ E1) as (conds & rows & w2 & _ & _ & -> & ->). destruct Hs as [Q|Hs]; [discriminate|]. eapply IH in E; eauto.
  - apply stress_step_mech with (name := name) (nm := nm) (mm := m) in E1 as (n & cs & ls' & lats & v & t & u & t' & x & wa & wb & wc & wd & _ & A1 & A2 & _); auto.
    exists lats. congruence.
  - apply ret_ok in E1 as [E1 ->]. injection E1 as -> ->. destruct Hs as [Q|Hs]; [discriminate|]. eapply IH in E; eauto.
Qed.

Lemma mech_latents_get (D C L : nat) nm (m : mech V) (l : dict (mech V)) : forall (acc : dict (pyval V)) w r w',
  NoDup (dkeys l) -> In (nm, m) l ->
  foldM (fun acc (nm : string * mech V) => (x <- gen_latents (mc_mdl (snd nm)) D C L ;; ret (dset acc (fst nm) (PDict x)))%m) l acc w = (Ok r, w') ->
  exists x wa wb, gen_latents (mc_mdl m) D C L wa = (Ok x, wb) /\ dget r nm = Some (PDict x).
Proof.
  assert (Oth : forall (l : dict (mech V)) (acc : dict (pyval V)) w r w', ~ In nm (dkeys l) ->
    foldM (fun acc (nm : string * mech V) => (x <- gen_latents (mc_mdl (snd nm)) D C L ;; ret (dset acc (fst nm) (PDict x)))%m) l acc w = (Ok r, w') ->
    dget r nm = dget acc nm).
  { induction l0 as [|[k q] l0 IH]; intros acc w r w' N E; cbn [foldM] in E; [apply ret_ok in E as [-> _]; auto|].
    apply bind_ok in E as (a1 & w1 & E1 & E). apply bind_ok in E1 as (x & w2 & _ & E1). apply ret_ok in E1 as [-> ->].
    apply IH in E; [|intros Q; apply N; now right]. rewrite E. apply dget_dset_neq. intros <-. apply N. now left. }
  induction l as [|[k q] l IH]; intros acc w r w' N Hin E; [destruct Hin|]. cbn [foldM] in E.
  apply bind_ok in E as (a1 & w1 & E1 & E). apply bind_ok in E1 as (x & w2 & Eg & E1). apply ret_ok in E1 as [-> ->].
  change (dkeys ((k, q) :: l)) with (k :: dkeys l) in N. inversion N as [|? ? Nk N']; subst. destruct Hin as [Q|Hin].
  - injection Q as -> ->. apply Oth in E; auto. cbn [fst snd] in *. exists x, w, w2. split; auto. rewrite E. apply dget_dset_eq.
  - eapply IH; eauto.
Qed.

Lemma prm_latents_mech (p : degprm V) D C L w ls w' nm m lats : dwf (dp_mechs p) -> prm_latents p D C L w = (Ok ls, w') ->
  dget (dp_mechs p) nm = Some m -> dget ls nm = Some (PDict lats) -> forall x, In x (dkeys lats) -> In x (dkeys (lm_vars (mc_mdl m))).
Proof.
  unfold prm_latents. intros W E Hm Hl x Hx. apply bind_ok in E as (c & w1 & E1 & E). apply bind_ok in E as (ml & w2 & E2 & E).
  apply bind_ok in E as (own & w3 & E3 & E). apply ret_ok in E as [-> ->].
  apply gen_latents_shape in E3 as [E3 _]. apply mech_latents_get with (nm := nm) (m := m) in E2 as (l & wa & wb & G1 & G2); [|exact W|now apply dget_In].
  assert (l = lats); [|subst l; eapply gen_latents_keys; eauto].
  destruct (in_dec string_dec nm (dkeys own)) as [I|I]; [|rewrite dget_dupdate_other, G2 in Hl by auto; congruence].
  exfalso. assert (K : forall own ml, (forall k v, In (k, v) own -> exists a : nd V, v = PArr a) -> In nm (dkeys own) ->
    exists a, dget (dupdate ml own) nm = Some (PArr a)).
  { clear. unfold dupdate. induction own as [|[k v] own IH]; intros ml A I; [destruct I|]. cbn [fold_left fst snd].
    destruct (in_dec string_dec nm (dkeys own)) as [J|J]; [apply IH; auto; intros; eapply A; right; eauto|].
    destruct I as [Q|I]; [|contradiction]. cbn [fst] in Q. subst k. destruct (A _ _ (or_introl eq_refl)) as [a ->]. exists a. fold (dupdate (dset ml nm (PArr a)) own).
    rewrite dget_dupdate_other by auto. apply dget_dset_eq. }
  destruct (K own ml) as [a Q]; auto; [|congruence]. intros k v Hk. destruct (E3 _ _ Hk) as (a & -> & _). eauto.
Qed.

Lemma simulate_history e d l C L w name nm (m : mech V) st' rep' w' : device_wf d -> regular d -> (forall s, In s l -> step_wf s) ->
  has_mech d name nm m -> (exists s, In (SStrs s) l) -> simulate e d l C L None w = (Ok (st', rep'), w') ->
  exists n ls lats found x, dget (rp_counts rep') name = Some n /\ dget (st_lat st') name = Some ls /\ dget ls nm = Some (PDict lats) /\
    (forall z, In z (dkeys lats) -> In z (dkeys (lm_vars (mc_mdl m)))) /\ mech_val st' name nm (PArr x) /\
    history (Scene e d L C (rp_counts rep') name n m lats) l (nfull [L; C; n] (mc_unitary m)) found x.
Proof.
  intros W Rg Ws Hm Hs E. apply simulate_run in E as (st0 & rep0 & w0 & E & M0 & _ & C0 & L0 & T0 & _ & _ & _ & st1 & Ei & -> & Q); auto.
  pose proof (run_same _ _ _ _ _ _ _ _ _ _ E) as ((K1 & K2) & _ & _ & S1 & S2 & S3).
  pose proof (dev_init_shape _ _ _ _ _ _ _ _ _ W (regular_all _ _ _ any Rg) (fun _ _ _ => I) Ei) as Fi.
  pose proof Hm as (p & Hp & Hmm). apply dev_init_ok in Ei as (_ & _ & _ & _ & _ & G & _); [|apply W].
  destruct (G _ _ Hp) as (n & ls & v & wa & wb & wc & G1 & G2 & G3 & G4 & _).
  assert (exists lats, dget ls nm = Some (PDict lats)) as [lats Hl].
  { eapply run_mech_latents in E; eauto. }
  rewrite S1, K1. cbn [set_elapsed st_lat].
  eapply run_history with (ns := any) (n := n) (ls := ls) (lats := lats) (v := nfull [L; C; n] (mc_unitary m)) in E as (found & x & X1 & X2); eauto.
  - exists n, ls, lats, found, x. rewrite C0, L0 in X2. repeat split; auto. eapply prm_latents_mech; eauto. destruct W as [_ W]. eauto.
  - rewrite C0, L0. now apply regular_all.
  - intros; exact I.
  - rewrite C0, L0. exact Fi.
  - exists (prm_init_mech p n C L). split; auto. rewrite (init_mech_get p n C L nm m); auto. destruct W as [_ W]. eauto.
Qed.
End L.
