(** Reports of simulations are as [timed] says. *)
From Coq Require Import QArith Qabs Lia Lqa.
From Verif Require Import M_Base L_Base M_Num M_Nd M_RandVar M_Latent M_Time S_Time M_TestSpec S_TestSpec L_TestSpec M_Device S_Device M_Report
  M_Env M_Sim L_Latent L_Device S_Sim L_Sim L_Sim2 L_Sim3 M_Export S_Export L_Export.
Open Scope Z_scope.

Section Q.
Context `{NumOps Q} `{Rng Q} `{HashOrd}.

Lemma summary_row_wf name kind i dur a b (conds : dict Q) : dwf (summary_row name kind i dur a b conds).
Proof. apply dwf_dupdate. unfold dwf. cbn. repeat constructor; cbn; intuition discriminate. Qed.
Lemma summary_row_time name kind i dur a b (conds : dict Q) k t :
  dget (summary_row name kind i dur a b conds) k = Some (CTime t) -> In k time_cols.
Proof.
  unfold summary_row. set (base := _ :: _). assert (B : forall k t, dget base k = Some (CTime t) -> In k time_cols).
  { intros k' t'. unfold base. cbn [dget time_cols In]. repeat match goal with |- context [String.eqb k' ?a] => destruct (String.eqb_spec k' a) as [->|_]; [try (intros X; discriminate X); intros _; auto 7|] end. intros X; discriminate X. }
  clearbody base. revert base B. induction conds as [|[c v] conds IH]; intros base B; cbn [map dupdate fold_left fst snd].
  - apply B.
  - apply IH. intros k' t'. rewrite dget_dset. destruct (String.eqb c k'); [discriminate|apply B].
Qed.
Lemma run_rows_shape e d l : forall i st (rep : report Q) w st' rep' w',
  run_steps e d i l st rep w = (Ok (st', rep'), w') ->
  exists rows, rp_sum rep' = rp_sum rep ++ rows /\ forall x, In x rows -> dwf x /\ forall k t, dget x k = Some (CTime t) -> In k time_cols.
Proof.
  induction l as [|x l IH]; intros i st rep w st' rep' w' E.
  - apply ret_ok in E as [E ->]. injection E as -> ->. exists []. rewrite app_nil_r. split; auto. intros x [].
  - rewrite run_cons in E. apply bind_ok in E as ([st1 rep1] & w1 & E1 & E2). cbn [fst snd] in E2.
    apply IH in E2 as (rows & R1 & R2). destruct x as [m|s|o]; cbn [sim_step fst snd] in E1.
    + apply meas_step_ok in E1 as (conds & rws & w2 & _ & _ & -> & ->). cbn [add_summary add_measurements rp_sum] in R1.
      rewrite <- app_assoc in R1. eexists. split; [exact R1|]. intros y [<-|I]; [|auto]. split; [apply summary_row_wf|apply summary_row_time].
    + apply stress_step_ok in E1 as (conds & st2 & w2 & x & _ & Ef & Ex & -> & ->). cbn [add_summary rp_sum] in R1.
      rewrite <- app_assoc in R1. eexists. split; [exact R1|]. intros y [<-|I]; [|auto]. split; [apply summary_row_wf|apply summary_row_time].
    + apply ret_ok in E1 as [E1 ->]. injection E1 as -> ->. exists rows. auto.
Qed.

Lemma stress_time_nonneg (l : list (step Q)) : (forall s, In (SStrs s) l -> 0 <= ss_dur s) -> 0 <= stress_time l.
Proof.
  induction l as [|x l IH]; intros P; [reflexivity|]. change (x :: l) with ([x] ++ l). rewrite stress_time_app.
  assert (0 <= stress_time l) by (apply IH; intros; apply P; now right).
  assert (0 <= stress_time [x]); [|lia]. unfold stress_time. destruct x as [m|s|o]; cbn; try lia. specialize (P s (or_introl eq_refl)). lia.
Qed.
Lemma summary_usual i t (l : list (step Q)) rows z0 : summary_of i t l rows -> t = TD z0 -> short_test z0 l ->
  forall d k, In d rows -> In k time_cols -> exists t, dget d k = Some (CTime t) /\ usual_time t.
Proof.
  intros S. revert z0. induction S as [i t|i t o l rs S IH|i t m l r rs R S IH|i t s l r rs R S IH]; intros z0 Et (Z0 & P & B) d k Hd Hk.
  - destruct Hd.
  - eapply IH; eauto. split; [|split]; auto. intros; apply P; now right.
  - assert (P' : forall s, In (SStrs s) l -> 0 <= ss_dur s) by (intros; apply P; now right).
    change (stress_time (SMeas m :: l)) with (stress_time l) in B. pose proof (stress_time_nonneg l P').
    destruct Hd as [<-|Hd]; [|eapply IH; eauto; split; auto].
    destruct R as (_ & _ & _ & R1 & R2 & R3). subst t.
    assert (U : usual_time (TD z0)) by (exists z0; split; [reflexivity|lia]). assert (U0 : usual_time (TD 0)) by (exists 0; split; [reflexivity|lia]).
    destruct Hk as [<-|[<-|[<-|[]]]]; eauto.
  - injection Et as ->. assert (P' : forall s, In (SStrs s) l -> 0 <= ss_dur s) by (intros; apply P; now right).
    pose proof (P s (or_introl eq_refl)). pose proof (stress_time_nonneg l P').
    assert (X : stress_time (SStrs s :: l) = ss_dur s + stress_time l).
    { change (SStrs s :: l) with ([SStrs s] ++ l). rewrite stress_time_app. unfold stress_time at 1. cbn. lia. }
    rewrite X in B. destruct Hd as [<-|Hd]; [|eapply IH; eauto; split; [lia|split; [auto|lia]]].
    destruct R as (_ & _ & _ & R1 & R2 & R3).
    assert (U1 : usual_time (TD (ss_dur s))) by (eexists; split; [reflexivity|lia]).
    assert (U2 : usual_time (TD z0)) by (eexists; split; [reflexivity|lia]).
    assert (U3 : usual_time (TD (z0 + ss_dur s))) by (eexists; split; [reflexivity|lia]).
    destruct Hk as [<-|[<-|[<-|[]]]]; eauto.
Qed.

Lemma simulated_timed name desc e d l C L init w st' (rep' : report Q) w' z0 :
  device_wf d -> plain_names l -> simulate e d l C L init w = (Ok (st', rep'), w') ->
  match init with Some st => st_elapsed st | None => TD 0 end = TD z0 -> short_test z0 l ->
  rp_meas rep' <> [] -> timed (xreport_of name desc rep') (rp_meas rep') (rp_sum rep').
Proof.
  intros W P E T0 Sh Ne. pose proof Sh as (Z0 & Pd & B).
  apply simulate_run in E as (st0 & rep0 & w0 & E & M0 & S0 & _ & _ & I); auto.
  assert (T : st_elapsed st0 = TD z0). { destruct init as [s|]; destruct I as (I & _); congruence. }
  pose proof (run_stamped _ _ _ _ _ _ _ _ _ _ E) as (mrows & EM & F). rewrite M0 in EM. cbn [app] in EM. subst mrows. rewrite T in F.
  pose proof (run_summary _ _ _ _ _ _ _ _ _ _ P E) as (rows & E1 & E2). rewrite S0 in E1. cbn [app] in E1. subst rows. rewrite T in E2.
  pose proof (run_rows_shape _ _ _ _ _ _ _ _ _ _ E) as (rows & E3 & E4). rewrite S0 in E3. cbn [app] in E3. subst rows.
  assert (R : forall r, In r (rp_meas rep') -> usual_time (r_time r)).
  { intros r Hr. destruct (table_row _ _ _ _ F r Hr) as (l1 & m & l2 & -> & _ & [(x & X1 & X2)|(X & _)] & _).
    - injection X1 as <-. rewrite X2. eexists. split; [reflexivity|]. rewrite stress_time_app in B.
      assert (0 <= stress_time l1) by (apply stress_time_nonneg; intros; apply Pd; apply in_or_app; now left).
      assert (0 <= stress_time (SMeas m :: l2)) by (apply stress_time_nonneg; intros; apply Pd; apply in_or_app; now right). lia.
    - rewrite X. eexists. split; [reflexivity|]. assert (0 <= stress_time (l1 ++ SMeas m :: l2)) by now apply stress_time_nonneg. lia. }
  assert (NS : rp_sum rep' <> []).
  { destruct (rp_meas rep') as [|r rs] eqn:Em; [congruence|]. destruct (table_row _ _ _ _ F r (or_introl eq_refl)) as (l1 & m & l2 & -> & _).
    clear - E2. intros N. rewrite N in E2. revert E2. generalize (TD z0). generalize 0%nat. induction l1 as [|x l1 IH]; intros i t E2; inversion E2; subst. eapply IH; eauto. }
  repeat apply conj.
  - cbn. destruct (rp_meas rep'); congruence.
  - cbn. destruct (rp_sum rep'); congruence.
  - exact R.
  - intros x Hx. split; [apply E4, Hx|]. intros k Hk. eapply summary_usual; eauto.
  - intros x k t Hx Ht. eapply E4; eauto.
Qed.
End Q.
