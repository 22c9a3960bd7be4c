(** The simulator on arrays. *)
From Coq Require Import Lia.
From Verif Require Import M_Base M_Num M_Nd M_Time M_TestSpec M_Device M_Report M_Env M_Minimize M_Sim M_InPlace S_InPlace L_Base L_Sim3 L_InPlace L_InPlace2 L_InPlace3 L_InPlace4.
Open Scope nat_scope.

Section Sim.
Context {V : Type} `{NumOps V} `{Rng V} `{HashOrd}.
Implicit Types (h : heap V).

Lemma sim_pure_post {A} P (Q : A -> Prop) h (m : M A) : (forall w b w', m w = (Ok b, w') -> Q b) ->
  sim P (fun h' a b => h' = h /\ a = b /\ Q b) h (hpure m) m.
Proof. intros X w. unfold hpure. specialize (X w). destruct (m w) as [[a|e] w1]; repeat split; eauto; lia. Qed.
Lemma sim_pure_post_lift {A} P h (r : res A) : sim P (fun h' a b => h' = h /\ a = b) h (hlift r) (lift r).
Proof. intros w. unfold hlift, lift. destruct r; repeat split; auto; lia. Qed.

Lemma dd_every h h' o p : shows_dd h o p -> keeps every h h' -> shows_dd h' o p.
Proof. intros F K. induction F as [|[k o] [k' q] r s [E S1] F IH]; constructor; auto. cbn in *. split; [auto|]. eapply showsd_every; eauto. Qed.
Lemma dd_get h o p x : shows_dd h o p -> match dget o x, dget p x with Some a, Some b => showsd h a b | None, None => True | _, _ => False end.
Proof.
  intros F. induction F as [|[k a] [k' b] r s [E S1] F IH]; cbn; [exact I|]. cbn in E. subst k'. destruct (String.eqb x k); auto.
Qed.
Lemma dd_set h o p x a b : shows_dd h o p -> showsd h a b -> shows_dd h (dset o x a) (dset p x b).
Proof.
  intros F S1. induction F as [|[k o'] [k' q] r s [E S2] F IH]; cbn; [repeat constructor; auto|]. cbn in E. subst k'.
  destruct (String.eqb x k); constructor; auto; split; auto.
Qed.
Lemma dd_get_sim P h o p x : shows_dd h o p ->
  sim P (fun h' a b => h' = h /\ showsd h a b /\ dget p x = Some b) h (hlift (dgetE o x)) (lift (dgetE p x)).
Proof. intros F. apply sim_lift. pose proof (dd_get h o p x F). unfold dgetE. destruct (dget o x), (dget p x); tauto. Qed.
Lemma putdd_spec : forall d h d' h', putdd h d = (d', h') -> keeps every h h' /\ shows_dd h' d' d.
Proof.
  induction d as [|[k v] r IH]; intros h d' h' E; cbn in E.
  - injection E as <- <-. split; [apply keeps_refl|constructor].
  - destruct (putd h v) as [x h1] eqn:E1. destruct (putdd h1 r) as [r' h2] eqn:E2. injection E as <- <-.
    destruct (putd_spec _ _ _ _ E1) as (K1 & S1 & _). destruct (IH _ _ _ E2) as (K2 & S2). split; [eapply keeps_trans; eauto|].
    constructor; [|auto]. split; [auto|]. eapply showsd_every; eauto.
Qed.
Lemma sim_newdd {A B} (R : heap V -> A -> B -> Prop) h p k m :
  (forall h' o, keeps every h h' -> shows_dd h' o p -> sim every R h' (k o) m) -> sim every R h (hbind (newdd p) k) m.
Proof.
  intros S1 w. unfold hbind, newdd. destruct (putdd h p) as [o h'] eqn:E. destruct (putdd_spec _ _ _ _ E) as (K & Z).
  specialize (S1 h' o K Z w). destruct (k o h' w) as [[[a|e] h1] w1]; destruct (m w) as [[b|e'] w2]; try tauto.
  - destruct S1 as (? & K2 & ?). repeat split; auto; try apply (keeps_trans _ _ _ _ K K2). 
  - destruct S1 as (? & ? & K2). repeat split; auto; try apply (keeps_trans _ _ _ _ K K2).
Qed.

Lemma state_every h h' os st : shows_state h os st -> keeps every h h' -> shows_state h' os st.
Proof.
  intros (E & S1 & S2 & S3 & S4 & S5) K. repeat split; auto; try (eapply showsd_every; eauto); eapply dd_every; eauto.
Qed.

(** ** The conditions *)
Lemma env_no_time e base prms info dev stress nc nl w cv w' : dget base "time" = None ->
  gen_env_cond_vals e base prms info dev stress nc nl w = (Ok cv, w') ->
  forall x cs, dget cv x = Some cs -> dget cs "time" = None.
Proof.
  intros N E. unfold gen_env_cond_vals in E. apply bind_ok in E as (bc & w1 & E1 & E). apply bind_ok in E as (pc & w2 & _ & E).
  assert (B : dget (fst bc) "time" = None /\ dget (snd bc) "time" = None).
  { unfold gen_chip_conds in E1. revert E1.
    apply (foldM_inv (fun acc : dict (nd V) * dict (nd V) => dget (fst acc) "time" = None /\ dget (snd acc) "time" = None)); [|auto].
    intros acc [k v] wa acc' wb Ik [I1 I2] Ea. cbn [fst snd] in Ea. apply bind_ok in Ea as (? & ? & _ & Ea). apply bind_ok in Ea as (? & ? & _ & Ea). apply bind_ok in Ea as (? & ? & _ & Ea).
    injection Ea as <- _. cbn [fst snd]. rewrite !dget_dset. destruct (String.eqb k "time") eqn:Q; [|auto]. apply String.eqb_eq in Q. subst k.
    exfalso. apply dget_None_keys in N. apply N. apply in_map_iff. exists ("time"%string, v). auto. }
  destruct B as [B1 B2]. revert E.
  apply (foldM_inv (fun acc : dict (dict (pyval V)) => forall x cs, dget acc x = Some cs -> dget cs "time" = None)); [|cbn; discriminate].
  intros acc prm wa acc' wb _ I Ea. apply bind_ok in Ea as (v & wv & Ev & Ea).
  assert (Nv : dget v "time" = None).
  { destruct (match dev with Some d => dget d prm | None => None end) as [q|].
    - unfold gen_prm_conds in Ev. revert Ev. apply (foldM_inv (fun acc : dict (pyval V) => dget acc "time" = None)); [|reflexivity].
      intros a c w3 a' w4 _ Ia Ec. apply bind_ok in Ec as (? & ? & _ & Ec). apply bind_lift_ok in Ec as (ch & Ech & Ec). apply bind_ok in Ec as (? & ? & _ & Ec). apply bind_ok in Ec as (? & ? & _ & Ec).
      injection Ec as <- _. rewrite dget_dset. destruct (String.eqb c "time") eqn:Q; [|auto]. apply String.eqb_eq in Q. subst c.
      exfalso. unfold dgetE in Ech. rewrite B2 in Ech. discriminate.
    - unfold gen_sensor_conds in Ev. apply bind_ok in Ev as (? & ? & _ & Ev). apply bind_lift_ok in Ev as (ch & Ech & Ev). do 3 (apply bind_ok in Ev as (? & ? & _ & Ev)).
      injection Ev as <- _. unfold dgetE in Ech. cbn [dget fst snd]. destruct (String.eqb "time" prm) eqn:Q; [|auto]. apply String.eqb_eq in Q. subst prm.
      rewrite B1 in Ech. discriminate. }
  injection Ea as <- _. intros x cs. rewrite dget_dset. destruct (String.eqb prm x); [congruence|]. apply I.
Qed.

(** ** Steps *)
Section Steps.
Variables (e : env V) (d : device V) (code : role -> impl V).
Hypothesis Cd : code_behaves d code.
Hypothesis Wd : mechs_wf d.

Definition lat_free (lat : dict (dict (pyval V))) : Prop :=
  forall q lats nm l, dget lat q = Some lats -> dget lats nm = Some (PDict l) -> dget l "time" = None.
Definition at_lat (lat : dict (dict (pyval V))) h (os : ostate V) (st : simstate V) : Prop := shows_state h os st /\ st_lat st = lat.

Lemma in_deg_prms x p : In (x, p) (deg_prms d) -> In (x, PDeg p) d.
Proof.
  unfold deg_prms. rewrite in_flat_map. intros ([k [q|c]] & I1 & I2); cbn in I2; [|tauto]. destruct I2 as [E|[]]. injection E as <- <-. auto.
Qed.

Lemma stress_prm_sim h conds pconds rep dur os st x p : In (x, PDeg p) d -> shows_dd h conds pconds ->
  (forall k cs, dget pconds k = Some cs -> dget cs "time" = None) -> shows_state h os st -> lat_free (st_lat st) ->
  sim every (at_lat (st_lat st)) h (hstress_prm code conds rep dur os (x, p)) (stress_prm pconds rep dur st (x, p)).
Proof.
  intros Ip Sc Nc (Et & S1 & S2 & S3 & S4 & S5) Fl. pose proof (Cd _ _ Ip) as (Co & Cc & Cm). pose proof (Wd _ _ Ip) as Wp.
  unfold hstress_prm, stress_prm. cbn [fst snd]. apply (sim_sub _ (below (length h))); [|intros a La _; exact La].
  eapply sim_then; [apply sim_pure_post_lift|]. intros h1 n n' _ (-> & ->).
  eapply sim_then; [apply dd_get_sim; eauto|]. intros h1 mv pmv _ (-> & Smv & _).
  eapply sim_then; [apply dd_get_sim; eauto|]. intros h1 cs pcs _ (-> & Scs & Ecs).
  eapply sim_then; [apply dd_get_sim; eauto|]. intros h1 m0 pm0 _ (-> & Sm0 & _).
  eapply sim_then; [apply dd_get_sim; eauto|]. intros h1 ls pls _ (-> & Sls & Els).
  assert (Nt : no_time cs) by (eapply no_time_shown; eauto).
  assert (Fp : lats_free pls) by (intros nm l El; eapply Fl; eauto).
  eapply (sim_bind _ every (below (length h))); [eapply equiv_times_sim; eauto| |intros a La _; split; [exact I|exact La]].
  intros h1 eq peq K1 (Seq & Teq & Weq).
  eapply (sim_bind _ (fun a => ~ In a (addrsd eq)) (below (length h))).
  - rewrite durs_eq by exact Weq. eapply (durs_sim _ _ (length h)); eauto. destruct K1; lia.
  - intros h2 ts pts K2 (Sts & Tts & Fts).
    assert (K12 : keeps (below (length h)) h h2).
    { eapply keeps_trans; [eapply keeps_weak; [|exact K1]; intros; exact I|]. eapply keeps_weak; [|exact K2].
      intros a _ La Ia. destruct Teq as [Ft _]. pose proof (times_from_addrs _ _ _ Ft Ia). unfold below in La. lia. }
    assert (K12e : keeps every h h2) by (eapply keeps_weak; [|exact K12]; intros; assumption).
    assert (Lh : length h <= length h2) by (destruct K12; lia).
    eapply sim_then; [apply get_sim; eapply showsd_every; [exact S2|exact K12e]|]. intros h3 i0 pi0 _ (-> & Si0 & Ei0 & _).
    eapply sim_then.
    + eapply (deg_vals_sim code x p Cm Co h2 ts pts cs pcs i0 pi0 ls pls mv pmv (length h)); eauto.
      * intros a Ia. exact (showsd_lt _ _ _ _ Scs Ia).
      * intros a Ia. exact (showsd_lt _ _ _ _ Sls Ia).
      * intros a Ia. exact (showsd_lt _ _ _ _ Smv Ia).
      * intros a Ia. eapply (showsd_lt h); [exact S2|]. eapply dget_addrs; eauto.
      * eapply showsd_every; eauto.
      * eapply showsd_every; eauto.
      * eapply showsd_every; eauto.
    + intros h3 r pr K3 (Sr1 & Sr2). apply sim_ret.
      assert (K3e : keeps every h h3).
      { eapply keeps_weak; [|eapply keeps_trans; [exact K12|]]; [|eapply keeps_weak; [|exact K3]].
        - intros a La _. exact La.
        - intros a _ La. exact La. }
      split; [|reflexivity]. split; [exact Et|]. cbn [os_prm os_prm0 os_mech os_mech0 os_lat st_prm st_prm0 st_mech st_mech0 st_lat].
      split; [apply showsd_set; auto; eapply showsd_every; eauto|]. split; [eapply showsd_every; eauto|].
      split; [apply dd_set; auto; eapply dd_every; eauto|]. split; eapply dd_every; eauto.
  - intros a _ La. split; [|exact La]. intros Ia. destruct Teq as [Ft _]. pose proof (times_from_addrs _ _ _ Ft Ia). unfold below in La. lia.
Qed.

Lemma stress_step_sim h i s os st rep : dget (ss_conds s) "time" = None -> shows_state h os st -> lat_free (st_lat st) ->
  sim every (fun h' a b => at_lat (st_lat st) h' (fst a) (fst b) /\ snd a = snd b) h (hstress_step code e d i s os rep) (stress_step e d i s st rep).
Proof.
  intros Nt Ss Fl. unfold hstress_step, stress_step.
  eapply sim_then; [apply (sim_pure_post _ (fun cv => forall k cs, dget cv k = Some cs -> dget cs "time" = None)); intros w b w' E; eapply env_no_time; eauto|].
  intros h1 cv cv' _ (-> & -> & Nc). apply sim_newdd. intros h1 conds K1 Sc.
  eapply sim_then.
  - apply (sim_foldM every (fun h' => keeps every h1 h') (at_lat (st_lat st))).
    + intros h2 [x p] os1 st1 Ix K2 [Ss1 El]. rewrite <- El. apply stress_prm_sim; auto; [now apply in_deg_prms|eapply dd_every; eauto|now rewrite El].
    + intros h2 h3 K2 K3. eapply keeps_trans; eauto.
    + apply keeps_refl.
    + split; [|reflexivity]. eapply state_every; eauto.
  - intros h2 os1 st1 K2 [Ss1 El]. pose proof Ss1 as (Et & S1 & S2 & S3 & S4 & S5). rewrite Et.
    eapply sim_then; [apply sim_pure_post_lift|]. intros h3 t t' _ (-> & ->).
    eapply sim_then; [apply sim_pure_post_lift|]. intros h3 t t2 _ (-> & ->).
    apply sim_ret. split; [|reflexivity]. split; [repeat split; auto|exact El].
Qed.

Lemma measure_prm_sim h i conds pconds cs0 os st rep prm k : shows_dd h conds pconds -> shows_state h os st ->
  sim every same h (hmeasure_prm code e d i conds cs0 os rep prm k) (measure_prm e d i pconds cs0 st rep prm k).
Proof.
  intros Sc (Et & S1 & S2 & S3 & S4 & S5). unfold hmeasure_prm, measure_prm. eapply (sim_then _ same).
  - rewrite Et. pose proof (showsd_get h (os_prm os) (st_prm st) prm S1) as G. destruct (dget (os_prm os) prm) as [cur|], (dget (st_prm st) prm) as [pcur|]; try tauto.
    + destruct (dget d prm) as [[p|c]|] eqn:Ed; try apply sim_raise.
      apply dget_In in Ed. destruct (Cd _ _ Ed) as (Co & Cc & Cm).
      eapply sim_then; [apply dd_get_sim; eauto|]. intros h1 cs pcs _ (-> & Scs & _).
      eapply sim_then; [apply dd_get_sim; eauto|]. intros h1 ls pls _ (-> & Sls & _).
      eapply (sim_then _ same).
      * apply sim_ret_bind. eapply sim_then; [eapply cond_shifted_sim; eauto; tauto|]. intros h1 o q _ So w. unfold load. rewrite So. repeat split; auto.
      * intros h1 v v' _ ->. apply sim_lift_same.
    + destruct (dget d prm) as [[p|c]|] eqn:Ed; try apply sim_raise.
      * apply dget_In in Ed. pose proof (Cd _ _ Ed) as B. cbn in B.
        eapply sim_then; [apply dd_get_sim; eauto|]. intros h1 cs pcs _ (-> & Scs & _).
        eapply sim_then; [apply dd_get_sim; eauto|]. intros h1 ls pls _ (-> & Sls & _).
        eapply sim_then; [eapply circ_sim; eauto|]. intros h1 v v' _ ->. apply sim_lift_same.
      * destruct (dmem cs0 prm); [|apply sim_raise].
        eapply sim_then; [apply dd_get_sim; eauto|]. intros h1 cs pcs _ (-> & Scs & _).
        eapply (sim_then _ same).
        -- apply sim_ret_bind. eapply sim_then; [apply get_sim; eauto|]. intros h1 o q _ (-> & So & _) w. unfold load. rewrite So. repeat split; auto.
        -- intros h1 v v' _ ->. apply sim_lift_same.
  - intros h1 rows rows' _ Er. unfold same in Er. subst rows'. eapply sim_then; [apply sim_pure|]. intros h2 vs vs' _ Ev. unfold same in Ev. subst vs'. apply sim_ret. reflexivity.
Qed.

Lemma meas_step_sim h i m os st rep : shows_state h os st ->
  sim every (fun h' a b => at_lat (st_lat st) h' (fst a) (fst b) /\ snd a = snd b) h (hmeas_step code e d i m os rep) (meas_step e d i m st rep).
Proof.
  intros Ss. unfold hmeas_step, meas_step.
  eapply sim_then; [apply (sim_pure_post _ (fun _ => True)); auto|]. intros h1 cv cv' _ (-> & -> & _). apply sim_newdd. intros h1 conds K1 Sc.
  assert (Ss1 : shows_state h1 os st) by (eapply state_every; eauto).
  eapply (sim_then _ (fun h' a b => keeps every h1 h' /\ a = b)).
  - apply (sim_foldM every (fun h' => keeps every h1 h') (fun h' a b => keeps every h1 h' /\ a = b)).
    + intros h2 [x k] a b Ix K2 [_ ->]. cbn [fst snd]. eapply sim_then; [apply measure_prm_sim; [eapply dd_every; eauto|eapply state_every; eauto]|].
      intros h3 r r' K3 ->. apply sim_ret. split; [eapply keeps_trans; eauto|reflexivity].
    + intros h2 h3 K2 K3. eapply keeps_trans; eauto.
    + apply keeps_refl.
    + split; [apply keeps_refl|reflexivity].
  - intros h2 rows rows' _ (K2 & ->). apply sim_ret. split; [split; [eapply state_every; eauto|reflexivity]|].
    cbn [snd]. destruct Ss as (-> & _). reflexivity.
Qed.

Lemma run_sim : forall steps i h os st rep, (forall s, In (SStrs s) steps -> dget (ss_conds s) "time" = None) -> shows_state h os st -> lat_free (st_lat st) ->
  sim every (fun h' a b => shows_state h' (fst a) (fst b) /\ snd a = snd b) h (hrun_steps code e d i steps os rep) (run_steps e d i steps st rep).
Proof.
  induction steps as [|s steps IH]; intros i h os st rep Nt Ss Fl; unfold hrun_steps, run_steps; cbn [enumerate hfoldM foldM].
  - apply sim_ret. auto.
  - eapply (sim_then _ (fun h' a b => at_lat (st_lat st) h' (fst a) (fst b) /\ snd a = snd b)).
    + unfold hsim_step, sim_step. cbn [fst snd]. destruct s as [m|s|o].
      * now apply meas_step_sim.
      * apply stress_step_sim; auto. apply Nt. now left.
      * apply sim_ret. split; [split; auto|reflexivity].
    + intros h1 [os1 rep1] [st1 rep1'] K1 [[Ss1 El] Er]. cbn [fst snd] in *. subst rep1'. apply IH; auto.
      * intros s' I'. apply Nt. now right.
      * now rewrite El.
Qed.

Lemma sim_new_state {A B} (R : heap V -> A -> B -> Prop) h st k m :
  (forall h' os, keeps every h h' -> shows_state h' os st -> sim every R h' (k os) m) -> sim every R h (hbind (new_state st) k) m.
Proof.
  intros S1 w. unfold new_state, hbind, newd, newdd.
  destruct (putd h (st_prm st)) as [a h1] eqn:E1. destruct (putd h1 (st_prm0 st)) as [b h2] eqn:E2.
  destruct (putdd h2 (st_mech st)) as [c h3] eqn:E3. destruct (putdd h3 (st_mech0 st)) as [c0 h4] eqn:E4. destruct (putdd h4 (st_lat st)) as [l h5] eqn:E5.
  destruct (putd_spec _ _ _ _ E1) as (K1 & Z1 & _). destruct (putd_spec _ _ _ _ E2) as (K2 & Z2 & _).
  destruct (putdd_spec _ _ _ _ E3) as (K3 & Z3). destruct (putdd_spec _ _ _ _ E4) as (K4 & Z4). destruct (putdd_spec _ _ _ _ E5) as (K5 & Z5).
  assert (K45 := keeps_trans _ _ _ _ K4 K5). assert (K35 := keeps_trans _ _ _ _ K3 K45). assert (K25 := keeps_trans _ _ _ _ K2 K35). assert (K15 := keeps_trans _ _ _ _ K1 K25).
  unfold hret. specialize (S1 h5 (OState (st_elapsed st) a b c c0 l) K15).
  assert (Ss : shows_state h5 (OState (st_elapsed st) a b c c0 l) st).
  { split; [reflexivity|]. cbn [os_prm os_prm0 os_mech os_mech0 os_lat]. split; [exact (showsd_every _ _ _ _ Z1 K25)|].
    split; [exact (showsd_every _ _ _ _ Z2 K35)|]. split; [exact (dd_every _ _ _ _ Z3 K45)|]. split; [exact (dd_every _ _ _ _ Z4 K5)|exact Z5]. }
  specialize (S1 Ss w). destruct (k _ h5 w) as [[[x|ex] h6] w1]; destruct (m w) as [[y|ey] w2]; try tauto.
  - destruct S1 as (? & K & ?). repeat split; auto; apply (keeps_trans _ _ _ _ K15 K).
  - destruct S1 as (? & ? & K). repeat split; auto; apply (keeps_trans _ _ _ _ K15 K).
Qed.

(** The latents of a generated state are those of the device's models. *)
Lemma gen_latents_none (m : lmdl V) x D C L w l w' : dget (lm_vars m) x = None -> gen_latents m D C L w = (Ok l, w') -> dget l x = None.
Proof.
  intros N. unfold gen_latents. apply (foldM_inv (fun acc : dict (pyval V) => dget acc x = None)); [|reflexivity].
  intros acc [k v] wa acc' wb Ik Ia Ea. apply bind_ok in Ea as (a & wc & _ & Ea). injection Ea as <- _. cbn [fst]. rewrite dget_dset.
  destruct (String.eqb k x) eqn:Q; [|auto]. apply String.eqb_eq in Q. subst k. exfalso. apply dget_None_keys in N. apply N.
  apply in_map_iff. exists (x, v). auto.
Qed.
Lemma gen_latents_arrays (m : lmdl V) x D C L w l w' q : gen_latents m D C L w = (Ok l, w') -> dget l x <> Some (PDict q).
Proof.
  unfold gen_latents. apply (foldM_inv (fun acc : dict (pyval V) => dget acc x <> Some (PDict q))); [|discriminate].
  intros acc [k v] wa acc' wb Ik Ia Ea. apply bind_ok in Ea as (a & wc & _ & Ea). injection Ea as <- _. cbn [fst]. rewrite dget_dset.
  destruct (String.eqb k x); [discriminate|auto].
Qed.
Lemma dupdate_case {A} (b : dict A) : forall a x v, dget (dupdate a b) x = Some v -> dget a x = Some v \/ In (x, v) b.
Proof.
  unfold dupdate. induction b as [|[k y] b IH]; intros a x v E; cbn in E; [auto|]. apply IH in E as [E|E]; [|right; now right].
  rewrite dget_dset in E. destruct (String.eqb k x) eqn:Q; [|auto]. apply String.eqb_eq in Q. injection E as ->. subst. right. now left.
Qed.
Lemma gen_latents_in (m : lmdl V) D C L w l w' : gen_latents m D C L w = (Ok l, w') -> forall x v, In (x, v) l -> exists a, v = PArr a.
Proof.
  unfold gen_latents. apply (foldM_inv (fun acc : dict (pyval V) => forall x v, In (x, v) acc -> exists a, v = PArr a)); [|cbn; tauto].
  intros acc [k y] wa acc' wb Ik Ia Ea. apply bind_ok in Ea as (a & wc & _ & Ea). injection Ea as <- _. cbn [fst]. clear -Ia. intros x v.
  induction acc as [|[k' z] r IH]; cbn.
  - intros [E|[]]. injection E as <- <-. eauto.
  - destruct (String.eqb k k'); cbn.
    + intros [E|I]; [injection E as <- <-; eauto|]. eapply Ia. right. eauto.
    + intros [E|I]; [eapply Ia; left; eauto|]. apply IH; auto. intros. eapply Ia. right. eauto.
Qed.
Lemma prm_latents_free (p : degprm V) D C L w ls w' : dget (lm_vars (dp_cond p)) "time" = None ->
  (forall nm m, In (nm, m) (dp_mechs p) -> dget (lm_vars (mc_mdl m)) "time" = None) ->
  prm_latents p D C L w = (Ok ls, w') -> lats_free ls.
Proof.
  intros Nc Nm E. unfold prm_latents in E. apply bind_ok in E as (c & w1 & E1 & E). apply bind_ok in E as (ml & w2 & E2 & E).
  apply bind_ok in E as (own & w3 & E3 & E). injection E as <- _.
  assert (F : lats_free ml).
  { revert E2. apply (foldM_inv lats_free).
    - intros acc [k m] wa acc' wb Ik Ia Ea. apply bind_ok in Ea as (x & wc & Ex & Ea). injection Ea as <- _. cbn [fst snd] in *.
      intros nm l. rewrite dget_dset. destruct (String.eqb k nm); [|apply Ia]. intros Z. injection Z as <-. eapply gen_latents_none; [exact (Nm _ _ Ik)|exact Ex].
    - intros nm l. cbn. destruct (String.eqb nm "cond"); [|discriminate]. intros Z. injection Z as <-. eapply gen_latents_none; [exact Nc|exact E1]. }
  intros nm l El. apply dupdate_case in El as [El|El]; [eapply F; eauto|]. destruct (gen_latents_in _ _ _ _ _ _ _ E3 _ _ El). discriminate.
Qed.
Lemma dev_init_free counts C L w st cnt w' : dwf d -> latents_free d -> dev_init_state d counts C L w = (Ok (st, cnt), w') -> lat_free (st_lat st).
Proof.
  intros Wf Lf E. destruct (dev_init_ok d counts C L w st cnt w' Wf E) as (_ & _ & _ & _ & _ & D1 & D2 & D3).
  intros q lats nm l El. destruct (dget d q) as [[p|c]|] eqn:Ed.
  - destruct (D1 _ _ Ed) as (n & lats' & v & wa & wb & wc & _ & El' & Ep & _). assert (lats' = lats) by congruence. subst lats'.
    apply dget_In in Ed. destruct (Lf _ _ Ed) as [Lc Lm]. exact (prm_latents_free p n C L wa lats wb Lc Lm Ep nm l).
  - destruct (D2 _ _ Ed) as (n & lats' & wa & wb & _ & El' & Ep & _). assert (lats' = lats) by congruence. subst lats'.
    intros Z. exfalso. eapply gen_latents_arrays; eauto.
  - destruct (D3 _ Ed) as (_ & _ & Z). congruence.
Qed.

Lemma simulate_sim steps chps lots init h : (forall s, In (SStrs s) steps -> dget (ss_conds s) "time" = None) ->
  (forall st, init = Some st -> lat_free (st_lat st)) -> (init = None -> dwf d /\ latents_free d) ->
  sim every (fun h' a b => shows_state h' (fst a) (fst b) /\ snd a = snd b) h (hsimulate code e d steps chps lots init) (simulate e d steps chps lots init).
Proof.
  intros Nt Ns Nn. unfold hsimulate, simulate. destruct init as [st|].
  - apply sim_new_state. intros h' os K Ss. apply run_sim; auto.
  - destruct (Nn eq_refl) as [Wf Lf].
    eapply sim_then; [apply (sim_pure_post _ (fun r => lat_free (st_lat (ir_state r))))|].
    + intros w r w' E. cbn [gen_init_state] in E. apply bind_ok in E as ([st cnt] & w1 & E1 & E). injection E as <- _. cbn [ir_state fst].
      replace (st_lat (override_elapsed st (TD 0))) with (st_lat st) by reflexivity. exact (dev_init_free _ _ _ _ _ _ _ Wf Lf E1).
    + intros h1 r r' _ (-> & -> & Fl). destruct (ir_report r') as [rep'|]; [|apply sim_raise].
      apply sim_new_state. intros h' os K Ss. apply run_sim; auto.
Qed.
End Steps.

Lemma run_outcome (e : env V) (d : device V) code i steps os st rep h :
  code_behaves d code -> mechs_wf d -> shows_state h os st -> time_free st steps -> forall w,
  match hrun_steps code e d i steps os rep h w, run_steps e d i steps st rep w with
  | (Ok (os', r), h', w1), (Ok (st', r'), w2) => r = r' /\ w1 = w2 /\ shows_state h' os' st' /\ keeps every h h'
  | (Err x, h', w1), (Err x', w2) => x = x' /\ w1 = w2 /\ keeps every h h'
  | _, _ => False
  end.
Proof.
  intros Cd Wd Ss [T1 T2] w. pose proof (run_sim e d code Cd Wd steps i h os st rep T2 Ss T1 w) as X.
  destruct (hrun_steps code e d i steps os rep h w) as [[[[os' r]|x] h'] w1]; destruct (run_steps e d i steps st rep w) as [[[st' r']|x'] w2]; try tauto.
Qed.
Lemma simulate_outcome (e : env V) (d : device V) code steps chps lots init h :
  code_behaves d code -> mechs_wf d ->
  match init with
  | Some st => time_free st steps
  | None => dwf d /\ latents_free d /\ forall s, In (SStrs s) steps -> dget (ss_conds s) "time" = None
  end -> forall w,
  match hsimulate code e d steps chps lots init h w, simulate e d steps chps lots init w with
  | (Ok (os', r), h', w1), (Ok (st', r'), w2) => r = r' /\ w1 = w2 /\ shows_state h' os' st' /\ keeps every h h'
  | (Err x, h', w1), (Err x', w2) => x = x' /\ w1 = w2 /\ keeps every h h'
  | _, _ => False
  end.
Proof.
  intros Cd Wd T w.
  assert (S1 : sim every (fun h' a b => shows_state h' (fst a) (fst b) /\ snd a = snd b) h (hsimulate code e d steps chps lots init) (simulate e d steps chps lots init)).
  { apply simulate_sim; auto.
    - destruct init as [st|]; [exact (proj2 T)|exact (proj2 (proj2 T))].
    - intros st ->. exact (proj1 T).
    - intros ->. destruct T as (? & ? & _). auto. }
  specialize (S1 w).
  destruct (hsimulate code e d steps chps lots init h w) as [[[[os' r]|x] h'] w1]; destruct (simulate e d steps chps lots init w) as [[[st' r']|x'] w2]; try tauto.
Qed.
End Sim.
