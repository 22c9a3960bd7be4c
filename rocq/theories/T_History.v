(** C78: what a whole test does to a degradation mechanism. *)
From Coq Require Import Reals QArith Qreals Lra.
From Verif Require Import M_Base M_Num M_NumR M_Nd M_RandVar M_Latent M_Time M_TestSpec M_Minimize M_Device M_Report M_Env M_Sim M_Demo M_CookEnv M_Toy
  S_Latent S_TestSpec S_Minimize S_Device S_DeviceR S_Env S_Sim S_Shape S_Total S_Reading S_CookEnv S_History S_HistoryR
  L_Base L_Nd L_Latent L_Device L_DeviceR L_Env L_Env2 L_Shape L_Shape2 L_Total L_Reading L_History L_HistoryR L_Total2 L_Demo T_Sim T_Shape T_Reading T_Device.
Open Scope nat_scope.

(** One stress: every mechanism of every parameter is taken from the time that
    corresponds to its present value to that time plus the duration in its unit,
    under the conditions that the environment made of the requested ones. *)
Theorem C78_every_stress :
  forall V (O : NumOps V) (R : Rng V) (Ho : HashOrd) (e : env V) (d : device V) i (k : strs_spec V) st rep w st' rep' w' name nm (m : mech V),
  device_wf d -> regular d -> dwf (ss_conds k) ->
  state_fits d (rp_lots rep) (rp_chps rep) (rp_counts rep) st -> has_mech d name nm m ->
  sim_step e d (st, rep) (i, SStrs k) w = (Ok (st', rep'), w') ->
  exists n ls lats v x t cs,
    dget (rp_counts rep) name = Some n /\ dget (st_lat st) name = Some ls /\ dget ls nm = Some (PDict lats) /\
    mech_val st name nm (PArr v) /\ mech_val st' name nm (PArr x) /\
    let s := Scene e d (rp_lots rep) (rp_chps rep) (rp_counts rep) name n m lats in
    produced s (ss_conds k) cs /\ advanced s cs (ss_dur k) v t x.
Proof.
  intros V O R Ho e d i k st rep w st' rep' w' name nm m W Rg Wc F Hm E. unfold sim_step in E. cbn [fst snd] in E.
  eapply stress_advances with (ns := any); eauto; [now apply regular_all|now intros].
Qed.
Print Assumptions C78_every_stress.

(** A whole test: the mechanism starts at its neutral value and only the stresses
    change it, one after the other, each in this way. *)
Theorem C78_history :
  forall V (O : NumOps V) (R : Rng V) (Ho : HashOrd) (e : env V) (d : device V) l chps lots w name nm (m : mech V) st rep w',
  device_wf d -> regular d -> (forall s, In s l -> step_wf s) -> has_mech d name nm m -> (exists s, In (SStrs s) l) ->
  simulate e d l chps lots None w = (Ok (st, rep), w') ->
  exists n ls lats found x,
    dget (rp_counts rep) name = Some n /\ dget (st_lat st) name = Some ls /\ dget ls nm = Some (PDict lats) /\
    (forall z, In z (dkeys lats) -> In z (dkeys (lm_vars (mc_mdl m)))) /\ mech_val st name nm (PArr x) /\
    history (Scene e d lots chps (rp_counts rep) name n m lats) l (nfull [lots; chps; n] (mc_unitary m)) found x.
Proof. intros V O R Ho e d l chps lots w name nm m st rep w'. apply simulate_history. Qed.
Print Assumptions C78_history.

(** Over the reals, without process variation of the environment, with a mechanism
    given by a formula and the same conditions in all stresses: every device follows
    its law over the total stress time, up to the errors of the searches. *)
Theorem C78_total_stress_time :
  forall (R0 : Rng R) (Ho : HashOrd) (e : env R) (d : device R) l chps lots w name nm (m : mech R) st rep w' base f u,
  ideal_env = Ok e -> device_wf d -> regular d -> (forall s, In s l -> step_wf s) -> has_mech d name nm m ->
  (exists s, In (SStrs s) l) -> dwf base ->
  (forall k, In (SStrs k) l -> ss_conds k = base /\ (0 <= ss_dur k)%Z) ->
  mc_kind m = KDeg -> unit_map (mc_unit m) = Some u -> given_by (lm_eqn (mc_mdl m)) f ->
  dget base "time" = None ->
  simulate e d l chps lots None w = (Ok (st, rep), w') ->
  exists n ls lats found x,
    let s := Scene e d lots chps (rp_counts rep) name n m lats in
    dget (rp_counts rep) name = Some n /\ dget (st_lat st) name = Some ls /\ dget ls nm = Some (PDict lats) /\
    mech_val st name nm (PArr x) /\ history s l (nfull [lots; chps; n] (mc_unitary m)) found x /\
    forall eps del (T : list nat -> R), (0 <= eps <= 1 -> 0 <= del -> accurate f s base eps del found ->
    let k := length found in let total := total (stress_times u l) in
    everywhere s (fun i => mc_unitary m = device_law f s base i (T i) /\ 0 <= T i /\
      (1 + eps) ^ k * (T i + total + INR k * del) <= 9000000000) ->
    everywhere s (fun i => exists tau, aget x i = device_law f s base i tau /\
      (1 - eps) ^ k * (T i + total) - INR k * del <= tau <= (1 + eps) ^ k * (T i + total + INR k * del)))%R.
Proof.
  intros R0 Ho e d l chps lots w name nm m st rep w' base f u Ee W Rg Ws Hm Hs Wb Hk K U F Nb E. injection Ee as <-.
  pose proof Hm as (p & Hp & _).
  apply simulate_history with (name := name) (nm := nm) (m := m) in E as (n & ls & lats & found & x & A1 & A2 & A3 & A4 & A5 & A6); auto.
  exists n, ls, lats, found, x. cbv zeta. repeat (split; [assumption|]).
  intros eps del T He Hd Ac HT.
  eapply (history_total (Scene [] d lots chps (rp_counts rep) name n m lats)) with (q := PDeg p); eauto.
  - intros a b c Ha Hb Hc. destruct (HT a b c Ha Hb Hc) as (Q1 & Q2 & Q3). split; auto. rewrite <- Q1. unfold nfull. now apply aget_build3.
Qed.
Print Assumptions C78_total_stress_time.

(** Whatever the searches return, the last stress leaves every device at its law's
    value for more than the duration of this stress, unless the time would exceed
    9e9 units. *)
Theorem C78_at_least_the_last_stress :
  forall (R0 : Rng R) (Ho : HashOrd) (e : env R) (d : device R) l k chps lots w name nm (m : mech R) st rep w' f u,
  ideal_env = Ok e -> device_wf d -> regular d -> (forall s, In s (l ++ [SStrs k]) -> step_wf s) -> has_mech d name nm m ->
  mc_kind m = KDeg -> unit_map (mc_unit m) = Some u -> given_by (lm_eqn (mc_mdl m)) f ->
  dget (ss_conds k) "time" = None ->
  simulate e d (l ++ [SStrs k]) chps lots None w = (Ok (st, rep), w') ->
  exists n ls lats rest before t x,
    let s := Scene e d lots chps (rp_counts rep) name n m lats in
    dget (rp_counts rep) name = Some n /\ dget (st_lat st) name = Some ls /\ dget ls nm = Some (PDict lats) /\
    mech_val st name nm (PArr x) /\
    history s (l ++ [SStrs k]) (nfull [lots; chps; n] (mc_unitary m)) (rest ++ [(before, t)]) x /\
    everywhere s (fun i => let tau := aget t i + td_num u (ss_dur k) in td_num u (ss_dur k) < tau /\
      (tau <= 9000000000 -> aget x i = device_law f s (ss_conds k) i tau) /\
      (9000000000 < tau -> aget x i = aget before i))%R.
Proof.
  intros R0 Ho e d l k chps lots w name nm m st rep w' f u Ee W Rg Ws Hm K U F Nb E. injection Ee as <-.
  pose proof Hm as (p & Hp & _).
  apply simulate_history with (name := name) (nm := nm) (m := m) in E as (n & ls & lats & found & x & A1 & A2 & A3 & A4 & A5 & A6); auto;
    [|exists k; apply in_or_app; right; now left].
  pose proof (Ws (SStrs k) ltac:(apply in_or_app; right; now left)) as Wk.
  pose proof (history_last (Scene [] d lots chps (rp_counts rep) name n m lats) (ss_conds k) f u eq_refl K U F Nb Wk (PDeg p) l k _ _ _ A1 Hp eq_refl A6)
    as (rest & before & t & -> & B).
  exists n, ls, lats, rest, before, t, x. cbv zeta. repeat (split; [assumption|]). intros a b c Ha Hb Hc. destruct (B a b c Ha Hb Hc) as (B1 & B2 & B3).
  split; [lra|]. split; auto.
Qed.
Print Assumptions C78_at_least_the_last_stress.

(** ** Examples *)
(** The running example: the failure mechanism of [vth] after three stresses. *)
#[local] Existing Instance hord_id.
#[local] Existing Instance hord_id.
Example C78_history_example : exists n ls lats found x,
  dget (rp_counts ex_rep) "vth" = Some n /\ dget (st_lat ex_st) "vth" = Some ls /\ dget ls "fail" = Some (PDict lats) /\
  mech_val ex_st "vth" "fail" (PArr x) /\
  history (Scene ex_env ex_dev 1 2 (rp_counts ex_rep) "vth" n ex_fail lats) ex_steps (nfull [1; 2; n] 0%Q) found x.
Proof.
  assert (Hm : has_mech ex_dev "vth" "fail" ex_fail) by (exists ex_vth; split; reflexivity).
  assert (Hs : exists s, In (SStrs s) ex_steps) by (exists (ex_str 3 "s1"); right; left; reflexivity).
  destruct (C78_history _ _ _ _ _ _ _ _ _ _ _ _ _ _ _ _ ex_wf ex_regular ex_steps_wf Hm Hs ex_ok)
    as (n & ls & lats & found & x & A1 & A2 & A3 & _ & A5 & A6).
  exists n, ls, lats, found, x. split; [exact A1|]. split; [exact A2|]. split; [exact A3|]. split; [exact A5|exact A6].
Qed.

(** Over the reals: a law that grows in proportion to time and temperature, and a
    device that has the value of the law at the search's first guess. *)
Definition r_form : formula R := FMap2 Rmult (FMap2 Rminus (FArg "time") (FNum first_guess)) (FArg "temp").
Definition r_eqn : eqn R := Eqn ["time"; "temp"]%string [] None (fun args => lift (fvalue r_form args)).
Definition r_mech : mech R := Mech KDeg (LMdl r_eqn []) 0%R (Some "h"%string).
Definition r_prm (i : lvar R) : degprm R := DegPrm (init_of i) no_cond n0 [("age"%string, r_mech)] (LMdl eqn_basic_sum []).
Definition r_dev (i : lvar R) : device R := [("p"%string, PDeg (r_prm i))].
Definition r_base : dict R := [("temp"%string, 3%R)].
Definition r_meas : meas_spec R := MeasSpec [("p"%string, 1)] [] "m".
Definition r_strs : strs_spec R := StrsSpec r_base (5 * 3600000000)%Z "s".
Definition r_steps : list (step R) := [SMeas r_meas; SStrs r_strs].

Lemma r_given : given_by r_eqn r_form.
Proof. repeat split; auto; intros x; cbn; intuition. Qed.
Lemma r_regular i : regular (r_dev i).
Proof.
  intros name p Hp. apply dget_In in Hp. destruct Hp as [Q|[]]. injection Q as <- <-. cbn [r_prm dp_init dp_cond dp_own dp_mechs lm_eqn].
  split; [apply basic_respects|]. split; [apply respects_numeric, const_respects|]. split; [apply respects_follows, basic_sum_respects|].
  intros nm m Hm. apply dget_In in Hm. destruct Hm as [Q|[]]. injection Q as <- <-. exact (formula_numeric _ _ r_given).
Qed.
Lemma r_wf i : device_wf (r_dev i).
Proof.
  split; [repeat constructor; intros []|]. intros name p Hp. apply dget_In in Hp. destruct Hp as [Q|[]]. injection Q as <- <-. repeat constructor; intros [].
Qed.
Lemma r_steps_wf : forall s, In s r_steps -> step_wf s.
Proof. intros s [<-|[<-|[]]]; repeat split; repeat constructor; intros []. Qed.
Lemma r_runs (R0 : Rng R) i w : latent_ok i -> exists st rep w', simulate [] (r_dev i) r_steps 1 1 None w = (Ok (st, rep), w') /\ dget (rp_counts rep) "p" = Some 1.
Proof.
  intros Oi. destruct (one_experiment [] "p"%string (r_prm i) r_steps r_meas 1 1 1 w) as (st & rep & w' & E & _ & _ & K); eauto.
  - split; [now left|]. intros m' [Q|[Q|[]]]; now inversion Q.
  - discriminate.
  - apply basic_empty.
  - apply (prm_of_deg [("age"%string, r_mech)] i (LMdl eqn_basic_sum []) None None); auto.
    + intros x o [].
    + intros x [<-|[]]. split; discriminate.
    + intros x [<-|[<-|[]]]; auto.
    + discriminate.
    + apply computes_now, basic_sum_computes.
    + intros nm m [Q|[]]. injection Q as <- <-. split; [intros x o []|]. split; [left; now left|].
      split; [exact (formula_somehow _ _ r_given)|]. split; [discriminate|].
      intros x [<-|[<-|[]]]; [now left|]. right; right. intros s [Q|[Q|[]]]; [discriminate Q|]. injection Q as <-. now left.
  - destruct (r_regular i "p"%string (r_prm i) eq_refl) as (A & B & D & G). split; [apply A|]. split; [apply B|]. split; [apply D|]. intros nm m Hm. exact (G nm m Hm 1 1 1).
  - repeat constructor; intros [].
  - intros s [<-|[<-|[]]]; (split; [repeat split; repeat constructor; cbn; intuition discriminate|split; [cbn; intuition (subst; discriminate)|discriminate]]).
Qed.

Lemma r_law counts i y : device_law r_form (Scene [] (r_dev i) 1 1 counts "p"%string 1 r_mech []) r_base [0; 0; 0] y = ((y - first_guess) * 3)%R.
Proof. reflexivity. Qed.
(** The only search of this test is exact. *)
Lemma r_search (R0 : Rng R) i counts found x :
  let s := Scene [] (r_dev i) 1 1 counts "p"%string 1 r_mech [] in
  dget counts "p" = Some 1 -> history s r_steps (nfull [1; 1; 1] 0%R) found x ->
  found = [(Nd [1; 1; 1] [0%R], Nd [1; 1; 1] [first_guess])] /\ full s x.
Proof.
  intros s K Hh.
  inversion Hh as [|? ? ? ? ? B5' | | ]; subst. inversion B5' as [| | |k l v t0 v1 cs fd z Pr Ad Hi Q1 Q2 Q3 Q4]; subst. inversion Hi; subst.
  destruct Ad as (Fv & Ft & Fx & (w1 & w2 & Eq) & _). split; [|exact Fx]. cbn [sc_mech sc_lats sc_lots sc_chps sc_num] in Eq.
  assert (Wb : dwf r_base) by (repeat constructor; intros []).
  pose proof Pr as (all & wa & wb & Ea & Ec).
  assert (Oc : operands 1 1 1 cs) by
    exact (conds_operands _ _ _ _ _ _ _ _ _ _ _ "p"%string _ cs 1 Wb Ea eq_refl Ec K).
  assert (Kc : In "temp"%string (dkeys cs)).
  { pose proof (env_conds_ok _ _ _ _ _ _ _ _ _ _ _ Wb Ea) as (_ & _ & G). specialize (G _ _ Ec). cbn [dev_prm] in G.
    apply dmem_keys, (G "temp"%string). split; [now left|]. right; left. split; auto. exists "age"%string, r_mech. cbn. auto. }
  pose proof (law_one s r_base r_form eq_refl r_given eq_refl Wb cs _ K eq_refl Pr eq_refl eq_refl eq_refl
    (fun x p (Q : In (x, p) []) => match Q with end) Oc (or_introl eq_refl) eq_refl) as Lw.
  destruct (C28_first_guess_is_exact r_mech cs [] (fun y => (y - first_guess) * 3)%R 1 1 1 w1) as (w3 & E3).
  - reflexivity.
  - left. intros. lra.
  - intros y w4 _. rewrite <- (r_law counts i). apply Lw. intros z [<-|[<-|[]]]; auto.
  - replace ((first_guess - first_guess) * 3)%R with 0%R in E3 by lra.
    change (mech_equiv_time r_mech (PArr (Nd [1; 1; 1] [0%R])) cs [] 1 1 1 w1 = (Ok (PArr t0), w2)) in Eq. rewrite E3 in Eq. injection Eq as <- _. reflexivity.
Qed.
Lemma r_hours : td_num (V := R) UHours (ss_dur r_strs) = 5%R.
Proof. unfold td_num; cbn; unfold Q2R; cbn; lra. Qed.
Lemma r_no_latents (R0 : Rng R) i w st rep w' ls lats : simulate [] (r_dev i) r_steps 1 1 None w = (Ok (st, rep), w') ->
  dget (st_lat st) "p" = Some ls -> dget ls "age" = Some (PDict lats) -> lats = [].
Proof.
  intros E B2 B3. assert (Hm : has_mech (r_dev i) "p" "age" r_mech) by (exists (r_prm i); split; reflexivity).
  destruct (C78_history _ _ _ _ _ _ _ _ _ _ _ _ _ _ _ _ (r_wf i) (r_regular i) r_steps_wf Hm (ex_intro _ r_strs (or_intror (or_introl eq_refl))) E)
    as (n' & ls' & lats' & found & x' & _ & D2 & D3 & D4 & _).
  rewrite B2 in D2. injection D2 as <-. rewrite B3 in D3. injection D3 as <-.
  destruct lats as [|[z q] l]; auto. destruct (D4 z (or_introl eq_refl)).
Qed.

(** Both theorems then give the value (5 h) * 3 of the mechanism at the end. *)
Example C78_last_stress_example : forall (R0 : Rng R) w, exists i st rep w', simulate [] (r_dev i) r_steps 1 1 None w = (Ok (st, rep), w') /\
  mech_val st "p" "age" (PArr (Nd [1; 1; 1] [15%R])).
Proof.
  intros R0 w. destruct (deter_total (V := R) 7%Q) as (i & _ & Oi). destruct (r_runs R0 i w Oi) as (st & rep & w' & E & K).
  exists i, st, rep, w'. split; [exact E|].
  assert (Hm : has_mech (r_dev i) "p" "age" r_mech) by (exists (r_prm i); split; reflexivity).
  destruct (C78_at_least_the_last_stress R0 _ [] (r_dev i) [SMeas r_meas] r_strs 1 1 w "p"%string "age"%string r_mech st rep w' r_form
    UHours eq_refl (r_wf i) (r_regular i) r_steps_wf Hm eq_refl eq_refl r_given eq_refl E)
    as (n & ls & lats & rest & before & t & x & B1 & B2 & B3 & B4 & B5 & B6).
  assert (lats = []) as -> by exact (r_no_latents _ _ _ _ _ _ _ _ E B2 B3). rewrite K in B1. injection B1 as <-.
  destruct (r_search _ _ _ _ _ K B5) as [Q Fx].
  destruct rest as [|r0 rest]; [|destruct rest; discriminate Q]. cbn [app] in Q. injection Q as -> ->.
  destruct (B6 0 0 0) as (_ & B7 & _); [cbn; lia|cbn; lia|cbn; lia|]. change (aget (Nd [1; 1; 1] [first_guess]) [0; 0; 0]) with first_guess in B7.
  pose proof first_guess_small. change (ss_conds r_strs) with r_base in B7. rewrite r_hours, r_law in B7.
  specialize (B7 ltac:(lra)). replace ((first_guess + 5 - first_guess) * 3)%R with 15%R in B7 by lra.
  destruct x as [sh [|z [|z' l']]]; destruct Fx as [Fx1 Fx2]; cbn in Fx2; try discriminate Fx2. cbn [nshape sc_lots sc_chps sc_num] in Fx1. subst sh.
  change (aget (Nd [1; 1; 1] [z]) [0; 0; 0]) with z in B7. subst z. exact B4.
Qed.
Example C78_total_example : forall (R0 : Rng R) w, exists i st rep w', simulate [] (r_dev i) r_steps 1 1 None w = (Ok (st, rep), w') /\
  mech_val st "p" "age" (PArr (Nd [1; 1; 1] [15%R])).
Proof.
  intros R0 w. destruct (deter_total (V := R) 7%Q) as (i & _ & Oi). destruct (r_runs R0 i w Oi) as (st & rep & w' & E & K).
  exists i, st, rep, w'. split; [exact E|].
  assert (Hm : has_mech (r_dev i) "p" "age" r_mech) by (exists (r_prm i); split; reflexivity).
  assert (Wb : dwf r_base) by (repeat constructor; intros []).
  assert (Hk : forall k, In (SStrs k) r_steps -> ss_conds k = r_base /\ (0 <= ss_dur k)%Z).
  { intros k [Q|[Q|[]]]; [discriminate Q|]. injection Q as <-. split; [reflexivity|]. cbn. lia. }
  destruct (C78_total_stress_time R0 _ [] (r_dev i) r_steps 1 1 w "p"%string "age"%string r_mech st rep w' r_base r_form
    UHours eq_refl (r_wf i) (r_regular i) r_steps_wf Hm (ex_intro _ r_strs (or_intror (or_introl eq_refl))) Wb Hk eq_refl eq_refl r_given eq_refl E)
    as (n & ls & lats & found & x & B1 & B2 & B3 & B4 & B5 & B6).
  assert (lats = []) as -> by exact (r_no_latents _ _ _ _ _ _ _ _ E B2 B3). rewrite K in B1. injection B1 as <-.
  destruct (r_search _ _ _ _ _ K B5) as [-> Fx]. pose proof first_guess_small as Fg.
  specialize (B6 0%R 0%R (fun _ => first_guess) ltac:(lra) ltac:(lra)). cbn [length] in B6.
  assert (Tt : total (stress_times UHours r_steps) = 5%R) by (cbn [stress_times r_steps flat_map app total]; rewrite r_hours; cbn; lra).
  rewrite Tt in B6. destruct (B6) with (l := 0) (c := 0) (d := 0) as (tau & Q1 & Q2); cbn [sc_lots sc_chps sc_num]; auto.
  - intros v t [Q|[]] l c d Hl Hc Hd tau _ Ht. injection Q as <- <-. cbn [sc_lots sc_chps sc_num] in Hl, Hc, Hd.
    assert (l = 0 /\ c = 0 /\ d = 0) as (-> & -> & ->) by lia. rewrite r_law in Ht.
    change (aget (Nd [1; 1; 1] [0%R]) [0; 0; 0]) with 0%R in Ht. change (aget (Nd [1; 1; 1] [first_guess]) [0; 0; 0]) with first_guess. lra.
  - intros l c d Hl Hc Hd. cbn [sc_lots sc_chps sc_num] in Hl, Hc, Hd. assert (l = 0 /\ c = 0 /\ d = 0) as (-> & -> & ->) by lia.
    rewrite r_law. cbn [mc_unitary r_mech pow INR]. lra.
  - rewrite r_law in Q1. cbn [pow INR] in Q2. assert (tau = first_guess + 5)%R as -> by lra.
    replace ((first_guess + 5 - first_guess) * 3)%R with 15%R in Q1 by lra.
    destruct x as [sh [|z [|z' l']]]; destruct Fx as [Fx1 Fx2]; cbn in Fx2; try discriminate Fx2. cbn [nshape sc_lots sc_chps sc_num] in Fx1. subst sh.
    change (aget (Nd [1; 1; 1] [z]) [0; 0; 0]) with z in Q1. subst z. exact B4.
Qed.
