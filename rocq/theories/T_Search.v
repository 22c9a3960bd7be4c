(** C88: tests whose searches for equivalent times converge show the laws at the
    accumulated stress time up to explicit errors. *)
From Coq Require Import Reals QArith Qreals Lra.
From Verif Require Import M_Base M_Num M_NumR M_Nd M_RandVar M_Latent M_Time M_TestSpec M_Minimize M_Device M_Report M_Env M_Sim M_Demo M_CookEnv M_Cookbook M_CookMech M_Toy
  S_Latent S_TestSpec S_Minimize S_Device S_DeviceR S_Env S_Sim S_Shape S_Sum S_Total S_Reading S_CookEnv S_Cookbook S_CookMech S_History S_HistoryR S_Const S_Search
  L_Base L_Nd L_Latent L_Device L_DeviceR L_Env L_Env2 L_Shape L_Shape2 L_Total L_Reading L_History L_HistoryR L_Total2 L_Demo L_Const L_Search L_Search2 L_Golden
  T_Sim T_Shape T_Reading T_Device T_History T_Const T_CookMech.
From Verif Require L_Minimize L_CookMech.
Open Scope nat_scope.

(** In every history of values under constant conditions, starting from values that
    the law takes at times that are 0 or at least 0.001: if every search converges,
    every equivalent time found is right up to one part in 50000 and 0.0011. *)
Theorem C88_converged_searches_are_accurate :
  forall (R0 : Rng R) (Ho : HashOrd) (s : scene R) base (f : formula R) u,
  sc_env s = [] -> mc_kind (sc_mech s) = KDeg -> unit_map (mc_unit (sc_mech s)) = Some u ->
  given_by (lm_eqn (mc_mdl (sc_mech s))) f -> dget base "time" = None -> dwf base -> progresses f s base ->
  forall q l v found x,
  dget (sc_counts s) (sc_name s) = Some (sc_num s) -> dget (sc_dev s) (sc_name s) = Some q ->
  (forall k, In (SStrs k) l -> ss_conds k = base /\ / 1000 <= td_num u (ss_dur k))%R ->
  history s l v found x -> (forall v t, In (v, t) found -> settles s base v) ->
  forall T : list nat -> R,
  everywhere s (fun i => aget v i = device_law f s base i (T i) /\ 0 <= T i /\
    (1 + rel_error) ^ length found * (T i + total (stress_times u l) + INR (length found) * abs_error) <= 9000000000)%R ->
  (everywhere s (fun i => T i = 0) \/ everywhere s (fun i => / 1000 <= T i))%R ->
  accurate f s base rel_error abs_error found.
Proof. intros R0 Ho s base f u H1 H2 H3 H4 H5 H6 H7 q l v found x. now apply history_accurate. Qed.
Print Assumptions C88_converged_searches_are_accurate.

(** Hence the readings of C82, whose searches were only assumed to be accurate. *)
Theorem C88_readings :
  forall (R0 : Rng R) (Ho : HashOrd) (e : env R) (d : device R) l chps lots w st rep w' name (p : degprm R) laws units base,
  ideal_env = Ok e -> device_wf d -> regular d -> (forall s, In s l -> step_wf s) ->
  (forall q p, dget d q = Some (PDeg p) -> ~ In "init"%string (dkeys (dp_mechs p)) /\ ~ In "cond"%string (dkeys (dp_mechs p))) ->
  dget d name = Some (PDeg p) -> additive p laws units -> dwf base -> dget base "time" = None ->
  (forall k, In (SStrs k) l -> ss_conds k = base /\ (0 <= ss_dur k)%Z /\
     forall nm, In nm (dkeys (dp_mechs p)) -> (/ 1000 <= td_num (units nm) (ss_dur k))%R) ->
  simulate e d l chps lots None w = (Ok (st, rep), w') ->
  exists n ls (init : nd R) (sc : string -> scene R),
    dget (rp_counts rep) name = Some n /\ dget (st_lat st) name = Some ls /\ dget (st_prm0 st) name = Some (PArr init) /\
    nshape init = [lots; chps; n] /\
    (forall nm m, dget (dp_mechs p) nm = Some m -> exists lats, dget ls nm = Some (PDict lats) /\
       sc nm = Scene e d lots chps (rp_counts rep) name n m lats) /\
    forall l1 m l2 k, l = l1 ++ SMeas m :: l2 -> In (name, k) (ms_counts m) ->
    exists pre g post (found : string -> list (nd R * nd R)),
      rp_meas rep = pre ++ g ++ post /\ labelled lots chps k g /\ stamped (length l1) (TD (stress_time l1)) (name, k) g /\
      (forall nm, In nm (dkeys (dp_mechs p)) -> exists x, history (sc nm) l1 (nfull [lots; chps; n] 0%R) (found nm) x) /\
      (INR (length (stresses l1)) <= 50000 ->
       (forall nm, In nm (dkeys (dp_mechs p)) -> progresses (laws nm) (sc nm) base /\ total (stress_times (units nm) l1) <= 2900000000 /\
          forall v t, In (v, t) (found nm) -> settles (sc nm) base v) ->
       forall a b c, (a < lots)%nat -> (b < chps)%nat -> (c < k)%nat -> exists r (tau : string -> R),
         nth_error g ((a * chps + b) * k + c) = Some r /\ r_lot r = Some a /\ r_chp r = Some b /\ M_Report.r_dev r = Some c /\
         r_val r = aget init [a; b; c]%nat + total (map (fun nm => device_law (laws nm) (sc nm) base [a; b; c]%nat (tau nm)) (dkeys (dp_mechs p))) /\
         forall nm, In nm (dkeys (dp_mechs p)) ->
           within rel_error abs_error (length (stresses l1)) (total (stress_times (units nm) l1)) (tau nm))%R.
Proof. intros R0 Ho e d l chps lots w st rep w' name p laws units base. apply readings_converged. Qed.
Print Assumptions C88_readings.

(** The HTOL test of the cookbook on a parameter with the cookbook's NBTI mechanism
    of JEDEC, its time unit the hour: every measurement shows the initial value plus the published law at
    the stress temperature and voltage and at the hours of stress so far. *)
Theorem C88_nbti_in_htol :
  forall (R0 : Rng R) (Ho : HashOrd) e d name (p : degprm R) nm g m0 m u fuel (tm : dict nat) (v k : R) i dur c l (t : R) test chps lots w st rep w',
  ideal_env = Ok e -> device_wf d -> regular d ->
  (forall q p, dget d q = Some (PDeg p) -> ~ In "init"%string (dkeys (dp_mechs p)) /\ ~ In "cond"%string (dkeys (dp_mechs p))) ->
  dget d name = Some (PDeg p) -> dp_mechs p = [(nm, m)] ->
  jedec_nbti_mdl g = Ok m0 -> m = Mech (mc_kind m0) (mc_mdl m0) (mc_unitary m0) u -> unit_map u = Some UHours -> nm <> "mechs"%string ->
  lm_eqn (dp_own p) = eqn_basic_sum -> lm_vars (dp_own p) = [] -> lm_eqn (dp_cond p) = eqn_const 0%R -> dp_cunit p = 0%R -> lm_vars (dp_init p) <> [] ->
  htol fuel tm v k i dur c l t = Some (Ok test) -> dwf tm -> (0 < dur <= 2900000000)%Z -> (INR (length (stresses (t_steps test))) <= 50000)%R ->
  (0 < t + 27315 / 100)%R -> (0 < v * k)%R ->
  simulate e d (t_steps test) chps lots None w = (Ok (st, rep), w') ->
  exists n ls (init : nd R) (x : nbti_lats),
    dget (rp_counts rep) name = Some n /\ dget (st_lat st) name = Some ls /\ dget (st_prm0 st) name = Some (PArr init) /\ nshape init = [lots; chps; n] /\
    dget ls nm = Some (PDict (nbti_dict x)) /\ (exists wa wb, gen_latents (mc_mdl m) n chps lots wa = (Ok (nbti_dict x), wb)) /\
    let sc := Scene e d lots chps (rp_counts rep) name n m (nbti_dict x) in
    forall l1 ms l2 j, t_steps test = l1 ++ SMeas ms :: l2 -> In (name, j) (ms_counts ms) ->
    exists pre gr post found y,
      rp_meas rep = pre ++ gr ++ post /\ labelled lots chps j gr /\ stamped (length l1) (TD (stress_time l1)) (name, j) gr /\
      history sc l1 (nfull [lots; chps; n] 0%R) found y /\
      (everywhere sc (fun i => 0 < aget (nl_a0 x) i /\ 0 < aget (nl_n x) i)%R ->
       (forall v0 t0, In (v0, t0) found -> settles sc (htol_conds t (v * k)%R) v0) ->
       forall a b c, a < lots -> b < chps -> c < j -> exists r tau,
         nth_error gr ((a * chps + b) * j + c) = Some r /\ r_lot r = Some a /\ r_chp r = Some b /\ M_Report.r_dev r = Some c /\
         (r_val r = aget init [a; b; c]%nat + nbti_at x (t + 27315 / 100) (v * k) [a; b; c]%nat tau)%R /\ (0 <= tau)%R /\
         within rel_error abs_error (length (stresses l1)) (IZR (stress_time l1) / 3600000000) tau).
Proof. intros R0 Ho e d name p nm g m0 m u fuel tm v k i dur c l t test chps lots w st rep w'. apply nbti_htol. Qed.
Print Assumptions C88_nbti_in_htol.

(** ** Example *)
(** A law that grows with the logarithm of the time, three times as fast at this
    temperature, and straight from 0 to the first tenth of a thousandth of an hour.
    Its only search converges, and the second reading shows the law at 5 h. *)
#[local] Existing Instance hord_id.
Definition g_law (t : R) : R := if Rle_lt_dec t (/ 10000) then 10000 * t else (ln t / ln 10 + 5)%R.
Definition g_form : formula R := FMap2 Rmult (FMap g_law (FArg "time")) (FArg "temp").
Definition g_eqn : eqn R := Eqn ["time"; "temp"]%string [] None (fun args => lift (fvalue g_form args)).
Definition g_mech : mech R := Mech KDeg (LMdl g_eqn []) 0%R (Some "h"%string).
Definition g_prm (i : lvar R) : degprm R := DegPrm (init_of i) no_cond n0 [("age"%string, g_mech)] (LMdl eqn_basic_sum []).
Definition g_dev (i : lvar R) : device R := [("p"%string, PDeg (g_prm i))].

Lemma g_given : given_by g_eqn g_form.
Proof. repeat split; auto; intros x; cbn; intuition. Qed.
Lemma g_regular i : regular (g_dev i).
Proof.
  intros name p Hp. apply dget_In in Hp. destruct Hp as [Q|[]]. injection Q as <- <-. cbn [g_prm dp_init dp_cond dp_own dp_mechs lm_eqn].
  split; [apply basic_respects|]. split; [apply respects_numeric, const_respects|]. split; [apply respects_follows, basic_sum_respects|].
  intros nm m Hm. apply dget_In in Hm. destruct Hm as [Q|[]]. injection Q as <- <-. exact (formula_numeric _ _ g_given).
Qed.
Lemma g_wf i : device_wf (g_dev i).
Proof.
  split; [repeat constructor; intros []|]. intros name p Hp. apply dget_In in Hp. destruct Hp as [Q|[]]. injection Q as <- <-. repeat constructor; intros [].
Qed.
Lemma g_runs (R0 : Rng R) i w : latent_ok i -> exists st rep w', simulate [] (g_dev i) r_steps2 1 1 None w = (Ok (st, rep), w') /\ dget (rp_counts rep) "p" = Some 1.
Proof.
  intros Oi. destruct (one_experiment [] "p"%string (g_prm i) r_steps2 r_meas 1 1 1 w) as (st & rep & w' & E & _ & _ & K); eauto.
  - split; [now left|]. intros m' [Q|[Q|[Q|[]]]]; now inversion Q.
  - discriminate.
  - apply basic_empty.
  - apply (prm_of_deg [("age"%string, g_mech)] i (LMdl eqn_basic_sum []) None None); auto.
    + intros x o [].
    + intros x [<-|[]]. split; discriminate.
    + intros x [<-|[<-|[]]]; auto.
    + discriminate.
    + apply computes_now, basic_sum_computes.
    + intros nm m [Q|[]]. injection Q as <- <-. split; [intros x o []|]. split; [left; now left|].
      split; [exact (formula_somehow _ _ g_given)|]. split; [discriminate|].
      intros x [<-|[<-|[]]]; [now left|]. right; right. intros s [Q|[Q|[Q|[]]]]; try discriminate Q. injection Q as <-. now left.
  - destruct (g_regular i "p"%string (g_prm i) eq_refl) as (A & B & D & G). split; [apply A|]. split; [apply B|]. split; [apply D|]. intros nm m Hm. exact (G nm m Hm 1 1 1).
  - repeat constructor; intros [].
  - intros s [<-|[<-|[<-|[]]]]; (split; [repeat split; repeat constructor; cbn; intuition discriminate|split; [cbn; intuition (subst; discriminate)|discriminate]]).
Qed.
Lemma g_additive i : additive (g_prm i) (fun _ => g_form) (fun _ => UHours).
Proof.
  assert (Z : n0 = 0%R :> R) by apply n0_R. constructor; cbn [g_prm dp_own dp_cond dp_cunit dp_init dp_mechs lm_eqn lm_vars init_of no_cond].
  - auto.
  - rewrite <- Z. auto.
  - discriminate.
  - split; [repeat split; [repeat constructor; intros []|intros [Q|[]]; discriminate..]|]. intros [Q|[]]; discriminate.
  - intros nm m Hm. apply dget_In in Hm. destruct Hm as [Q|[]]. injection Q as <- <-. split; auto. split; auto. split; auto. apply g_given.
Qed.
Lemma g_value counts i y : device_law g_form (Scene [] (g_dev i) 1 1 counts "p"%string 1 g_mech []) r_base [0; 0; 0] y = (g_law y * 3)%R.
Proof. reflexivity. Qed.

Section G.
Open Scope R_scope.
Lemma log_4 : ln (/ 10000) / ln 10 = -4.
Proof.
  assert (P := L_Minimize.ln10_p). rewrite ln_Rinv by lra. replace 10000 with (10 ^ 4) by ring. rewrite ln_pow by lra. replace (INR 4) with 4 by (cbn; lra). field. lra.
Qed.
Lemma g_rises y z : 0 <= y -> y < z -> g_law y < g_law z.
Proof.
  intros Hy Yz. assert (P := L_Minimize.ln10_p). unfold g_law. destruct (Rle_lt_dec y (/ 10000)) as [Q1|Q1]; destruct (Rle_lt_dec z (/ 10000)) as [Q2|Q2]; try lra.
  - assert (ln (/ 10000) < ln z) by (apply ln_increasing; lra).
    assert (ln (/ 10000) / ln 10 < ln z / ln 10) by (apply Rmult_lt_compat_r; [now apply Rinv_0_lt_compat|lra]). rewrite log_4 in *. lra.
  - assert (ln y < ln z) by (apply ln_increasing; lra).
    assert (ln y / ln 10 < ln z / ln 10) by (apply Rmult_lt_compat_r; [now apply Rinv_0_lt_compat|lra]). lra.
Qed.
Lemma g_zero : g_law 0 = 0.
Proof. unfold g_law. destruct (Rle_lt_dec 0 (/ 10000)); lra. Qed.
Lemma g_pow x : -3 <= x -> g_law (Rpower 10 x) = x + 5.
Proof.
  intros Hx. assert (P := L_Minimize.ln10_p). assert (E : ln (Rpower 10 x) / ln 10 = x) by (unfold Rpower; rewrite ln_exp; field; lra).
  assert (L : / 10000 < Rpower 10 x).
  { replace (/ 10000) with (Rpower 10 (-4)). - apply Rpower_lt; lra.
    - replace (-4) with (- INR 4) by (cbn; lra). rewrite Rpower_Ropp, Rpower_pow by lra. f_equal. ring. }
  unfold g_law. destruct (Rle_lt_dec (Rpower 10 x) (/ 10000)); [lra|]. now rewrite E.
Qed.
End G.

Lemma g_progresses i counts : progresses g_form (Scene [] (g_dev i) 1 1 counts "p"%string 1 g_mech []) r_base.
Proof.
  intros l c d Hl Hc Hd. cbn [sc_lots sc_chps sc_num] in Hl, Hc, Hd. assert (l = 0 /\ c = 0 /\ d = 0) as (-> & -> & ->) by lia.
  split; [rewrite g_value, g_zero; lra|]. left. intros y z Hy Hz L. rewrite !g_value. pose proof (g_rises y z Hy L). lra.
Qed.
Lemma g_settles (R0 : Rng R) i counts : dget counts "p" = Some 1 ->
  settles (Scene [] (g_dev i) 1 1 counts "p"%string 1 g_mech []) r_base (Nd [1; 1; 1] [0%R]).
Proof.
  intros K cs w r w' Pr E. cbn [sc_mech sc_lats sc_lots sc_chps sc_num ndata length] in E.
  set (s := Scene [] (g_dev i) 1 1 counts "p"%string 1 g_mech []) in *.
  assert (Wb : dwf r_base) by (repeat constructor; intros []).
  pose proof Pr as (all & wa & wb & Ea & Ec).
  assert (Oc : operands 1 1 1 cs) by exact (conds_operands _ _ _ _ _ _ _ _ _ _ _ "p"%string _ cs 1 Wb Ea eq_refl Ec K).
  assert (Kc : In "temp"%string (dkeys cs)).
  { pose proof (env_conds_ok _ _ _ _ _ _ _ _ _ _ _ Wb Ea) as (_ & _ & G). specialize (G _ _ Ec). cbn [dev_prm] in G.
    apply dmem_keys, (G "temp"%string). split; [now left|]. right; left. split; auto. exists "age"%string, g_mech. cbn. auto. }
  pose proof (law_one s r_base g_form eq_refl g_given eq_refl Wb cs _ K eq_refl Pr eq_refl eq_refl eq_refl
    (fun x p (Q : In (x, p) []) => match Q with end) Oc (or_introl eq_refl) eq_refl) as Lw.
  destruct (golden_converges (equiv_obj g_mech (PArr (Nd [1; 1; 1] [0%R])) (Nd [1; 1; 1] [0%R]) cs [] 1 1 1) 15 3 w) as (r1 & w1 & E1 & C1).
  - lra.
  - intros x w0 Hx. destruct (Lw) with (t := Rpower 10 x) (w := w0) as (w2 & E2); [intros z [<-|[<-|[]]]; auto|].
    exists w2. unfold s in E2. cbn [sc_mech sc_lats sc_lots sc_chps sc_num] in E2. rewrite g_value, g_pow in E2 by lra.
    rewrite (obj_ok g_mech cs [] (PArr (Nd [1; 1; 1] [0%R])) [1; 1; 1] [0%R] [Rpower 10 x] [((x + 5) * 3)%R] 1 1 1 w0 w2); auto; try discriminate.
    cbn [List.combine map fst snd]. do 3 f_equal. rewrite Rabs_left1; lra.
  - unfold s in E. cbn [sc_mech sc_lats sc_lots sc_chps sc_num] in E. rewrite E1 in E. injection E as <- _. exact C1.
Qed.

Example C88_example : forall (R0 : Rng R) w, exists i st rep w' init pre g post r tau,
  simulate [] (g_dev i) r_steps2 1 1 None w = (Ok (st, rep), w') /\ dget (st_prm0 st) "p" = Some (PArr init) /\
  rp_meas rep = pre ++ g ++ post /\ nth_error g 0 = Some r /\ r_step r = 2 /\
  (r_val r = aget init [0; 0; 0]%nat + g_law tau * 3 /\ 4998 / 1000 <= tau <= 5002 / 1000)%R.
Proof.
  intros R0 w. destruct (deter_total (V := R) 7%Q) as (i & _ & Oi). destruct (g_runs R0 i w Oi) as (st & rep & w' & E & K).
  assert (Wb : dwf r_base) by (repeat constructor; intros []).
  assert (Hk : forall k, In (SStrs k) r_steps2 -> ss_conds k = r_base /\ (0 <= ss_dur k)%Z /\ forall nm, In nm (dkeys (dp_mechs (g_prm i))) -> (/ 1000 <= td_num UHours (ss_dur k))%R).
  { intros k [Q|[Q|[Q|[]]]]; try discriminate Q. injection Q as <-. split; [reflexivity|]. split; [cbn; lia|]. intros nm _. rewrite r_hours. lra. }
  assert (Hn : forall q p, dget (g_dev i) q = Some (PDeg p) -> ~ In "init"%string (dkeys (dp_mechs p)) /\ ~ In "cond"%string (dkeys (dp_mechs p))).
  { intros q p Hp. apply dget_In in Hp. destruct Hp as [Q|[]]. injection Q as <- <-. split; intros [Q|[]]; discriminate. }
  destruct (C88_readings R0 _ [] (g_dev i) r_steps2 1 1 w st rep w' "p"%string (g_prm i) (fun _ => g_form) (fun _ => UHours) r_base
    eq_refl (g_wf i) (g_regular i) r_steps2_wf Hn eq_refl (g_additive i) Wb eq_refl Hk E) as (n & ls & init & sc & A1 & A2 & A3 & A4 & A5 & A6).
  pose proof A1 as A1'. rewrite K in A1'. injection A1' as <-. destruct (A5 "age"%string g_mech eq_refl) as (lats & L1 & L2).
  destruct (A6 r_steps r_meas [] 1 eq_refl (or_introl eq_refl)) as (pre & g & post & found & B1 & B2 & Sg & B3 & B4).
  assert (lats = []) as ->.
  { assert (Hm : has_mech (g_dev i) "p" "age" g_mech) by (exists (g_prm i); split; reflexivity).
    destruct (C78_history _ _ _ _ _ _ _ _ _ _ _ _ _ _ _ _ (g_wf i) (g_regular i) r_steps2_wf Hm (ex_intro _ r_strs (or_intror (or_introl eq_refl))) E)
      as (n' & ls' & lats' & fd & x' & _ & D2 & D3 & D4 & _).
    rewrite A2 in D2. injection D2 as <-. rewrite L1 in D3. injection D3 as <-. destruct lats as [|[z q] l]; auto. destruct (D4 z (or_introl eq_refl)). }
  destruct (B3 "age"%string (or_introl eq_refl)) as (x & Hx). rewrite L2 in Hx.
  assert (Fd : forall v t, In (v, t) (found "age"%string) -> v = Nd [1; 1; 1] [0%R]).
  { inversion Hx as [|? ? ? ? ? B5' | | ]; subst. inversion B5' as [| | |k l v t0 v1 cs fd z Pr Ad Hi Q1 Q2 Q3 Q4]; subst. inversion Hi; subst.
    intros v t [Q|[]]. now injection Q as <- _. }
  assert (Tt : total (stress_times UHours r_steps) = 5%R) by (cbn [stress_times r_steps flat_map app total]; rewrite r_hours; cbn; lra).
  destruct B4 with (a := 0) (b := 0) (c := 0) as (r & tau & R1 & R2 & R3 & R4 & R5 & R6); auto.
  - cbn. lra.
  - intros nm [<-|[]]. change (fst ("age"%string, g_mech)) with "age"%string. rewrite L2, Tt. split; [apply g_progresses|]. split; [lra|].
    intros v t Hv. apply Fd in Hv as ->. now apply g_settles.
  - exists i, st, rep, w', init, pre, g, post, r, (tau "age"%string). split; [exact E|]. split; [exact A3|]. split; [exact B1|]. split; [exact R1|].
    split; [apply nth_error_In in R1; apply (Sg _ R1)|].
    specialize (R6 "age"%string (or_introl eq_refl)). rewrite Tt in R6. unfold within, rel_error, abs_error in R6. cbn [length stresses r_steps flat_map app pow INR] in R6.
    split; [|lra]. rewrite R5. cbn [g_prm dp_mechs dkeys map fst total fold_right]. rewrite L2, g_value. lra.
Qed.

(** ... and the NBTI parameter in an HTOL test of ten hours, with a generator that
    always draws the mean: before the stress the reading is the initial value. *)
Definition mean_rng : Rng R := {|
  rdraw d k := (match d with NNormal mu _ => mu | NGamma a b => (a * b)%R | NUniform a b => ((a + b) / 2)%R end, S k);
  rvalid _ := true |}.
Definition b_jedec : mech R := match jedec_nbti_mdl 0 with Ok m => m | Err _ => g_mech end.
Definition b_mech : mech R := Mech (mc_kind b_jedec) (mc_mdl b_jedec) (mc_unitary b_jedec) (set_time_unit (mc_unit b_jedec) None).
Definition b_prm (i : lvar R) : degprm R := DegPrm (init_of i) no_cond n0 [("nbti"%string, b_mech)] (LMdl eqn_basic_sum []).
Definition b_dev (i : lvar R) : device R := [("p"%string, PDeg (b_prm i))].
Definition b_steps : list (M_TestSpec.step R) :=
  [SMeas (MeasSpec [("p"%string, 1)] (htol_conds (nofQ 25) 1%R) "Room Temp Measurement");
   SStrs (StrsSpec (htol_conds 125%R (1 * (11 / 10))%R) (10 * 3600000000)%Z "HTOL Stress");
   SMeas (MeasSpec [("p"%string, 1)] (htol_conds (nofQ 25) 1%R) "Room Temp Measurement")].
Lemma b_test : htol 0 [("p"%string, 1)] 1%R (11 / 10)%R 10 10 1 1 125%R = Some (Ok (TestSpec b_steps 1 1)).
Proof. reflexivity. Qed.
Lemma b_is : jedec_nbti_mdl 0 = Ok b_jedec.
Proof. reflexivity. Qed.
Lemma b_given : given_by (lm_eqn (mc_mdl b_mech)) nbti_form.
Proof. exact nbti_given. Qed.
Lemma b_regular i : regular (b_dev i).
Proof.
  intros name p Hp. apply dget_In in Hp. destruct Hp as [Q|[]]. injection Q as <- <-. cbn [b_prm dp_init dp_cond dp_own dp_mechs lm_eqn].
  split; [apply basic_respects|]. split; [apply respects_numeric, const_respects|]. split; [apply respects_follows, basic_sum_respects|].
  intros nm m Hm. apply dget_In in Hm. destruct Hm as [Q|[]]. injection Q as <- <-. exact (formula_numeric _ _ b_given).
Qed.
Lemma b_wf i : device_wf (b_dev i).
Proof.
  split; [repeat constructor; intros []|]. intros name p Hp. apply dget_In in Hp. destruct Hp as [Q|[]]. injection Q as <- <-. repeat constructor; intros [].
Qed.
Lemma b_latents : latents_ok (H0 := mean_rng) (mc_mdl b_mech).
Proof.
  intros x o Hx. cbn in Hx. destruct Hx as [Q|[Q|[Q|[Q|[]]]]]; injection Q as <- <-; (split; [discriminate|]); repeat split.
Qed.
Lemma b_runs i w : latent_ok (H0 := mean_rng) i -> exists st rep w', simulate (H0 := mean_rng) [] (b_dev i) b_steps 1 1 None w = (Ok (st, rep), w') /\ dget (rp_counts rep) "p" = Some 1.
Proof.
  intros Oi. destruct (one_experiment (H0 := mean_rng) [] "p"%string (b_prm i) b_steps (MeasSpec [("p"%string, 1)] (htol_conds (nofQ 25) 1%R) "Room Temp Measurement") 1 1 1 w) as (st & rep & w' & E & _ & _ & K); eauto.
  - split; [now left|]. intros m' [Q|[Q|[Q|[]]]]; now inversion Q.
  - discriminate.
  - apply basic_empty.
  - apply (prm_of_deg [("nbti"%string, b_jedec)] i (LMdl eqn_basic_sum []) None None); auto.
    + intros x o [].
    + intros x [<-|[]]. split; discriminate.
    + intros x [<-|[<-|[]]]; auto.
    + discriminate.
    + apply computes_now, basic_sum_computes.
    + intros nm m [Q|[]]. injection Q as <- <-. split; [exact b_latents|]. split; [left; cbn; tauto|].
      split; [exact (formula_somehow _ _ b_given)|]. split; [discriminate|].
      intros x Hx. cbn in Hx |- *. decompose [or] Hx; subst; try tauto; right; right; intros s [Q|[Q|[Q|[]]]]; try discriminate Q; injection Q as <-; cbn; tauto.
  - destruct (b_regular i "p"%string (b_prm i) eq_refl) as (A & B & D & G). split; [apply A|]. split; [apply B|]. split; [apply D|]. intros nm m Hm. exact (G nm m Hm 1 1 1).
  - repeat constructor; intros [].
  - intros s [<-|[<-|[<-|[]]]]; (split; [repeat split; repeat constructor; cbn; intuition discriminate|split; [cbn; intuition (subst; discriminate)|discriminate]]).
Qed.

Example C88_nbti_example : forall w, exists i st rep w' init pre g post r,
  simulate (H0 := mean_rng) [] (b_dev i) b_steps 1 1 None w = (Ok (st, rep), w') /\ dget (st_prm0 st) "p" = Some (PArr init) /\
  rp_meas rep = pre ++ g ++ post /\ nth_error g 0 = Some r /\ r_step r = 0 /\ r_val r = aget init [0; 0; 0].
Proof.
  intros w. destruct (deter_total (H0 := mean_rng) (V := R) 7%Q) as (i & _ & Oi). destruct (b_runs i w Oi) as (st & rep & w' & E & K).
  assert (Hn : forall q p, dget (b_dev i) q = Some (PDeg p) -> ~ In "init"%string (dkeys (dp_mechs p)) /\ ~ In "cond"%string (dkeys (dp_mechs p))).
  { intros q p Hp. apply dget_In in Hp. destruct Hp as [Q|[]]. injection Q as <- <-. split; intros [Q|[]]; discriminate. }
  assert (Z : n0 = 0%R :> R) by apply n0_R.
  destruct (C88_nbti_in_htol mean_rng _ [] (b_dev i) "p"%string (b_prm i) "nbti"%string 0 b_jedec b_mech (Some "h"%string) 0 [("p"%string, 1)] 1%R (11 / 10)%R 10 10 1 1 125%R (TestSpec b_steps 1 1) 1 1 w st rep w'
    eq_refl (b_wf i) (b_regular i) Hn eq_refl eq_refl b_is eq_refl eq_refl ltac:(discriminate) eq_refl eq_refl) as (n & ls & init & x & A1 & A2 & A3 & A4 & A5 & A6 & A7); auto; cbn; try lra; try discriminate.
  { now rewrite <- Z. }
  { repeat constructor; intros []. }
  { lia. }
  pose proof A1 as A1'. rewrite K in A1'. injection A1' as <-. destruct A6 as (wa & wb & Gl).
  destruct (C66_latent_values mean_rng 0 b_jedec 1 1 1 wa _ wb b_is Gl) as (xs1 & xs2 & xs3 & xs4 & w1 & w2 & w3 & Ex & R1 & _ & _ & R4).
  injection Ex as E1 _ _ E4.
  assert (M : forall gg mu sg w0 xs w4, reads (H0 := mean_rng) (Rv gg (DNormal mu sg) None) (1 * 1 * 1) w0 xs w4 -> xs = [mu]).
  { intros gg mu sg w0 xs w4 (Ln & p & Q & _ & Hx & _). injection Q as <-. destruct xs as [|y [|]]; try discriminate Ln. f_equal.
    specialize (Hx 0 ltac:(lia)). cbn in Hx. now injection Hx. }
  apply M in R1. apply M in R4. subst.
  destruct (A7 [] (MeasSpec [("p"%string, 1)] (htol_conds (nofQ 25) 1%R) "Room Temp Measurement") (tl b_steps) 1 eq_refl (or_introl eq_refl))
    as (pre & g & post & found & y & B1 & B2 & B3 & B4 & B5).
  assert (found = []) as -> by (inversion B4; auto).
  destruct B5 with (a := 0) (b := 0) (c := 0) as (r & tau & C1 & _ & _ & _ & C5 & _ & C6); auto.
  - intros a b c Ha Hb Hc. cbn [sc_lots sc_chps sc_num] in Ha, Hb, Hc. assert (a = 0 /\ b = 0 /\ c = 0) as (-> & -> & ->) by lia.
    rewrite E1, E4. cbn. lra.
  - intros v0 t0 [].
  - exists i, st, rep, w', init, pre, g, post, r. split; [exact E|]. split; [exact A3|]. split; [exact B1|]. split; [exact C1|].
    split; [apply nth_error_In in C1; apply (B3 _ C1)|].
    unfold within in C6. cbn [length stresses flat_map pow INR stress_time] in C6. assert (tau = 0%R) as ->.
    { change (stress_time []) with 0%Z in C6. lra. }
    rewrite C5. unfold nbti_at. rewrite L_CookMech.law_zero. lra.
Qed.
