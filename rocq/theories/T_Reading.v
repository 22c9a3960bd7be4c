(** Properties of the numbers in the table of measurements: C72. *)
From Coq Require Import QArith Lia.
From Verif Require Import M_Base M_Num M_Nd M_RandVar M_Latent M_Time M_TestSpec M_Device M_Report M_Env M_Sim M_Toy
  S_TestSpec S_Device S_Sim S_Shape S_Total S_Reading L_Base L_Nd L_Shape2 L_Reading T_Sim T_Shape T_Value.
Open Scope nat_scope.

(** The rows of every measurement of a simulation: the values of the state at that
    moment, shifted by the conditions of that measurement, read with the instrument
    of the quantity. *)
Theorem C72_rows_of_a_measurement :
  forall V (O : NumOps V) (R : Rng V) (Ho : HashOrd) (e : env V) (d : device V) l1 m l2 chps lots w st rep w',
  device_wf d -> regular d -> (forall s, In s (l1 ++ SMeas m :: l2) -> step_wf s) ->
  (forall q p, dget d q = Some (PDeg p) -> ~ In "init"%string (dkeys (dp_mechs p)) /\ ~ In "cond"%string (dkeys (dp_mechs p))) ->
  simulate e d (l1 ++ SMeas m :: l2) chps lots None w = (Ok (st, rep), w') ->
  exists st0 rep0 w0 st1 rep1 w1 conds w2 groups rest,
    dev_init_state d (rp_counts rep) chps lots w = (Ok (st0, rp_counts rep), w0) /\
    rp_meas rep0 = [] /\ rp_sum rep0 = [] /\ rp_chps rep0 = chps /\ rp_lots rep0 = lots /\ rp_counts rep0 = rp_counts rep /\
    run_steps e d 0 l1 (set_elapsed st0 (TD 0)) rep0 w0 = (Ok (st1, rep1), w1) /\
    gen_env_cond_vals e (ms_conds m) (PCounts (ms_counts m)) (Some (TInfo chps lots (rp_counts rep))) (Some d) false 1 1 w1 = (Ok conds, w2) /\
    rp_meas rep = rp_meas rep1 ++ concat groups ++ rest /\
    Forall2 (fun kv g => measured e d lots chps st1 conds kv g /\ stamped (length l1) (TD (stress_time l1)) kv g) (ms_counts m) groups.
Proof. intros V O R Ho e d l1 m l2 chps lots w st rep w'. apply simulate_measured. Qed.
Print Assumptions C72_rows_of_a_measurement.

(** ... and from any state and report (a simulation that is continued). *)
Theorem C72_rows_from_any_state :
  forall V (O : NumOps V) (R : Rng V) (Ho : HashOrd) (e : env V) (d : device V) l1 m l2 i st rep w st' rep' w',
  device_wf d -> regular d -> (forall s, In s (l1 ++ SMeas m :: l2) -> step_wf s) ->
  (forall q p, dget d q = Some (PDeg p) -> ~ In "init"%string (dkeys (dp_mechs p)) /\ ~ In "cond"%string (dkeys (dp_mechs p))) ->
  (forall x k n p, requests (l1 ++ SMeas m :: l2) x k -> dget d x = Some (PDeg p) -> dget (rp_counts rep) x = Some n -> k <= n) ->
  state_fits d (rp_lots rep) (rp_chps rep) (rp_counts rep) st ->
  run_steps e d i (l1 ++ SMeas m :: l2) st rep w = (Ok (st', rep'), w') ->
  exists st1 rep1 w1 conds w2 groups rest,
    run_steps e d i l1 st rep w = (Ok (st1, rep1), w1) /\
    gen_env_cond_vals e (ms_conds m) (PCounts (ms_counts m)) (Some (info_of rep1)) (Some d) false 1 1 w1 = (Ok conds, w2) /\
    rp_meas rep' = rp_meas rep1 ++ concat groups ++ rest /\
    Forall2 (fun kv g => measured e d (rp_lots rep) (rp_chps rep) st1 conds kv g /\ stamped (i + length l1) (st_elapsed st1) kv g) (ms_counts m) groups.
Proof. intros V O R Ho e d l1 m l2 i st rep w st' rep' w'. apply run_measured. Qed.
Print Assumptions C72_rows_from_any_state.

(** What the measured values are, device by device, when the equations are
    formulas: the parameter's formula at the device's current value, its shift, the
    neutral value of every mechanism and the device's latent values; the shift is
    the formula of the conditional part at the device's latent values and
    conditions. *)
Theorem C72_each_device :
  forall V (O : NumOps V) (R : Rng V) L C k (p : degprm V) name st cs truth e,
  deg_truth L C k p name st cs truth -> given_by (lm_eqn (dp_own p)) e ->
  exists cur lats cl shift, dget (st_prm st) name = Some cur /\ dget (st_lat st) name = Some lats /\ dget lats "cond" = Some (PDict cl) /\
    (forall l c d, l < L -> c < C -> d < k -> exists env, device_args p cur shift lats [l; c; d] env /\ aget truth [l; c; d] = feval e env) /\
    (forall ec, given_by (lm_eqn (dp_cond p)) ec -> forall l c d, l < L -> c < C -> d < k ->
       exists env, shift_args cl cs [l; c; d] env /\ elem shift [l; c; d] = feval ec env).
Proof. intros V O R L C k p name st cs truth e. apply truth_formula. Qed.
Print Assumptions C72_each_device.

(** ... and with the default equation: current value plus shift plus the neutral
    values. *)
Theorem C72_each_device_default :
  forall V (O : NumOps V) (R : Rng V) L C k (p : degprm V) name st cs truth,
  deg_truth L C k p name st cs truth -> lm_eqn (dp_own p) = eqn_basic_sum -> dwf (dp_mechs p) ->
  ~ In "init"%string (dkeys (dp_mechs p)) -> ~ In "cond"%string (dkeys (dp_mechs p)) ->
  exists cur lats cl shift, dget (st_prm st) name = Some cur /\ dget (st_lat st) name = Some lats /\ dget lats "cond" = Some (PDict cl) /\
    (dget lats "mechs" = None -> forall l c d, l < L -> c < C -> d < k ->
       aget truth [l; c; d] = nadd (nadd (elem cur [l; c; d]) (elem shift [l; c; d])) (fold_left nadd (map (fun nm => mc_unitary (snd nm)) (dp_mechs p)) n0)) /\
    (forall ec, given_by (lm_eqn (dp_cond p)) ec -> forall l c d, l < L -> c < C -> d < k ->
       exists env, shift_args cl cs [l; c; d] env /\ elem shift [l; c; d] = feval ec env) /\
    (forall v, lm_eqn (dp_cond p) = eqn_const v -> shift = PNum v).
Proof. intros V O R L C k p name st cs truth. apply truth_default. Qed.
Print Assumptions C72_each_device_default.

(** Without instrument, conditional part and non-zero neutral values, the rows show
    the current values of the state. *)
Theorem C72_exact_readings :
  forall V (O : NumOps V) (R : Rng V) (e : env V) (d : device V) L C st conds name k g p,
  nadd n0 n0 = n0 :> V -> device_wf d -> dget d name = Some (PDeg p) ->
  ~ In "init"%string (dkeys (dp_mechs p)) -> ~ In "cond"%string (dkeys (dp_mechs p)) ->
  dget e (name ++ "_instm") = None -> lm_eqn (dp_own p) = eqn_basic_sum -> lm_eqn (dp_cond p) = eqn_const n0 ->
  (forall nm m, In (nm, m) (dp_mechs p) -> mc_unitary m = n0) ->
  (forall lats, dget (st_lat st) name = Some lats -> dget lats "mechs" = None) ->
  measured e d L C st conds (name, k) g ->
  exists cur, dget (st_prm st) name = Some cur /\
    forall l c i, l < L -> c < C -> i < k -> exists r, nth_error g ((l * C + c) * k + i) = Some r /\
      r_lot r = Some l /\ r_chp r = Some c /\ r_dev r = Some i /\
      (nadd (elem cur [l; c; i]) n0 = elem cur [l; c; i] -> r_val r = elem cur [l; c; i]).
Proof. intros V O R e d L C st conds name k g p. apply measured_exact. Qed.
Print Assumptions C72_exact_readings.

(** The running example: the last measurement, of the state after both stresses;
    the instrument of the voltage shows three digits. *)
#[local] Existing Instance hord_id.
Definition ex_before : list (step Q) := [SMeas ex_meas1; SStrs (ex_str 3 "s1"); SOther None; SMeas ex_meas2; SStrs (ex_str 1 "s2")].
Lemma ex_names : forall q p, dget ex_dev q = Some (PDeg p) -> ~ In "init"%string (dkeys (dp_mechs p)) /\ ~ In "cond"%string (dkeys (dp_mechs p)).
Proof.
  intros q p Hp. unfold ex_dev in Hp. cbn [dget] in Hp. destruct (String.eqb q "vth").
  - injection Hp as <-. cbn. intuition discriminate.
  - destruct (String.eqb q "freq"); discriminate.
Qed.
Example C72_example :
  (exists st0 rep0 w0 st1 rep1 w1 conds w2 groups rest,
    dev_init_state ex_dev (rp_counts ex_rep) 2 1 ex_w = (Ok (st0, rp_counts ex_rep), w0) /\
    rp_meas rep0 = [] /\ rp_sum rep0 = [] /\ rp_chps rep0 = 2 /\ rp_lots rep0 = 1 /\ rp_counts rep0 = rp_counts ex_rep /\
    run_steps ex_env ex_dev 0 ex_before (set_elapsed st0 (TD 0)) rep0 w0 = (Ok (st1, rep1), w1) /\
    gen_env_cond_vals ex_env (ms_conds ex_meas1) (PCounts (ms_counts ex_meas1)) (Some (TInfo 2 1 (rp_counts ex_rep))) (Some ex_dev) false 1 1 w1 = (Ok conds, w2) /\
    rp_meas ex_rep = rp_meas rep1 ++ concat groups ++ rest /\
    Forall2 (fun kv g => measured ex_env ex_dev 1 2 st1 conds kv g /\ stamped 5 (TD 14400000000) kv g) (ms_counts ex_meas1) groups) /\
  dget (st_prm ex_st) "vth" = Some (PArr (Nd [1; 2; 2] [619 # 80; 196 # 25; 1589 # 200; 3219 # 400]%Q)) /\
  map r_val (firstn 4 (skipn (length (rp_meas ex_rep) - 11) (rp_meas ex_rep))) = [387 # 50; 196 # 25; 397 # 50; 161 # 20]%Q.
Proof.
  split; [exact (C72_rows_of_a_measurement _ _ _ _ ex_env ex_dev ex_before ex_meas1 [] 2 1 ex_w _ _ _ ex_wf ex_regular ex_steps_wf ex_names ex_ok)|].
  split; vm_compute; reflexivity.
Qed.

(** A further measurement of that state without an instrument shows the values
    themselves. *)
Definition ex_bare : env Q := [("temp_var"%string, AVar ex_temp)].
Lemma ok_pair_inj {A B W} (a a' : A) (b b' : B) (w w' : W) : (Ok (a, b), w) = (Ok (a', b'), w') -> a = a' /\ b = b' /\ w = w'.
Proof. intros [= <- <- <-]. auto. Qed.
Example C72_example_exact :
  exists st rep w' conds groups rest, run_steps ex_bare ex_dev 0 [SMeas ex_meas2] ex_st ex_rep ex_w = (Ok (st, rep), w') /\
    rp_meas rep = rp_meas ex_rep ++ concat groups ++ rest /\
    Forall2 (fun kv g => measured ex_bare ex_dev 1 2 ex_st conds kv g /\ stamped 0 (st_elapsed ex_st) kv g) (ms_counts ex_meas2) groups /\
    exists g r0 r1, groups = [g] /\ nth_error g 0 = Some r0 /\ r_chp r0 = Some 0 /\ r_val r0 = (619 # 80)%Q /\
      nth_error g 1 = Some r1 /\ r_chp r1 = Some 1 /\ r_val r1 = (1589 # 200)%Q.
Proof.
  assert (E : exists st rep w', run_steps ex_bare ex_dev 0 [SMeas ex_meas2] ex_st ex_rep ex_w = (Ok (st, rep), w')).
  { vm_compute. do 3 eexists. reflexivity. }
  destruct E as (st & rep & w' & E).
  destruct (simulate_shapes ex_env ex_dev ex_steps 2 1 ex_w ex_st ex_rep ex_w' ex_wf ex_regular ex_steps_wf ex_ok) as (_ & F & FL & FC).
  assert (Fit : state_fits ex_dev (rp_lots ex_rep) (rp_chps ex_rep) (rp_counts ex_rep) ex_st) by now rewrite FL, FC.
  destruct (C72_rows_from_any_state _ _ _ _ ex_bare ex_dev [] ex_meas2 [] 0 ex_st ex_rep ex_w st rep w' ex_wf ex_regular) with (5 := E)
    as (st1 & rep1 & w1 & conds & w2 & groups & rest & E1 & _ & Em & Eg).
  { intros s [<-|[]]. split; repeat constructor; intros []. }
  { exact ex_names. }
  { intros x k n p (m & [Q|[]] & I) _ Hn. injection Q as <-. destruct I as [I|[]]. injection I as <- <-.
    assert (C1 : dget (rp_counts ex_rep) "vth" = Some 2) by (vm_compute; reflexivity). rewrite C1 in Hn. injection Hn as <-. lia. }
  { exact Fit. }
  change ((Ok (ex_st, ex_rep), ex_w) = (Ok (st1, rep1), w1)) in E1. apply ok_pair_inj in E1 as (Q1 & Q2 & _).
  rewrite <- Q1, FL, FC in Eg. rewrite <- Q2 in Em. clear Q1 Q2.
  exists st, rep, w', conds, groups, rest. split; auto. split; auto. split; auto.
  inversion Eg as [|a g la lg [Mg _] Tl Q1 Q2]; subst. inversion Tl; subst.
  destruct (C72_exact_readings _ _ _ ex_bare ex_dev 1 2 ex_st conds "vth" 1 g ex_vth) as (cur & Hc & G); auto.
  - exact ex_wf.
  - apply ex_vth_plain.
  - apply ex_vth_plain.
  - intros nm m [Q|[]]. injection Q as <- <-. reflexivity.
  - intros lats Hl. assert (L0 : dget (st_lat ex_st) "vth" = Some [("cond"%string, PDict []); ("fail"%string, PDict [])]) by (vm_compute; reflexivity).
    rewrite L0 in Hl. injection Hl as <-. reflexivity.
  - assert (C0 : dget (st_prm ex_st) "vth" = Some (PArr (Nd [1; 2; 2] [619 # 80; 196 # 25; 1589 # 200; 3219 # 400]%Q))) by (vm_compute; reflexivity).
    rewrite C0 in Hc. injection Hc as <-.
    destruct (G 0 0 0) as (r0 & G0 & _ & A0 & _ & V0); try lia. destruct (G 0 1 0) as (r1 & G1 & _ & A1 & _ & V1); try lia.
    exists g, r0, r1. repeat split; auto.
Qed.

(** Two devices with a stored value, one of them measured: the parameter is
    [init - fail * gain + cond] with its own latent variable [gain], the conditional
    part is [temp / 100]. *)
Definition ex_form : formula Q :=
  FMap2 nadd (FMap2 nsub (FArg "init") (FMap2 nmul (FArg "fail") (FArg "gain"))) (FArg "cond").
Definition ex_cform : formula Q := FMap (fun t => nmul (1 # 100)%Q t) (FArg "temp").
Definition eqn_of (names : list string) (e : formula Q) : eqn Q := Eqn names [] None (fun a => lift (fvalue e a)).
Definition ex_fprm : degprm Q :=
  DegPrm (LMdl eqn_basic []) (LMdl (eqn_of ["temp"%string] ex_cform) []) 0%Q [("fail"%string, ex_fail)]
    (LMdl (eqn_of ["init"; "fail"; "gain"; "cond"]%string ex_form) []).
Definition ex_fst : simstate Q := SimState (TD 0) [("vth"%string, PArr (Nd [1; 1; 2] [5; 6]%Q))] [] [] []
  [("vth"%string, [("cond"%string, PDict []); ("fail"%string, PDict []); ("gain"%string, PArr (Nd [1; 1; 2] [2; 3]%Q))])].
Lemma ex_given : given_by (lm_eqn (dp_own ex_fprm)) ex_form /\ given_by (lm_eqn (dp_cond ex_fprm)) ex_cform.
Proof. split; (split; [reflexivity|split; [reflexivity|split; [|reflexivity]]]); intros x; cbn; tauto. Qed.
Lemma ex_ftruth : deg_truth 1 1 1 ex_fprm "vth" ex_fst [("temp"%string, PArr (Nd [1; 1; 1] [300]%Q))] (Nd [1; 1; 1] [8]%Q).
Proof.
  exists (PArr (Nd [1; 1; 2] [5; 6]%Q)), (PArr (Nd [1; 1; 1] [5]%Q)),
    [("cond"%string, PDict []); ("fail"%string, PDict []); ("gain"%string, PArr (Nd [1; 1; 2] [2; 3]%Q))],
    [("cond"%string, PDict []); ("fail"%string, PDict []); ("gain"%string, PArr (Nd [1; 1; 1] [2]%Q))], [],
    [("temp"%string, PArr (Nd [1; 1; 1] [300]%Q))], (PArr (Nd [1; 1; 1] [3]%Q)),
    [("init"%string, PArr (Nd [1; 1; 1] [5]%Q)); ("cond"%string, PArr (Nd [1; 1; 1] [3]%Q)); ("fail"%string, PNum 0%Q); ("gain"%string, PArr (Nd [1; 1; 1] [2]%Q))],
    ex_w, ex_w, ex_w.
  assert (Cut : forall x y, cut (V := Q) 1 (PArr (Nd [1; 1; 2] [x; y])) (PArr (Nd [1; 1; 1] [x]))).
  { intros x y. apply (ct_arr 1 _ _ 1 1 2); auto. intros l c d Hl Hc Hd. assert (l = 0) by lia. assert (c = 0) by lia. assert (d = 0) by lia. now subst. }
  split; [reflexivity|]. split; [apply Cut|]. split; [reflexivity|]. split; [repeat (constructor; auto)|]. split; [reflexivity|].
  split. { intros x. cbn. destruct (String.eqb x "temp") eqn:Q; reflexivity. }
  split; [repeat constructor; intros []|]. split; [intros x v [Q|[]]; injection Q as <- <-; right; eexists; split; [reflexivity|split; reflexivity]|].
  split; [vm_compute; reflexivity|]. split; [right; eexists; split; [reflexivity|split; reflexivity]|].
  split.
  { split.
    - repeat constructor; cbn; intuition discriminate.
    - reflexivity.
    - reflexivity.
    - intros nm m Hm. cbn in Hm. destruct (String.eqb_spec nm "fail"); [|discriminate]. subst. injection Hm as <-. reflexivity.
    - intros x N1 N2 N3. cbn in N3. cbn [dget].
      destruct (String.eqb_spec x "init"); [contradiction|]. destruct (String.eqb_spec x "cond"); [contradiction|].
      destruct (String.eqb_spec x "fail"); [subst; tauto|]. destruct (String.eqb_spec x "gain"); [subst; reflexivity|].
      cbn. destruct (String.eqb_spec x "init"); [contradiction|]. destruct (String.eqb_spec x "fail"); [contradiction|].
      destruct (String.eqb_spec x "gain"); [contradiction|]. destruct (String.eqb_spec x "cond"); [contradiction|]. reflexivity.
    - exists ["gain"%string]. reflexivity. }
  split. { intros x v [Q|[Q|[Q|[Q|[]]]]]; injection Q as <- <-; (left; eexists; reflexivity) || (right; eexists; split; [reflexivity|split; reflexivity]). }
  split; [vm_compute; reflexivity|]. split; reflexivity.
Qed.
Example C72_each_device_example :
  (exists cur lats cl shift, dget (st_prm ex_fst) "vth" = Some cur /\ dget (st_lat ex_fst) "vth" = Some lats /\ dget lats "cond" = Some (PDict cl) /\
    (forall l c d, l < 1 -> c < 1 -> d < 1 -> exists env, device_args ex_fprm cur shift lats [l; c; d] env /\ aget (Nd [1; 1; 1] [8]%Q) [l; c; d] = feval ex_form env) /\
    (forall ec, given_by (lm_eqn (dp_cond ex_fprm)) ec -> forall l c d, l < 1 -> c < 1 -> d < 1 ->
       exists env, shift_args cl [("temp"%string, PArr (Nd [1; 1; 1] [300]%Q))] [l; c; d] env /\ elem shift [l; c; d] = feval ec env)) /\
  given_by (lm_eqn (dp_cond ex_fprm)) ex_cform.
Proof. split; [exact (C72_each_device _ _ _ _ _ _ _ _ _ _ _ _ ex_ftruth (proj1 ex_given))|apply ex_given]. Qed.
