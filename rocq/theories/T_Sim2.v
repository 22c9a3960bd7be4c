(** Properties of simulations: C42, C47, C59. *)
From Coq Require Import QArith Lia.
From Verif Require Import M_Base M_Num M_Nd M_RandVar M_Latent M_Time M_TestSpec M_Device M_Report M_Env M_Sim M_Toy
  S_TestSpec S_Device S_Env S_Sim L_Base L_Nd L_Latent L_Device L_Env L_Env2 L_Sim L_Sim2 L_Sim3 L_Sim4 L_Sim5 T_Sim.
Open Scope nat_scope.

(** ** C42 *)

(** A measurement step that succeeds leaves the state as it was. *)
Theorem C42_state_unchanged : forall V (O : NumOps V) (R : Rng V) (Ho : HashOrd) (e : env V) d i m st rep w st' rep' w',
  meas_step e d i m st rep w = (Ok (st', rep'), w') -> st' = st.
Proof. intros V O R Ho e d i m st rep w st' rep' w' E. apply meas_step_ok in E as (? & ? & ? & _ & _ & -> & _). reflexivity. Qed.
Print Assumptions C42_state_unchanged.

(** With a deterministic environment and equations that draw nothing, it leaves the
    random generators alone too, whether it succeeds or raises. *)
Theorem C42_generators_unchanged : forall V (O : NumOps V) (R : Rng V) (Ho : HashOrd) (e : env V) d i m st rep,
  fixed_env e -> quiet_device d -> forall w, snd (meas_step e d i m st rep w) = w.
Proof. intros V O R Ho e d i m st rep F Q. exact (meas_step_still e d i m st rep F Q). Qed.
Print Assumptions C42_generators_unchanged.

(** Removing measurement steps anywhere: the same final state and generators, and
    all other rows and summary lines up to step numbers.  [l'] is [l] without some
    measurements; the measured parameters and counts must stay the same, as they
    determine how many samples are made. *)
Theorem C42_measurements_do_not_disturb : forall V (O : NumOps V) (R : Rng V) (Ho : HashOrd) (e : env V) d l l' C L init w st' rep' w',
  fixed_env e -> quiet_device d -> thinned l l' -> calc_samples_needed l' = calc_samples_needed l ->
  simulate e d l C L init w = (Ok (st', rep'), w') ->
  exists rep2', simulate e d l' C L init w = (Ok (st', rep2'), w') /\
    tables_agree 0 0 l l' (rp_meas rep') (rp_meas rep2') /\ summaries_agree l l' (rp_sum rep') (rp_sum rep2').
Proof. intros V O R Ho. exact simulate_thinned. Qed.
Print Assumptions C42_measurements_do_not_disturb.

(** The same for a run from any state and report, without a condition on the
    counts. *)
Theorem C42_runs_do_not_disturb : forall V (O : NumOps V) (R : Rng V) (Ho : HashOrd) (e : env V) d, fixed_env e -> quiet_device d ->
  forall l l', thinned l l' -> forall i j st rep rep2 w st' rep' w', same_info rep rep2 ->
  run_steps e d i l st rep w = (Ok (st', rep'), w') ->
  exists rep2' rows rows' sums sums',
    run_steps e d j l' st rep2 w = (Ok (st', rep2'), w') /\
    rp_meas rep' = rp_meas rep ++ rows /\ rp_meas rep2' = rp_meas rep2 ++ rows' /\ tables_agree i j l l' rows rows' /\
    rp_sum rep' = rp_sum rep ++ sums /\ rp_sum rep2' = rp_sum rep2 ++ sums' /\ summaries_agree l l' sums sums'.
Proof. intros V O R Ho. exact run_thinned. Qed.
Print Assumptions C42_runs_do_not_disturb.

#[local] Existing Instance hord_id.
Definition exd_env : env Q := [("vth_instm"%string, AInst (Instm (Some "vth"%string) (Some 3%Z) None None))].
Definition exd_steps' : list (step Q) := [SStrs (ex_str 3 "s1"); SOther None; SStrs (ex_str 1 "s2"); SMeas ex_meas1].
Lemma exd_fixed : fixed_env exd_env.
Proof. intros k a [E|[]]. injection E as <- <-. exact I. Qed.
Lemma exd_quiet : quiet_device ex_dev.
Proof.
  assert (D : forall (A : eqn Q) (g : dict (pyval Q) -> res (pyval Q)), e_body A = (fun a => lift (g a)) -> draws_nothing A).
  { intros A g E args w. rewrite E. reflexivity. }
  intros k q [E|[E|[]]]; injection E as <- <-.
  - split; [eapply D; reflexivity|intros args w; reflexivity].
  - eapply D. reflexivity.
Qed.
Lemma exd_thinned : thinned ex_steps exd_steps'.
Proof. unfold ex_steps, exd_steps'. repeat first [apply th_nil | apply th_keep | apply th_drop]. Qed.
Definition vals (o : res (simstate Q * report Q) * world) : list (nat * Q) :=
  match o with (Ok (_, r), _) => map (fun x => (r_step x, r_val x)) (rp_meas r) | _ => [] end.
Example C42_example : exists st' rep' w' rep2',
  simulate exd_env ex_dev ex_steps 2 1 None ex_w = (Ok (st', rep'), w') /\
  simulate exd_env ex_dev exd_steps' 2 1 None ex_w = (Ok (st', rep2'), w') /\
  length (rp_meas rep') = 24 /\ length (rp_meas rep2') = 11 /\
  tables_agree 0 0 ex_steps exd_steps' (rp_meas rep') (rp_meas rep2').
Proof.
  assert (E : exists st' rep' w', simulate exd_env ex_dev ex_steps 2 1 None ex_w = (Ok (st', rep'), w') /\ length (rp_meas rep') = 24)
    by (vm_compute; do 3 eexists; split; reflexivity).
  destruct E as (st' & rep' & w' & E & E2).
  destruct (C42_measurements_do_not_disturb Q QOps ToyRng hord_id exd_env ex_dev ex_steps exd_steps' 2 1 None ex_w st' rep' w'
    exd_fixed exd_quiet exd_thinned eq_refl E) as (rep2' & E' & T & _).
  exists st', rep', w', rep2'. split; [exact E|]. split; [exact E'|]. split; [exact E2|]. split; [|exact T].
  assert (K : length (vals (simulate exd_env ex_dev exd_steps' 2 1 None ex_w)) = 11) by (vm_compute; reflexivity).
  rewrite E' in K. unfold vals in K. rewrite map_length in K. exact K.
Qed.
(** The rows that remain have the same values, under their new step number. *)
Example C42_example_values :
  vals (simulate exd_env ex_dev exd_steps' 2 1 None ex_w) =
  map (fun r => (3, snd r)) (skipn 13 (vals (simulate exd_env ex_dev ex_steps 2 1 None ex_w))).
Proof. vm_compute. reflexivity. Qed.
(** With a random environment the later measurements do change (the restriction to
    deterministic environments is needed). *)
Example C42_random_differs :
  vals (simulate ex_env ex_dev exd_steps' 2 1 None ex_w) <>
  map (fun r => (3, snd r)) (skipn 13 (vals (simulate ex_env ex_dev ex_steps 2 1 None ex_w))).
Proof. vm_compute. discriminate. Qed.

(** ** C47 *)

(** MissingParamError is never raised: whatever the test, the model, the environment
    and the initial state (also one not made by [gen_init_state]).  The user's
    equations must not raise it themselves, and the conditions of a measurement are a
    Python dict, that is, have distinct keys. *)
Theorem C47_missing_param_error_unreachable : forall V (O : NumOps V) (R : Rng V) (Ho : HashOrd) (e : env V) d l C L init,
  device_not_raising MissingParamError d -> (forall m, In (SMeas m) l -> dwf (ms_conds m)) ->
  forall w, fst (simulate e d l C L init w) <> Err MissingParamError.
Proof. intros V O R Ho e d l C L init N W. exact (nev_simulate e d l C L init N W). Qed.
Print Assumptions C47_missing_param_error_unreachable.

(** The first unknown name [x] of the first such measurement raises KeyError: the
    steps before ran, and the conditions needed for the names before [x] were
    generated. *)
Theorem C47_key_error : forall V (O : NumOps V) (R : Rng V) (Ho : HashOrd) eobjs vr iobjs ir (e : env V) d pre m post l1 l2 x k i st0 rep0 w0 st rep w r w',
  env_init eobjs vr iobjs ir = Ok e -> dwf (ms_conds m) -> ms_counts m = l1 ++ (x, k) :: l2 ->
  dget d x = None -> ~ In x (dkeys (ms_conds m)) ->
  run_steps e d i pre st0 rep0 w0 = (Ok (st, rep), w) ->
  gen_env_cond_vals e (ms_conds m) (PCounts l1) (Some (info_of rep)) (Some d) false 1 1 w = (Ok r, w') ->
  run_steps e d i (pre ++ SMeas m :: post) st0 rep0 w0 = (Err KeyError, w').
Proof. intros V O R Ho. exact run_unknown. Qed.
Print Assumptions C47_key_error.

(** Conversely a simulation that returns only measured known names. *)
Theorem C47_success_means_known : forall V (O : NumOps V) (R : Rng V) (Ho : HashOrd) (e : env V) d l C L init w r w' m x,
  dwf (ms_conds m) -> simulate e d l C L init w = (Ok r, w') -> In (SMeas m) l -> In x (dkeys (ms_counts m)) ->
  dget d x <> None \/ In x (dkeys (ms_conds m)).
Proof. intros V O R Ho. exact simulate_known. Qed.
Print Assumptions C47_success_means_known.

Lemma psum_not_missing (l : list (pyval Q)) : forall acc, psum acc l <> Err MissingParamError.
Proof.
  induction l as [|x l IH]; intros acc; [discriminate|]. cbn [psum]. destruct (pmap2 nadd acc x) as [a|ex] eqn:E; [apply IH|].
  cbn [rbind]. intros Q. apply (rnev_pmap2 nadd acc x). rewrite E. injection Q as ->. reflexivity.
Qed.
Lemma rbind_not_missing {A B} (r : res A) (f : A -> res B) :
  r <> Err MissingParamError -> (forall a, f a <> Err MissingParamError) -> rbind r f <> Err MissingParamError.
Proof. destruct r; cbn; [auto|]. intros N _ Q. apply N. injection Q as ->. reflexivity. Qed.
Lemma ex_not_raising : device_not_raising MissingParamError ex_dev.
Proof.
  assert (G : forall (a : dict (pyval Q)) k, dgetE a k <> Err MissingParamError) by (intros a k; apply rnev_dgetE).
  assert (P : forall f (x y : pyval Q), pmap2 f x y <> Err MissingParamError) by (intros f x y; apply rnev_pmap2).
  intros k q [E|[E|[]]]; injection E as <- <-; [split; [|split; [|split]]|].
  - intros a w. apply G.
  - intros a w. discriminate.
  - intros a w. apply rbind_not_missing; [apply G|intros]. apply rbind_not_missing; [apply G|intros].
    apply rbind_not_missing; [apply P|intros]. apply rbind_not_missing; [apply psum_not_missing|intros]. apply P.
  - intros nm m [E|[]]. injection E as <- <-. intros a w.
    apply rbind_not_missing; [apply G|intros]. apply rbind_not_missing; [apply G|intros]. apply P.
  - intros a w. apply rbind_not_missing; [apply G|intros]. apply P.
Qed.

Definition ex_bad : meas_spec Q := MeasSpec [("vth"%string, 2); ("zzz"%string, 3); ("freq"%string, 1)] [("temp"%string, 300%Q)] "m1".
Definition ex_bad_steps : list (step Q) := [SMeas ex_meas2; SStrs (ex_str 3 "s1"); SMeas ex_bad; SMeas ex_meas2].
Example C47_example :
  (fst (simulate ex_env ex_dev ex_bad_steps 2 1 None ex_w)) = Err KeyError /\ (forall init w, fst (simulate ex_env ex_dev ex_bad_steps 2 1 init w) <> Err MissingParamError).
Proof.
  split; [vm_compute; reflexivity|].
  intros init w. apply (C47_missing_param_error_unreachable Q QOps ToyRng hord_id); [exact ex_not_raising|].
  intros m [E|[E|[E|[E|[]]]]]; try discriminate E; injection E as <-; repeat constructor; intros [].
Qed.
(** The hypotheses of [C47_key_error] are met in that simulation. *)
Example C47_example_key_error :
  env_init [ex_temp] (RList [0]) [Instm (Some "vth"%string) (Some 3%Z) None None] (RList [0]) = Ok ex_env /\ exists w', run_steps ex_env ex_dev 6 ([SStrs (ex_str 3 "s1")] ++ SMeas ex_bad :: [SMeas ex_meas2]) ex_st ex_rep ex_w' = (Err KeyError, w').
Proof.
  assert (E : exists st rep w r w', run_steps ex_env ex_dev 6 [SStrs (ex_str 3 "s1")] ex_st ex_rep ex_w' = (Ok (st, rep), w) /\    gen_env_cond_vals ex_env (ms_conds ex_bad) (PCounts [("vth"%string, 2)]) (Some (info_of rep)) (Some ex_dev) false 1 1 w = (Ok r, w'))
    by (vm_compute; do 5 eexists; split; reflexivity).
  split; [vm_compute; reflexivity|]. destruct E as (st & rep & w & r & w' & E1 & E2). exists w'.
  apply (C47_key_error Q QOps ToyRng hord_id [ex_temp] (RList [0]) [Instm (Some "vth"%string) (Some 3%Z) None None] (RList [0])
    ex_env ex_dev [SStrs (ex_str 3 "s1")] ex_bad [SMeas ex_meas2] [("vth"%string, 2)] [("freq"%string, 1)] "zzz" 3 6 ex_st ex_rep ex_w' st rep w r w');
    auto.
  - repeat constructor; intros [].
  - intros [E|[]]. discriminate E.
Qed.

(** ** C59 *)

(** With an initial state the report's counts are just those of the measured
    parameters. *)
Theorem C59_counts_not_augmented : forall V (O : NumOps V) (R : Rng V) (Ho : HashOrd) (e : env V) d l C L st w st' rep' w' prm n,
  simulate e d l C L (Some st) w = (Ok (st', rep'), w') ->
  dget (rp_counts rep') prm = Some n <-> requests l prm n /\ forall k, requests l prm k -> k <= n.
Proof. intros V O R Ho. exact simulate_counts_init. Qed.
Print Assumptions C59_counts_not_augmented.

(** A test with a stress step on a model with a degraded parameter that no step
    measures never succeeds from a supplied state. *)
Theorem C59_unmeasured_fails : forall V (O : NumOps V) (R : Rng V) (Ho : HashOrd) (e : env V) d l s C L st w name p,
  In (SStrs s) l -> In (name, PDeg p) d -> (forall m, In (SMeas m) l -> ~ In name (dkeys (ms_counts m))) ->
  forall r w', simulate e d l C L (Some st) w <> (Ok r, w').
Proof. intros V O R Ho. exact init_state_unmeasured. Qed.
Print Assumptions C59_unmeasured_fails.

(** The error is KeyError when that parameter is the only degraded one, the first
    step is a stress step and its chip conditions can be generated. *)
Theorem C59_key_error : forall V (O : NumOps V) (R : Rng V) (Ho : HashOrd) eobjs vr iobjs ir (e : env V) d s post C L st w name p b w1,
  env_init eobjs vr iobjs ir = Ok e -> dwf (ss_conds s) ->
  deg_prms d = [(name, p)] -> dget d name = Some (PDeg p) ->
  dget (calc_samples_needed (SStrs s :: post)) name = None ->
  gen_chip_conds e C L (ss_conds s) w = (Ok b, w1) ->
  simulate e d (SStrs s :: post) C L (Some st) w = (Err KeyError, w1).
Proof. intros V O R Ho. exact init_state_keyerror. Qed.
Print Assumptions C59_key_error.

(** The same test succeeds without an initial state: only the circuit parameter
    'freq' is measured; the state from that simulation cannot be reused. *)
Definition ex_freq_steps : list (step Q) := [SStrs (ex_str 3 "s1"); SMeas (MeasSpec [("freq"%string, 2)] [("temp"%string, 300%Q)] "m")].
Theorem C59_same_test_succeeds_without : exists (e : env Q) d l st rep w w' name p s,
  simulate e d l 2 1 None w = (Ok (st, rep), w') /\ length (rp_meas rep) = 4 /\ In (SStrs s) l /\ In (name, PDeg p) d /\ (forall m, In (SMeas m) l -> ~ In name (dkeys (ms_counts m))) /\ fst (simulate e d l 2 1 (Some st) w') = Err KeyError.
Proof.
  assert (E : exists st rep w', simulate ex_env ex_dev ex_freq_steps 2 1 None ex_w = (Ok (st, rep), w') /\ length (rp_meas rep) = 4 /\    fst (simulate ex_env ex_dev ex_freq_steps 2 1 (Some st) w') = Err KeyError)
    by (vm_compute; do 3 eexists; repeat split; reflexivity).
  destruct E as (st & rep & w' & E1 & E2 & E3).
  exists ex_env, ex_dev, ex_freq_steps, st, rep, ex_w, w', "vth"%string, ex_vth, (ex_str 3 "s1").
  split; [exact E1|]. split; [exact E2|]. split; [left; reflexivity|]. split; [left; reflexivity|]. split; [|exact E3].
  intros m [E|[E|[]]]; [discriminate E|]. injection E as <-. intros [E|[]]. discriminate E.
Qed.
Print Assumptions C59_same_test_succeeds_without.
(** The hypotheses of [C59_key_error] are met by that test and state. *)
Example C59_example_key_error : exists w1,
  simulate ex_env ex_dev ex_freq_steps 2 1 (Some ex_st) ex_w' = (Err KeyError, w1).
Proof.
  assert (E : exists b w1, gen_chip_conds ex_env 2 1 (ss_conds (ex_str 3 "s1")) ex_w' = (Ok b, w1)) by (vm_compute; do 2 eexists; reflexivity).
  destruct E as (b & w1 & E). exists w1.
  apply (C59_key_error Q QOps ToyRng hord_id [ex_temp] (RList [0]) [Instm (Some "vth"%string) (Some 3%Z) None None] (RList [0])
    ex_env ex_dev (ex_str 3 "s1") [SMeas (MeasSpec [("freq"%string, 2)] [("temp"%string, 300%Q)] "m")] 2 1 ex_st ex_w' "vth" ex_vth b w1); auto.
  repeat constructor; intros [].
Qed.
