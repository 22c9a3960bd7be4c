(** Properties of simulations: C12 (unit dependence), C29, C31, C39, C40, C41, C43, C44, C49, C60. *)
From Coq Require Import QArith Lia Sorted.
From Verif Require Import M_Base M_Num M_Nd M_RandVar M_Latent M_Time M_TestSpec M_Device M_Report M_Env M_Sim M_Toy
  S_TestSpec S_Device S_Sim L_Base L_Nd L_Latent L_Device L_Device3 L_Sim L_Sim2 L_Sim3.
Open Scope nat_scope.

(** ** The running example: a threshold voltage with a hard failure that happens
    after more than two hours, a circuit parameter twice that voltage, a random
    temperature per device; measure, stress 3 h, (an object of another type),
    measure, stress 1 h, measure. *)
#[local] Instance hord_id : HashOrd := {| hord := nodup String.string_dec;
  hord_ok := fun l => conj (NoDup_nodup _ l) (fun x => nodup_In _ l x) |}.
Definition ex_fail_eqn : eqn Q := Eqn ["time"; "temp"]%string [] None
  (fun a => lift (rbind (dgetE a "time") (fun t => rbind (dgetE a "temp") (fun c =>
     pmap2 (fun t c => if q_ltb 2 t then Qred (1 + c / 400) else 0%Q) t c)))).
Definition ex_deter (v : Q) : lvar Q := LVar None (Some Offset) (Some v) 0%Q (Some Offset)
  (Rv 0 (DDeter 0%Q) None) false (Rv 0 (DDeter 0%Q) None) false (Rv 0 (DDeter 0%Q) None) false.
Definition ex_normal (v : Q) (g : nat) : lvar Q := LVar None (Some Offset) (Some v) 0%Q (Some Offset)
  (Rv g (DNormal 0 (1#10))%Q None) true (Rv 0 (DDeter 0%Q) None) false (Rv 0 (DDeter 0%Q) None) false.
Definition ex_fail : mech Q := Mech KFail (LMdl ex_fail_eqn []) 0%Q (Some "h"%string).
Definition ex_vth : degprm Q :=
  DegPrm (LMdl eqn_basic [("init_val"%string, ex_normal 5 7)]) (LMdl (eqn_const 0%Q) []) 0%Q [("fail"%string, ex_fail)] (LMdl eqn_basic_sum []).
Definition ex_freq : lmdl Q := LMdl (Eqn ["vth"]%string [] None
  (fun a => lift (rbind (dgetE a "vth") (fun v => pmap2 nadd v v)))) [].
Definition ex_dev : device Q := [("vth"%string, PDeg ex_vth); ("freq"%string, PCirc ex_freq)].
Definition ex_temp : emdl Q := EMdl (Some "temp"%string) (Some Offset) 0%Q (Some Offset)
  (Rv 0 (DDeter 0%Q) None) false (Rv 3 (DNormal 0 1)%Q None) true (Rv 4 (DNormal 0 1)%Q None) true.
Definition ex_env : env Q := [("temp_var"%string, AVar ex_temp);
  ("vth_instm"%string, AInst (Instm (Some "vth"%string) (Some 3%Z) None None))].
Definition ex_meas1 : meas_spec Q := MeasSpec [("vth"%string, 2); ("temp"%string, 3); ("freq"%string, 1)] [("temp"%string, 300%Q)] "m1".
Definition ex_meas2 : meas_spec Q := MeasSpec [("vth"%string, 1)] [("temp"%string, 300%Q)] "m2".
Definition ex_str (h : Z) (n : string) : strs_spec Q := StrsSpec [("temp"%string, 400%Q)] (h * 3600000000)%Z n.
Definition ex_steps : list (step Q) :=
  [SMeas ex_meas1; SStrs (ex_str 3 "s1"); SOther None; SMeas ex_meas2; SStrs (ex_str 1 "s2"); SMeas ex_meas1].
Definition ex_w : world := fun g => g.
Definition ex_out : option (simstate Q * report Q) :=
  match simulate ex_env ex_dev ex_steps 2 1 None ex_w with (Ok r, _) => Some r | _ => None end.
Definition ex_st : simstate Q := match ex_out with Some (s, _) => s | None => SimState (TD 0) [] [] [] [] [] end.
Definition ex_rep : report Q := match ex_out with Some (_, r) => r | None => report_init [] 0 0 end.
Definition ex_w' : world := snd (simulate ex_env ex_dev ex_steps 2 1 None ex_w).
Lemma ex_ok : simulate ex_env ex_dev ex_steps 2 1 None ex_w = (Ok (ex_st, ex_rep), ex_w').
Proof.
  unfold ex_st, ex_rep, ex_w', ex_out.
  assert (E : exists st rep w', simulate ex_env ex_dev ex_steps 2 1 None ex_w = (Ok (st, rep), w'))
    by (vm_compute; do 3 eexists; reflexivity).
  destruct E as (st & rep & w' & ->). reflexivity.
Qed.
Lemma ex_wf : device_wf ex_dev.
Proof.
  split.
  - repeat constructor; cbn; intuition discriminate.
  - intros name p Hp. unfold ex_dev in Hp. cbn [dget] in Hp. destruct (String.eqb name "vth").
    + injection Hp as <-. repeat constructor. intros [].
    + destruct (String.eqb name "freq"); discriminate.
Qed.

(** ** C29 *)
Theorem C29_failures_are_permanent :
  forall V (O : NumOps V) (R : Rng V) (Ho : HashOrd) (e : env V) (d : device V) l name nm mm,
  device_wf d -> has_mech d name nm mm -> mc_kind mm = KFail ->
  forall i st rep w st' rep' w' a, mech_val st name nm (PArr a) ->
  run_steps e d i l st rep w = (Ok (st', rep'), w') ->
  exists a', mech_val st' name nm (PArr a') /\ under (nshape a) (nshape a') /\
    forall idx' idx, inside (nshape a') idx' -> shows (nshape a) idx' idx ->
      neqb (aget a idx) (mc_unitary mm) = false -> aget a' idx' = aget a idx.
Proof. intros V O R Ho. exact run_latched. Qed.
Print Assumptions C29_failures_are_permanent.
(** Both chips fail in the first stress, at different temperatures; the second
    stress is at other temperatures and does not change the values. *)
Definition ex_half : option (simstate Q * report Q * world) :=
  match simulate ex_env ex_dev (firstn 4 ex_steps ++ [SMeas ex_meas1]) 2 1 None ex_w with (Ok (s, r), w) => Some (s, r, w) | _ => None end.
Definition ex_fail_vals (st : simstate Q) : list Q :=
  match dget (st_mech st) "vth" with Some mv => match dget mv "fail" with Some (PArr a) => ndata a | _ => [] end | None => [] end.
Example C29_example : has_mech ex_dev "vth" "fail" ex_fail /\
  match ex_half with
  | Some (s, r, w) => exists s' r' w', run_steps ex_env ex_dev 5 (skipn 4 ex_steps) s r w = (Ok (s', r'), w') /\
      ex_fail_vals s = [163 # 80; 51 # 25; 409 # 200; 819 # 400]%Q /\ ex_fail_vals s' = ex_fail_vals s
  | None => False
  end.
Proof.
  split. { exists ex_vth. split; reflexivity. }
  vm_compute. do 3 eexists. split; [reflexivity|]. split; reflexivity.
Qed.

(** ** C31 *)
Theorem C31_stress_impossible_without_time :
  forall V (O : NumOps V) (R : Rng V) (Ho : HashOrd) (e : env V) (d : device V) l chps lots init name nm mm s w r w',
  device_wf d -> has_mech d name nm mm -> ~ takes_time (lm_eqn (mc_mdl mm)) ->
  In (SStrs s) l -> simulate e d l chps lots init w <> (Ok r, w').
Proof. intros V O R Ho. exact simulate_no_time. Qed.
Print Assumptions C31_stress_impossible_without_time.
Theorem C31_stress_raises_type_error :
  forall V (O : NumOps V) (R : Rng V) (Ho : HashOrd) (e : env V) (d : device V) i s st rep w conds w1 pre name (p : degprm V) post st1 w2
    nm mm ms n mv cs m0 ls l a,
  gen_env_cond_vals e (ss_conds s) (PList (map fst (deg_prms d))) (Some (info_of rep)) (Some d) true 1 1 w = (Ok conds, w1) ->
  deg_prms d = pre ++ (name, p) :: post ->
  foldM (stress_prm conds rep (ss_dur s)) pre st w1 = (Ok st1, w2) ->
  dget (rp_counts rep) name = Some n -> dget (st_mech st1) name = Some mv -> dget conds name = Some cs ->
  dget (st_mech0 st1) name = Some m0 -> dget (st_lat st1) name = Some ls ->
  dp_mechs p = (nm, mm) :: ms -> mc_kind mm = KDeg -> ~ takes_time (lm_eqn (mc_mdl mm)) ->
  dget mv nm = Some (PArr a) -> dmem m0 nm = true -> dget ls nm = Some (PDict l) ->
  stress_step e d i s st rep w = (Err TypeError, w2).
Proof.
  intros V O R Ho e d i s st rep w conds w1 pre name p post st1 w2 nm mm ms n mv cs m0 ls l a E1 E2 E3 A1 A2 A3 A4 A5 A6 A7 A8 A9 A10 A11.
  eapply stress_step_raises; eauto. eapply stress_no_time_raises; eauto.
Qed.
Print Assumptions C31_stress_raises_type_error.
(** The default equation, in both kinds of mechanism. *)
Definition ex_default (k : mkind) : device Q := [("vth"%string, PDeg (DegPrm (LMdl eqn_basic [("init_val"%string, ex_deter 5)])
  (LMdl (eqn_const 0%Q) []) 0%Q [("wear"%string, Mech k (LMdl (eqn_const 0%Q) []) 0%Q (Some "h"%string))] (LMdl eqn_basic_sum [])))].
Example C31_example : ~ takes_time (eqn_const 0%Q) /\
  fst (simulate ex_env (ex_default KDeg) [SMeas ex_meas2; SStrs (ex_str 1 "s")] 2 1 None ex_w) = Err TypeError /\
  fst (simulate ex_env (ex_default KFail) [SMeas ex_meas2; SStrs (ex_str 1 "s")] 2 1 None ex_w) = Err TypeError /\
  is_ok (fst (simulate ex_env (ex_default KFail) [SMeas ex_meas2] 2 1 None ex_w)) = true.
Proof. split; [unfold takes_time; cbn; intuition congruence|]. repeat split; vm_compute; reflexivity. Qed.

(** ** C39 *)
Theorem C39_counts_are_the_least_sufficient :
  forall V (O : NumOps V) (R : Rng V) (d : device V) counts C L info el w r w', circuits_plain d -> dwf d ->
  gen_init_state d counts C L info el w = (Ok r, w') ->
  exists asked, (match counts with Some (_ :: _) => Some asked = counts | _ => exists rep, info = Some rep /\ asked = rp_counts rep end) /\
  (forall q n, dget (ir_counts r) q = Some n <-> greatest (needed d asked q) n) /\
  (forall q, In q (dkeys d) -> dmem (ir_counts r) q = true).
Proof. intros V O R. exact gen_init_counts. Qed.
Print Assumptions C39_counts_are_the_least_sufficient.
Theorem C39_enough_samples :
  forall V (O : NumOps V) (R : Rng V) (d : device V) counts C L info el w r w' q n,
  circuits_plain d -> dwf d -> counts <> [] ->
  gen_init_state d (Some counts) C L info el w = (Ok r, w') -> needed d counts q n ->
  exists m, dget (ir_counts r) q = Some m /\ n <= m.
Proof. intros V O R. exact gen_init_enough. Qed.
Print Assumptions C39_enough_samples.
Lemma ex_plain : circuits_plain ex_dev.
Proof.
  intros p c q Hp Hq Ha. unfold ex_dev in Hp. cbn [dget] in Hp. destruct (String.eqb p "vth"); [discriminate|].
  destruct (String.eqb p "freq"); [|discriminate]. injection Hp as <-. destruct Ha as [<-|[]]. exists ex_vth. reflexivity.
Qed.
(** Four samples of the circuit parameter, one of vth asked for; 'temp' is ignored. *)
Example C39_example : circuits_plain ex_dev /\
  match gen_init_state ex_dev (Some [("temp"%string, 9); ("freq"%string, 4); ("vth"%string, 1)]) 1 1 None (TD 0) ex_w with
  | (Ok r, _) => ir_counts r = [("temp"%string, 9); ("freq"%string, 4); ("vth"%string, 4)]
  | _ => False
  end /\
  match gen_init_state ex_dev (Some [("freq"%string, 4)]) 1 1 None (TD 0) ex_w with
  | (Ok r, _) => ir_counts r = [("freq"%string, 4); ("vth"%string, 4)]
  | _ => False
  end.
Proof. split; [exact ex_plain|]. split; vm_compute; reflexivity. Qed.
(** Circuit parameters that need other circuit parameters are not followed in
    general: with [c2] needing [c1] needing [vth], and [c1] listed before [c2], [vth]
    gets too few samples. *)
Definition ex_circ_of (x : string) : lmdl Q := LMdl (Eqn [x] [] None (fun a => lift (dgetE a x))) [].
Definition ex_chain : device Q := [("vth"%string, PDeg ex_vth); ("c1"%string, PCirc (ex_circ_of "vth")); ("c2"%string, PCirc (ex_circ_of "c1"))].
Theorem C39_chained_circuits_refuted : exists (d : device Q) counts r w w',
  dwf d /\ gen_init_state d (Some counts) 1 1 None (TD 0) w = (Ok r, w') /\
  exists c1 n1 n0', dget (ir_counts r) "c1" = Some n1 /\ dget d "c1" = Some (PCirc c1) /\
    In "vth"%string (compute_args (lm_eqn c1)) /\ dget (ir_counts r) "vth" = Some n0' /\ n0' < n1.
Proof.
  assert (E : exists r w', gen_init_state ex_chain (Some [("c1"%string, 1); ("c2"%string, 3)]) 1 1 None (TD 0) ex_w = (Ok r, w') /\
    ir_counts r = [("c1"%string, 3); ("c2"%string, 3); ("vth"%string, 1)])
    by (vm_compute; do 2 eexists; split; reflexivity).
  destruct E as (r & w' & E & Er). do 4 eexists. exists w'. split; [|split; [exact E|]].
  - repeat constructor; cbn; intuition discriminate.
  - rewrite Er. do 3 eexists. repeat split; try reflexivity; cbn; auto.
Qed.
Print Assumptions C39_chained_circuits_refuted.
(** When a report is given besides the counts, its own (larger) counts can be
    lowered. *)
Theorem C39_report_counts_lowered_refuted : exists (d : device Q) counts rep r rep' w w' n n',
  circuits_plain d /\ gen_init_state d (Some counts) 1 1 (Some rep) (TD 0) w = (Ok r, w') /\
  ir_report r = Some rep' /\ dget (rp_counts rep) "vth" = Some n /\ dget (rp_counts rep') "vth" = Some n' /\ n' < n.
Proof.
  assert (E : exists r w', gen_init_state ex_dev (Some [("freq"%string, 2)]) 1 1 (Some (Report 1 1 [("vth"%string, 9)] [] [])) (TD 0) ex_w = (Ok r, w') /\
    ir_report r = Some (Report 1 1 [("vth"%string, 2)] [] []))
    by (vm_compute; do 2 eexists; split; reflexivity).
  destruct E as (r & w' & E & Er). do 6 eexists. exists w'. do 2 eexists. split; [exact ex_plain|]. split; [exact E|]. split; [exact Er|].
  split; [reflexivity|]. split; [reflexivity|]. lia.
Qed.
Print Assumptions C39_report_counts_lowered_refuted.

(** ** C40 *)
Theorem C40_every_parameter_needs_a_count :
  forall V (O : NumOps V) (R : Rng V) (d : device V) counts C L w st cnt w', dwf d ->
  dev_init_state d counts C L w = (Ok (st, cnt), w') ->
  cnt = counts /\ forall x, In x (dkeys d) -> dmem counts x = true.
Proof.
  intros V O R d counts C L w st cnt w' W E. apply dev_init_ok in E as (A & _ & _ & _ & B & _); auto.
Qed.
Print Assumptions C40_every_parameter_needs_a_count.
Theorem C40_key_error :
  forall V (O : NumOps V) (R : Rng V) (d1 : device V) x q d2 counts C L w, dget counts x = None ->
  dev_init_state (d1 ++ (x, q) :: d2) counts C L w =
  match foldM (gen_prm_state C L) d1 (GState counts [] [] []) w with
  | (Ok _, w1) => (Err KeyError, w1)
  | (Err ex, w1) => (Err ex, w1)
  end.
Proof. intros V O R. exact dev_init_missing. Qed.
Print Assumptions C40_key_error.
Example C40_example :
  fst (dev_init_state ex_dev [("vth"%string, 2)] 1 1 ex_w) = Err KeyError /\
  fst (gen_init_state ex_chain (Some [("c1"%string, 1)]) 1 1 None (TD 0) ex_w) = Err KeyError /\
  fst (simulate ex_env ex_dev [SMeas ex_meas2] 2 1 None ex_w) = Err KeyError.
Proof. repeat split; vm_compute; reflexivity. Qed.

(** ** C41 *)
Theorem C41_latents_and_initial_values_constant :
  forall V (O : NumOps V) (R : Rng V) (Ho : HashOrd) (e : env V) (d : device V) l i st rep w st' rep' w',
  run_steps e d i l st rep w = (Ok (st', rep'), w') -> same_start st st' /\ dkeys (st_mech st') = dkeys (st_mech st).
Proof. intros V O R Ho e d l i st rep w st' rep' w' E. apply run_same in E as (A & B & _). auto. Qed.
Print Assumptions C41_latents_and_initial_values_constant.
Theorem C41_same_parameters_and_mechanisms :
  forall V (O : NumOps V) (R : Rng V) (Ho : HashOrd) (e : env V) (d : device V) l, device_wf d ->
  forall i st rep w st' rep' w', matches d st ->
  run_steps e d i l st rep w = (Ok (st', rep'), w') -> matches d st' /\ dkeys (st_prm st') = dkeys (st_prm st).
Proof. intros V O R Ho. exact run_matches. Qed.
Print Assumptions C41_same_parameters_and_mechanisms.
Theorem C41_generated_states_match :
  forall V (O : NumOps V) (R : Rng V) (d : device V) counts C L w st cnt w',
  device_wf d -> dev_init_state d counts C L w = (Ok (st, cnt), w') ->
  matches d st /\ st_prm0 st = st_prm st /\ st_mech0 st = st_mech st.
Proof.
  intros V O R d counts C L w st cnt w' W E. split; [eapply dev_init_matches; eauto|].
  apply dev_init_ok in E as (_ & _ & A & B & _); [auto|apply W].
Qed.
Print Assumptions C41_generated_states_match.
Example C41_example : exists st0 rep0 w0, run_steps ex_env ex_dev 0 ex_steps st0 rep0 w0 = (Ok (ex_st, ex_rep), ex_w') /\
  matches ex_dev st0 /\ same_start st0 ex_st /\ matches ex_dev ex_st /\ st_prm st0 <> st_prm ex_st /\ st_mech st0 <> st_mech ex_st.
Proof.
  destruct (simulate_run _ _ _ _ _ _ _ _ _ _ ex_wf ex_ok) as (st0 & rep0 & w0 & E & _ & _ & _ & _ & _ & M & P0 & M0 & _).
  exists st0, rep0, w0. pose proof (C41_latents_and_initial_values_constant _ _ _ _ _ _ _ _ _ _ _ _ _ _ E) as [S _].
  pose proof (C41_same_parameters_and_mechanisms _ _ _ _ _ _ _ ex_wf _ _ _ _ _ _ _ M E) as [M' _].
  do 4 (split; auto). destruct S as (_ & S2 & S3). rewrite P0, M0, <- S2, <- S3. split; vm_compute; discriminate.
Qed.

(** ** C43 *)
Theorem C43_summary_table :
  forall V (O : NumOps V) (R : Rng V) (Ho : HashOrd) (e : env V) (d : device V) l chps lots init w st' rep' w',
  device_wf d -> plain_names l ->
  simulate e d l chps lots init w = (Ok (st', rep'), w') ->
  let t0 := match init with Some st => st_elapsed st | None => TD 0 end in
  summary_of 0 t0 l (rp_sum rep') /\ time_after t0 l (st_elapsed st').
Proof.
  intros V O R Ho e d l chps lots init w st' rep' w' W P E t0.
  apply simulate_run in E as (st0 & rep0 & w0 & E & _ & S0 & _ & _ & I); auto.
  assert (T : st_elapsed st0 = t0). { unfold t0. destruct init as [s|]; destruct I as (I & _); congruence. }
  pose proof (run_same _ _ _ _ _ _ _ _ _ _ E) as (_ & _ & Ta & _).
  apply run_summary in E as (rows & E & F); auto. rewrite S0 in E. cbn [app] in E. subst rows. rewrite <- T. auto.
Qed.
Print Assumptions C43_summary_table.
Example C43_example : plain_names ex_steps /\
  summary_of 0 (TD 0) ex_steps (rp_sum ex_rep) /\ length (rp_sum ex_rep) = 5 /\
  st_elapsed ex_st = TD 14400000000.
Proof.
  assert (P : plain_names ex_steps).
  { intros s c Hs Hc. assert (c = "temp"%string) as ->.
    { cbn in Hs. decompose [or] Hs; try contradiction; subst s; cbn in Hc; intuition. }
    cbn. intuition discriminate. }
  split; auto. pose proof (C43_summary_table _ _ _ _ _ _ _ _ _ _ _ _ _ _ ex_wf P ex_ok) as [S _].
  split; [exact S|]. split; vm_compute; reflexivity.
Qed.
(** A condition named like a standard column replaces it. *)
Theorem C43_column_collision_refuted : exists (e : env Q) (d : device Q) l w r w' row,
  simulate e d l 1 1 None w = (Ok r, w') /\ In row (rp_sum (snd r)) /\ dget row "duration" = Some (CNum 7%Q).
Proof.
  assert (E : exists r w' row, simulate ex_env ex_dev [SMeas (MeasSpec [("freq"%string, 1)] [("duration"%string, 7%Q)] "m")] 1 1 None ex_w = (Ok r, w') /\
     rp_sum (snd r) = [row] /\ dget row "duration" = Some (CNum 7%Q)) by (vm_compute; do 3 eexists; repeat split; reflexivity).
  destruct E as (r & w' & row & E1 & E2 & E3). do 4 eexists. exists r, w', row. split; [exact E1|]. rewrite E2. split; [now left|auto].
Qed.
Print Assumptions C43_column_collision_refuted.

(** ** C44 *)
Theorem C44_measurement_times :
  forall V (O : NumOps V) (R : Rng V) (Ho : HashOrd) (e : env V) (d : device V) l chps lots init w st' rep' w',
  device_wf d ->
  simulate e d l chps lots init w = (Ok (st', rep'), w') ->
  let t0 := match init with Some st => st_elapsed st | None => TD 0 end in
  table_of stamped 0 t0 l (rp_meas rep') /\
  StronglySorted (fun a b => r_step a <= r_step b) (rp_meas rep') /\
  forall r, In r (rp_meas rep') -> exists l1 m l2, l = l1 ++ SMeas m :: l2 /\ r_step r = length l1 /\
    time_after t0 l1 (r_time r) /\ In (r_param r) (dkeys (ms_counts m)).
Proof.
  intros V O R Ho e d l chps lots init w st' rep' w' W E t0.
  apply simulate_run in E as (st0 & rep0 & w0 & E & M0 & _ & _ & _ & I); auto.
  assert (T : st_elapsed st0 = t0). { unfold t0. destruct init as [s|]; destruct I as (I & _); congruence. }
  apply run_stamped in E as (rows & E & F). rewrite M0 in E. cbn [app] in E. subst rows. rewrite T in F.
  split; auto. split; [eapply table_sorted; eauto|]. intros r Hr. exact (table_row _ _ _ _ F r Hr).
Qed.
Print Assumptions C44_measurement_times.
Example C44_example : table_of stamped 0 (TD 0) ex_steps (rp_meas ex_rep) /\ length (rp_meas ex_rep) = 24 /\
  map (fun r => (r_step r, r_time r)) (filter (fun r => String.eqb (r_param r) "freq") (rp_meas ex_rep)) =
    [(0, TD 0); (0, TD 0); (0, TD 0); (0, TD 0); (5, TD 14400000000); (5, TD 14400000000); (5, TD 14400000000); (5, TD 14400000000)].
Proof.
  split; [exact (proj1 (C44_measurement_times _ _ _ _ _ _ _ _ _ _ _ _ _ _ ex_wf ex_ok))|].
  split; vm_compute; reflexivity.
Qed.

(** ** C49 *)
Theorem C49_elapsed_time :
  forall V (O : NumOps V) (R : Rng V) (Ho : HashOrd) (e : env V) (d : device V) l i st rep w st' rep' w',
  run_steps e d i l st rep w = (Ok (st', rep'), w') -> time_after (st_elapsed st) l (st_elapsed st').
Proof. intros V O R Ho e d l i st rep w st' rep' w' E. apply run_same in E as (_ & _ & A & _). auto. Qed.
Print Assumptions C49_elapsed_time.
(** The initial state has the elapsed time that was asked for; 0 stands for an empty
    timedelta. *)
Theorem C49_initial_time :
  forall V (O : NumOps V) (R : Rng V) (d : device V) counts C L info t w r w',
  gen_init_state d counts C L info t w = (Ok r, w') ->
  (forall q, t = TN q -> ~ q == 0 -> st_elapsed (ir_state r) = TN q)%Q /\
  (forall q, t = TN q -> q == 0 -> st_elapsed (ir_state r) = TD 0)%Q /\
  (forall us, t = TD us -> st_elapsed (ir_state r) = TD us).
Proof. intros V O R. exact init_time. Qed.
Print Assumptions C49_initial_time.
Theorem C49_numeric_time_fails :
  forall V (O : NumOps V) (R : Rng V) (Ho : HashOrd) (e : env V) (d : device V) l s chps lots st q w r w',
  In (SStrs s) l -> st_elapsed st = TN q -> simulate e d l chps lots (Some st) w <> (Ok r, w').
Proof. intros V O R Ho e d l s chps lots st q w r w' Hin Hq. unfold simulate. eapply run_numeric; eauto. Qed.
Print Assumptions C49_numeric_time_fails.
Theorem C49_numeric_time_raises_type_error :
  forall V (O : NumOps V) (R : Rng V) (Ho : HashOrd) (e : env V) (d : device V) i s st rep w q conds w1 st1 w2,
  st_elapsed st = TN q ->
  gen_env_cond_vals e (ss_conds s) (PList (map fst (deg_prms d))) (Some (info_of rep)) (Some d) true 1 1 w = (Ok conds, w1) ->
  foldM (stress_prm conds rep (ss_dur s)) (deg_prms d) st w1 = (Ok st1, w2) ->
  stress_step e d i s st rep w = (Err TypeError, w2).
Proof. intros V O R Ho. exact stress_numeric_raises. Qed.
Print Assumptions C49_numeric_time_raises_type_error.
Example C49_example :
  match gen_init_state ex_dev (Some [("vth"%string, 2); ("freq"%string, 1); ("temp"%string, 3)]) 2 1 None (TN 5) ex_w with
  | (Ok r, w) => st_elapsed (ir_state r) = TN 5 /\
      fst (simulate ex_env ex_dev ex_steps 2 1 (Some (ir_state r)) w) = Err TypeError /\
      is_ok (fst (simulate ex_env ex_dev [SMeas ex_meas1] 2 1 (Some (ir_state r)) w)) = true
  | _ => False
  end /\
  match gen_init_state ex_dev (Some [("vth"%string, 2); ("freq"%string, 1); ("temp"%string, 3)]) 2 1 None (TD 5) ex_w with
  | (Ok r, w) => match simulate ex_env ex_dev ex_steps 2 1 (Some (ir_state r)) w with
                 | (Ok (st, _), _) => st_elapsed st = TD 14400000005
                 | _ => False
                 end
  | _ => False
  end.
Proof. split; vm_compute; repeat split; reflexivity. Qed.

(** ** C60 *)
Theorem C60_two_parts :
  forall V (O : NumOps V) (R : Rng V) (Ho : HashOrd) (e : env V) (d : device V) i l1 l2 st rep w,
  run_steps e d i (l1 ++ l2) st rep w =
  bind (run_steps e d i l1 st rep) (fun sr => run_steps e d (i + length l1) l2 (fst sr) (snd sr)) w.
Proof. intros V O R Ho. exact run_app. Qed.
Print Assumptions C60_two_parts.
Example C60_example : exists st0 rep0 w0 st1 rep1 w1,
  run_steps ex_env ex_dev 0 (firstn 4 ex_steps) st0 rep0 w0 = (Ok (st1, rep1), w1) /\
  run_steps ex_env ex_dev 4 (skipn 4 ex_steps) st1 rep1 w1 = (Ok (ex_st, ex_rep), ex_w').
Proof.
  destruct (simulate_run _ _ _ _ _ _ _ _ _ _ ex_wf ex_ok) as (st0 & rep0 & w0 & E & R0 & _).
  pose proof E as E'. rewrite <- (firstn_skipn 4 ex_steps) in E'. rewrite C60_two_parts in E'.
  apply bind_ok in E' as ([st1 rep1] & w1 & E1 & E2). exists st0, rep0, w0, st1, rep1, w1. auto.
Qed.

(** ** C12: the time unit of a mechanism changes the outcome *)
Definition ex_certain : eqn Q := Eqn ["time"]%string [] None
  (fun a => lift (rbind (dgetE a "time") (fun t => pmap2 (fun t _ => if q_ltb 0 t then 1%Q else 0%Q) t (PNum 0%Q)))).
Definition ex_unit_dev (u : string) : device Q := [("vth"%string, PDeg (DegPrm (LMdl eqn_basic [("init_val"%string, ex_deter 5)])
  (LMdl (eqn_const 0%Q) []) 0%Q [("fail"%string, Mech KFail (LMdl ex_certain []) 0%Q (Some u))] (LMdl eqn_basic_sum [])))].
Definition ex_unit_steps : list (step Q) := [SStrs (ex_str 3 "s"); SMeas ex_meas2].
Theorem C12_unit_dependence_refuted : exists (dev : string -> device Q) (e : env Q) l w st_h rep_h w_h st_us rep_us w_us,
  (forall u u' name nm m, has_mech (dev u) name nm m -> exists m', has_mech (dev u') name nm m' /\
     mc_mdl m' = mc_mdl m /\ mc_kind m' = mc_kind m /\ mc_unitary m' = mc_unitary m) /\
  simulate e (dev "h"%string) l 1 1 None w = (Ok (st_h, rep_h), w_h) /\
  simulate e (dev "us"%string) l 1 1 None w = (Ok (st_us, rep_us), w_us) /\
  mech_val st_h "vth" "fail" (PArr (Nd [1; 1; 1] [1%Q])) /\
  mech_val st_us "vth" "fail" (PArr (Nd [1; 1; 1] [0%Q])) /\
  map r_val (rp_meas rep_h) = [6%Q] /\ map r_val (rp_meas rep_us) = [5%Q].
Proof.
  assert (E : exists a b c a' b' c', simulate ex_env (ex_unit_dev "h") ex_unit_steps 1 1 None ex_w = (Ok (a, b), c) /\
     simulate ex_env (ex_unit_dev "us") ex_unit_steps 1 1 None ex_w = (Ok (a', b'), c') /\
     dget (st_mech a) "vth" = Some [("fail"%string, PArr (Nd [1; 1; 1] [1%Q]))] /\
     dget (st_mech a') "vth" = Some [("fail"%string, PArr (Nd [1; 1; 1] [0%Q]))] /\
     map r_val (rp_meas b) = [6%Q] /\ map r_val (rp_meas b') = [5%Q])
    by (vm_compute; do 6 eexists; repeat split; reflexivity).
  destruct E as (a & b & c & a' & b' & c' & E1 & E2 & E3 & E4 & E5 & E6).
  exists ex_unit_dev, ex_env, ex_unit_steps, ex_w, a, b, c, a', b', c'. split; [|split; [|split; [|split; [|split; [|split]]]]]; auto.
  - intros u u' name nm m (p & Hp & Hm). unfold ex_unit_dev in Hp. cbn [dget] in Hp. destruct (String.eqb_spec name "vth") as [->|]; [|discriminate].
    injection Hp as <-. cbn [dp_mechs dget] in Hm. destruct (String.eqb_spec nm "fail") as [->|]; [|discriminate]. injection Hm as <-.
    eexists. split; [eexists; split; reflexivity|]. repeat split.
  - eexists. split; [exact E3|reflexivity].
  - eexists. split; [exact E4|reflexivity].
Qed.
Print Assumptions C12_unit_dependence_refuted.
