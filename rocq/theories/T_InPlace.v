(** Properties of equations that run on the arrays of a simulation: C100. *)
From Coq Require Import QArith Lia.
From Verif Require Import M_Base M_Num M_Nd M_RandVar M_Latent M_Time M_TestSpec M_Device M_Report M_Env M_Sim M_InPlace M_Toy
  S_InPlace L_Base L_InPlace5 L_InPlace6 T_Sim.
Open Scope nat_scope.

(** With equations that write to no array but the times of a mechanism, steps on
    arrays are the steps on values, and no array there was before is changed. *)
Theorem C100_steps : forall V (O : NumOps V) (R : Rng V) (Ho : HashOrd) (e : env V) (d : device V) code i steps os st rep h,
  code_behaves d code -> mechs_wf d -> shows_state h os st -> time_free st steps -> forall w,
  match hrun_steps code e d i steps os rep h w, run_steps e d i steps st rep w with
  | (Ok (os', r), h', w1), (Ok (st', r'), w2) => r = r' /\ w1 = w2 /\ shows_state h' os' st' /\ keeps every h h'
  | (Err x, h', w1), (Err x', w2) => x = x' /\ w1 = w2 /\ keeps every h h'
  | _, _ => False
  end.
Proof. intros V O R Ho. exact run_outcome. Qed.
Print Assumptions C100_steps.

Theorem C100_simulation : forall V (O : NumOps V) (R : Rng V) (Ho : HashOrd) (e : env V) (d : device V) code steps chps lots init h,
  code_behaves d code -> mechs_wf d ->
  match init with
  | Some st => time_free st steps
  | None => dwf d /\ latents_free d /\ forall s, In (SStrs s) steps -> dget (ss_conds s) "time" = None
  end -> forall w,
  match hsimulate code e d steps chps lots init h w, simulate e d steps chps lots init w with
  | (Ok (os', r), h', w1), (Ok (st', r'), w2) => r = r' /\ w1 = w2 /\ shows_state h' os' st' /\ keeps every h h'
  | (Err x, h', w1), (Err x', w2) => x = x' /\ w1 = w2 /\ keeps every h h'
  | _, _ => False
  end.
Proof. intros V O R Ho. exact simulate_outcome. Qed.
Print Assumptions C100_simulation.

(** Equations that make new arrays meet the condition, whatever they compute, and
    those of mechanisms that compute in the array of times. *)
Theorem C100_ways_of_writing : forall V (O : NumOps V) (f : eqn V),
  (forall tw, behaves tw f (afresh f)) /\ behaves true f (in_place "time" f).
Proof. intros V O f. split; [exact (afresh_behaves f)|exact (in_place_time f)]. Qed.
Print Assumptions C100_ways_of_writing.

#[local] Existing Instance hord_id.
(** The running example, its mechanism computing in the array of times. *)
Definition ex_code (r : role) : impl Q :=
  match r with
  | RMech _ _ => in_place "time" ex_fail_eqn
  | ROwn _ => afresh eqn_basic_sum
  | RCond _ => afresh (eqn_const 0%Q)
  | RCirc _ => afresh (lm_eqn ex_freq)
  end.
Lemma ex_code_behaves : code_behaves ex_dev ex_code.
Proof.
  intros name q [E|[E|[]]]; injection E as <- <-.
  - split; [apply afresh_behaves|]. split; [apply afresh_behaves|]. intros nm m [E|[]]. injection E as <- <-. apply in_place_time.
  - apply afresh_behaves.
Qed.
Example C100_example : exists os h', hsimulate ex_code ex_env ex_dev ex_steps 2 1 None [] ex_w = (Ok (os, ex_rep), h', ex_w') /\
  shows_state h' os ex_st /\ length (rp_meas ex_rep) <> 0.
Proof.
  assert (X : dwf ex_dev /\ latents_free ex_dev /\ forall s, In (SStrs s) ex_steps -> dget (ss_conds s) "time" = None).
  { split; [repeat constructor; cbn; intuition congruence|]. split.
    - intros name p [E|[E|[]]]; [|discriminate]. injection E as <- <-. split; [reflexivity|]. intros nm m [E|[]]. injection E as <- <-. reflexivity.
    - intros s I. unfold ex_steps in I. cbn [In] in I. repeat destruct I as [I|I]; try discriminate; try tauto; injection I as <-; reflexivity. }
  assert (Wd : mechs_wf ex_dev).
  { intros name p [E|[E|[]]]; [|discriminate]. injection E as <- <-. repeat constructor; cbn; intuition congruence. }
  pose proof (C100_simulation Q _ _ _ ex_env ex_dev ex_code ex_steps 2 1 None [] ex_code_behaves Wd X ex_w) as Y. rewrite ex_ok in Y.
  destruct (hsimulate ex_code ex_env ex_dev ex_steps 2 1 None [] ex_w) as [[[[os r]|x] h'] w1]; [|tauto]. destruct Y as (-> & -> & S1 & _).
  exists os, h'. split; [reflexivity|]. split; [exact S1|]. vm_compute. discriminate.
Qed.

(** ** What the conditions are for *)
Definition readings {A} (r : res (A * report Q)) : option (list Q) :=
  match r with Ok (_, rep) => Some (map (fun x => Qred (r_val x)) (rp_meas rep)) | Err _ => None end.

Ltac by_ways :=
  intros name q [E|[]]; injection E as <- <-; split; [|split];
  [apply in_place_right || eapply behaves_right, (afresh_behaves _ false)|eapply behaves_right, (afresh_behaves _ false)|];
  intros nm m I; cbn in I; try tauto; destruct I as [E|[]]; injection E as <- <-; (apply in_place_right || apply convert_first_right).
Ltac by_parts :=
  intros name p [E|[]]; injection E as <- <-;
  [> try (split; [reflexivity|]; intros nm m I; cbn in I; try tauto; destruct I as [E|[]]; injection E as <- <-; reflexivity);
     repeat constructor; cbn; intuition congruence].

(** A sum [init += cond; return init] on the array it is given: measuring a second
    time shows the sum of the first. *)
Definition sum_dev : device Q := [("vth"%string, PDeg (DegPrm (LMdl eqn_basic [("init_val"%string, ex_deter 5)]) (LMdl (eqn_const 1%Q) []) 0%Q [] (LMdl eqn_basic_sum [])))].
Definition sum_code (r : role) : impl Q := match r with ROwn _ => in_place "init" eqn_basic_sum | _ => afresh (eqn_const 1%Q) end.
Theorem C100_sum_in_place_refuted : exists (d : device Q) code steps, code_right d code /\ dwf d /\ mechs_wf d /\ latents_free d /\
  readings (fst (simulate [] d steps 1 1 None ex_w)) = Some [6; 6]%Q /\
  readings (fst (fst (hsimulate code [] d steps 1 1 None [] ex_w))) = Some [6; 7]%Q.
Proof.
  exists sum_dev, sum_code, [SMeas ex_meas2; SMeas ex_meas2].
  split; [by_ways|]. split; [repeat constructor; cbn; intuition congruence|]. split; [by_parts|]. split; [by_parts|].
  split; vm_compute; reflexivity.
Qed.
Print Assumptions C100_sum_in_place_refuted.

(** A mechanism that converts its times in place, [time *= 60], and then tests them,
    which raises ValueError for an array: the loop over the elements converts again. *)
Definition minutes_eqn : eqn Q := Eqn ["time"]%string [] None (fun a =>
  lift (rbind (dgetE a "time") (fun t => match t with PNum x => Ok (PNum (if q_ltb 120 (x * 60) then 1 else 0)%Q) | _ => Err ValueError end))).
Definition minutes_dev : device Q := [("vth"%string, PDeg (DegPrm (LMdl eqn_basic [("init_val"%string, ex_deter 5)]) (LMdl (eqn_const 0%Q) []) 0%Q
  [("fail"%string, Mech KFail (LMdl minutes_eqn []) 0%Q (Some "h"%string))] (LMdl eqn_basic_sum [])))].
Definition minutes_code (r : role) : impl Q :=
  match r with RMech _ _ => convert_first "time" (fun x => x * 60)%Q minutes_eqn | ROwn _ => afresh eqn_basic_sum | _ => afresh (eqn_const 0%Q) end.
Theorem C100_times_in_place_refuted : exists (d : device Q) code steps, code_right d code /\ dwf d /\ mechs_wf d /\ latents_free d /\
  readings (fst (simulate [] d steps 1 1 None ex_w)) = Some [5; 5]%Q /\
  readings (fst (fst (hsimulate code [] d steps 1 1 None [] ex_w))) = Some [5; 6]%Q.
Proof.
  exists minutes_dev, minutes_code, [SMeas ex_meas2; SStrs (ex_str 1 "s"); SMeas ex_meas2].
  split; [by_ways|]. split; [repeat constructor; cbn; intuition congruence|]. split; [by_parts|]. split; [by_parts|].
  split; vm_compute; reflexivity.
Qed.
Print Assumptions C100_times_in_place_refuted.

(** A mechanism that computes in the array of a latent value: the next step finds
    what it left there. *)
Definition rate_eqn : eqn Q := Eqn ["time"; "rate"]%string [] None (fun a =>
  lift (rbind (dgetE a "time") (fun t => rbind (dgetE a "rate") (fun r => pmap2 (fun t r => if q_ltb 4 (t * r) then 1 else 0)%Q t r)))).
Definition rate_dev : device Q := [("vth"%string, PDeg (DegPrm (LMdl eqn_basic [("init_val"%string, ex_deter 5)]) (LMdl (eqn_const 0%Q) []) 0%Q
  [("fail"%string, Mech KFail (LMdl rate_eqn [("rate"%string, ex_deter 3)]) 0%Q (Some "h"%string))] (LMdl eqn_basic_sum [])))].
Definition rate_code (r : role) : impl Q :=
  match r with RMech _ _ => in_place "rate" rate_eqn | ROwn _ => afresh eqn_basic_sum | _ => afresh (eqn_const 0%Q) end.
Theorem C100_latents_in_place_refuted : exists (d : device Q) code steps, code_right d code /\ dwf d /\ mechs_wf d /\ latents_free d /\
  readings (fst (simulate [] d steps 1 1 None ex_w)) = Some [5; 6]%Q /\
  readings (fst (fst (hsimulate code [] d steps 1 1 None [] ex_w))) = Some [5; 5]%Q.
Proof.
  exists rate_dev, rate_code, [SMeas ex_meas2; SStrs (ex_str 1 "s"); SStrs (ex_str 2 "t"); SMeas ex_meas2].
  split; [by_ways|]. split; [repeat constructor; cbn; intuition congruence|]. split; [by_parts|]. split; [by_parts|].
  split; vm_compute; reflexivity.
Qed.
Print Assumptions C100_latents_in_place_refuted.

(** A condition called 'time' takes the place of the times, and its array is given to
    every mechanism of the parameter: what the first leaves there the second reads.
    Each of the equations alone meets the condition of [C100_simulation]. *)
Definition late_eqn : eqn Q := Eqn ["time"]%string [] None (fun a =>
  lift (rbind (dgetE a "time") (fun t => pmap2 (fun t _ => if q_ltb 100 t then 1 else 0)%Q t (PNum 0%Q)))).
Definition late_dev : device Q := [("vth"%string, PDeg (DegPrm (LMdl eqn_basic [("init_val"%string, ex_deter 5)]) (LMdl (eqn_const 0%Q) []) 0%Q
  [("a"%string, Mech KFail (LMdl late_eqn []) 0%Q (Some "h"%string)); ("b"%string, Mech KFail (LMdl late_eqn []) 0%Q (Some "h"%string))]
  (LMdl eqn_basic_sum [])))].
Definition late_code (r : role) : impl Q :=
  match r with RMech _ _ => in_place "time" late_eqn | ROwn _ => afresh eqn_basic_sum | _ => afresh (eqn_const 0%Q) end.
Theorem C100_condition_named_time_refuted : exists (d : device Q) code steps, code_behaves d code /\ dwf d /\ mechs_wf d /\ latents_free d /\
  readings (fst (simulate [] d steps 1 1 None ex_w)) = Some [5; 7]%Q /\
  readings (fst (fst (hsimulate code [] d steps 1 1 None [] ex_w))) = Some [5; 6]%Q.
Proof.
  exists late_dev, late_code, [SMeas ex_meas2; SStrs (StrsSpec [("time"%string, 200%Q)] 3600000000%Z "s"); SMeas ex_meas2].
  split.
  { intros name q [E|[]]. injection E as <- <-. split; [apply afresh_behaves|]. split; [apply afresh_behaves|].
    intros nm m [E|[E|[]]]; injection E as <- <-; apply in_place_time. }
  split; [repeat constructor; cbn; intuition congruence|]. split; [intros name p [E|[]]; injection E as <- <-; repeat constructor; cbn; intuition congruence|].
  split.
  { intros name p [E|[]]; injection E as <- <-. split; [reflexivity|]. intros nm m [E|[E|[]]]; injection E as <- <-; reflexivity. }
  split; vm_compute; reflexivity.
Qed.
Print Assumptions C100_condition_named_time_refuted.

(** A mechanism that converts its times in place and returns an array that cannot be
    compared with the current values: the search for the equivalent time then loops
    over the elements, converted a second time.  (The call itself raises nothing.) *)
Definition short_eqn : eqn Q := Eqn ["time"]%string [] None (fun a =>
  lift (rbind (dgetE a "time") (fun t => match t with PNum x => Ok (PNum (x * 60)%Q) | _ => Ok (PArr (Nd [2] [0; 0]%Q)) end))).
Definition short_mech : mech Q := Mech KDeg (LMdl short_eqn []) 0%Q (Some "h"%string).
Definition short_times : nd Q := Nd [1; 1; 3] [1; 2; 3]%Q.
Definition short_vals : nd Q := Nd [1; 1; 3] [0; 0; 0]%Q.
Theorem C100_other_shape_refuted : exists (m : mech Q) b times vals,
  right (lm_eqn (mc_mdl m)) b /\
  (forall h w, match hcall (lm_eqn (mc_mdl m)) b [("time"%string, OArr 0 [])] (times :: h) w with (Ok _, _, _) => True | _ => False end) /\
  (forall w, fst (residue m (PArr vals) [] [] 1 1 3 (PArr times) w) = Ok (PArr (Nd [1; 1; 3] [60; 120; 180]%Q))) /\
  (forall w, fst (fst (hresidue m b (OArr 1 []) [] [] 1 1 3 (OArr 0 []) [times; vals] w)) = Ok (PArr (Nd [1; 1; 3] [3600; 7200; 10800]%Q))).
Proof.
  exists short_mech, (convert_first "time" (fun x => x * 60)%Q short_eqn), short_times, short_vals.
  split; [apply convert_first_right|]. split; [intros h w; vm_compute; exact I|].
  split; intros w; vm_compute; reflexivity.
Qed.
Print Assumptions C100_other_shape_refuted.
