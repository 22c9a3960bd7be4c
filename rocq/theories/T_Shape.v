(** Properties C46 and C48: array shapes through a simulation and the rows of its
    measurements. *)
From Coq Require Import QArith Lia.
From Verif Require Import M_Base M_Num M_Nd M_RandVar M_Latent M_Time M_TestSpec M_Device M_Report M_Env M_Sim M_Toy
  S_TestSpec S_Device S_Sim S_Shape L_Base L_Shape L_Shape2 T_Sim.
Open Scope nat_scope.

(** ** C48 *)

(** A freshly generated state has the right shapes ... *)
Theorem C48_generated :
  forall V (O : NumOps V) (R : Rng V) (Ho : HashOrd) (d : device V) counts C L w st cnt w',
  device_wf d -> regular d ->
  dev_init_state d counts C L w = (Ok (st, cnt), w') -> state_fits d L C counts st.
Proof. intros V O R _ d counts C L w st cnt w' W Rg E. exact (dev_init_shape _ _ _ _ _ _ _ _ any W (regular_all _ _ _ _ Rg) (fun _ _ _ => I) E). Qed.
Print Assumptions C48_generated.

(** ... every sequence of steps keeps them ... *)
Theorem C48_preserved :
  forall V (O : NumOps V) (R : Rng V) (Ho : HashOrd) (e : env V) (d : device V) l i st rep w st' rep' w',
  device_wf d -> regular d -> (forall s, In s l -> step_wf s) ->
  (forall x k n p, requests l x k -> dget d x = Some (PDeg p) -> dget (rp_counts rep) x = Some n -> k <= n) ->
  state_fits d (rp_lots rep) (rp_chps rep) (rp_counts rep) st ->
  run_steps e d i l st rep w = (Ok (st', rep'), w') ->
  state_fits d (rp_lots rep') (rp_chps rep') (rp_counts rep') st' /\ same_info rep rep'.
Proof.
  intros V O R Ho e d l i st rep w st' rep' w' W Rg Ws Hk F E.
  destruct (run_shapes _ _ _ _ _ _ _ _ _ _ W Rg Ws Hk F E) as (_ & F' & S). destruct S as (S1 & S2 & S3).
  rewrite S1, S2, S3. repeat split; auto.
Qed.
Print Assumptions C48_preserved.

(** ... so the final state of a simulation has them. *)
Theorem C48_simulation :
  forall V (O : NumOps V) (R : Rng V) (Ho : HashOrd) (e : env V) (d : device V) l C L w st' rep' w',
  device_wf d -> regular d -> (forall s, In s l -> step_wf s) ->
  simulate e d l C L None w = (Ok (st', rep'), w') ->
  state_fits d L C (rp_counts rep') st' /\ rp_lots rep' = L /\ rp_chps rep' = C.
Proof. intros V O R Ho e d l C L w st' rep' w' W Rg Ws E. exact (proj2 (simulate_shapes _ _ _ _ _ _ _ _ _ W Rg Ws E)). Qed.
Print Assumptions C48_simulation.

(** The default equations respect shapes. *)
Theorem C48_defaults :
  forall V (O : NumOps V), (forall v : V, respects (eqn_const v)) /\ respects (V := V) eqn_basic /\ respects (V := V) eqn_basic_sum.
Proof. intros V O. split; [exact const_respects|]. split; [exact basic_respects|exact basic_sum_respects]. Qed.
Print Assumptions C48_defaults.

(** The running example satisfies the hypotheses: 1 lot, 2 chips, 2 devices. *)
#[local] Existing Instance hord_id.
Lemma ex_regular : regular ex_dev.
Proof.
  intros name p Hp. unfold ex_dev in Hp. cbn [dget] in Hp. destruct (String.eqb name "vth").
  - injection Hp as <-. cbn [ex_vth dp_init dp_cond dp_own dp_mechs lm_eqn]. split; [apply basic_respects|].
    split; [apply respects_numeric, const_respects|]. split; [apply respects_follows, basic_sum_respects|].
    intros nm m Hm. cbn [dget] in Hm. destruct (String.eqb nm "fail"); [|discriminate]. injection Hm as <-.
    cbn [ex_fail mc_mdl lm_eqn]. apply respects_numeric. unfold ex_fail_eqn. apply elementwise_respects.
  - destruct (String.eqb name "freq"); discriminate.
Qed.
Lemma ex_steps_wf : forall s, In s ex_steps -> step_wf s.
Proof.
  intros s Hin. unfold ex_steps in Hin. cbn [In] in Hin.
  repeat (destruct Hin as [<-|Hin]; [cbn; repeat split; repeat constructor; cbn; intuition discriminate|]). destruct Hin.
Qed.
Example C48_example : state_fits ex_dev 1 2 (rp_counts ex_rep) ex_st /\
  dget (rp_counts ex_rep) "vth" = Some 2 /\
  match dget (st_prm ex_st) "vth" with Some (PArr a) => nshape a = [1; 2; 2] /\ length (ndata a) = 4 | _ => False end.
Proof.
  split; [apply (C48_simulation _ _ _ _ _ _ _ _ _ _ _ _ _ ex_wf ex_regular ex_steps_wf ex_ok)|].
  vm_compute. repeat split; reflexivity.
Qed.

(** The condition on the equations is needed: with an equation that returns a fixed
    number for the whole array the value of a parameter loses its shape. *)
Definition flat_vth : degprm Q :=
  DegPrm (dp_init ex_vth) (dp_cond ex_vth) 0%Q (dp_mechs ex_vth) (LMdl (Eqn ["init"; "cond"]%string [] (Some "m"%string) (fun _ => ret (PNum 1%Q))) []).
Example C48_regular_needed : exists st rep w',
  run_steps ex_env [("vth"%string, PDeg flat_vth)] 0 [SStrs (ex_str 1 "s1")] ex_st ex_rep ex_w = (Ok (st, rep), w') /\
  dget (st_prm st) "vth" = Some (PNum 1%Q).
Proof. vm_compute. do 3 eexists. split; reflexivity. Qed.

(** ** C46 *)

(** The rows of every measurement step come grouped in the order of its dictionary
    ([table_of]); the rows of each request are as many and labelled as expected. *)
Theorem C46_rows_of_measurements :
  forall V (O : NumOps V) (R : Rng V) (Ho : HashOrd) (e : env V) (d : device V) l C L w st' rep' w',
  device_wf d -> regular d -> (forall s, In s l -> step_wf s) ->
  simulate e d l C L None w = (Ok (st', rep'), w') ->
  table_of (fun _ _ => rows_fit d L C) 0 (TD 0) l (rp_meas rep').
Proof. intros V O R Ho e d l C L w st' rep' w' W Rg Ws E. exact (proj1 (simulate_shapes _ _ _ _ _ _ _ _ _ W Rg Ws E)). Qed.
Print Assumptions C46_rows_of_measurements.

(** The same from any state of the right shapes. *)
Theorem C46_rows_from_state :
  forall V (O : NumOps V) (R : Rng V) (Ho : HashOrd) (e : env V) (d : device V) l i st rep w st' rep' w',
  device_wf d -> regular d -> (forall s, In s l -> step_wf s) ->
  (forall x k n p, requests l x k -> dget d x = Some (PDeg p) -> dget (rp_counts rep) x = Some n -> k <= n) ->
  state_fits d (rp_lots rep) (rp_chps rep) (rp_counts rep) st ->
  run_steps e d i l st rep w = (Ok (st', rep'), w') ->
  exists rows, rp_meas rep' = rp_meas rep ++ rows /\
    table_of (fun _ _ => rows_fit d (rp_lots rep) (rp_chps rep)) i (st_elapsed st) l rows.
Proof.
  intros V O R Ho e d l i st rep w st' rep' w' W Rg Ws Hk F E. exact (proj1 (run_shapes _ _ _ _ _ _ _ _ _ _ W Rg Ws Hk F E)).
Qed.
Print Assumptions C46_rows_from_state.

(** In the running example the first step measures 2 devices on each of 2 chips,
    3 temperature sensors and a circuit parameter. *)
Example C46_example : table_of (fun _ _ => rows_fit ex_dev 1 2) 0 (TD 0) ex_steps (rp_meas ex_rep) /\
  map (fun r => (r_param r, r_lot r, r_chp r, r_dev r)) (firstn 7 (rp_meas ex_rep)) =
  [("vth"%string, Some 0, Some 0, Some 0); ("vth"%string, Some 0, Some 0, Some 1);
   ("vth"%string, Some 0, Some 1, Some 0); ("vth"%string, Some 0, Some 1, Some 1);
   ("temp"%string, None, None, None); ("temp"%string, None, None, None); ("temp"%string, None, None, None)].
Proof.
  split; [apply (C46_rows_of_measurements _ _ _ _ _ _ _ _ _ _ _ _ _ ex_wf ex_regular ex_steps_wf ex_ok)|].
  vm_compute. reflexivity.
Qed.
