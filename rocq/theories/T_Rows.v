(** The rows of both tables by position: more about C43 and C46. *)
From Coq Require Import QArith Lia.
From Verif Require Import M_Base M_Num M_Nd M_RandVar M_Latent M_Time M_TestSpec M_Device M_Report M_Env M_Sim M_Toy
  S_TestSpec S_Device S_Sim S_Shape S_Total S_Rows L_Base L_Nd L_Shape2 L_Rows T_Sim T_Shape T_Total.
Open Scope nat_scope.

(** Row number [i] of the summary is that of step number [i]: its name, kind, number,
    times and nominal conditions. *)
Theorem C43_summary_by_position :
  forall V (O : NumOps V) (R : Rng V) (Ho : HashOrd) (e : env V) (d : device V) l chps lots w st rep w',
  device_wf d -> plain_names l -> (forall s, In s l -> step_wf s) -> only_steps l ->
  simulate e d l chps lots None w = (Ok (st, rep), w') -> summary_exact l 0 0 (rp_sum rep).
Proof. intros V O R Ho. exact simulate_summary_exact. Qed.
Print Assumptions C43_summary_by_position.

(** A well-posed experiment ends with a report whose table has exactly the rows of
    the requests, and whose counts are the greatest numbers needed.  A circuit
    parameter has a row for every device its arguments have, but only for as many
    lots as there are values requested. *)
Theorem C46_exact_rows :
  forall V (O : NumOps V) (R : Rng V) (Ho : HashOrd) (e : env V) (d : device V) l chps lots w st rep w',
  env_ok e l -> device_ok d l lots chps -> test_ok d l ->
  simulate e d l chps lots None w = (Ok (st, rep), w') ->
  table_of (fun _ _ => rows_exact d l lots chps) 0 (TD 0) l (rp_meas rep) /\
  rp_chps rep = chps /\ rp_lots rep = lots /\ forall q n, dget (rp_counts rep) q = Some n <-> greatest (needs d l q) n.
Proof. intros V O R Ho. exact simulate_rows_exact. Qed.
Print Assumptions C46_exact_rows.

#[local] Existing Instance hord_id.
(** In the running example both measurements request one value of the circuit
    parameter, whose argument has two devices; there are two chips and one lot. *)
Example C46_exact_rows_example :
  table_of (fun _ _ => rows_exact ex_dev ex_steps 1 2) 0 (TD 0) ex_steps (rp_meas ex_rep) /\
  length (filter (fun r => String.eqb (r_param r) "freq") (rp_meas ex_rep)) = 2 * (1 * 2 * 2).
Proof.
  split; [|vm_compute; reflexivity].
  exact (proj1 (C46_exact_rows _ _ _ _ _ _ _ _ _ _ _ _ _ ex_env_ok (ex_device_ok _ _) ex_test_ok ex_ok)).
Qed.
Definition rw_steps : list (step Q) := [SMeas ex_meas1; SStrs (ex_str 3 "s1"); SMeas ex_meas2; SStrs (ex_str 1 "s2")].
Example C43_summary_by_position_example : exists st rep w',
  simulate ex_env ex_dev rw_steps 2 1 None ex_w = (Ok (st, rep), w') /\ summary_exact rw_steps 0 0 (rp_sum rep) /\
  exists r, nth_error (rp_sum rep) 3 = Some r /\ summary_says (SStrs (ex_str 1 "s2")) 3 10800000000 r /\ dget r "temp" = Some (CNum 400%Q).
Proof.
  assert (E : exists st rep w', simulate ex_env ex_dev rw_steps 2 1 None ex_w = (Ok (st, rep), w')) by (vm_compute; do 3 eexists; reflexivity).
  destruct E as (st & rep & w' & E). exists st, rep, w'. split; [exact E|].
  assert (S : summary_exact rw_steps 0 0 (rp_sum rep)).
  { assert (X := fun A B D => C43_summary_by_position _ _ _ _ _ _ _ _ _ _ _ _ _ ex_wf A B D E). apply X.
    - intros s c Hs Hc. assert (c = "temp"%string) as -> by (cbn in Hs; decompose [or] Hs; try contradiction; subst s; cbn in Hc; intuition).
      cbn. intuition discriminate.
    - intros s Hs. apply ex_steps_wf. cbn in Hs |- *. tauto.
    - intros o Ho. cbn in Ho. intuition discriminate. }
  split; [exact S|]. destruct S as [_ S]. destruct (S [SMeas ex_meas1; SStrs (ex_str 3 "s1"); SMeas ex_meas2] (SStrs (ex_str 1 "s2")) [] eq_refl) as (r & N & Sr).
  exists r. split; [exact N|]. split; [exact Sr|]. apply (proj2 Sr). reflexivity.
Qed.
