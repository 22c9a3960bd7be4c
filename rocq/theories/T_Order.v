(** C17: the iteration order of sets of names. *)
From Coq Require Import QArith Lia.
From Verif Require Import M_Base M_Num M_Nd M_RandVar M_Latent M_Time M_TestSpec M_Device M_Report M_Env M_Sim M_Toy
  S_TestSpec S_Device S_Sim S_Order L_Base L_Order T_Sim.
Open Scope nat_scope.

Theorem C17_report_same_for_every_order :
  forall V (O : NumOps V) (R : Rng V) (Ho1 Ho2 : HashOrd) (e : env V) (d : device V) l C L init r w w',
  (forall s, In s l -> separate e (step_conds s)) ->
  simulate (H1 := Ho1) e d l C L init w = (Ok r, w') -> simulate (H1 := Ho2) e d l C L init w = (Ok r, w').
Proof. intros V O R. exact simulate_order. Qed.
Print Assumptions C17_report_same_for_every_order.

(** A parameter degraded by a mechanism that depends on two random conditions. *)
Definition ord_id : HashOrd := hord_id.
Lemma rev_ok l : NoDup (rev (nodup String.string_dec l)) /\ forall x, In x (rev (nodup String.string_dec l)) <-> In x l.
Proof.
  split. { apply NoDup_rev, NoDup_nodup. }
  intros x. rewrite <- in_rev. apply nodup_In.
Qed.
Definition ord_rev : HashOrd := {| hord := fun l => rev (nodup String.string_dec l); hord_ok := rev_ok |}.
Definition two_eqn : eqn Q := Eqn ["time"; "temp"; "volt"]%string [] None
  (fun a => lift (rbind (dgetE a "time") (fun t => rbind (dgetE a "temp") (fun c => rbind (dgetE a "volt") (fun v =>
     rbind (pmap2 (fun c v => Qred (c + 100 * v)) c v) (pmap2 (fun t x => if q_ltb 2 t then x else 0%Q) t)))))).
Definition two_dev : device Q := [("vth"%string, PDeg (DegPrm (LMdl eqn_basic [("init_val"%string, ex_deter 5)])
  (LMdl (eqn_const 0%Q) []) 0%Q [("fail"%string, Mech KFail (LMdl two_eqn []) 0%Q (Some "h"%string))] (LMdl eqn_basic_sum [])))].
Definition two_var (n : string) (g : nat) : emdl Q := EMdl (Some n) (Some Offset) 0%Q (Some Offset)
  (Rv 0 (DDeter 0%Q) None) false (Rv 0 (DDeter 0%Q) None) false (Rv g (DNormal 0 1)%Q None) true.
Definition two_env (g1 g2 : nat) : env Q :=
  [("temp_var"%string, AVar (two_var "temp" g1)); ("volt_var"%string, AVar (two_var "volt" g2))].
Definition two_steps : list (step Q) :=
  [SStrs (StrsSpec [("temp"%string, 300%Q); ("volt"%string, 1%Q)] 10800000000 "s");
   SMeas (MeasSpec [("vth"%string, 2)] [("temp"%string, 300%Q)] "m")].
Definition vals_under (Ho : HashOrd) (g1 g2 : nat) : option (list Q) :=
  match simulate (H1 := Ho) (two_env g1 g2) two_dev two_steps 1 1 None (fun _ => 1) with
  | (Ok (_, rep), _) => Some (map r_val (rp_meas rep))
  | _ => None
  end.

(** The orders do differ; with a generator for each condition the values do not. *)
Example C17_example :
  (forall s, In s two_steps -> separate (two_env 3 4) (step_conds s)) /\
  dependencies (H0 := ord_id) (snd (hd (""%string, PCirc (LMdl (eqn_const 0%Q) [])) two_dev)) ["temp"; "volt"]%string true = ["temp"; "volt"]%string /\
  dependencies (H0 := ord_rev) (snd (hd (""%string, PCirc (LMdl (eqn_const 0%Q) [])) two_dev)) ["temp"; "volt"]%string true = ["volt"; "temp"]%string /\
  vals_under ord_id 3 4 = Some [506; 607]%Q /\ vals_under ord_rev 3 4 = vals_under ord_id 3 4.
Proof.
  split; [|vm_compute; auto].
  intros s [<-|[<-|[]]] c1 c2 m1 m2 I1 I2 N; cbn in I1, I2.
  - destruct I1 as [<-|[<-|[]]], I2 as [<-|[<-|[]]]; try congruence; cbn; intros E1 E2; injection E1 as <-; injection E2 as <-; right; right; cbn; lia.
  - destruct I1 as [<-|[]], I2 as [<-|[]]; congruence.
Qed.

(** One generator for both conditions: the report depends on the order. *)
Theorem C17_shared_generator_refuted :
  exists (Ho1 Ho2 : HashOrd) (e : env Q) (d : device Q) l w r1 w1 r2 w2,
  simulate (H1 := Ho1) e d l 1 1 None w = (Ok r1, w1) /\ simulate (H1 := Ho2) e d l 1 1 None w = (Ok r2, w2) /\
  rp_meas (snd r1) <> rp_meas (snd r2).
Proof.
  exists ord_id, ord_rev, (two_env 3 3), two_dev, two_steps, (fun _ => 1).
  assert (E : exists r1 w1 r2 w2, simulate (H1 := ord_id) (two_env 3 3) two_dev two_steps 1 1 None (fun _ => 1) = (Ok r1, w1) /\
    simulate (H1 := ord_rev) (two_env 3 3) two_dev two_steps 1 1 None (fun _ => 1) = (Ok r2, w2) /\
    map r_val (rp_meas (snd r1)) <> map r_val (rp_meas (snd r2))).
  { vm_compute. do 4 eexists. split; [reflexivity|]. split; [reflexivity|]. vm_compute. discriminate. }
  destruct E as (r1 & w1 & r2 & w2 & E1 & E2 & N). exists r1, w1, r2, w2. split; [exact E1|]. split; [exact E2|]. congruence.
Qed.
Print Assumptions C17_shared_generator_refuted.
