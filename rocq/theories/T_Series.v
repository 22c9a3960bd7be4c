(** C92: the readings of every device in the course of a test. *)
From Coq Require Import QArith.
From Verif Require Import M_Base M_Num M_Toy M_Nd M_RandVar M_Latent M_Time M_TestSpec M_Minimize M_Device M_Report M_Env M_Sim
  S_TestSpec S_Device S_Sim S_Shape S_Series L_Series T_Sim T_Shape.
Open Scope nat_scope.

(** ** C92 *)

(** Device [c] on chip [b] of lot [a] has exactly one row for each measurement that
    asks for more than [c] devices, with the number of that step and the stress time
    before it, in the order of the test. *)
Theorem C92_readings_of_a_device :
  forall V (O : NumOps V) (R : Rng V) (Ho : HashOrd) (e : env V) (d : device V) l C L w st' rep' w' name p a b c,
  device_wf d -> regular d -> (forall s, In s l -> step_wf s) ->
  simulate e d l C L None w = (Ok (st', rep'), w') -> dget d name = Some (PDeg p) -> a < L -> b < C ->
  Forall2 at_step (asked name c 0 0 l) (series name a b c (rp_meas rep')).
Proof. intros V O R Ho e d l C L w st' rep' w' name p a b c. apply simulate_series. Qed.
Print Assumptions C92_readings_of_a_device.

(** There are no other rows of the parameter. *)
Theorem C92_no_other_rows :
  forall V (O : NumOps V) (R : Rng V) (Ho : HashOrd) (e : env V) (d : device V) l C L w st' rep' w' name p r,
  device_wf d -> regular d -> (forall s, In s l -> step_wf s) ->
  simulate e d l C L None w = (Ok (st', rep'), w') -> dget d name = Some (PDeg p) ->
  In r (rp_meas rep') -> r_param r = name ->
  exists a b c, a < L /\ b < C /\ r_lot r = Some a /\ r_chp r = Some b /\ r_dev r = Some c /\ In (r_step r, r_time r) (map (fun x => (fst x, TD (snd x))) (asked name c 0 0 l)).
Proof.
  intros V O R Ho e d l C L w st' rep' w' name p r Wd Rg Ws E Hp Hr Hn.
  destruct (simulate_covered e d l C L w st' rep' w' name p r Wd Rg Ws E Hp Hr Hn) as (a & b & c & Ha & Hb & Q).
  exists a, b, c. split; auto. split; auto. pose proof Q as Q'. apply belongs_iff in Q' as (_ & Q1 & Q2 & Q3). do 3 (split; auto).
  assert (F := simulate_series e d l C L w st' rep' w' name p a b c Wd Rg Ws E Hp Ha Hb).
  assert (Hs : In r (series name a b c (rp_meas rep'))) by now apply filter_In.
  clear - F Hs. induction F as [|x y xs ys (X1 & X2) F IH]; [destruct Hs|]. destruct Hs as [->|Hs]; [left; congruence|right; auto].
Qed.
Print Assumptions C92_no_other_rows.

(** Parameter, lot, chip, device and step determine the row: a later row of the same
    device belongs to a later step. *)
Theorem C92_one_row_per_step :
  forall V (O : NumOps V) (R : Rng V) (Ho : HashOrd) (e : env V) (d : device V) l C L w st' rep' w' name p a b c i j x y,
  device_wf d -> regular d -> (forall s, In s l -> step_wf s) ->
  simulate e d l C L None w = (Ok (st', rep'), w') -> dget d name = Some (PDeg p) -> a < L -> b < C ->
  i < j -> nth_error (rp_meas rep') i = Some x -> nth_error (rp_meas rep') j = Some y ->
  belongs name a b c x = true -> belongs name a b c y = true -> r_step x < r_step y.
Proof.
  intros V O R Ho e d l C L w st' rep' w' name p a b c i j x y Wd Rg Ws E Hp Ha Hb.
  assert (F := simulate_series e d l C L w st' rep' w' name p a b c Wd Rg Ws E Hp Ha Hb).
  apply sorted_steps. rewrite (at_steps _ _ F). apply asked_sorted.
Qed.
Print Assumptions C92_one_row_per_step.

(** In the running example the first and last step measure two devices of each chip,
    the fourth one only the first: device 0 has three rows, device 1 two. *)
#[local] Existing Instance hord_id.
Example C92_example :
  Forall2 at_step (asked "vth" 0 0 0 ex_steps) (series "vth" 0 1 0 (rp_meas ex_rep)) /\
  asked "vth" 0 0 0 ex_steps = [(0, 0%Z); (3, 10800000000%Z); (5, 14400000000%Z)] /\
  asked "vth" 1 0 0 ex_steps = [(0, 0%Z); (5, 14400000000%Z)] /\
  map (fun r => (r_step r, r_time r)) (series "vth" 0 1 1 (rp_meas ex_rep)) = [(0, TD 0); (5, TD 14400000000)].
Proof.
  split; [|split; [reflexivity|split; [reflexivity|vm_compute; reflexivity]]].
  apply (C92_readings_of_a_device _ _ _ _ ex_env ex_dev ex_steps 2 1 ex_w ex_st ex_rep ex_w' "vth" ex_vth 0 1 0 ex_wf ex_regular ex_steps_wf ex_ok); [reflexivity|auto|auto].
Qed.
