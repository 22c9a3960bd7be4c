(** Property C79: measuring does not disturb the devices. *)
From Coq Require Import QArith Lia.
From Verif Require Import M_Sim M_Toy S_Foot L_Base L_Foot L_Foot2 T_Sim.
Open Scope nat_scope.
#[local] Existing Instance hord_id.

(** ** C79 *)
Theorem C79_ageing_independent_of_measurements :
  forall V (O : NumOps V) (R : Rng V) (Ho : HashOrd) G (e e' : env V) (d : device V) l l' C L init w st rep w1 st' rep' w1',
  (forall s c, In s (stresses l) -> In c (dkeys (ss_conds s)) -> vrtn_mdl e' c = vrtn_mdl e c) ->
  stressing_in G e d l -> measuring_in (fun g => ~ G g) e d l ->
  stressing_in G e' d l' -> measuring_in (fun g => ~ G g) e' d l' ->
  stresses l = stresses l' -> calc_samples_needed l = calc_samples_needed l' ->
  simulate e d l C L init w = (Ok (st, rep), w1) ->
  simulate e' d l' C L init w = (Ok (st', rep'), w1') -> st = st'.
Proof. intros V O R Ho. exact simulate_same_stresses. Qed.
Print Assumptions C79_ageing_independent_of_measurements.
Theorem C79_measuring_again :
  forall V (O : NumOps V) (R : Rng V) (Ho : HashOrd) (e : env V) (d : device V) m i j st rep w st1 rep1 w1 rep' w',
  measuring_in (fun _ => False) e d [SMeas m] ->
  meas_step e d i m st rep w = (Ok (st1, rep1), w1) -> info_of rep = info_of rep' ->
  exists rows rep1' w1', rp_meas rep1 = rp_meas rep ++ rows /\
    meas_step e d j m st rep' w' = (Ok (st1, rep1'), w1') /\ rp_meas rep1' = rp_meas rep' ++ map (renumber j) rows.
Proof. intros V O R Ho. exact measuring_again. Qed.
Print Assumptions C79_measuring_again.

(** The stress temperature varies randomly (generators 3 and 4), the voltmeter of one
    environment has a random error (generator 9), vth is measured without conditions:
    measuring often or rarely, with or without error, does not change the state. *)
Definition f_env : env Q := [("temp_var"%string, AVar ex_temp);
  ("vth_instm"%string, AInst (Instm (Some "vth"%string) None (Some (Rv 9 (DNormal 0 (1 # 10))%Q None)) None))].
Definition f_env0 : env Q := [("temp_var"%string, AVar ex_temp)].
Definition f_meas : meas_spec Q := MeasSpec [("vth"%string, 2); ("freq"%string, 2)] [] "m".
Definition f_often : list (step Q) := [SMeas f_meas; SStrs (ex_str 3 "s1"); SMeas f_meas; SMeas f_meas; SStrs (ex_str 1 "s2"); SMeas f_meas].
Definition f_rarely : list (step Q) := [SStrs (ex_str 3 "s1"); SStrs (ex_str 1 "s2"); SMeas f_meas].
Definition f_gens : nat -> Prop := fun g => g = 3 \/ g = 4.
Lemma eqn_in_lift (G : nat -> Prop) req opt kw (r : dict (pyval Q) -> res (pyval Q)) : eqn_in G (Eqn req opt kw (fun a => lift (r a))).
Proof. intros a. apply confined_lift. Qed.
Lemma f_stress e (G : nat -> Prop) l : vrtn_mdl e "temp" = Ok ex_temp -> G 3 -> G 4 ->
  (forall s, In (SStrs s) l -> dkeys (ss_conds s) = ["temp"%string]) -> stressing_in G e ex_dev l.
Proof.
  intros Ee G3 G4 Hl. split.
  - intros s c Hs Hc. rewrite (Hl s Hs) in Hc. destruct Hc as [<-|[]]. split; intros m Em; rewrite Ee in Em.
    + injection Em as <-. split; [left; eexists; reflexivity | right; exact G3].
    + injection Em as <-. right; exact G4.
  - intros n p [Hp|[Hp|[]]]; [|discriminate Hp]. injection Hp as <- <-. split; [|apply eqn_in_lift].
    intros n m [Hm|[]]. injection Hm as <- <-. apply eqn_in_lift.
Qed.
Lemma f_measure e (G : nat -> Prop) l : error_in G e "vth" -> error_in G e "freq" -> (forall m, In (SMeas m) l -> m = f_meas) ->
  measuring_in G e ex_dev l.
Proof.
  intros Ev Ef Hl. split.
  - intros m c Hm Hc. rewrite (Hl m Hm) in Hc. destruct Hc.
  - intros m x Hm Hx. rewrite (Hl m Hm) in Hx. destruct Hx as [<-|[<-|[]]].
    + split; [exact Ev|].
      split; [|discriminate]. intros p Hp. injection Hp as <-. split; [intros a; apply confined_ret | apply eqn_in_lift].
    + split; [exact Ef|].
      split; [discriminate|]. intros c Hc. injection Hc as <-. apply eqn_in_lift.
Qed.
Example C79_example : (stressing_in f_gens f_env ex_dev f_often /\ measuring_in (fun g => ~ f_gens g) f_env ex_dev f_often /\
    stressing_in f_gens f_env0 ex_dev f_rarely /\ measuring_in (fun g => ~ f_gens g) f_env0 ex_dev f_rarely) /\
  (forall s c, In s (stresses f_often) -> In c (dkeys (ss_conds s)) -> vrtn_mdl f_env0 c = vrtn_mdl f_env c) /\
  stresses f_often = stresses f_rarely /\ calc_samples_needed f_often = calc_samples_needed f_rarely /\
  exists st rep w1 rep' w1', simulate f_env ex_dev f_often 2 1 None ex_w = (Ok (st, rep), w1) /\
    simulate f_env0 ex_dev f_rarely 2 1 None ex_w = (Ok (st, rep'), w1') /\
    ex_fail_vals st = [807 # 400; 101 # 50; 81 # 40; 811 # 400]%Q /\ length (rp_meas rep) = 32 /\ length (rp_meas rep') = 8.
Proof.
  split; [split; [|split; [|split]]|].
  - apply f_stress; [reflexivity | left; reflexivity | right; reflexivity|]. intros s Hs. cbn in Hs.
    repeat destruct Hs as [Hs|Hs]; try discriminate Hs; try injection Hs as <-; try reflexivity. destruct Hs.
  - apply f_measure.
    + intros i r Ei Er. injection Ei as <-. injection Er as <-. right. unfold f_gens; cbn; lia.
    + intros i r Ei Er. injection Ei as <-. discriminate.
    + intros s Hs. cbn in Hs.
      repeat destruct Hs as [Hs|Hs]; try discriminate Hs; try injection Hs as <-; try reflexivity. destruct Hs.
  - apply f_stress; [reflexivity | left; reflexivity | right; reflexivity|]. intros s Hs. cbn in Hs.
    repeat destruct Hs as [Hs|Hs]; try discriminate Hs; try injection Hs as <-; try reflexivity. destruct Hs.
  - apply f_measure.
    + intros i r Ei Er. injection Ei as <-. discriminate.
    + intros i r Ei Er. injection Ei as <-. discriminate.
    + intros s Hs. cbn in Hs.
      repeat destruct Hs as [Hs|Hs]; try discriminate Hs; try injection Hs as <-; try reflexivity. destruct Hs.
  - split; [|split; [reflexivity|split; [reflexivity|]]].
    + intros s c Hs Hc. cbn in Hs. destruct Hs as [<-|[<-|[]]]; destruct Hc as [<-|[]]; reflexivity.
    + vm_compute. do 5 eexists. repeat split; reflexivity.
Qed.

(** A generator used by both is disturbed: with a random temperature, one more
    measurement of the same kind before the stress changes the failures. *)
Theorem C79_shared_variation_refuted : exists (e : env Q) (d : device Q) l l' C L w st rep w1 st' rep' w1',
  stresses l = stresses l' /\ calc_samples_needed l = calc_samples_needed l' /\
  simulate e d l C L None w = (Ok (st, rep), w1) /\ simulate e d l' C L None w = (Ok (st', rep'), w1') /\
  ex_fail_vals st <> ex_fail_vals st'.
Proof.
  exists ex_env, ex_dev, [SMeas ex_meas1; SStrs (ex_str 3 "s1")], [SMeas ex_meas1; SMeas ex_meas2; SStrs (ex_str 3 "s1")], 2, 1, ex_w.
  assert (E : exists st rep w1 st' rep' w1',
    simulate ex_env ex_dev [SMeas ex_meas1; SStrs (ex_str 3 "s1")] 2 1 None ex_w = (Ok (st, rep), w1) /\
    simulate ex_env ex_dev [SMeas ex_meas1; SMeas ex_meas2; SStrs (ex_str 3 "s1")] 2 1 None ex_w = (Ok (st', rep'), w1') /\
    ex_fail_vals st <> ex_fail_vals st').
  { vm_compute. do 6 eexists. repeat split; try reflexivity. discriminate. }
  destruct E as (st & rep & w1 & st' & rep' & w1' & E & E' & N).
  exists st, rep, w1, st', rep', w1'. repeat split; assumption.
Qed.
Print Assumptions C79_shared_variation_refuted.

(** Without any randomness in measuring: the second reading repeats the first. *)
Example C79_again_example : measuring_in (fun _ => False) f_env0 ex_dev [SMeas f_meas] /\
  exists st rep w1 rep1 w2 rep2 w3, simulate f_env0 ex_dev [SMeas f_meas; SStrs (ex_str 3 "s1")] 1 1 None ex_w = (Ok (st, rep), w1) /\
    meas_step f_env0 ex_dev 2 f_meas st rep w1 = (Ok (st, rep1), w2) /\
    meas_step f_env0 ex_dev 3 f_meas st rep1 w2 = (Ok (st, rep2), w3) /\
    map r_val (skipn 4 (rp_meas rep2)) = map r_val (skipn 4 (rp_meas rep1)) ++ map r_val (skipn 4 (rp_meas rep1)) /\
    map r_step (rp_meas rep2) = [0; 0; 0; 0; 2; 2; 2; 2; 3; 3; 3; 3].
Proof.
  split.
  - apply f_measure.
    + intros i r Ei Er. injection Ei as <-. discriminate.
    + intros i r Ei Er. injection Ei as <-. discriminate.
    + intros m [Hm|[]]. injection Hm as <-. reflexivity.
  - vm_compute. do 7 eexists. repeat split; reflexivity.
Qed.
