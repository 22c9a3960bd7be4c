(** Property C80: a further degraded parameter leaves the others as they are. *)
From Coq Require Import QArith Lia.
From Verif Require Import M_Sim M_Toy S_Foot L_Base L_Foot L_Foot2 L_Foot3 T_Sim T_Foot.
Open Scope nat_scope.
#[local] Existing Instance hord_id.

(** ** C80 *)
Theorem C80_further_parameter :
  forall V (O : NumOps V) (R : Rng V) (Ho : HashOrd) G (e : env V) (d : device V) q p steps C L w st rep w1,
  dwf d -> dget d q = Some (PDeg p) ->
  (forall n c, dget d n = Some (PCirc c) -> ~ In q (compute_args (lm_eqn c))) ->
  (forall n x, dget d n = Some x -> n <> q -> parameter_in G e steps n x) ->
  parameter_in (fun g => ~ G g) e steps q (PDeg p) -> surroundings_in G e d steps ->
  simulate e d steps C L None w = (Ok (st, rep), w1) ->
  exists w1', simulate e (without q d) (map (unmeasured q) steps) C L None w
    = (Ok (state_without q st, report_without q rep), w1').
Proof. intros V O R Ho. exact parameter_removed. Qed.
Print Assumptions C80_further_parameter.

(** The device of the example with a resistance put first that fails depending on
    the voltage; the variation of the voltage (20), the initial resistance (21) and
    the error of the ohmmeter (22) have generators of their own. *)
Definition f_ron_fail (c : string) : eqn Q := Eqn ["time"%string; c] [] None
  (fun a => lift (rbind (dgetE a "time") (fun t => rbind (dgetE a c) (fun c =>
     pmap2 (fun t c => if q_ltb 2 t then Qred (1 + c / 400) else 0%Q) t c)))).
Definition f_ron (c : string) : degprm Q := DegPrm (LMdl eqn_basic [("init_val"%string, ex_normal 9 21)]) (LMdl (eqn_const 0%Q) []) 0%Q
  [("fail"%string, Mech KFail (LMdl (f_ron_fail c) []) 0%Q (Some "h"%string))] (LMdl eqn_basic_sum []).
Definition f_dev2 (c : string) : device Q := ("ron"%string, PDeg (f_ron c)) :: ex_dev.
Definition f_volt : emdl Q := EMdl (Some "volt"%string) (Some Offset) 0%Q (Some Offset)
  (Rv 0 (DDeter 0%Q) None) false (Rv 0 (DDeter 0%Q) None) false (Rv 20 (DNormal 0 1)%Q None) true.
Definition f_env2 : env Q := [("temp_var"%string, AVar ex_temp); ("volt_var"%string, AVar f_volt);
  ("ron_instm"%string, AInst (Instm (Some "ron"%string) None (Some (Rv 22 (DNormal 0 1)%Q None)) None))].
Definition f_meas2 : meas_spec Q := MeasSpec [("ron"%string, 3); ("vth"%string, 2); ("temp"%string, 1); ("freq"%string, 1)] [("temp"%string, 300%Q)] "m".
Definition f_str2 : strs_spec Q := StrsSpec [("temp"%string, 400%Q); ("volt"%string, 1%Q)] (3 * 3600000000)%Z "s".
Definition f_steps2 : list (step Q) := [SMeas f_meas2; SStrs f_str2; SMeas f_meas2].
Definition f_gens2 : nat -> Prop := fun g => g < 20.
Lemma det_in (G : nat -> Prop) g v n : rv_in G (Rv g (DDeter v) n : rv Q).
Proof. left; exists v; reflexivity. Qed.
Lemma normal_in (G : nat -> Prop) v g : G g -> lvar_in G (ex_normal v g).
Proof. intros Hg. repeat split; [right; exact Hg | apply det_in | apply det_in]. Qed.
Lemma f_setting2 :
  (forall n c, dget (f_dev2 "volt") n = Some (PCirc c) -> ~ In "ron"%string (compute_args (lm_eqn c))) /\
  (forall n x, dget (f_dev2 "volt") n = Some x -> n <> "ron"%string -> parameter_in f_gens2 f_env2 f_steps2 n x) /\
  parameter_in (fun g => ~ f_gens2 g) f_env2 f_steps2 "ron" (PDeg (f_ron "volt")) /\
  surroundings_in f_gens2 f_env2 (f_dev2 "volt") f_steps2.
Proof.
  assert (L : forall g, g < 20 -> f_gens2 g) by (intros g Hg; exact Hg).
  assert (N : forall g, 20 <= g -> ~ f_gens2 g) by (intros g Hg Hn; unfold f_gens2 in Hn; lia).
  assert (St : forall s, In (SStrs s) f_steps2 -> s = f_str2).
  { intros s [Hs|[Hs|[Hs|[]]]]; try discriminate Hs. injection Hs as <-. reflexivity. }
  assert (Ms : forall m, In (SMeas m) f_steps2 -> m = f_meas2).
  { intros m [Hs|[Hs|[Hs|[]]]]; try discriminate Hs; injection Hs as <-; reflexivity. }
  assert (Tv : cond_in f_gens2 f_env2 "temp").
  { split; intros m Em; injection Em as <-; [split; [apply det_in|]|]; right; apply L; cbn; lia. }
  split; [|split; [|split]].
  - intros n c Hc. cbn [f_dev2 ex_dev dget] in Hc. destruct (String.eqb n "ron"); [discriminate|].
    destruct (String.eqb n "vth"); [discriminate|]. destruct (String.eqb n "freq"); [|discriminate].
    injection Hc as <-. cbn. intuition discriminate.
  - intros n x Hx Nn. cbn [f_dev2 ex_dev dget] in Hx. destruct (String.eqb_spec n "ron"); [contradiction|].
    destruct (String.eqb_spec n "vth") as [->|_].
    + injection Hx as <-. split; [|split; [|split]].
      * split; [|split; [|split; [|split]]].
        -- intros y o [Ho|[]]. injection Ho as <- <-. apply normal_in, L; lia.
        -- apply eqn_in_lift.
        -- intros y o [].
        -- intros y m [Hm|[]]. injection Hm as <- <-. intros z o [].
        -- intros y o [].
      * split; [|split].
        -- split; [|apply eqn_in_lift]. intros y m [Hm|[]]. injection Hm as <- <-. apply eqn_in_lift.
        -- split; [intros a; apply confined_ret | apply eqn_in_lift].
        -- intros s c Hs Hc. rewrite (St s Hs) in Hc. vm_compute in Hc. destruct Hc as [<-|[]]. apply Tv.
      * intros m c Hm _ Hc. rewrite (Ms m Hm) in Hc. destruct Hc.
      * intros m Hm _ i r Ei Er. injection Ei as <-. discriminate.
    + destruct (String.eqb_spec n "freq") as [->|_]; [|discriminate]. injection Hx as <-. split; [|split; [|split]].
      * intros y o [].
      * apply eqn_in_lift.
      * intros m c Hm _ Hc. rewrite (Ms m Hm) in Hc. destruct Hc.
      * intros m Hm _ i r Ei Er. injection Ei as <-. discriminate.
  - split; [|split; [|split]].
    + split; [|split; [|split; [|split]]].
      * intros y o [Ho|[]]. injection Ho as <- <-. apply normal_in, N; lia.
      * apply eqn_in_lift.
      * intros y o [].
      * intros y m [Hm|[]]. injection Hm as <- <-. intros z o [].
      * intros y o [].
    + split; [|split].
      * split; [|apply eqn_in_lift]. intros y m [Hm|[]]. injection Hm as <- <-. apply eqn_in_lift.
      * split; [intros a; apply confined_ret | apply eqn_in_lift].
      * intros s c Hs Hc. rewrite (St s Hs) in Hc. vm_compute in Hc. destruct Hc as [<-|[]].
        intros m Em. injection Em as <-. right. apply N; cbn; lia.
    + intros m c Hm _ Hc. rewrite (Ms m Hm) in Hc. destruct Hc.
    + intros m Hm _ i r Ei Er. injection Ei as <-. injection Er as <-. right. apply N; cbn; lia.
  - split; [|split].
    + intros s c Hs Hc. rewrite (St s Hs) in Hc. destruct Hc as [<-|[<-|[]]]; [apply Tv|].
      intros m Em. injection Em as <-. split; apply det_in.
    + intros m c Hm Hc. rewrite (Ms m Hm) in Hc. destruct Hc as [<-|[]]. apply Tv.
    + intros m x Hm Hx Hn. rewrite (Ms m Hm) in Hx. destruct Hx as [<-|[<-|[<-|[<-|[]]]]]; try discriminate Hn.
      split; [apply Tv|]. intros i r Ei Er. injection Ei as <-. discriminate.
Qed.
Example C80_example : dwf (f_dev2 "volt") /\ dget (f_dev2 "volt") "ron" = Some (PDeg (f_ron "volt")) /\
  without "ron" (f_dev2 "volt") = ex_dev /\
  exists st rep w1, simulate f_env2 (f_dev2 "volt") f_steps2 1 1 None ex_w = (Ok (st, rep), w1) /\
    length (rp_meas rep) = 16 /\ length (rp_meas (report_without "ron" rep)) = 10 /\ dkeys (st_prm st) = ["ron"; "vth"]%string.
Proof.
  split; [repeat constructor; cbn; intuition discriminate|]. split; [reflexivity|]. split; [reflexivity|].
  vm_compute. do 3 eexists. repeat split; reflexivity.
Qed.

(** When the new parameter depends on a condition that varies randomly between
    devices, as vth does, the draws for it are taken from the same generator and the
    failures of vth change. *)
Theorem C80_shared_variation_refuted : exists (e : env Q) (d : device Q) q p steps w st rep w1 st' rep' w1',
  dget d q = Some (PDeg p) /\
  simulate e d steps 1 1 None w = (Ok (st, rep), w1) /\
  simulate e (without q d) (map (unmeasured q) steps) 1 1 None w = (Ok (st', rep'), w1') /\
  ex_fail_vals st <> ex_fail_vals st' /\ rp_meas rep' <> rp_meas (report_without q rep).
Proof.
  exists f_env2, (f_dev2 "temp"), "ron"%string, (f_ron "temp"), f_steps2, ex_w.
  assert (E : exists st rep w1 st' rep' w1',
    simulate f_env2 (f_dev2 "temp") f_steps2 1 1 None ex_w = (Ok (st, rep), w1) /\
    simulate f_env2 (without "ron" (f_dev2 "temp")) (map (unmeasured "ron") f_steps2) 1 1 None ex_w = (Ok (st', rep'), w1') /\
    ex_fail_vals st <> ex_fail_vals st' /\ rp_meas rep' <> rp_meas (report_without "ron" rep)).
  { vm_compute. do 6 eexists. repeat split; try reflexivity; discriminate. }
  destruct E as (st & rep & w1 & st' & rep' & w1' & E & E' & N & N').
  exists st, rep, w1, st', rep', w1'. repeat split; assumption.
Qed.
Print Assumptions C80_shared_variation_refuted.
