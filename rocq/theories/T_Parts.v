(** Property C86: parameters with random generators of their own can be simulated
    apart, and the order in which they are listed does not matter. *)
From Coq Require Import QArith Lia.
From Verif Require Import M_Sim M_Toy S_Foot S_Parts L_Base L_Foot L_Foot2 L_Parts T_Sim T_Foot T_Foot2.
Open Scope nat_scope.
#[local] Existing Instance hord_id.

(** ** C86 *)
Theorem C86_part_of_a_device :
  forall V (O : NumOps V) (R : Rng V) (Ho : HashOrd) F G K (e : env V) (d : device V) steps C L w st rep w1,
  dwf d -> separate (fun n => K n = false) F G e d steps ->
  (forall q, K q = false -> exists p, dget d q = Some (PDeg p)) ->
  (forall n c q, dget d n = Some (PCirc c) -> K q = false -> ~ In q (compute_args (lm_eqn c))) ->
  simulate e d steps C L None w = (Ok (st, rep), w1) ->
  exists w1', simulate e (keep K d) (map (measuring K) steps) C L None w
    = (Ok (state_part K st, report_part K rep), w1').
Proof. intros V O R Ho. exact part_alone. Qed.
Print Assumptions C86_part_of_a_device.

Theorem C86_order_of_parameters :
  forall V (O : NumOps V) (R : Rng V) (Ho : HashOrd) F G (e : env V) (d d' : device V) steps C L w
         st rep w1 st' rep' w1',
  reordered d d' -> separate (fun _ => True) F G e d steps ->
  (forall n x, dget d n = Some x -> exists p, x = PDeg p) ->
  simulate e d steps C L None w = (Ok (st, rep), w1) ->
  simulate e d' steps C L None w = (Ok (st', rep'), w1') ->
  st_elapsed st = st_elapsed st' /\ rp_sum rep = rp_sum rep' /\
  forall n, dget (st_prm st) n = dget (st_prm st') n /\ dget (st_prm0 st) n = dget (st_prm0 st') n /\
    dget (st_mech st) n = dget (st_mech st') n /\ dget (st_mech0 st) n = dget (st_mech0 st') n /\
    dget (st_lat st) n = dget (st_lat st') n /\ dget (rp_counts rep) n = dget (rp_counts rep') n /\
    rows_of n rep = rows_of n rep'.
Proof. intros V O R Ho. exact order_free. Qed.
Print Assumptions C86_order_of_parameters.

(** A resistance that depends on the voltage and a threshold voltage that depends on
    the temperature. *)
Definition p_dev (c : string) : device Q := [("ron"%string, PDeg (f_ron c)); ("vth"%string, PDeg ex_vth)].
Definition p_dev' (c : string) : device Q := [("vth"%string, PDeg ex_vth); ("ron"%string, PDeg (f_ron c))].
Definition p_meas : meas_spec Q := MeasSpec [("ron"%string, 3); ("vth"%string, 2)] [("temp"%string, 300%Q)] "m".
Definition p_steps : list (step Q) := [SMeas p_meas; SStrs f_str2; SMeas p_meas].
Definition p_gens (n : string) (g : nat) : Prop :=
  if String.eqb n "ron" then 20 <= g <= 22 else g = 4 \/ g = 7.
Lemma p_separate : separate (fun _ => True) p_gens (fun g => g = 3) f_env2 (p_dev "volt") p_steps.
Proof.
  assert (St : forall s, In (SStrs s) p_steps -> s = f_str2).
  { intros s [Hs|[Hs|[Hs|[]]]]; try discriminate Hs. injection Hs as <-. reflexivity. }
  assert (Ms : forall m, In (SMeas m) p_steps -> m = p_meas).
  { intros m [Hs|[Hs|[Hs|[]]]]; try discriminate Hs; injection Hs as <-; reflexivity. }
  assert (Dn : forall n, dget (p_dev "volt") n <> None -> n = "ron"%string \/ n = "vth"%string).
  { intros n Hn. cbn [p_dev dget] in Hn. destruct (String.eqb_spec n "ron"); [now left|].
    destruct (String.eqb_spec n "vth"); [now right|]. now destruct Hn. }
  split; [|split; [|split]].
  - intros n x Hx. cbn [p_dev dget] in Hx. destruct (String.eqb_spec n "ron") as [->|_].
    + injection Hx as <-. split; [|split; [|split]].
      * split; [|split; [|split; [|split]]].
        -- intros y o [Hy|[]]. injection Hy as <- <-. apply normal_in. cbn; lia.
        -- apply eqn_in_lift.
        -- intros y o [].
        -- intros y m [Hm|[]]. injection Hm as <- <-. intros z o [].
        -- intros y o [].
      * split; [|split].
        -- split; [|apply eqn_in_lift]. intros y m [Hm|[]]. injection Hm as <- <-. apply eqn_in_lift.
        -- split; [intros a; apply confined_ret | apply eqn_in_lift].
        -- intros s c Hs Hc. rewrite (St s Hs) in Hc. vm_compute in Hc. destruct Hc as [<-|[]].
           intros m Em. injection Em as <-. right. cbn; lia.
      * intros m c Hm _ Hc. rewrite (Ms m Hm) in Hc. destruct Hc.
      * intros m Hm _ i r Ei Er. injection Ei as <-. injection Er as <-. right. cbn; lia.
    + destruct (String.eqb_spec n "vth") as [->|_]; [|discriminate]. injection Hx as <-. split; [|split; [|split]].
      * split; [|split; [|split; [|split]]].
        -- intros y o [Hy|[]]. injection Hy as <- <-. apply normal_in. cbn; lia.
        -- apply eqn_in_lift.
        -- intros y o [].
        -- intros y m [Hm|[]]. injection Hm as <- <-. intros z o [].
        -- intros y o [].
      * split; [|split].
        -- split; [|apply eqn_in_lift]. intros y m [Hm|[]]. injection Hm as <- <-. apply eqn_in_lift.
        -- split; [intros a; apply confined_ret | apply eqn_in_lift].
        -- intros s c Hs Hc. rewrite (St s Hs) in Hc. vm_compute in Hc. destruct Hc as [<-|[]].
           intros m Em. injection Em as <-. right. cbn; lia.
      * intros m c Hm _ Hc. rewrite (Ms m Hm) in Hc. destruct Hc.
      * intros m Hm _ i r Ei Er. injection Ei as <-. discriminate.
  - intros n n' g _ Hn Hn' N. destruct (Dn n Hn) as [->| ->], (Dn n' Hn') as [->| ->]; try contradiction; cbn; lia.
  - intros n g _ Hn. destruct (Dn n Hn) as [->| ->]; cbn; lia.
  - split; [|split].
    + intros s c Hs Hc. rewrite (St s Hs) in Hc. destruct Hc as [<-|[<-|[]]]; intros m Em; injection Em as <-;
        (split; [apply det_in|]); [right; reflexivity|apply det_in].
    + intros m c Hm Hc. rewrite (Ms m Hm) in Hc. destruct Hc as [<-|[]]. intros m' Em. injection Em as <-.
      split; [apply det_in|right; reflexivity].
    + intros m x Hm Hx Hn. rewrite (Ms m Hm) in Hx. destruct Hx as [<-|[<-|[]]]; discriminate Hn.
Qed.
Example C86_example : reordered (p_dev "volt") (p_dev' "volt") /\ p_dev "volt" <> p_dev' "volt" /\
  keep (String.eqb "vth") (p_dev "volt") = [("vth"%string, PDeg ex_vth)] /\
  exists st rep w1 st' rep' w1',
    simulate f_env2 (p_dev "volt") p_steps 1 1 None ex_w = (Ok (st, rep), w1) /\
    simulate f_env2 (p_dev' "volt") p_steps 1 1 None ex_w = (Ok (st', rep'), w1') /\
    dkeys (st_prm st) = ["ron"; "vth"]%string /\ dkeys (st_prm st') = ["vth"; "ron"]%string /\
    length (rows_of "ron" rep) = 6 /\ rows_of "ron" rep = rows_of "ron" rep' /\
    length (rows_of "vth" rep) = 4 /\ rows_of "vth" rep = rows_of "vth" rep'.
Proof.
  split.
  { split; [|split]; [repeat constructor; cbn; intuition discriminate|repeat constructor; cbn; intuition discriminate|].
    intros n. cbn [p_dev p_dev' dget]. destruct (String.eqb_spec n "ron") as [->|N]; [reflexivity|].
    reflexivity. }
  split; [discriminate|]. split; [reflexivity|]. vm_compute. do 6 eexists. repeat split; reflexivity.
Qed.

(** When both depend on the temperature, whose variation between devices is drawn for
    each of them from the same generator, the order matters. *)
Theorem C86_shared_variation_refuted : exists (e : env Q) (d d' : device Q) steps w st rep w1 st' rep' w1' n,
  reordered d d' /\ (forall n x, dget d n = Some x -> exists p, x = PDeg p) /\
  simulate e d steps 1 1 None w = (Ok (st, rep), w1) /\
  simulate e d' steps 1 1 None w = (Ok (st', rep'), w1') /\
  dget (st_mech st) n <> dget (st_mech st') n /\ rows_of n rep <> rows_of n rep'.
Proof.
  exists f_env2, (p_dev "temp"), (p_dev' "temp"), p_steps, ex_w.
  assert (E : exists st rep w1 st' rep' w1',
    simulate f_env2 (p_dev "temp") p_steps 1 1 None ex_w = (Ok (st, rep), w1) /\
    simulate f_env2 (p_dev' "temp") p_steps 1 1 None ex_w = (Ok (st', rep'), w1') /\
    dget (st_mech st) "vth" <> dget (st_mech st') "vth" /\ rows_of "vth" rep <> rows_of "vth" rep').
  { vm_compute. do 6 eexists. repeat split; try reflexivity; discriminate. }
  destruct E as (st & rep & w1 & st' & rep' & w1' & E & E' & N & N').
  exists st, rep, w1, st', rep', w1', "vth"%string. split; [|split; [|repeat split; assumption]].
  - split; [|split]; [repeat constructor; cbn; intuition discriminate|repeat constructor; cbn; intuition discriminate|].
    intros n. cbn [p_dev p_dev' dget]. destruct (String.eqb_spec n "ron") as [->|_]; reflexivity.
  - intros n x Hx. cbn [p_dev dget] in Hx. destruct (String.eqb n "ron"); [injection Hx as <-; eauto|].
    destruct (String.eqb n "vth"); [injection Hx as <-; eauto|discriminate].
Qed.
Print Assumptions C86_shared_variation_refuted.
