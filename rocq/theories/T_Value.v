(** Property C71: what the value of a degraded parameter is made of. *)
From Coq Require Import QArith Lia.
From Verif Require Import M_Base M_Num M_Nd M_RandVar M_Latent M_Time M_TestSpec M_Device M_Report M_Env M_Sim M_Toy
  S_TestSpec S_Device S_Sim S_Sum S_Shape S_Value L_Base L_Sim L_Value T_Sim T_Shape.
Open Scope nat_scope.

(** Once there has been a stress, the value of every degraded parameter is what its
    own equation returned for its initial value, the neutral shift, the current
    values of its mechanisms and its own latent values: it does not depend on earlier
    values of the parameter or on the conditions except through the mechanisms. *)
Theorem C71_value_of_the_equation :
  forall V (O : NumOps V) (R : Rng V) (Ho : HashOrd) (e : env V) (d : device V) l name p chps lots init w st rep w',
  device_wf d -> dget d name = Some (PDeg p) ->
  ~ In "init"%string (dkeys (dp_mechs p)) -> ~ In "cond"%string (dkeys (dp_mechs p)) ->
  simulate e d l chps lots init w = (Ok (st, rep), w') -> (exists s, In (SStrs s) l) ->
  exists n, dget (rp_counts rep) name = Some n /\ composed lots chps n p name st.
Proof. intros V O R Ho e d l name p chps lots init w st rep w'. apply simulate_composed. Qed.
Print Assumptions C71_value_of_the_equation.

(** ... and so after every sequence of steps from any state. *)
Theorem C71_after_every_step :
  forall V (O : NumOps V) (R : Rng V) (Ho : HashOrd) (e : env V) (d : device V) l name p i st rep w st' rep' w',
  device_wf d -> dget d name = Some (PDeg p) ->
  ~ In "init"%string (dkeys (dp_mechs p)) -> ~ In "cond"%string (dkeys (dp_mechs p)) ->
  run_steps e d i l st rep w = (Ok (st', rep'), w') -> (exists s, In (SStrs s) l) ->
  exists n, dget (rp_counts rep') name = Some n /\ composed (rp_lots rep') (rp_chps rep') n p name st'.
Proof. intros V O R Ho e d l name p i st rep w st' rep' w'. apply run_composed. Qed.
Print Assumptions C71_after_every_step.

(** With the default equation: the sum of its parts, for every sample. *)
Theorem C71_sum_of_the_parts :
  forall V (O : NumOps V) (R : Rng V) (Ho : HashOrd) (e : env V) (d : device V) l name p chps lots w st rep w',
  device_wf d -> regular d -> (forall s, In s l -> step_wf s) ->
  dget d name = Some (PDeg p) -> lm_eqn (dp_own p) = eqn_basic_sum -> S_Sum.plain_names (dp_mechs p) -> lm_vars (dp_init p) <> [] ->
  ~ In "mechs"%string (dkeys (lm_vars (dp_own p))) ->
  simulate e d l chps lots None w = (Ok (st, rep), w') -> (exists s, In (SStrs s) l) ->
  exists n, dget (rp_counts rep) name = Some n /\ summed lots chps n p name st.
Proof. intros V O R Ho e d l name p chps lots w st rep w'. apply simulate_summed. Qed.
Print Assumptions C71_sum_of_the_parts.

(** Before any stress it is the initial value, whatever the equation. *)
Theorem C71_unstressed :
  forall V (O : NumOps V) (R : Rng V) (Ho : HashOrd) (e : env V) (d : device V) l chps lots w st rep w' name,
  device_wf d -> (forall s, ~ In (SStrs s) l) ->
  simulate e d l chps lots None w = (Ok (st, rep), w') -> dget (st_prm st) name = dget (st_prm0 st) name.
Proof. intros V O R Ho e d l chps lots w st rep w' name. apply simulate_unstressed. Qed.
Print Assumptions C71_unstressed.

#[local] Existing Instance hord_id.
Lemma ex_stressed : exists s, In (SStrs s) ex_steps.
Proof. exists (ex_str 3 "s1"). cbn. auto. Qed.
Lemma ex_vth_plain : S_Sum.plain_names (dp_mechs ex_vth).
Proof. split; [repeat constructor; intros []|]. split; intros [Q|[]]; discriminate Q. Qed.
Example C71_example :
  (exists n, dget (rp_counts ex_rep) "vth" = Some n /\ composed 1 2 n ex_vth "vth" ex_st) /\
  (exists n, dget (rp_counts ex_rep) "vth" = Some n /\ summed 1 2 n ex_vth "vth" ex_st) /\
  dget (st_prm0 ex_st) "vth" = Some (PArr (Nd [1; 2; 2] [57 # 10; 29 # 5; 59 # 10; 6]%Q)) /\
  mech_val ex_st "vth" "fail" (PArr (Nd [1; 2; 2] [163 # 80; 51 # 25; 409 # 200; 819 # 400]%Q)) /\
  dget (st_prm ex_st) "vth" = Some (PArr (Nd [1; 2; 2] [619 # 80; 196 # 25; 1589 # 200; 3219 # 400]%Q)).
Proof.
  destruct ex_vth_plain as (A & B & D).
  split; [exact (C71_value_of_the_equation _ _ _ _ _ ex_dev _ "vth" ex_vth _ _ _ _ _ _ _ ex_wf eq_refl B D ex_ok ex_stressed)|].
  split; [exact (C71_sum_of_the_parts _ _ _ _ _ ex_dev _ "vth" ex_vth _ _ _ _ _ _ ex_wf ex_regular ex_steps_wf eq_refl eq_refl ex_vth_plain
                   ltac:(discriminate) (fun q => q) ex_ok ex_stressed)|].
  split; [vm_compute; reflexivity|]. split; [eexists; split; vm_compute; reflexivity|]. vm_compute. reflexivity.
Qed.
