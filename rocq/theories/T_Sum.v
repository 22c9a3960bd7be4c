(** Properties of the default parameter equation and of reserved names: C67. *)
From Coq Require Import QArith Lia.
From Verif Require Import M_Base M_Num M_Nd M_RandVar M_Latent M_Time M_Minimize M_Device M_Toy S_Device S_Sum
  L_Base L_Nd L_Device L_Device2 L_Device3 L_Sum T_Device.
Open Scope nat_scope.

(** With the default equation the degraded value of every sample is its initial
    value, the neutral shift and the values of all mechanisms, added in order. *)
Theorem C67_degraded_value_is_the_sum : forall V (O : NumOps V) (p : degprm V) times conds a lats mvals L C D w x mv w',
  lm_eqn (dp_own p) = eqn_basic_sum -> plain_names (dp_mechs p) ->
  In "mechs"%string (dkeys (dp_mechs p)) \/ dget lats "mechs" = None ->
  prm_deg_vals p times conds (PArr a) lats mvals L C D w = (Ok (x, mv), w') ->
  dkeys mv = dkeys (dp_mechs p) /\
  exists w1, advanced times conds lats mvals L C D (dp_mechs p) w mv w1 /\
  forall arrs, map snd mv = map PArr arrs -> Forall (fun c => nshape c = nshape a) arrs -> nshape a <> [] -> length (ndata a) = prod (nshape a) ->
    w' = w1 /\ exists b, x = PArr b /\ nshape b = nshape a /\ length (ndata b) = prod (nshape b) /\
      forall idx, inside (nshape a) idx -> aget b idx = nadd (nadd (aget a idx) (dp_cunit p)) (sum_at arrs idx).
Proof.
  intros V O p times conds a lats mvals L C D w x mv w' Eo P Hm E.
  destruct (deg_value_sum _ _ _ _ _ _ _ _ _ _ _ _ _ Eo P E) as (K & w1 & A & G). split; [auto|]. exists w1. split; [auto|].
  intros arrs Ea. apply G. rewrite <- Ea. unfold extra.
  destruct (smem "mechs" (dkeys (dp_mechs p))) eqn:Es; [now rewrite app_nil_r|]. apply smem_false in Es.
  destruct Hm as [Hm| ->]; [contradiction|now rewrite app_nil_r].
Qed.
Print Assumptions C67_degraded_value_is_the_sum.

(** Latent variables of the parameter itself are not used by it, *)
Theorem C67_own_latents_unused : forall V (O : NumOps V) (p : degprm V) times conds init lats lats' mvals L C D w,
  lm_eqn (dp_own p) = eqn_basic_sum -> plain_names (dp_mechs p) ->
  (forall k, In k ("mechs"%string :: dkeys (dp_mechs p)) -> dget lats k = dget lats' k) ->
  prm_deg_vals p times conds init lats mvals L C D w = prm_deg_vals p times conds init lats' mvals L C D w.
Proof. intros V O. exact own_latents_ignored. Qed.
Print Assumptions C67_own_latents_unused.

(** ... except one called like the equation's keyword parameter, which is added to
    the value like a mechanism. *)
Theorem C67_latent_called_mechs_is_added : forall V (O : NumOps V) (p : degprm V) times conds a lats e mvals L C D w x mv w',
  lm_eqn (dp_own p) = eqn_basic_sum -> plain_names (dp_mechs p) -> ~ In "mechs"%string (dkeys (dp_mechs p)) ->
  dget lats "mechs" = Some (PArr e) ->
  prm_deg_vals p times conds (PArr a) lats mvals L C D w = (Ok (x, mv), w') ->
  forall arrs, map snd mv = map PArr arrs -> Forall (fun c => nshape c = nshape a) (e :: arrs) -> nshape a <> [] -> length (ndata a) = prod (nshape a) ->
  exists b, x = PArr b /\ nshape b = nshape a /\
    forall idx, inside (nshape a) idx -> aget b idx = nadd (nadd (aget a idx) (dp_cunit p)) (sum_at (arrs ++ [e]) idx).
Proof.
  intros V O p times conds a lats e mvals L C D w x mv w' Eo P Hn Hm E arrs Ea F Ns Wa.
  destruct (deg_value_sum _ _ _ _ _ _ _ _ _ _ _ _ _ Eo P E) as (K & w1 & A & G).
  destruct (G (arrs ++ [e])) as (_ & b & B1 & B2 & _ & B3); auto.
  - unfold extra. rewrite (proj2 (smem_false _ _) Hn), Hm. now rewrite !map_app, Ea.
  - inversion F; subst. apply Forall_app; auto.
  - now exists b.
Qed.
Print Assumptions C67_latent_called_mechs_is_added.

(** A mechanism called 'init' replaces the initial value: all initial values give the
    same result. *)
Theorem C67_mechanism_called_init_refuted : exists (p : degprm Q) times conds lats mvals x mv w,
  lm_eqn (dp_own p) = eqn_basic_sum /\ dkeys (dp_mechs p) = ["init"%string] /\
  forall v, prm_deg_vals p times conds (PArr (Nd [1; 1; 1] [v])) lats mvals 1 1 1 w = (Ok (x, mv), w).
Proof.
  exists (DegPrm (LMdl eqn_basic []) (LMdl (eqn_const 0%Q) []) 0%Q [("init"%string, ex_mech KDeg)] (LMdl eqn_basic_sum [])),
    [("init"%string, qarr [2%Q])], [("temp"%string, PNum 3%Q)], [("init"%string, PDict [])], [("init"%string, qarr [0%Q])].
  do 2 eexists. exists w0. split; [reflexivity|]. split; [reflexivity|]. intros v. vm_compute. reflexivity.
Qed.
Print Assumptions C67_mechanism_called_init_refuted.

(** A mechanism called 'cond' removes the conditional shift from measurements, which
    the same mechanism under another name leaves in place. *)
Definition shifted_prm (nm : string) : degprm Q :=
  DegPrm (LMdl eqn_basic []) (LMdl (Eqn ["temp"%string] [] None (fun a => lift (dgetE a "temp"))) []) 0%Q [(nm, ex_mech KDeg)] (LMdl eqn_basic_sum []).
Theorem C67_mechanism_called_cond_refuted : exists a conds lats w,
  cond_shifted (shifted_prm "wear") conds (PArr a) lats 1 1 1 w = (Ok (PArr (amap (fun x => (x + 300)%Q) a)), w) /\
  cond_shifted (shifted_prm "cond") conds (PArr a) lats 1 1 1 w = (Ok (PArr a), w) /\ amap (fun x => (x + 300)%Q) a <> a.
Proof.
  exists (Nd [1; 1; 1] [5%Q]), [("temp"%string, PNum 300%Q)], [("cond", PDict []); ("wear", PDict [])]%string, w0.
  split; [vm_compute; reflexivity|]. split; [vm_compute; reflexivity|]. vm_compute. discriminate.
Qed.
Print Assumptions C67_mechanism_called_cond_refuted.

(** Its latent values also take the place of those of the shift model. *)
Theorem C67_cond_latents_lost_refuted : exists (R : Rng Q) (p : degprm Q) (v : lvar Q) w lats,
  lm_vars (dp_cond p) = [("k"%string, v)] /\ prm_latents p 1 1 1 w = (Ok lats, w) /\ dget lats "cond" = Some (PDict []).
Proof.
  pose (v := LVar None (Some Scaling) (Some 2%Q) 1%Q (Some Scaling) (Rv 0 (DDeter 1%Q) None) false (Rv 0 (DDeter 1%Q) None) false (Rv 0 (DDeter 1%Q) None) false).
  exists ToyRng, (DegPrm (LMdl eqn_basic []) (LMdl (eqn_const 0%Q) [("k"%string, v)]) 0%Q [("cond"%string, ex_mech KDeg)] (LMdl eqn_basic_sum [])), v, w0.
  eexists. split; [reflexivity|]. split; [vm_compute; reflexivity|reflexivity].
Qed.
Print Assumptions C67_cond_latents_lost_refuted.

(** Two mechanisms under plain names; an own latent 'gain' is ignored, 'mechs' added. *)
Definition ex_sum : degprm Q :=
  DegPrm (LMdl eqn_basic []) (LMdl (eqn_const 0%Q) []) 0%Q [("m1", ex_mech KDeg); ("m2", ex_mech KDeg)]%string (LMdl eqn_basic_sum []).
Definition ex_sum_lats (nm : string) : dict (pyval Q) := [("cond", PDict []); ("m1", PDict []); ("m2", PDict []); (nm, qarr [1000; 1000]%Q)]%string.
Definition ex_sum_run (nm : string) : res (pyval Q * dict (pyval Q)) :=
  fst (prm_deg_vals ex_sum [("m1", qarr [1; 2]%Q); ("m2", qarr [10; 20]%Q)]%string [("temp"%string, PNum 3%Q)] (qarr [100; 200]%Q)
         (ex_sum_lats nm) [("m1", qarr [0; 0]%Q); ("m2", qarr [0; 0]%Q)]%string 1 1 2 w0).
Example C67_example :
  plain_names (dp_mechs ex_sum) /\
  ex_sum_run "gain" = Ok (qarr [133; 266]%Q, [("m1", qarr [3; 6]%Q); ("m2", qarr [30; 60]%Q)]%string) /\
  ex_sum_run "mechs" = Ok (qarr [1133; 1266]%Q, [("m1", qarr [3; 6]%Q); ("m2", qarr [30; 60]%Q)]%string).
Proof.
  split; [|split; vm_compute; reflexivity].
  split; [repeat constructor; cbn; intuition discriminate|]. split; cbn; intuition discriminate.
Qed.
