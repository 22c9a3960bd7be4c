(** Property theorems about device models: C11, C12, C28-C38, C57 (the parts about a
    single evaluation; the statements about whole simulations are in T_Sim). *)
From Coq Require Import Reals QArith Qreals Lra.
From Verif Require Import M_Base M_Num M_NumR M_Nd M_RandVar M_Latent M_Time M_Minimize M_Device
  S_Minimize S_Device S_DeviceR L_Base L_Nd L_Device L_Device2 L_Device3 L_DeviceR.
Open Scope nat_scope.

(** ** C11 *)
Theorem C11_unit_of_a_used_mechanism :
  forall dev l1 p l2 h c own, nth_error h c = Some own -> used_by c p ->
  (forall q, In q l1 -> ~ used_by c q) ->
  nth_error (dev_propagate dev (l1 ++ p :: l2) h) c = Some (resolved own (tp_unit p) dev) /\
  forall dev' ps', nth_error (dev_propagate dev' ps' (dev_propagate dev (l1 ++ p :: l2) h)) c
                   = Some (resolved own (tp_unit p) dev).
Proof. exact propagate_first. Qed.
Print Assumptions C11_unit_of_a_used_mechanism.
Theorem C11_other_mechanisms_keep_theirs :
  forall dev ps h c, (forall q, In q ps -> ~ used_by c q) ->
  nth_error (dev_propagate dev ps h) c = nth_error h c.
Proof. exact propagate_unused. Qed.
Print Assumptions C11_other_mechanisms_keep_theirs.
(** Mechanisms 0 (own unit), 1 (shared by both parameters) and 2; the circuit
    parameter in the middle uses none. *)
Example C11_example :
  dev_propagate (Some "d"%string)
    [TuPrm true (Some "s"%string) [0; 1]; TuPrm false (Some "ms"%string) [2]; TuPrm true None [1; 2]]
    [Some "us"%string; None; None; None] = [Some "us"%string; Some "s"%string; Some "d"%string; None] /\
  nth_error (dev_propagate (Some "d"%string)
    ([TuPrm true (Some "s"%string) [0]; TuPrm false (Some "ms"%string) [2]] ++ TuPrm true None [1; 2] :: [])
    [Some "us"%string; None; None; None]) 2 = Some (resolved None None (Some "d"%string)).
Proof.
  split; [reflexivity|]. apply C11_unit_of_a_used_mechanism; [reflexivity|split; cbn; auto|].
  intros q [<-|[<-|[]]] [A B]; [|discriminate A]. destruct B as [B|[]]. discriminate.
Qed.

(** ** An equation for the examples: time * temp, element by element. *)
Definition ex_eqn {V} `{NumOps V} : eqn V :=
  Eqn ["time"; "temp"]%string [] None
    (fun a => lift (rbind (dgetE a "time") (fun t => rbind (dgetE a "temp") (fun k => pmap2 nmul t k)))).
Definition ex_mech {V} `{NumOps V} (k : mkind) : mech V := Mech k (LMdl ex_eqn []) n0 (Some "h"%string).
Definition qarr (l : list Q) : pyval Q := PArr (Nd [1; 1; length l] l).
Definition w0 : world := fun _ => 0.

(** ** C12 *)
Theorem C12_time_beyond_limit_is_ignored :
  forall V (O : NumOps V) (m : mech V) (t p : nd V) conds lats L C D w r w',
  mech_deg_vals m (PArr t) (PArr p) conds lats L C D w = (Ok r, w') -> nshape t = nshape p ->
  exists d e a, call_or_loop (lm_eqn (mc_mdl m)) (mech_args m (PArr t) conds lats) L C D w = (Ok d, w') /\
    to_nd d = Ok e /\ r = PArr a /\ under (nshape p) (nshape a) /\
    (nshape e = nshape p -> nshape a = nshape p) /\
    forall idx' idx, inside (nshape a) idx' -> shows (nshape p) idx' idx ->
      (nltb (nofQ 9000000000) (aget t idx) = true -> nposinf (aget p idx) = false -> aget a idx' = aget p idx) /\
      (nltb (nofQ 9000000000) (aget t idx) = false -> mc_kind m = KDeg ->
       aget a idx' = aget e (bproj (nshape e) idx')).
Proof. intros V O. exact mech_deg_frozen. Qed.
Print Assumptions C12_time_beyond_limit_is_ignored.
Example C12_example :
  mech_deg_vals (ex_mech KDeg) (qarr [2; 9000000000; 9000000001; 5]%Q) (qarr [7; 7; 7; 7]%Q)
    [("temp"%string, PNum 3%Q)] [] 1 1 4 w0 = (Ok (qarr [6; 27000000000; 7; 15]%Q), w0).
Proof. vm_compute. reflexivity. Qed.

(** ** C28 *)
Theorem C28_equivalent_time_inverts :
  forall (m : mech R) conds lats g T L C D w,
  mc_kind m = KDeg ->
  strictly_monotone (fun t => / 1000 <= t <= 10000000000)%R g ->
  (forall t w, (/ 1000 <= t <= 10000000000)%R ->
     exists w', call_or_loop (lm_eqn (mc_mdl m)) (mech_args m (PArr (Nd [1; 1; 1] [t])) conds lats) L C D w
                = (Ok (PArr (Nd [1; 1; 1] [g t])), w')) ->
  (/ 1000 <= T <= 10000000000)%R ->
  let a := Nd [1; 1; 1] [g T] in
  exists r w' y,
    minimize_run (equiv_obj m (PArr a) a conds lats L C D) 1 (/ 1000)%R 10000000000%R (/ 100000)%R mach_64bit_eps 50 true w = (Ok r, w') /\
    mech_equiv_time m (PArr a) conds lats L C D w = (Ok (PArr (Nd [1; 1; 1] [y])), w') /\
    (/ 1000 <= y <= 10000000000)%R /\
    (mr_conv r = true -> (T * Rpower 10 (- (8 / 1000000)) < y < T * Rpower 10 (8 / 1000000))%R).
Proof. exact equiv_time_inverts. Qed.
Print Assumptions C28_equivalent_time_inverts.
Theorem C28_equivalent_times_invert_array :
  forall (m : mech R) conds lats (g : nat -> R -> R) (T : nat -> R) s vs L C D w,
  mc_kind m = KDeg -> s <> [] -> length vs = prod s ->
  (forall i, i < prod s -> strictly_monotone (fun t => 0 < t)%R (g i) /\ (/ 1000 <= T i <= 10000000000)%R /\
     nth_error vs i = Some (g i (T i))) ->
  (forall ts w, length ts = prod s -> (forall t, In t ts -> (0 < t)%R) ->
     exists fs w', call_or_loop (lm_eqn (mc_mdl m)) (mech_args m (PArr (Nd s ts)) conds lats) L C D w
                   = (Ok (PArr (Nd s fs)), w') /\ length fs = prod s /\
       forall i t, nth_error ts i = Some t -> nth_error fs i = Some (g i t)) ->
  exists r w' ys,
    minimize_run (equiv_obj m (PArr (Nd s vs)) (Nd s vs) conds lats L C D) (prod s) (/ 1000)%R 10000000000%R (/ 100000)%R mach_64bit_eps 50 true w = (Ok r, w') /\
    mech_equiv_time m (PArr (Nd s vs)) conds lats L C D w = (Ok (PArr (Nd s ys)), w') /\ length ys = prod s /\
    (mr_conv r = true -> forall i y, nth_error ys i = Some y ->
       (Rabs (ln y / ln 10 - ln (T i) / ln 10) < 2 * (sqrt mach_64bit_eps * Rabs (ln y / ln 10) + / 300000))%R).
Proof. exact equiv_time_inverts_vec. Qed.
Print Assumptions C28_equivalent_times_invert_array.
(** The starting point of the search is found exactly. *)
Theorem C28_first_guess_is_exact :
  forall (m : mech R) conds lats g L C D w,
  mc_kind m = KDeg -> strictly_monotone (fun t => 0 < t)%R g ->
  (forall t w, (0 < t)%R ->
     exists w', call_or_loop (lm_eqn (mc_mdl m)) (mech_args m (PArr (Nd [1; 1; 1] [t])) conds lats) L C D w
                = (Ok (PArr (Nd [1; 1; 1] [g t])), w')) ->
  exists w', mech_equiv_time m (PArr (Nd [1; 1; 1] [g first_guess])) conds lats L C D w
             = (Ok (PArr (Nd [1; 1; 1] [first_guess])), w').
Proof. exact equiv_time_exact. Qed.
Print Assumptions C28_first_guess_is_exact.

(** the law of the example: 3 * t *)
Definition ex_conds : dict (pyval R) := [("temp"%string, PNum 3%R)].
Lemma ex_law t L C D w :
  call_or_loop (lm_eqn (mc_mdl (ex_mech (V := R) KDeg))) (mech_args (ex_mech KDeg) (PArr (Nd [1; 1; 1] [t])) ex_conds []) L C D w
  = (Ok (PArr (Nd [1; 1; 1] [(t * 3)%R])), w).
Proof. reflexivity. Qed.
Lemma ex_mono (P : R -> Prop) : strictly_monotone P (fun t => t * 3)%R.
Proof. left. intros. lra. Qed.
Example C28_example : exists w' y,
  mech_equiv_time (ex_mech KDeg) (PArr (Nd [1; 1; 1] [(12 * 3)%R])) ex_conds [] 1 1 1 w0
    = (Ok (PArr (Nd [1; 1; 1] [y])), w') /\ (/ 1000 <= y <= 10000000000)%R.
Proof.
  destruct (C28_equivalent_time_inverts (ex_mech KDeg) ex_conds [] (fun t => t * 3)%R 12%R 1 1 1 w0)
    as (r & w' & y & _ & E & B & _); auto using ex_mono; try lra.
  - intros t w _. exists w. apply ex_law.
  - exists w', y. auto.
Qed.
Example C28_exact_example : exists w',
  mech_equiv_time (ex_mech KDeg) (PArr (Nd [1; 1; 1] [(first_guess * 3)%R])) ex_conds [] 1 1 1 w0
    = (Ok (PArr (Nd [1; 1; 1] [first_guess])), w').
Proof.
  apply (C28_first_guess_is_exact (ex_mech KDeg) ex_conds [] (fun t => t * 3)%R); auto using ex_mono.
  intros t w _. exists w. apply ex_law.
Qed.
Example C28_array_example : exists w' y1 y2,
  mech_equiv_time (ex_mech KDeg) (PArr (Nd [2] [(12 * 3)%R; (5 * 3)%R])) ex_conds [] 1 1 2 w0
    = (Ok (PArr (Nd [2] [y1; y2])), w').
Proof.
  destruct (C28_equivalent_times_invert_array (ex_mech KDeg) ex_conds [] (fun _ t => t * 3)%R (fun i => if i =? 0 then 12 else 5)%R
    [2] [(12 * 3)%R; (5 * 3)%R] 1 1 2 w0) as (r & w' & ys & _ & E & L & _); auto; try discriminate.
  - intros [|[|i]] Hi; cbn in Hi |- *; [| |lia]; (split; [apply ex_mono|split; [lra|reflexivity]]).
  - intros ts w L Ht. destruct ts as [|t1 [|t2 [|]]]; try discriminate. exists [(t1 * 3)%R; (t2 * 3)%R], w.
    split; [reflexivity|split; [reflexivity|]].
    intros [|[|[|i]]] t Q; cbn in *; congruence.
  - destruct ys as [|y1 [|y2 [|]]]; try discriminate. exists w', y1, y2. exact E.
Qed.

(** ** C29, one evaluation *)
Theorem C29_failed_value_kept :
  forall V (O : NumOps V) (m : mech V) times p conds lats L C D w r w',
  mc_kind m = KFail -> mech_deg_vals m times (PArr p) conds lats L C D w = (Ok r, w') ->
  exists a, r = PArr a /\ under (nshape p) (nshape a) /\
  forall idx' idx, inside (nshape a) idx' -> shows (nshape p) idx' idx ->
    neqb (aget p idx) (mc_unitary m) = false -> aget a idx' = aget p idx.
Proof. intros V O. exact fail_latched. Qed.
Print Assumptions C29_failed_value_kept.
Example C29_one_example :
  mech_deg_vals (ex_mech KFail) (qarr [2; 2; 0]%Q) (qarr [0; 1; 0]%Q) [("temp"%string, PNum 3%Q)] [] 1 1 3 w0
  = (Ok (qarr [6; 1; 0]%Q), w0).
Proof. vm_compute. reflexivity. Qed.

(** ** C30, one step *)
Theorem C30_no_prior_stress :
  forall V (O : NumOps V) (m : mech V) a conds lats L C D w, mc_kind m = KFail ->
  mech_equiv_time m (PArr a) conds lats L C D w = (Ok (PArr (nfull (nshape a) n0)), w).
Proof. intros V O. exact fail_equiv_zero. Qed.
Print Assumptions C30_no_prior_stress.
Theorem C30_equation_sees_step_duration :
  forall V (O : NumOps V) (m : mech V) (p : nd V) conds lats L C D dur w r w',
  mc_kind m = KFail -> nshape p <> [] ->
  dget lats "time" = None -> dget conds "time" = None ->
  stress_mech m conds lats L C D (PArr p) dur w = (Ok r, w') ->
  exists args d, call_or_loop (lm_eqn (mc_mdl m)) args L C D w = (Ok d, w') /\
    dget args "time" = Some (PArr (nfull (nshape p) (nadd n0 dur))) /\
    forall x, x <> "time"%string ->
      dget args x = if smem x (compute_args (lm_eqn (mc_mdl m))) then first_of [lats; conds] x else None.
Proof. intros V O. exact fail_stress_args. Qed.
Print Assumptions C30_equation_sees_step_duration.
Example C30_example :
  stress_mech (ex_mech KFail) [("temp"%string, PNum 3%Q)] [] 1 1 3 (qarr [0; 1; 0]%Q) 4%Q w0
  = (Ok (qarr [12; 1; 12]%Q), w0).
Proof. vm_compute. reflexivity. Qed.

(** ** C31, one mechanism *)
Theorem C31_no_time_argument_no_equivalent_time :
  forall V (O : NumOps V) (m : mech V) a conds lats L C D w, ~ takes_time (lm_eqn (mc_mdl m)) ->
  mc_kind m = KDeg ->
  mech_equiv_time m (PArr a) conds lats L C D w = (Err TypeError, w).
Proof. intros V O. exact mech_equiv_no_time. Qed.
Print Assumptions C31_no_time_argument_no_equivalent_time.
Theorem C31_no_time_argument_no_degradation :
  forall V (O : NumOps V) (m : mech V) t p conds lats L C D w s, ~ takes_time (lm_eqn (mc_mdl m)) ->
  bshape (nshape t) (nshape p) = Some s ->
  mech_deg_vals m (PArr t) (PArr p) conds lats L C D w = (Err TypeError, w).
Proof. intros V O. exact mech_deg_no_time. Qed.
Print Assumptions C31_no_time_argument_no_degradation.
Lemma default_no_time V (O : NumOps V) (v : V) : ~ takes_time (eqn_const v).
Proof. unfold takes_time. cbn. intuition congruence. Qed.
Example C31_one_example :
  mech_equiv_time (Mech KDeg (LMdl (eqn_const 0%Q) []) 0%Q None) (qarr [0]%Q) [] [] 1 1 1 w0 = (Err TypeError, w0) /\
  mech_deg_vals (Mech KFail (LMdl (eqn_const 0%Q) []) 0%Q None) (qarr [4]%Q) (qarr [0]%Q) [] [] 1 1 1 w0 = (Err TypeError, w0).
Proof.
  split; [apply C31_no_time_argument_no_equivalent_time|apply (C31_no_time_argument_no_degradation Q QOps) with (s := [1; 1; 1])]; try reflexivity;
    apply (default_no_time Q QOps).
Qed.

(** ** C32 *)
Theorem C32_loop_calls_per_sample :
  forall V (O : NumOps V) (f : eqn V) args L C D w r w', sized L C D (PDict args) ->
  loop_compute f args L C D w = (Ok r, w') <->
  exists vs, called_per_sample f args (samples L C D) w vs w' /\ r = PArr (Nd [L; C; D] vs).
Proof. intros V O. exact loop_spec. Qed.
Print Assumptions C32_loop_calls_per_sample.
Theorem C32_loop_equals_array_evaluation :
  forall V (O : NumOps V) (f : eqn V) args L C D a w, acts_per_sample f args L C D a -> sized L C D (PDict args) ->
  loop_compute f args L C D w = (Ok (PArr a), w).
Proof. intros V O. exact loop_same. Qed.
Print Assumptions C32_loop_equals_array_evaluation.
Theorem C32_fallback_never_changes_a_result :
  forall V (O : NumOps V) (f : eqn V) args L C D a w, acts_per_sample f args L C D a -> sized L C D (PDict args) ->
  (call f args w = (Ok (PArr a), w) \/ call f args w = (Err ValueError, w)) ->
  call_or_loop f args L C D w = (Ok (PArr a), w).
Proof. intros V O. exact fallback_same. Qed.
Print Assumptions C32_fallback_never_changes_a_result.
Definition ex_args32 : dict (pyval Q) :=
  [("time"%string, PArr (Nd [2; 1; 2] [1; 2; 3; 4]%Q)); ("temp"%string, PNum 10%Q)].
Example C32_example :
  sized 2 1 2 (PDict ex_args32) /\ acts_per_sample ex_eqn ex_args32 2 1 2 (Nd [2; 1; 2] [10; 20; 30; 40]%Q) /\
  loop_compute ex_eqn ex_args32 2 1 2 w0 = (Ok (PArr (Nd [2; 1; 2] [10; 20; 30; 40]%Q)), w0).
Proof.
  assert (S : sized 2 1 2 (PDict ex_args32)).
  { constructor. intros k v [Q|[Q|[]]]; injection Q as <- <-; [|constructor].
    econstructor; cbn; reflexivity || lia. }
  assert (A : acts_per_sample ex_eqn ex_args32 2 1 2 (Nd [2; 1; 2] [10; 20; 30; 40]%Q)).
  { split; [reflexivity|split; [reflexivity|]]. intros i j k args' w Hi Hj Hk P.
    apply picks_single_all in P. destruct i as [|[|i]]; [| |lia]; destruct j as [|j]; [|lia| |lia];
      destruct k as [|[|k]]; try lia; vm_compute in P; injection P as <-; eexists; split; reflexivity. }
  split; [exact S|]. split; [exact A|]. exact (C32_loop_equals_array_evaluation Q QOps _ _ _ _ _ _ _ A S).
Qed.
(** Nested dictionaries, and an integer scalar, which is dropped. *)
Example C32_nested_example :
  single_index 1 0 1 [("d"%string, PDict [("x"%string, PArr (Nd [2; 1; 2] [1; 2; 3; 4]%Q))]); ("n"%string, POth 7%Q)]
  = Ok [("d"%string, PDict [("x"%string, PNum 4%Q)])].
Proof. reflexivity. Qed.

(** ** C33 *)
Theorem C33_sequence_of_stresses :
  forall (m : mech R) conds lats (g : nat -> R -> R) s L C D eps ds,
  mc_kind m = KDeg ->
  (forall ts w, length ts = prod s -> (forall t, In t ts -> (0 <= t <= 9000000000)%R) ->
     exists fs w', call_or_loop (lm_eqn (mc_mdl m)) (mech_args m (PArr (Nd s ts)) conds lats) L C D w
                   = (Ok (PArr (Nd s fs)), w') /\ length fs = prod s /\
       forall i t, nth_error ts i = Some t -> nth_error fs i = Some (g i t)) ->
  (0 <= eps <= 1)%R -> (forall d, In d ds -> (0 <= d)%R) ->
  forall vs w vs' w' (T : nat -> R),
  stresses m conds lats L C D s
    (fun vs ys => length ys = length vs /\ forall i y t, nth_error ys i = Some y -> nth_error vs i = Some (g i t) -> (0 <= t)%R ->
                  ((1 - eps) * t <= y <= (1 + eps) * t)%R) ds vs w vs' w' ->
  length vs = prod s ->
  (forall i, i < prod s -> nth_error vs i = Some (g i (T i)) /\ (0 <= T i)%R /\
             ((1 + eps) ^ length ds * (T i + total ds) <= 9000000000)%R) ->
  forall i, i < prod s -> exists t, nth_error vs' i = Some (g i t) /\
    ((1 - eps) ^ length ds * (T i + total ds) <= t <= (1 + eps) ^ length ds * (T i + total ds))%R.
Proof. exact stresses_law. Qed.
Print Assumptions C33_sequence_of_stresses.

(** Exact equivalent times: any partition of the total duration gives the law's
    value at the total. *)
Theorem C33_splitting_does_not_matter :
  forall (m : mech R) conds lats (g : nat -> R -> R) s L C D ds ds',
  mc_kind m = KDeg ->
  (forall ts w, length ts = prod s -> (forall t, In t ts -> (0 <= t <= 9000000000)%R) ->
     exists fs w', call_or_loop (lm_eqn (mc_mdl m)) (mech_args m (PArr (Nd s ts)) conds lats) L C D w
                   = (Ok (PArr (Nd s fs)), w') /\ length fs = prod s /\
       forall i t, nth_error ts i = Some t -> nth_error fs i = Some (g i t)) ->
  (forall d, In d ds -> (0 <= d)%R) -> (forall d, In d ds' -> (0 <= d)%R) -> total ds = total ds' ->
  forall vs w vs1 w1 w2' vs2 w2 (T : nat -> R),
  let exact := fun vs ys : list R => length ys = length vs /\
    forall i y t, nth_error ys i = Some y -> nth_error vs i = Some (g i t) -> (0 <= t)%R -> y = t in
  stresses m conds lats L C D s exact ds vs w vs1 w1 ->
  stresses m conds lats L C D s exact ds' vs w2' vs2 w2 ->
  length vs = prod s ->
  (forall i, i < prod s -> nth_error vs i = Some (g i (T i)) /\ (0 <= T i)%R /\ (T i + total ds <= 9000000000)%R) ->
  forall i, i < prod s -> nth_error vs1 i = Some (g i (T i + total ds)%R) /\ nth_error vs2 i = nth_error vs1 i.
Proof. exact splitting. Qed.
Print Assumptions C33_splitting_does_not_matter.
(** The first guess again: no stress, then a stress of 5, on a value the search
    inverts exactly. *)
Example C33_example : exists w',
  stresses (ex_mech KDeg) ex_conds [] 1 1 1 [1; 1; 1]
    (fun vs ys : list R => length ys = length vs /\
       forall i y t, nth_error ys i = Some y -> nth_error vs i = Some (t * 3)%R -> (0 <= t)%R -> y = t)
    [0; 5]%R [(first_guess * 3)%R] w0 [((first_guess + 0 + 5) * 3)%R] w' /\ (first_guess + total [0; 5] <= 9000000000)%R.
Proof. apply (lin_stresses (ex_mech KDeg) ex_conds [] 3%R eq_refl ltac:(lra)). intros. apply ex_law. Qed.

(** ** C34 *)
Theorem C34_fresh_sample_is_stressed_longer :
  forall (m : mech R) conds lats, mc_kind m = KDeg -> forall v dur L C D w r w',
  stress_mech m conds lats L C D (PArr (Nd [1; 1; 1] [v])) dur w = (Ok r, w') ->
  exists t d w1, (/ 1000 + dur <= t <= 10000000000 + dur)%R /\
    call_or_loop (lm_eqn (mc_mdl m)) (mech_args m (PArr (Nd [1; 1; 1] [t])) conds lats) L C D w1 = (Ok d, w').
Proof. exact stress_fresh. Qed.
Print Assumptions C34_fresh_sample_is_stressed_longer.
Theorem C34_equivalent_time_range :
  forall (m : mech R) conds lats, mc_kind m = KDeg -> forall v L C D w t w',
  mech_equiv_time m (PArr (Nd [1; 1; 1] [v])) conds lats L C D w = (Ok t, w') ->
  exists y, t = PArr (Nd [1; 1; 1] [y]) /\ (/ 1000 <= y <= 10000000000)%R.
Proof. exact equiv_time_range. Qed.
Print Assumptions C34_equivalent_time_range.
(** A fresh sample (value 0) of the law 3 * t stressed for 2 ends at 3 * (2 + 1/1000)
    or more. *)
Example C34_example : exists x w',
  stress_mech (ex_mech KDeg) ex_conds [] 1 1 1 (PArr (Nd [1; 1; 1] [0%R])) 2%R w0 = (Ok (PArr (Nd [1; 1; 1] [x])), w') /\
  ((2 + / 1000) * 3 <= x)%R.
Proof. apply (lin_fresh (ex_mech KDeg) ex_conds [] 3%R eq_refl ltac:(lra)); [|lra]. intros. apply ex_law. Qed.

(** ** C35 *)
Theorem C35_first_devices_of_every_chip :
  forall V (O : NumOps V) p conds a a' lats lats' L C D K w,
  nth_error (nshape a) 2 = Some D -> K < D ->
  cut K (PArr a) (PArr a') -> cut_all K lats lats' ->
  cond_shifted p conds (PArr a) lats L C K w = cond_shifted p conds (PArr a') lats' L C K w.
Proof. intros V O. exact cond_shifted_cut. Qed.
Print Assumptions C35_first_devices_of_every_chip.
Definition ex_prm : degprm Q :=
  DegPrm (LMdl eqn_basic []) (LMdl (Eqn ["temp"; "k"]%string [] None
            (fun a => lift (rbind (dgetE a "temp") (fun t => rbind (dgetE a "k") (fun k => pmap2 nmul t k))))) []) 0%Q
         [("m"%string, ex_mech KDeg)] (LMdl eqn_basic_sum []).
Definition ex_lats (k : list Q) (n : nat) : dict (pyval Q) :=
  [("cond"%string, PDict [("k"%string, PArr (Nd [2; 1; n] k))]); ("m"%string, PDict [])].
Example C35_example :
  cond_shifted ex_prm [("temp"%string, PNum 10%Q)] (PArr (Nd [2; 1; 3] [1; 2; 3; 4; 5; 6]%Q))
     (ex_lats [1; 1; 2; 2; 3; 3]%Q 3) 2 1 2 w0 =
  cond_shifted ex_prm [("temp"%string, PNum 10%Q)] (PArr (Nd [2; 1; 2] [1; 2; 4; 5]%Q))
     (ex_lats [1; 1; 2; 3]%Q 2) 2 1 2 w0 /\
  cond_shifted ex_prm [("temp"%string, PNum 10%Q)] (PArr (Nd [2; 1; 3] [1; 2; 3; 4; 5; 6]%Q))
     (ex_lats [1; 1; 2; 2; 3; 3]%Q 3) 2 1 2 w0 = (Ok (PArr (Nd [2; 1; 2] [11; 12; 24; 35]%Q)), w0).
Proof.
  split; [|vm_compute; reflexivity].
  assert (C3 : forall (x y : list Q), length x = 6 -> length y = 4 -> y = [nth 0 x 0; nth 1 x 0; nth 3 x 0; nth 4 x 0]%Q ->
    cut 2 (PArr (Nd [2; 1; 3] x)) (PArr (Nd [2; 1; 2] y))).
  { intros x y Lx Ly Q. destruct x as [|x0 [|x1 [|x2 [|x3 [|x4 [|x5 [|]]]]]]]; try discriminate. subst y.
    apply (ct_arr 2 _ _ 2 1 3); cbn; try reflexivity; try lia.
    intros l c d Hl Hc Hd. destruct l as [|[|l]]; [| |lia]; (destruct c as [|c]; [|lia]); destruct d as [|[|d]]; try lia; reflexivity. }
  apply (C35_first_devices_of_every_chip Q QOps ex_prm _ _ _ _ _ 2 1 3 2); [reflexivity|lia|apply C3; reflexivity|].
  repeat constructor. apply C3; reflexivity.
Qed.

(** ** C36 *)
Theorem C36_ideal_measurement :
  forall V (O : NumOps V) (p : degprm V) conds a lats cl L C K w,
  lm_eqn (dp_own p) = eqn_basic_sum -> lm_eqn (dp_cond p) = eqn_const n0 ->
  (forall nm m, In (nm, m) (dp_mechs p) -> mc_unitary m = n0 /\ nm <> "init"%string /\ nm <> "cond"%string) ->
  dget lats "cond" = Some (PDict cl) -> dget lats "mechs" = None ->
  nadd n0 n0 = n0 -> (forall x, In x (ndata a) -> nadd x n0 = x) ->
  length (ndata a) = prod (nshape a) -> nth_error (nshape a) 2 = Some K ->
  cond_shifted p conds (PArr a) lats L C K w = (Ok (PArr a), w).
Proof. intros V O. exact ideal_measurement. Qed.
Print Assumptions C36_ideal_measurement.
Definition ex_prm36 : degprm Q :=
  DegPrm (LMdl eqn_basic []) (LMdl (eqn_const 0%Q) []) 0%Q
         [("m1"%string, ex_mech KDeg); ("m2"%string, ex_mech KFail); ("m3"%string, ex_mech KDeg)] (LMdl eqn_basic_sum []).
Example C36_example :
  cond_shifted ex_prm36 [("temp"%string, PNum 10%Q)] (PArr (Nd [2; 1; 2] [1; 2; 4; 5]%Q))
     [("cond"%string, PDict []); ("m1"%string, PDict []); ("m2"%string, PDict []); ("m3"%string, PDict [])] 2 1 2 w0
  = (Ok (PArr (Nd [2; 1; 2] [1; 2; 4; 5]%Q)), w0).
Proof.
  apply (C36_ideal_measurement Q QOps ex_prm36) with (cl := []); try reflexivity.
  - intros nm m [Q|[Q|[Q|[]]]]; injection Q as <- <-; repeat split; discriminate.
  - intros x [<-|[<-|[<-|[<-|[]]]]]; reflexivity.
Qed.
(** An equation with its own latent variable (gain * (init + cond + m)) is applied
    again when measuring: with gain 2 a stored value of 6 is measured as 12. *)
Definition ex_gain : degprm Q :=
  DegPrm (LMdl eqn_basic []) (LMdl (eqn_const 0%Q) []) 0%Q []
         (LMdl (Eqn ["init"; "cond"; "gain"]%string [] None
            (fun a => lift (rbind (dgetE a "init") (fun i => rbind (dgetE a "gain") (fun g => pmap2 nmul i g))))) []).
Theorem C36_own_latents_applied_twice_refuted :
  exists (p : degprm Q) a lats w, lm_eqn (dp_cond p) = eqn_const 0%Q /\ dp_mechs p = [] /\
    (exists init, prm_deg_vals p [] [] init lats [] 1 1 1 w = (Ok (PArr a, []), w)) /\
    cond_shifted p [] (PArr a) lats 1 1 1 w <> (Ok (PArr a), w).
Proof.
  exists ex_gain, (Nd [1; 1; 1] [6%Q]), [("cond"%string, PDict []); ("gain"%string, PArr (Nd [1; 1; 1] [2%Q]))], w0.
  split; [reflexivity|]. split; [reflexivity|]. split.
  - exists (PArr (Nd [1; 1; 1] [3%Q])). vm_compute. reflexivity.
  - vm_compute. discriminate.
Qed.
Print Assumptions C36_own_latents_applied_twice_refuted.

(** ** C37, C38 *)
Theorem C37_C38_arguments_and_lots :
  forall V (O : NumOps V) (c : lmdl V) k conds prms lats w r w',
  circ_vals c k conds prms lats w = (Ok r, w') ->
  exists args a b n s,
    (forall x, dget args x = if smem x (compute_args (lm_eqn c)) then first_of [lats; conds; prms] x else None) /\
    call (lm_eqn c) args w = (Ok (PArr a), w') /\ r = PArr b /\
    nshape a = n :: s /\ nshape b = Nat.min k n :: s /\
    (length (ndata a) = prod (nshape a) ->
     length (ndata b) = prod (nshape b) /\
     forall idx, inside (nshape b) idx -> inside (nshape a) idx /\ aget b idx = aget a idx).
Proof. intros V O. exact circ_cut. Qed.
Print Assumptions C37_C38_arguments_and_lots.
Theorem C37_number_of_values :
  forall V (O : NumOps V) (c : lmdl V) k conds prms lats w r w',
  circ_vals c k conds prms lats w = (Ok r, w') ->
  exists args a b,
    (forall x, dget args x = if smem x (compute_args (lm_eqn c)) then first_of [lats; conds; prms] x else None) /\
    call (lm_eqn c) args w = (Ok (PArr a), w') /\ r = PArr b /\
    forall L C n, nshape a = [L; C; n] -> length (ndata a) = L * C * n -> C <> 0 ->
      nshape b = [Nat.min k L; C; n] /\ length (ndata b) = Nat.min k L * C * n /\
      (length (ndata b) = L * C * k <-> Nat.min k L * n = L * k) /\
      forall i j d, i < Nat.min k L -> j < C -> d < n -> aget b [i; j; d] = aget a [i; j; d].
Proof. intros V O. exact circ_count. Qed.
Print Assumptions C37_number_of_values.
Theorem C38_argument_order :
  forall V (O : NumOps V) (c : lmdl V) k conds prms lats w r w',
  circ_vals c k conds prms lats w = (Ok r, w') ->
  exists args a,
    (forall x, dget args x = if smem x (compute_args (lm_eqn c)) then first_of [lats; conds; prms] x else None) /\
    call (lm_eqn c) args w = (Ok (PArr a), w').
Proof.
  intros V O c k conds prms lats w r w' E.
  destruct (circ_cut c k conds prms lats w r w' E) as (args & a & _ & _ & _ & A1 & A2 & _). now exists args, a.
Qed.
Print Assumptions C38_argument_order.
Theorem C38_missing_argument :
  forall V (O : NumOps V) (c : lmdl V) k conds prms lats x w,
  In x (e_req (lm_eqn c)) -> first_of [lats; conds; prms] x = None ->
  circ_vals c k conds prms lats w = (Err TypeError, w).
Proof. intros V O. exact circ_missing. Qed.
Print Assumptions C38_missing_argument.
(** Three lots of one chip with two devices, k = 1 sample wanted per chip: two lots
    vanish.  'a' exists as latent, condition and parameter. *)
Definition ex_circ : lmdl Q := LMdl (Eqn ["a"; "b"]%string [] None
  (fun x => lift (rbind (dgetE x "a") (fun a => rbind (dgetE x "b") (fun b => pmap2 nadd a b))))) [].
Example C37_C38_example :
  circ_vals ex_circ 1 [("a"%string, PNum 100%Q); ("z"%string, PNum 1%Q)]
    [("a"%string, PNum 1000%Q); ("b"%string, PArr (Nd [3; 1; 2] [1; 2; 3; 4; 5; 6]%Q))]
    [("a"%string, PArr (Nd [3; 1; 2] [10; 10; 10; 10; 10; 10]%Q))] w0
  = (Ok (PArr (Nd [1; 1; 2] [11; 12]%Q)), w0) /\
  circ_vals ex_circ 1 [("a"%string, PNum 100%Q)] [] [] w0 = (Err TypeError, w0).
Proof.
  split; [vm_compute; reflexivity|]. apply (C38_missing_argument Q QOps) with (x := "b"%string); cbn; auto.
Qed.

(** ** C57 *)
Theorem C57_degradation_of_one_sample :
  forall V (O : NumOps V) (m : mech V) s idx (t1 t2 p1 p2 : nd V) c1 c2 l1 l2 L C D w1 w2 r1 r2 w1' w2',
  local_at (lm_eqn (mc_mdl m)) s idx L C D -> inside s idx ->
  nshape t1 = s -> nshape t2 = s -> nshape p1 = s -> nshape p2 = s ->
  aget t1 idx = aget t2 idx -> aget p1 idx = aget p2 idx -> same_args idx c1 c2 -> same_args idx l1 l2 ->
  mech_deg_vals m (PArr t1) (PArr p1) c1 l1 L C D w1 = (Ok r1, w1') ->
  mech_deg_vals m (PArr t2) (PArr p2) c2 l2 L C D w2 = (Ok r2, w2') ->
  exists a1 a2, r1 = PArr a1 /\ r2 = PArr a2 /\ nshape a1 = s /\ nshape a2 = s /\ aget a1 idx = aget a2 idx.
Proof. intros V O. exact deg_vals_local. Qed.
Print Assumptions C57_degradation_of_one_sample.
Theorem C57_stress_with_zero_equivalent_time :
  forall V (O : NumOps V) (m : mech V) s idx (p1 p2 : nd V) c1 c2 l1 l2 L C D dur w1 w2 r1 r2 w1' w2',
  mc_kind m = KFail -> local_at (lm_eqn (mc_mdl m)) s idx L C D -> s <> [] -> inside s idx ->
  nshape p1 = s -> nshape p2 = s -> aget p1 idx = aget p2 idx -> same_args idx c1 c2 -> same_args idx l1 l2 ->
  stress_mech m c1 l1 L C D (PArr p1) dur w1 = (Ok r1, w1') ->
  stress_mech m c2 l2 L C D (PArr p2) dur w2 = (Ok r2, w2') ->
  exists a1 a2, r1 = PArr a1 /\ r2 = PArr a2 /\ nshape a1 = s /\ nshape a2 = s /\ aget a1 idx = aget a2 idx.
Proof. intros V O. exact fail_stress_local. Qed.
Print Assumptions C57_stress_with_zero_equivalent_time.
Theorem C57_stress_with_exact_equivalent_time :
  forall V (O : NumOps V) (m : mech V) s idx (p1 p2 t1 t2 : nd V) c1 c2 l1 l2 L C D dur w1 w2 r1 r2 w1' w2' u1 u2,
  local_at (lm_eqn (mc_mdl m)) s idx L C D -> s <> [] -> inside s idx ->
  nshape p1 = s -> nshape p2 = s -> aget p1 idx = aget p2 idx -> same_args idx c1 c2 -> same_args idx l1 l2 ->
  mech_equiv_time m (PArr p1) c1 l1 L C D w1 = (Ok (PArr t1), u1) ->
  mech_equiv_time m (PArr p2) c2 l2 L C D w2 = (Ok (PArr t2), u2) ->
  nshape t1 = s -> nshape t2 = s -> aget t1 idx = aget t2 idx ->
  stress_mech m c1 l1 L C D (PArr p1) dur w1 = (Ok r1, w1') ->
  stress_mech m c2 l2 L C D (PArr p2) dur w2 = (Ok r2, w2') ->
  exists a1 a2, r1 = PArr a1 /\ r2 = PArr a2 /\ nshape a1 = s /\ nshape a2 = s /\ aget a1 idx = aget a2 idx.
Proof. intros V O. exact stress_local. Qed.
Print Assumptions C57_stress_with_exact_equivalent_time.
(** The example's equation restricted to arrays of three samples is local. *)
Definition ex_eqn57 : eqn Q := Eqn ["time"]%string [] None
  (fun a => match dget a "time" with
            | Some (PArr (Nd [1; 1; 3] [x; y; z])) => ret (PArr (Nd [1; 1; 3] [Qred (x * 2); Qred (y * 2); Qred (z * 2)]%Q))
            | _ => raise TypeError
            end).
Definition ex_mech57 : mech Q := Mech KFail (LMdl ex_eqn57 []) 0%Q None.
Example C57_example : local_at ex_eqn57 [1; 1; 3] [0; 0; 1] 1 1 3 /\
  stress_mech ex_mech57 [] [] 1 1 3 (qarr [0; 0; 5]%Q) 4%Q w0 = (Ok (qarr [8; 8; 5]%Q), w0) /\
  stress_mech ex_mech57 [] [] 1 1 3 (qarr [1; 0; 0]%Q) 4%Q w0 = (Ok (qarr [1; 8; 8]%Q), w0).
Proof.
  split; [|split; vm_compute; reflexivity].
  assert (K : forall args w d w', call_or_loop ex_eqn57 args 1 1 3 w = (Ok d, w') ->
    exists x y z, dget args "time" = Some (PArr (Nd [1; 1; 3] [x; y; z])) /\
                  d = PArr (Nd [1; 1; 3] [Qred (x * 2); Qred (y * 2); Qred (z * 2)]%Q)).
  { intros args w d w' E. unfold call_or_loop, try_value_error, call in E.
    destruct (_ && _); [|discriminate E]. cbn [ex_eqn57 e_body] in E.
    destruct (dget args "time") as [[v|v|[sh dat]|dd]|]; try discriminate E.
    destruct sh as [|[|[|]] [|[|[|]] [|[|[|[|[|]]]] [|]]]]; try discriminate E.
    destruct dat as [|x [|y [|z [|]]]]; try discriminate E. injection E as <- _. eauto 8. }
  intros args1 args2 w1 w2 d1 d2 w1' w2' S E1 E2.
  apply K in E1 as (x1 & y1 & z1 & G1 & ->). apply K in E2 as (x2 & y2 & z2 & G2 & ->).
  specialize (S "time"%string). rewrite G1, G2 in S.
  do 2 eexists. do 4 (split; [reflexivity|]). destruct S as [S|(a & b & Qa & Qb & _ & Q)].
  - injection S as <- <- <-. reflexivity.
  - injection Qa as <-. injection Qb as <-. cbn in Q. cbn. now rewrite Q.
Qed.
