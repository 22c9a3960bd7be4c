(** Properties of the range of timedeltas: C98. *)
From Coq Require Import QArith Lia.
From Verif Require Import M_Base M_Num M_Nd M_RandVar M_Latent M_Time M_TestSpec M_Device M_Report M_Env M_Sim M_Range M_Toy
  S_Time S_TestSpec S_Sim S_Range L_Range T_Sim.
Open Scope Z_scope.

(** A number of units given to a stress step. *)
Theorem C98_stress_duration : forall q u n us, In (u, n) documented_units -> nearest_even (q * inject_Z n) us ->
  (~ td_ok us -> strs_duration_r (TN q) u = Err OverflowError) /\
  (us = 0 -> strs_duration_r (TN q) u = Err UserConfigError) /\
  (td_ok us -> us <> 0 -> strs_duration_r (TN q) u = Ok us).
Proof. exact strs_number. Qed.
Print Assumptions C98_stress_duration.
Theorem C98_stress_unit : forall q u, (forall n, ~ In (u, n) documented_units) -> strs_duration_r (TN q) u = Err UserConfigError.
Proof. exact strs_unit. Qed.
Print Assumptions C98_stress_unit.
Definition day : Z := 86400000000.
Definition last_us : Z := 999999999 * day + (day - 1).
Example C98_duration_example :
  strs_duration_r (TN (999999999 # 1)) (Some "d"%string) = Ok (999999999 * day) /\
  strs_duration_r (TN (1000000000 # 1)) (Some "d"%string) = Err OverflowError /\
  strs_duration_r (TN (- 999999999 # 1)) (Some "d"%string) = Ok (- 999999999 * day) /\
  strs_duration_r (TN (- 1999999999 # 2)) (Some "d"%string) = Err OverflowError /\
  strs_duration_r (TN (inject_Z last_us)) (Some "us"%string) = Ok last_us /\
  strs_duration_r (TN (inject_Z last_us + (1 # 2))) (Some "us"%string) = Err OverflowError /\
  strs_duration_r (TN (24000000000 # 1)) None = Err OverflowError.
Proof. vm_compute. repeat split. Qed.

(** Appending in a loop. *)
Theorem C98_append_in_range : forall V fuel (old : list (step V)) a d u dur, plain a -> requested d u dur -> td_ok dur -> sums_ok a dur ->
  append_steps_r fuel old a (Some d) u = append_steps fuel old a (Some d) u.
Proof. intros V. exact append_in_range. Qed.
Print Assumptions C98_append_in_range.
Theorem C98_short_loops : forall V (a : to_add V) dur,
  (forall s, In s (items a) -> 0 <= step_time s) -> td_ok dur -> td_ok (dur + stress_time (items a)) -> sums_ok a dur.
Proof. intros V. exact short_loops. Qed.
Print Assumptions C98_short_loops.
Theorem C98_append_overflows : forall V (old : list (step V)) a d u dur n k,
  plain a -> has_stress_or_other (items a) -> requested d u dur -> td_ok dur -> 0 < dur -> bad_sum a dur n k ->
  exists m, (m <= n)%nat /\ forall fuel, (m < fuel)%nat ->
    append_steps_r fuel old a (Some d) u = Some (old ++ cycles (S m) (items a), Err OverflowError).
Proof. intros V. exact append_out_of_range. Qed.
Print Assumptions C98_append_overflows.
Theorem C98_backward_overflows : forall V (a : to_add V) dur, 0 < dur -> stress_time (items a) < 0 -> exists n k, bad_sum a dur n k.
Proof. intros V. exact net_negative_bad. Qed.
Print Assumptions C98_backward_overflows.
Theorem C98_append_forever : forall V (old : list (step V)) a d u dur,
  plain a -> has_stress_or_other (items a) -> requested d u dur -> td_ok dur -> dur <> 0 ->
  ((forall fuel, append_steps_r fuel old a (Some d) u = None) <->
   (0 < dur /\ stress_time (items a) = 0 /\ forall k, td_ok (stress_time (firstn k (items a))))).
Proof. intros V. exact append_forever. Qed.
Print Assumptions C98_append_forever.
Theorem C98_append_duration : forall V fuel (old : list (step V)) a q u dur, requested (TN q) u dur -> ~ td_ok dur ->
  append_steps_r fuel old a (Some (TN q)) u = Some (old, Err OverflowError).
Proof. intros V. exact append_over. Qed.
Print Assumptions C98_append_duration.
Definition far (days : Z) : step Q := SStrs (StrsSpec [] (days * day) "far").
Definition ex_loop : to_add Q := Many [far 400000000; SMeas (MeasSpec [] [] "m")].
Example C98_append_example :
  append_steps_r 9 [] ex_loop (Some (TD (800000000 * day))) None = Some (items ex_loop ++ items ex_loop, Ok tt) /\
  append_steps_r 9 [] ex_loop (Some (TD (900000000 * day))) None = Some (items ex_loop ++ items ex_loop ++ items ex_loop, Err OverflowError) /\
  append_steps 9 [] ex_loop (Some (TD (900000000 * day))) None = Some (items ex_loop ++ items ex_loop ++ items ex_loop, Err UserWarningE) /\
  append_steps_r 9 [far 1] (One (far (- 400000000))) (Some (TD day)) None = Some (far 1 :: [far (-400000000); far (-400000000); far (-400000000)], Err OverflowError) /\
  append_steps_r 9 [far 1] ex_loop (Some (TN (1000000000 # 1))) (Some "d"%string) = Some ([far 1], Err OverflowError).
Proof. vm_compute. repeat split. Qed.
Example C98_append_example_bad : bad_sum ex_loop (900000000 * day) 2 1 /\ bad_sum (One (far (-400000000))) day 2 1 /\ sums_ok ex_loop (800000000 * day) /\
  (plain ex_loop /\ has_stress_or_other (items ex_loop) /\ requested (TD (900000000 * day)) None (900000000 * day) /\ td_ok (900000000 * day)).
Proof.
  split; [|split; [|split]].
  - unfold bad_sum, td_ok, day. cbn. lia.
  - unfold bad_sum, td_ok, day. cbn. lia.
  - intros n k [L B]. apply B. change (stress_time (items ex_loop)) with (400000000 * day) in *. unfold day in *.
    assert (Hn : (n <= 1)%nat) by lia. destruct k as [|[|[|k]]]; cbn; unfold td_ok, day; lia.
  - split; [exact I|]. split; [eexists; split; [left; reflexivity|reflexivity]|]. split; [reflexivity|unfold td_ok, day; lia].
Qed.
(** There and back again: for ever if the far end can be represented. *)
Definition there_and_back (days : Z) : to_add Q := Many [far days; far days; far (- days); far (- days)].
Example C98_forever_example :
  (forall fuel, append_steps_r fuel [] (there_and_back 300000000) (Some (TD day)) None = None) /\
  append_steps_r 9 [] (there_and_back 600000000) (Some (TD day)) None = Some (items (there_and_back 600000000), Err OverflowError).
Proof.
  split; [|vm_compute; reflexivity]. apply (C98_append_forever Q [] _ _ _ day); try exact I; try reflexivity; try discriminate.
  - eexists; split; [left; reflexivity|reflexivity].
  - unfold td_ok, day; lia.
  - split; [reflexivity|]. split; [reflexivity|]. intros k. destruct k as [|[|[|[|[|k]]]]]; cbn; unfold td_ok, day; lia.
Qed.

(** Simulations. *)
Theorem C98_simulate_in_range : forall V (N : NumOps V) (R : Rng V) (Ho : HashOrd) (e : env V) d steps C L init w z,
  starts_at init z -> td_ok z -> times_ok z steps ->
  simulate_r e d steps C L init w = simulate e d steps C L init w.
Proof. intros V N R Ho. exact sim_in_range. Qed.
Print Assumptions C98_simulate_in_range.
Theorem C98_simulate_overflows : forall V (N : NumOps V) (R : Rng V) (Ho : HashOrd) (e : env V) d steps C L init w z r w',
  starts_at init z -> td_ok z -> ~ times_ok z steps -> simulate e d steps C L init w = (Ok r, w') ->
  exists w1, simulate_r e d steps C L init w = (Err OverflowError, w1).
Proof. intros V N R Ho. exact sim_out_of_range. Qed.
Print Assumptions C98_simulate_overflows.
Theorem C98_simulate_cases : forall V (N : NumOps V) (R : Rng V) (Ho : HashOrd) (e : env V) d steps C L init w z,
  starts_at init z -> td_ok z ->
  simulate_r e d steps C L init w = simulate e d steps C L init w \/
  (fst (simulate_r e d steps C L init w) = Err OverflowError /\ ~ times_ok z steps).
Proof. intros V N R Ho. exact sim_r_cases. Qed.
Print Assumptions C98_simulate_cases.
Theorem C98_simulate_ok : forall V (N : NumOps V) (R : Rng V) (Ho : HashOrd) (e : env V) d steps C L init w z r w',
  starts_at init z -> td_ok z -> simulate_r e d steps C L init w = (Ok r, w') ->
  simulate e d steps C L init w = (Ok r, w') /\ times_ok z steps.
Proof. intros V N R Ho. exact sim_r_ok. Qed.
Print Assumptions C98_simulate_ok.
(** The running example of T_Sim.v ends four hours after its start: from a start one
    microsecond before the last four hours it succeeds, and one later it overflows. *)
#[local] Existing Instance hord_id.
Definition ex_from (z : Z) : option (simstate Q) := Some (set_elapsed ex_st (TD z)).
Definition last_start : Z := last_us - 4 * 3600000000.
Lemma ex_times z : td_ok z -> (times_ok z ex_steps <-> z <= last_start).
Proof.
  intros T. split.
  - intros K. specialize (K 6%nat). unfold td_ok, last_start, last_us, day in *. cbn in K. lia.
  - intros K k. unfold td_ok, last_start, last_us, day in *. destruct k as [|[|[|[|[|[|[|k]]]]]]]; cbn; lia.
Qed.
Example C98_simulate_example :
  (exists r w', simulate_r ex_env ex_dev ex_steps 2 1 (ex_from last_start) ex_w = (Ok r, w') /\ st_elapsed (fst r) = TD last_us) /\
  (exists r w', simulate ex_env ex_dev ex_steps 2 1 (ex_from (last_start + 1)) ex_w = (Ok r, w')) /\
  fst (simulate_r ex_env ex_dev ex_steps 2 1 (ex_from (last_start + 1)) ex_w) = Err OverflowError /\
  times_ok last_start ex_steps /\ ~ times_ok (last_start + 1) ex_steps.
Proof.
  split; [vm_compute; do 2 eexists; split; reflexivity|]. split; [vm_compute; do 2 eexists; reflexivity|]. split; [vm_compute; reflexivity|].
  split; [apply ex_times; [unfold td_ok, last_start, last_us, day; lia|lia]|]. rewrite ex_times by (unfold td_ok, last_start, last_us, day; lia). lia.
Qed.
