(** Property theorems C01-C10: test specifications and time conversion. *)
From Verif Require Import M_Base M_Time S_Time L_Time M_TestSpec S_TestSpec L_TestSpec.
From Coq Require Import Permutation.
Open Scope Z_scope.

(** A 24 h stress followed by a measurement of 3 samples of "vth". *)
Definition hour : Z := 3600000000.
Definition ex_strs : step Q := SStrs (StrsSpec [("temp"%string, 400 # 1)] (24 * hour) "s").
Definition ex_meas : step Q := SMeas (MeasSpec [("vth"%string, 3%nat)] [("temp"%string, 300 # 1)] "m").
Definition ex_cycle : to_add Q := Many [ex_strs; ex_meas].

(** C01 *)
Theorem C01_append_no_loop : forall V fuel (old : list (step V)) a u,
  append_steps fuel old a None u = Some (old ++ items a, Ok tt).
Proof. intros. exact (append_no_loop fuel old a u). Qed.
Print Assumptions C01_append_no_loop.

Example C01_example :
  append_steps 0 [ex_meas] ex_cycle None None = Some ([ex_meas; ex_strs; ex_meas], Ok tt).
Proof. reflexivity. Qed.

(** C02, C04 *)
Theorem C02_looped_append_minimal_cycles : forall V (old : list (step V)) a d u dur,
  plain a -> requested d u dur -> dur <> 0 -> 0 < stress_time (items a) ->
  exists n, whole_cycles (stress_time (items a)) dur n /\
    (forall m, whole_cycles (stress_time (items a)) dur m -> m = n) /\
    exists fuel0, forall fuel, (fuel0 <= fuel)%nat ->
      exists out, append_steps fuel old a (Some d) u = Some (old ++ cycles n (items a), out) /\
        (out = Ok tt \/ out = Err UserWarningE) /\
        (out = Err UserWarningE <-> ~ (dur | stress_time (cycles n (items a)))).
Proof. intros V. exact looped_append_main. Qed.
Print Assumptions C02_looped_append_minimal_cycles.

(** 100 h of 24 h cycles: five cycles, and the warning is raised after appending. *)
Example C02_example_hyps :
  plain ex_cycle /\ requested (TN (100 # 1)) None (100 * hour) /\ 0 < stress_time (items ex_cycle).
Proof.
  split; [exact I|split; [|reflexivity]]. exists 3600000000. split; [cbn; tauto|].
  apply nearest_even_int. reflexivity.
Qed.
Example C02_example_run :
  append_steps 10 [] ex_cycle (Some (TN (100 # 1))) None
  = Some (cycles 5 [ex_strs; ex_meas], Err UserWarningE).
Proof. vm_compute. reflexivity. Qed.
Example C02_example_exact :
  append_steps 10 [] ex_cycle (Some (TD (96 * hour))) None
  = Some (cycles 4 [ex_strs; ex_meas], Ok tt).
Proof. vm_compute. reflexivity. Qed.

(** C03 *)
Theorem C03_degenerate_appends_rejected : forall V (old : list (step V)) a d u fuel,
  (exists q, d = TN q /\ forall n, ~ In (u, n) documented_units) \/
  requested d u 0 \/
  ((exists dur, requested d u dur) /\ forall s, In s (items a) -> is_meas s = true) ->
  append_steps fuel old a (Some d) u = Some (old, Err UserConfigError).
Proof. intros V. exact rejected_append. Qed.
Print Assumptions C03_degenerate_appends_rejected.

Example C03_example_empty :
  append_steps 5 [ex_strs] (Many []) (Some (TD hour)) None = Some ([ex_strs], Err UserConfigError).
Proof. reflexivity. Qed.
Example C03_example_unit :
  append_steps 5 [ex_strs] ex_cycle (Some (TN (3 # 1))) (Some "min"%string)
  = Some ([ex_strs], Err UserConfigError).
Proof. reflexivity. Qed.
Example C03_example_tiny :   (* 0.1 microseconds rounds to zero *)
  append_steps 5 [ex_strs] ex_cycle (Some (TN (1 # 10))) (Some "us"%string)
  = Some ([ex_strs], Err UserConfigError).
Proof. vm_compute. reflexivity. Qed.

(** C05 *)
Theorem C05_terminates_iff : forall V (old : list (step V)) a d u dur,
  plain a -> has_stress_or_other (items a) -> requested d u dur -> dur <> 0 ->
  ((exists fuel r, append_steps fuel old a (Some d) u = Some r) <->
   (dur < 0 \/ 0 < stress_time (items a))).
Proof. intros V. exact terminates_main. Qed.
Print Assumptions C05_terminates_iff.

Theorem C05_diverges : forall V (old : list (step V)) a d u dur,
  plain a -> has_stress_or_other (items a) -> requested d u dur -> 0 < dur ->
  stress_time (items a) <= 0 -> forall fuel, append_steps fuel old a (Some d) u = None.
Proof. intros V. exact diverges_main. Qed.
Print Assumptions C05_diverges.

(** Such a cycle can be built: the constructor accepts a negative duration. *)
Example C05_example_negative_allowed : strs_duration (TN (-5 # 1)) (Some "h"%string) = Ok (-5 * hour).
Proof. vm_compute. reflexivity. Qed.
Theorem C05_always_terminates_refuted : exists (a : to_add Q) d u,
  (forall s, In s (items a) -> exists x, s = SStrs x /\ ss_dur x <> 0) /\ items a <> [] /\
  forall fuel, append_steps fuel [] a (Some d) u = None.
Proof.
  exists (Many [SStrs (StrsSpec [] hour "up"); SStrs (StrsSpec [] (- hour) "down")]), (TD hour), None.
  split; [|split; [discriminate|]].
  - intros s [<-|[<-|[]]]; eexists; (split; [reflexivity|discriminate]).
  - intros fuel. apply (C05_diverges Q [] _ _ _ hour); try reflexivity; try exact I.
    eexists; split; [left; reflexivity|reflexivity].
Qed.
Print Assumptions C05_always_terminates_refuted.

(** C06 *)
Theorem C06_samples_needed_max : forall V (l : list (step V)) p n,
  dget (calc_samples_needed l) p = Some n <->
  (requests l p n /\ forall m, requests l p m -> (m <= n)%nat).
Proof. intros V. exact calc_samples_max. Qed.
Print Assumptions C06_samples_needed_max.

Theorem C06_samples_needed_none : forall V (l : list (step V)) p,
  dget (calc_samples_needed l) p = None <-> forall n, ~ requests l p n.
Proof. intros V. exact calc_samples_none. Qed.
Print Assumptions C06_samples_needed_none.

Theorem C06_samples_needed_order : forall V (l1 l2 : list (step V)) p,
  Permutation l1 l2 -> dget (calc_samples_needed l1) p = dget (calc_samples_needed l2) p.
Proof. intros V. exact calc_samples_perm. Qed.
Print Assumptions C06_samples_needed_order.

Theorem C06_samples_needed_grows : forall V (l1 l2 : list (step V)) p n,
  dget (calc_samples_needed l1) p = Some n ->
  exists m, dget (calc_samples_needed (l1 ++ l2)) p = Some m /\ (n <= m)%nat.
Proof. intros V. exact calc_samples_app_mono. Qed.
Print Assumptions C06_samples_needed_grows.

Example C06_example :
  calc_samples_needed
    [ex_meas; ex_strs; SMeas (MeasSpec [("temp"%string, 2%nat); ("vth"%string, 7%nat)] [] "m2"); ex_meas]
  = [("vth"%string, 7%nat); ("temp"%string, 2%nat)].
Proof. reflexivity. Qed.

(** C07 *)
Theorem C07_full_iteration : forall V (s0 : iter_state V) (history : list (iter_op V)) fuel,
  let s := fold_left iter_do history s0 in
  (length (it_steps s) < fuel)%nat ->
  it_steps s = it_steps s0 ++ appended history /\
  for_loop fuel s = Some (it_steps s, StopIteration, IterState (it_steps s) None).
Proof. intros V s0 history fuel s H. exact (conj (iter_run_steps history s0) (for_loop_spec s fuel H)). Qed.
Print Assumptions C07_full_iteration.

Theorem C07_nested_iteration_fails : forall V (s : iter_state V) fuel,
  (length (it_steps s) < fuel)%nat ->
  forall xs e s', for_loop fuel s = Some (xs, e, s') -> ts_next s' = (Err AttributeError, s').
Proof. intros V. exact nested_iteration. Qed.
Print Assumptions C07_nested_iteration_fails.

(** An outer loop two steps in, then a complete inner loop, then the outer loop again. *)
Example C07_example_nested :
  let s0 := IterState [ex_meas; ex_strs; ex_meas] None in
  let s1 := snd (ts_nexts 2 (ts_iter s0)) in
  it_cur s1 = Some 2%nat /\
  match for_loop 4 s1 with
  | Some (xs, _, s2) => xs = [ex_meas; ex_strs; ex_meas] /\ fst (ts_next s2) = Err AttributeError
  | None => False
  end.
Proof. cbn. auto. Qed.

(** C08 *)
Theorem C08_strs_duration_td : forall us o,
  strs_duration (TD us) o = if Z.eqb us 0 then Err UserConfigError else Ok us.
Proof. exact strs_duration_td. Qed.
Print Assumptions C08_strs_duration_td.

Theorem C08_strs_duration_num : forall q o,
  (exists us, strs_duration (TN q) o = Ok us /\ us <> 0 /\
              exists n, In (o, n) documented_units /\ nearest_even (q * inject_Z n) us)
  \/ (strs_duration (TN q) o = Err UserConfigError /\
      ((forall n, ~ In (o, n) documented_units) \/
       exists n, In (o, n) documented_units /\ nearest_even (q * inject_Z n) 0)).
Proof. exact strs_duration_num. Qed.
Print Assumptions C08_strs_duration_num.

Example C08_example : strs_duration (TN (3 # 2)) (Some "h"%string) = Ok 5400000000.
Proof. vm_compute. reflexivity. Qed.
Example C08_example_zero : strs_duration (TN (1 # 2)) (Some "us"%string) = Err UserConfigError.
Proof. vm_compute. reflexivity. Qed.
Example C08_example_half_even : strs_duration (TN (3 # 2)) (Some "us"%string) = Ok 2.
Proof. vm_compute. reflexivity. Qed.

(** C09 *)
Theorem C09_own_lists_isolated : forall V fuel (pre post : list (heap_op V)) h1 h2 j,
  Forall own_list pre -> Forall own_list post ->
  heap_run fuel heap0 pre = Some h1 -> heap_run fuel h1 post = Some h2 ->
  (j < length (h_specs h1))%nat ->
  Forall (fun o => ~ touches j o) post ->
  view h2 j = view h1 j.
Proof. intros V. exact isolation. Qed.
Print Assumptions C09_own_lists_isolated.

Theorem C09_frame : forall V fuel (h : heap V) i a lp u h' j ri rj,
  refs_ok h -> heap_do fuel h (AppendTo i a lp u) = Some h' ->
  nth_error (h_specs h) i = Some ri -> nth_error (h_specs h) j = Some rj ->
  (rj <> ri -> view h' j = view h j) /\ (rj = ri -> view h' j = view h' i).
Proof. intros V. exact heap_append_frame. Qed.
Print Assumptions C09_frame.

(** Two TestSpecs built from one list: an append to the first shows in the second. *)
Theorem C09_shared_list_refuted : exists (ops : list (heap_op Q)) h0 h1,
  heap_run 0 heap0 ops = Some h0 /\
  heap_run 0 h0 [AppendTo 0 (One ex_strs) None None] = Some h1 /\
  view h0 1 = Some [ex_meas] /\ view h1 1 = Some [ex_meas; ex_strs].
Proof.
  exists [NewList [ex_meas]; NewSpec (Some 0%nat); NewSpec (Some 0%nat)].
  eexists; eexists. repeat split; reflexivity.
Qed.
Print Assumptions C09_shared_list_refuted.

Example C09_example_isolated : exists h1 h2,
  heap_run 0 heap0 [NewSpec None; NewSpec None; AppendTo 1 (One ex_meas) None None] = Some h1 /\
  heap_run 0 h1 [AppendTo 0 (One ex_strs) None None] = Some h2 /\
  view h1 1 = Some [ex_meas] /\ view h2 1 = Some [ex_meas] /\ view h2 0 = Some [ex_strs].
Proof. eexists; eexists. repeat split; reflexivity. Qed.

(** C10 (exact arithmetic; binary64 version in T_Float.v) *)
Theorem C10_units_accepted : forall o t,
  (forall n, ~ In (o, n) documented_units) -> convert_time t o = Err UserConfigError.
Proof. intros o t. exact (convert_time_err t o). Qed.
Print Assumptions C10_units_accepted.

Theorem C10_to_number : forall us o n, In (o, n) documented_units ->
  exists q, convert_time (TD us) o = Ok (TN q) /\ (q * inject_Z n == inject_Z us)%Q.
Proof. exact convert_time_td. Qed.
Print Assumptions C10_to_number.

Theorem C10_to_timedelta : forall q o n, In (o, n) documented_units ->
  exists us, convert_time (TN q) o = Ok (TD us) /\ nearest_even (q * inject_Z n) us.
Proof. exact convert_time_num. Qed.
Print Assumptions C10_to_timedelta.

Theorem C10_round_trip : forall us o n, In (o, n) documented_units ->
  rbind (convert_time (TD us) o) (fun t => convert_time t o) = Ok (TD us).
Proof. exact convert_time_round_trip. Qed.
Print Assumptions C10_round_trip.

Example C10_example : convert_time (TD 5400000000) (Some "d"%string) = Ok (TN (td_to_num UDays 5400000000))
  /\ (td_to_num UDays 5400000000 == 1 # 16)%Q.
Proof. split; [reflexivity|vm_compute; reflexivity]. Qed.
