(** Property theorems C04 and C10 in binary64 arithmetic. *)
From Verif Require Import M_Base M_Time S_Time L_Time M_TestSpec S_TestSpec L_TestSpec M_FloatTime L_FloatTime.
Open Scope Z_scope.

(** C04: the warning is raised exactly when the floating point quotient of the
    appended time by the requested duration is not an integer, and the steps
    appended are the same either way. *)
Lemma warning_float V (old : list (step V)) a d u dur :
  plain a -> requested d u dur -> dur <> 0 -> 0 < stress_time (items a) -> Z.abs dur <= 2 ^ 67 ->
  exists n, whole_cycles (stress_time (items a)) dur n /\
    (stress_time (cycles n (items a)) < 2 ^ 53 ->
     exists fuel0, forall fuel, (fuel0 <= fuel)%nat ->
      exists out, append_steps fuel old a (Some d) u = Some (old ++ cycles n (items a), out) /\
        (out = Err UserWarningE <-> ~ quot_is_integer_f (stress_time (cycles n (items a))) dur) /\
        (out = Ok tt <-> quot_is_integer_f (stress_time (cycles n (items a))) dur)).
Proof.
  intros Hp Hr Hn Hc Hd.
  destruct (looped_append_main old a d u dur Hp Hr Hn Hc) as (n & Hw & _ & f0 & Hrun).
  exists n. split; auto. intros Hb. exists f0. intros fuel Hf.
  destruct (Hrun fuel Hf) as (out & E & Hor & Hiff). exists out. split; auto.
  assert (0 <= stress_time (cycles n (items a))) by (rewrite stress_time_cycles; lia).
  rewrite (float_quotient_integer _ dur Hn Hd) by lia. split; auto.
  split.
  - intros Ho. rewrite Ho in Hiff.
    destruct (Znumtheory.Zdivide_dec dur (stress_time (cycles n (items a)))) as [|Hnd]; auto.
    apply Hiff in Hnd. discriminate.
  - intros Hdv. destruct Hor as [|Ho]; auto. apply Hiff in Ho. contradiction.
Qed.

Theorem C04_warning_exact : forall V (old : list (step V)) a d u dur,
  plain a -> requested d u dur -> dur <> 0 -> 0 < stress_time (items a) -> Z.abs dur <= 2 ^ 67 ->
  exists n, whole_cycles (stress_time (items a)) dur n /\
    (stress_time (cycles n (items a)) < 2 ^ 53 ->
     exists fuel0, forall fuel, (fuel0 <= fuel)%nat ->
      exists out, append_steps fuel old a (Some d) u = Some (old ++ cycles n (items a), out) /\
        (out = Err UserWarningE <-> ~ quot_is_integer_f (stress_time (cycles n (items a))) dur) /\
        (out = Ok tt <-> quot_is_integer_f (stress_time (cycles n (items a))) dur)).
Proof. exact warning_float. Qed.
Print Assumptions C04_warning_exact.

Theorem C04_float_quotient : forall t d, d <> 0 -> Z.abs d <= 2 ^ 67 -> Z.abs t < 2 ^ 53 ->
  (quot_is_integer_f t d <-> (d | t)).
Proof. exact float_quotient_integer. Qed.
Print Assumptions C04_float_quotient.

(** Beyond 285 years the float test accepts a non-multiple. *)
Theorem C04_float_unbounded_refuted : exists t d,
  0 < d /\ d < t /\ quot_is_integer_f t d /\ ~ (d | t).
Proof. exists (2 ^ 54 + 1), (2 ^ 54). split; [|split; [|exact float_quotient_large]]; reflexivity. Qed.
Print Assumptions C04_float_unbounded_refuted.

(** 100 h in 24 h cycles: 120 h appended, quotient 1.2; well within the bounds. *)
Example C04_example : 120 * 3600000000 < 2 ^ 53 /\ ~ (100 * 3600000000 | 120 * 3600000000).
Proof. split; [reflexivity|]. intros [m Hm]. lia. Qed.

(** C10: the binary64 round trip is exact up to 2^50 microseconds. *)
Theorem C10_float_round_trip : forall u us, Z.abs us <= 2 ^ 50 ->
  num_to_td_f u (td_to_num_f u us) = us.
Proof. exact float_round_trip. Qed.
Print Assumptions C10_float_round_trip.

Example C10_float_example : Z.abs (30 * 365 * 86400000000 + 1) <= 2 ^ 50.
Proof. vm_compute. discriminate. Qed.
