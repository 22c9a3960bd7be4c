(** Properties of the prebuilt high temperature operating life test: C53, C54. *)
From Coq Require Import QArith Znumtheory.
From Verif Require Import M_Base M_Num M_Time L_Time M_TestSpec S_TestSpec L_TestSpec M_Cookbook S_Cookbook L_Cookbook.
Open Scope Z_scope.

(** ** C53 *)

(** Whenever [htol] returns a test: its stress adds up to exactly the requested
    hours, its first and last steps measure everything at 25 degrees and nominal
    voltage, and the chip and lot counts are those given. *)
Theorem C53_total_stress : forall V (O : NumOps V) fuel m v k i d c l t test,
  htol (V := V) fuel m v k i d c l t = Some (Ok test) ->
  stress_time (t_steps test) = d * hour /\
  (exists r mid e, t_steps test = r :: mid ++ [e] /\ measures_at m (nofQ 25) v r /\ measures_at m (nofQ 25) v e) /\
  t_chps test = c /\ t_lots test = l.
Proof.
  intros V O fuel m v k i d c l t test E.
  destruct (Z.eq_dec d 0) as [->|D]; [rewrite htol_zero in E; discriminate|].
  destruct (Z_le_gt_dec d i) as [L|L].
  - destruct (htol_single fuel m v k i d c l t D L) as (r & s & e & E' & R & S & F). rewrite E' in E. injection E as <-. cbn [t_steps t_chps t_lots].
    split; [|split; [|auto]].
    + destruct R as (? & -> & _), S as (sx & -> & X & _), F as (? & -> & _). unfold stress_time. cbn [map step_time total]. rewrite X. lia.
    + exists r, [s], e. auto.
  - destruct (Z.eq_dec i 0) as [->|Ni]; [rewrite htol_interval_zero in E by lia; discriminate|].
    destruct (Zdivide_dec i d) as [Dv|Dv]; [|rewrite htol_nondivisor_any in E by (auto; lia); discriminate].
    destruct (Z_lt_le_dec d 0) as [Ld|Ld].
    { exfalso. apply Z.divide_abs_l, Z.divide_abs_r in Dv. apply Z.divide_pos_le in Dv; lia. }
    destruct (Z_lt_le_dec i 0) as [Li|Li]; [rewrite htol_negative in E by (auto; lia); discriminate|].
    destruct Dv as [n ->].
    destruct (htol_periodic m v k i (n * i) c l t n) as (r & b & s & p & e & fuel0 & E' & R & B & S & P & F); [lia|nia|auto|].
    assert (G : htol (V := V) (max fuel fuel0) m v k i (n * i) c l t = Some (Ok test)).
    { revert E. unfold htol. rewrite strs_dur_hours by lia. destruct (Z.leb_spec (n * i) i); [auto|]. destruct (Z.eqb_spec i 0); [auto|].
      destruct (_ =? 0); [|auto]. match goal with |- match append_steps fuel ?a ?b ?cc ?dd with _ => _ end = _ -> _ => destruct (append_steps fuel a b cc dd) as [x|] eqn:A; [|discriminate] end.
      eapply append_steps_mono_le in A; [rewrite A; auto|lia]. }
    rewrite E' in G by lia. injection G as <-. cbn [t_steps t_chps t_lots]. split; [|split; [|auto]].
    + replace (r :: b :: cycles (Z.to_nat n) [s; p] ++ [e]) with ([r; b] ++ cycles (Z.to_nat n) [s; p] ++ [e]) by reflexivity.
      rewrite !stress_time_app, stress_time_cycles, Z2Nat.id by nia.
      destruct R as (? & -> & _), B as (? & -> & _), S as (sx & -> & X & _), P as (? & -> & _), F as (? & -> & _).
      unfold stress_time. cbn [map step_time total]. rewrite X. lia.
    + exists r, (b :: cycles (Z.to_nat n) [s; p]), e. auto.
Qed.
Print Assumptions C53_total_stress.

(** An interval of at least the duration: one stress step only. *)
Theorem C53_single_stress : forall V (O : NumOps V) fuel m v k i d c l t, d <> 0 -> d <= i ->
  exists r s e, htol (V := V) fuel m v k i d c l t = Some (Ok (TestSpec [r; s; e] c l)) /\
    measures_at m (nofQ 25) v r /\ stresses_at t (nmul v k) (d * hour) s /\ measures_at m (nofQ 25) v e.
Proof. intros V O. exact htol_single. Qed.
Print Assumptions C53_single_stress.

(** A smaller interval dividing the duration [n] times: a measurement at stress
    conditions, then [n] times a stress of one interval followed by such a
    measurement.  The construction ends, given enough rounds. *)
Theorem C53_periodic_stress : forall V (O : NumOps V) m v k i d c l t n, 0 < i -> 1 < n -> d = n * i ->
  exists (r b s p e : step V) fuel0, (forall fuel, (fuel0 <= fuel)%nat ->
    htol (V := V) fuel m v k i d c l t = Some (Ok (TestSpec (r :: b :: cycles (Z.to_nat n) [s; p] ++ [e]) c l))) /\
    measures_at m (nofQ 25) v r /\ measures_at m t (nmul v k) b /\ stresses_at t (nmul v k) (i * hour) s /\
    measures_at m t (nmul v k) p /\ measures_at m (nofQ 25) v e.
Proof. intros V O. exact htol_periodic. Qed.
Print Assumptions C53_periodic_stress.

(** Every 250 of 1000 hours, and the default of one stress step. *)
Example C53_example : exists test, htol 10 [("vth"%string, 3%nat)] 1%Q (12 # 10)%Q 250 1000 77 3 125%Q = Some (Ok test) /\
  length (t_steps test) = 11%nat /\ map step_time (t_steps test) = [0; 0; 250 * hour; 0; 250 * hour; 0; 250 * hour; 0; 250 * hour; 0; 0] /\
  nth_error (t_steps test) 3 = Some (SMeas (MeasSpec [("vth"%string, 3%nat)] [("temp"%string, (7963 # 20)%Q); ("vdd"%string, (6 # 5)%Q)] "Stress Temp Measurement")).
Proof. vm_compute. eexists. repeat split. Qed.
Example C53_example_default : exists test, htol 0 [("vth"%string, 3%nat)] 1%Q (12 # 10)%Q 1000 1000 77 3 125%Q = Some (Ok test) /\
  map step_time (t_steps test) = [0; 1000 * hour; 0].
Proof. vm_compute. eexists. repeat split. Qed.

(** ** C54 *)

(** An interval below the duration that does not divide it is rejected, negative
    ones too. *)
Theorem C54_nondivisor : forall V (O : NumOps V) fuel m v k i d c l t,
  i <> 0 -> i < d -> d <> 0 -> ~ (i | d) -> htol (V := V) fuel m v k i d c l t = Some (Err UserConfigError).
Proof. intros V O. exact htol_nondivisor_any. Qed.
Print Assumptions C54_nondivisor.

Theorem C54_zero_interval : forall V (O : NumOps V) fuel m v k d c l t,
  0 < d -> htol (V := V) fuel m v k 0 d c l t = Some (Err ZeroDivisionError).
Proof. intros V O. exact htol_interval_zero. Qed.
Print Assumptions C54_zero_interval.

(** A duration of 0 is rejected whatever the interval. *)
Theorem C54_zero_duration : forall V (O : NumOps V) fuel m v k i c l t,
  htol (V := V) fuel m v k i 0 c l t = Some (Err UserConfigError).
Proof. intros V O. exact htol_zero. Qed.
Print Assumptions C54_zero_duration.

(** A negative interval that divides a positive duration: [htol] never returns. *)
Theorem C54_negative_interval_hangs : forall V (O : NumOps V) m v k i d c l t,
  i < 0 -> 0 < d -> (i | d) -> forall fuel, htol (V := V) fuel m v k i d c l t = None.
Proof. intros V O. exact htol_negative. Qed.
Print Assumptions C54_negative_interval_hangs.

(** Exactly when a test is returned (for some number of rounds). *)
Theorem C54_returns_iff : forall V (O : NumOps V) m v k i d c l t,
  (exists fuel test, htol (V := V) fuel m v k i d c l t = Some (Ok test)) <-> d <> 0 /\ (d <= i \/ 0 < i /\ (i | d)).
Proof.
  intros V O m v k i d c l t. split.
  - intros (fuel & test & E). destruct (Z.eq_dec d 0) as [->|D]; [rewrite htol_zero in E; discriminate|]. split; auto.
    destruct (Z_le_gt_dec d i) as [L|L]; [auto|]. right.
    destruct (Z.eq_dec i 0) as [->|Ni].
    { unfold htol in E. rewrite strs_dur_hours in E by auto. destruct (Z.leb_spec d 0); [lia|discriminate]. }
    destruct (Zdivide_dec i d) as [Dv|Dv]; [|rewrite htol_nondivisor_any in E by (auto; lia); discriminate]. split; auto.
    destruct (Z_lt_le_dec 0 i) as [Li|Li]; auto. exfalso. destruct (Z_lt_le_dec d 0).
    { apply Z.divide_abs_l, Z.divide_abs_r in Dv. apply Z.divide_pos_le in Dv; lia. }
    rewrite htol_negative in E by (auto; lia). discriminate.
  - intros (D & [L|[L [n ->]]]).
    + destruct (htol_single 0 m v k i d c l t D L) as (r & s & e & E & _). eauto.
    + destruct (Z_le_gt_dec (n * i) i) as [L2|L2].
      * destruct (htol_single 0 m v k i (n * i) c l t D L2) as (r & s & e & E & _). eauto.
      * destruct (htol_periodic m v k i (n * i) c l t n) as (r & b & s & p & e & fuel0 & E & _); [lia|nia|auto|]. exists fuel0. eauto.
Qed.
Print Assumptions C54_returns_iff.

Example C54_example :
  htol 50 [("vth"%string, 3%nat)] 1%Q (12 # 10)%Q 300 1000 77 3 125%Q = Some (Err UserConfigError) /\
  htol 50 [("vth"%string, 3%nat)] 1%Q (12 # 10)%Q 0 1000 77 3 125%Q = Some (Err ZeroDivisionError) /\
  htol 50 [("vth"%string, 3%nat)] 1%Q (12 # 10)%Q (-250) 1000 77 3 125%Q = None /\
  htol 50 [("vth"%string, 3%nat)] 1%Q (12 # 10)%Q (-3) 0 77 3 125%Q = Some (Err UserConfigError) /\ (-250 | 1000) /\ ~ (300 | 1000).
Proof.
  repeat split; try (vm_compute; reflexivity).
  - exists (-4). reflexivity.
  - intros [z Hz]. lia.
Qed.
