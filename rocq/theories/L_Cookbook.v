(** Lemmas about the prebuilt tests. *)
From Coq Require Import QArith.
From Verif Require Import M_Base M_Num M_Time S_Time L_Time M_TestSpec S_TestSpec L_TestSpec M_Cookbook S_Cookbook.
Open Scope Z_scope.

Section L.
Context {V : Type} {O : NumOps V}.

Lemma cycles_In (s : step V) n l : In s (cycles n l) -> In s l.
Proof. induction n; cbn [cycles]; [intros []|]. rewrite in_app_iff. intuition auto. Qed.

Lemma htol_zero fuel m v k i c l t : htol (V := V) fuel m v k i 0 c l t = Some (Err UserConfigError).
Proof. reflexivity. Qed.

Lemma strs_dur_hours d : d <> 0 -> strs_duration (TD (hours d)) None = Ok (hours d).
Proof. intros N. rewrite strs_duration_td. destruct (Z.eqb_spec (hours d) 0); auto. unfold hours in *. lia. Qed.

(** Interval at least the duration *)
Lemma htol_single fuel m v k i d c l t : d <> 0 -> d <= i ->
  exists r s e, htol (V := V) fuel m v k i d c l t = Some (Ok (TestSpec [r; s; e] c l)) /\
    measures_at m (nofQ 25) v r /\ stresses_at t (nmul v k) (d * hour) s /\ measures_at m (nofQ 25) v e.
Proof.
  intros N L. unfold htol. rewrite strs_dur_hours by auto. apply Z.leb_le in L. rewrite L. cbn [add_once app].
  do 3 eexists. split; [reflexivity|]. split; [|split]; eexists; repeat split.
Qed.

Lemma htol_nondivisor fuel m v k i d c l t : 0 < i < d -> ~ (i | d) ->
  htol (V := V) fuel m v k i d c l t = Some (Err UserConfigError).
Proof.
  intros [P L] N. unfold htol. rewrite strs_dur_hours by lia. destruct (Z.leb_spec d i); [lia|]. destruct (Z.eqb_spec i 0); [lia|].
  destruct (Z.eqb_spec (d mod i) 0) as [E|E]; auto. exfalso. apply N. now apply Z.mod_divide.
Qed.
Lemma htol_nondivisor_any fuel m v k i d c l t : i <> 0 -> i < d -> d <> 0 -> ~ (i | d) ->
  htol (V := V) fuel m v k i d c l t = Some (Err UserConfigError).
Proof.
  intros P L D N. unfold htol. rewrite strs_dur_hours by lia. destruct (Z.leb_spec d i); [lia|]. destruct (Z.eqb_spec i 0); [lia|].
  destruct (Z.eqb_spec (d mod i) 0) as [E|E]; auto. exfalso. apply N. now apply Z.mod_divide.
Qed.
Lemma htol_interval_zero fuel m v k d c l t : 0 < d ->
  htol (V := V) fuel m v k 0 d c l t = Some (Err ZeroDivisionError).
Proof. intros L. unfold htol. rewrite strs_dur_hours by lia. destruct (Z.leb_spec d 0); [lia|]. reflexivity. Qed.

Lemma loop_dur_hours d : loop_duration (TN (inject_Z d)) None = Ok (d * hour).
Proof.
  unfold loop_duration, convert_time. cbn [unit_map rbind]. f_equal. unfold num_to_td. apply round_half_even_int.
  cbn [us_per]. rewrite <- inject_Z_mult. reflexivity.
Qed.

Lemma htol_negative m v k i d c l t : i < 0 -> 0 < d -> (i | d) ->
  forall fuel, htol (V := V) fuel m v k i d c l t = None.
Proof.
  intros P L D fuel. unfold htol. rewrite strs_dur_hours by lia. destruct (Z.leb_spec d i); [lia|]. destruct (Z.eqb_spec i 0); [lia|].
  apply Z.mod_divide in D; [|lia]. rewrite D. cbn [Z.eqb].
  rewrite (append_diverges _ _ _ _ (d * hour) fuel); auto; unfold hour; try exact I; try lia.
  - apply loop_dur_hours.
  - unfold stress_time. cbn [items map step_time total ss_dur]. unfold hours. lia.
Qed.

Lemma htol_periodic m v k i d c l t n : 0 < i -> 1 < n -> d = n * i ->
  exists (r b s p e : step V) fuel0, (forall fuel, (fuel0 <= fuel)%nat ->
    htol (V := V) fuel m v k i d c l t = Some (Ok (TestSpec (r :: b :: cycles (Z.to_nat n) [s; p] ++ [e]) c l))) /\
    measures_at m (nofQ 25) v r /\ measures_at m t (nmul v k) b /\ stresses_at t (nmul v k) (i * hour) s /\
    measures_at m t (nmul v k) p /\ measures_at m (nofQ 25) v e.
Proof.
  intros P N ->.
  set (S := SStrs (StrsSpec (htol_conds t (nmul v k)) (hours i) "HTOL Stress") : step V).
  set (P' := SMeas (MeasSpec m (htol_conds t (nmul v k)) "Stress Temp Measurement") : step V).
  set (R := SMeas (MeasSpec m (htol_conds (nofQ 25) v) "Room Temp Measurement") : step V).
  assert (T : stress_time (items (Many [S; P'])) = i * hour) by (unfold stress_time; cbn [items map step_time total ss_dur S P']; unfold hours, hour; lia).
  destruct (append_looped [R; P'] (Many [S; P']) (TN (inject_Z (n * i))) None (n * i * hour)) as (n' & fuel0 & W & F).
  - exact I.
  - reflexivity.
  - apply loop_dur_hours.
  - unfold hour. nia.
  - rewrite T. unfold hour. lia.
  - assert (n' = Z.to_nat n).
    { apply (whole_cycles_unique (i * hour) (n * i * hour)); [unfold hour; lia|now rewrite <- T|]. right. rewrite Z2Nat.id by lia. unfold hour. nia. }
    subst n'. exists R, P', S, P', R, fuel0. split.
    + intros fuel Hf. unfold htol. rewrite strs_dur_hours by nia. destruct (Z.leb_spec (n * i) i); [nia|]. destruct (Z.eqb_spec i 0); [lia|].
      rewrite Z_mod_mult. cbn [Z.eqb add_once]. cbn [app].
      fold S P' R. rewrite F by exact Hf. rewrite T, Z2Nat.id by lia.
      replace (n * (i * hour)) with (1 * (n * i * hour)) by lia. rewrite Z_mod_mult. cbn [Z.eqb add_once items app].
      reflexivity.
    + repeat split; eexists; repeat split.
Qed.
End L.
