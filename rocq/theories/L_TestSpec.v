(** Proofs about test specifications. *)
From Verif Require Import M_Base L_Base M_Time S_Time L_Time M_TestSpec S_TestSpec.
From Coq Require Import ZifyBool Permutation.
Ltac Zify.zify_post_hook ::= Z.div_mod_to_equations.
Open Scope Z_scope.

Section Lemmas.
Context {V : Type}.
Implicit Types (l old : list (step V)) (s : step V) (a : to_add V).

Lemma add_once_items old a : add_once old a = old ++ items a.
Proof. destruct a; reflexivity. Qed.

Lemma fold_time l t :
  fold_left (fun t s => match s with SStrs x => t + ss_dur x | _ => t end) l t = t + stress_time l.
Proof.
  revert t. induction l as [|s r IH]; intros t; cbn [fold_left].
  - unfold stress_time; cbn; lia.
  - rewrite IH. unfold stress_time. cbn [map total]. destruct s; cbn [step_time]; lia.
Qed.

Lemma add_time_plain t a :
  plain a -> only_meas a = false -> add_time t a = Ok (t + stress_time (items a)).
Proof.
  destruct a as [s|l]; cbn [add_time items].
  - destruct s; cbn; try easy. intros _ _. unfold stress_time; cbn. f_equal; lia.
  - intros _ _. now rewrite fold_time.
Qed.

Lemma cycles_S_end n l : cycles (S n) l = cycles n l ++ l.
Proof.
  induction n as [|n IH]; cbn [cycles].
  - now rewrite app_nil_r.
  - cbn [cycles] in IH. rewrite IH at 1. now rewrite app_assoc.
Qed.

Lemma stress_time_app l1 l2 : stress_time (l1 ++ l2) = stress_time l1 + stress_time l2.
Proof.
  unfold stress_time. rewrite map_app. induction (map step_time l1) as [|z r IH]; cbn [total app]; lia.
Qed.

Lemma stress_time_cycles n l : stress_time (cycles n l) = Z.of_nat n * stress_time l.
Proof.
  induction n as [|n IH]; cbn [cycles]; [reflexivity|]. rewrite stress_time_app, IH. lia.
Qed.

(** The loop from any intermediate point. *)
Lemma append_loop_spec fuel : forall steps t a dur,
  plain a -> only_meas a = false ->
  let c := stress_time (items a) in
  (0 < c -> t < dur -> dur <= t + Z.of_nat fuel * c ->
   exists n : nat, append_loop fuel steps t a dur = Some (steps ++ cycles n (items a), Ok (t + Z.of_nat n * c))
             /\ t + (Z.of_nat n - 1) * c < dur <= t + Z.of_nat n * c).
Proof.
  induction fuel as [|fuel IH]; intros steps t a dur Hp Hm c Hc Ht Hf; cbn [append_loop].
  - exfalso. lia.
  - destruct (t <? dur) eqn:E; [|lia].
    rewrite (add_time_plain t a Hp Hm). fold c. rewrite add_once_items.
    destruct (Z_lt_ge_dec (t + c) dur) as [Hlt|Hge].
    + specialize (IH (steps ++ items a) (t + c) a dur Hp Hm). fold c in IH.
      destruct IH as (n & Hrun & Hb); try lia.
      exists (S n). rewrite Hrun. cbn [cycles]. rewrite <- app_assoc. split.
      * do 2 f_equal. f_equal. lia.
      * lia.
    + exists 1%nat. destruct fuel; cbn [append_loop];
        (replace (t + c <? dur) with false by lia);
        cbn [cycles]; rewrite app_nil_r; split; try lia; do 3 f_equal; lia.
Qed.

Lemma append_loop_done fuel steps t a dur :
  dur <= t -> append_loop fuel steps t a dur = Some (steps, Ok t).
Proof. intros H. destruct fuel; cbn [append_loop]; now replace (t <? dur) with false by lia. Qed.

Lemma append_loop_none fuel : forall steps t a dur,
  plain a -> only_meas a = false -> stress_time (items a) <= 0 -> t < dur ->
  append_loop fuel steps t a dur = None.
Proof.
  induction fuel as [|fuel IH]; intros steps t a dur Hp Hm Hc Ht; cbn [append_loop];
    replace (t <? dur) with true by lia; auto.
  rewrite (add_time_plain t a Hp Hm). apply IH; auto. lia.
Qed.

Lemma append_loop_mono fuel : forall steps t a dur r,
  append_loop fuel steps t a dur = Some r -> append_loop (S fuel) steps t a dur = Some r.
Proof.
  induction fuel as [|fuel IH]; intros steps t a dur r H; cbn [append_loop] in *.
  - destruct (t <? dur); [discriminate|]. auto.
  - destruct (t <? dur); [|exact H]. destruct (add_time t a) as [t'|e]; [|exact H].
    exact (IH _ _ _ _ _ H).
Qed.

Lemma append_steps_mono fuel steps a lp u r :
  append_steps fuel steps a lp u = Some r -> append_steps (S fuel) steps a lp u = Some r.
Proof.
  unfold append_steps. destruct lp as [d|]; auto.
  destruct (loop_duration d u) as [dur|e]; auto.
  destruct (dur =? 0); auto. destruct (only_meas a); auto.
  destruct (append_loop fuel steps 0 a dur) as [[l rr]|] eqn:E; [|discriminate].
  now rewrite (append_loop_mono _ _ _ _ _ _ E).
Qed.

Lemma append_steps_mono_le f g steps a lp u r :
  (f <= g)%nat -> append_steps f steps a lp u = Some r -> append_steps g steps a lp u = Some r.
Proof. induction 1; auto. intros H1. apply append_steps_mono; auto. Qed.

(** C01 *)
Lemma append_no_loop fuel old a u :
  append_steps fuel old a None u = Some (old ++ items a, Ok tt).
Proof. unfold append_steps. now rewrite add_once_items. Qed.

(** C02/C04 combined: enough fuel gives the characterised result. *)
Lemma append_looped old a d u dur :
  plain a -> only_meas a = false -> loop_duration d u = Ok dur -> dur <> 0 ->
  0 < stress_time (items a) ->
  exists n fuel0, whole_cycles (stress_time (items a)) dur n /\
    forall fuel, (fuel0 <= fuel)%nat ->
      append_steps fuel old a (Some d) u =
      Some (old ++ cycles n (items a),
            if (Z.of_nat n * stress_time (items a)) mod dur =? 0 then Ok tt else Err UserWarningE).
Proof.
  intros Hp Hm Hd Hn0 Hc. set (c := stress_time (items a)) in *.
  destruct (Z_le_gt_dec dur 0) as [Hle|Hgt].
  - exists 0%nat, 0%nat. split; [left; lia|]. intros fuel _.
    unfold append_steps. rewrite Hd. replace (dur =? 0) with false by lia. rewrite Hm.
    rewrite append_loop_done by lia. cbn [cycles Z.of_nat]. rewrite app_nil_r.
    replace (0 mod dur =? 0) with true by (rewrite Zmod_0_l; reflexivity).
    replace ((0 * c) mod dur =? 0) with true by (rewrite Z.mul_0_l, Zmod_0_l; reflexivity).
    reflexivity.
  - destruct (append_loop_spec (Z.to_nat dur) old 0 a dur Hp Hm) as (n & Hrun & Hb).
    1-2: fold c; lia. { fold c. nia. }
    fold c in Hrun, Hb. exists n, (Z.to_nat dur). split; [right; lia|].
    intros fuel Hf. apply (append_steps_mono_le (Z.to_nat dur)); auto.
    unfold append_steps. rewrite Hd. replace (dur =? 0) with false by lia. rewrite Hm, Hrun.
    rewrite Z.add_0_l. destruct ((Z.of_nat n * c) mod dur =? 0); reflexivity.
Qed.

Lemma whole_cycles_unique c d n m : 0 < c -> whole_cycles c d n -> whole_cycles c d m -> n = m.
Proof.
  intros Hc [[A1 A2]|[A1 A2]] [[B1 B2]|[B1 B2]]; try lia.
  assert (Z.of_nat n - 1 < Z.of_nat m) by (apply (Z.mul_lt_mono_pos_r c); lia).
  assert (Z.of_nat m - 1 < Z.of_nat n) by (apply (Z.mul_lt_mono_pos_r c); lia). lia.
Qed.

Lemma append_diverges old a d u dur fuel :
  plain a -> only_meas a = false -> loop_duration d u = Ok dur -> 0 < dur ->
  stress_time (items a) <= 0 -> append_steps fuel old a (Some d) u = None.
Proof.
  intros Hp Hm Hd Hn Hc. unfold append_steps. rewrite Hd. replace (dur =? 0) with false by lia.
  rewrite Hm. now rewrite append_loop_none.
Qed.

Lemma append_neg_duration old a d u dur fuel :
  only_meas a = false -> loop_duration d u = Ok dur -> dur < 0 ->
  append_steps fuel old a (Some d) u = Some (old, Ok tt).
Proof.
  intros Hm Hd Hn. unfold append_steps. rewrite Hd. replace (dur =? 0) with false by lia.
  rewrite Hm, append_loop_done by lia. replace (0 mod dur =? 0) with true by (rewrite Zmod_0_l; reflexivity).
  reflexivity.
Qed.

(** C05 *)
Lemma append_terminates_iff old a d u dur :
  plain a -> only_meas a = false -> loop_duration d u = Ok dur -> dur <> 0 ->
  (exists fuel r, append_steps fuel old a (Some d) u = Some r) <->
  (dur < 0 \/ 0 < stress_time (items a)).
Proof.
  intros Hp Hm Hd Hn. split.
  - intros (fuel & r & H). destruct (Z_lt_ge_dec dur 0) as [|Hge]; [now left|].
    destruct (Z_lt_ge_dec 0 (stress_time (items a))) as [|Hc]; [now right|].
    rewrite (append_diverges old a d u dur fuel) in H; auto; [discriminate|lia|lia].
  - intros [Hneg|Hpos].
    + exists 0%nat. eexists. eapply append_neg_duration; eauto.
    + destruct (append_looped old a d u dur) as (n & f0 & _ & H); auto.
      exists f0. eexists. apply H. lia.
Qed.

(** C03 *)
Lemma append_zero_duration old a d u fuel :
  loop_duration d u = Ok 0 -> append_steps fuel old a (Some d) u = Some (old, Err UserConfigError).
Proof. intros Hd. unfold append_steps. now rewrite Hd. Qed.

Lemma append_only_meas old a d u dur fuel :
  loop_duration d u = Ok dur ->
  (forall s, In s (items a) -> is_meas s = true) ->
  append_steps fuel old a (Some d) u = Some (old, Err UserConfigError).
Proof.
  intros Hd H. unfold append_steps. rewrite Hd.
  assert (only_meas a = true) as ->.
  { destruct a as [s|l]; cbn in *; [apply H; now left|]. apply forallb_forall; auto. }
  destruct (dur =? 0); reflexivity.
Qed.

Lemma append_bad_unit old a q u fuel :
  (forall n, ~ In (u, n) documented_units) ->
  append_steps fuel old a (Some (TN q)) u = Some (old, Err UserConfigError).
Proof.
  intros H. unfold append_steps, loop_duration. now rewrite convert_time_err.
Qed.

Lemma loop_duration_num q u n :
  In (u, n) documented_units ->
  exists us, loop_duration (TN q) u = Ok us /\ nearest_even (q * inject_Z n) us.
Proof.
  intros H. destruct (convert_time_num q u n H) as (us & H1 & H2).
  exists us. unfold loop_duration. now rewrite H1.
Qed.

Lemma requested_iff d u dur : loop_duration d u = Ok dur <-> requested d u dur.
Proof.
  destruct d as [us|q]; cbn [loop_duration requested].
  - split; [now inversion 1|now intros ->].
  - split.
    + unfold convert_time. destruct (unit_map u) as [x|] eqn:E; cbn [rbind]; [|discriminate].
      inversion 1; subst. exists (us_per x). split; [apply unit_map_documented; eauto|].
      apply round_half_even_spec.
    + intros (n & Hin & Hne). destruct (convert_time_num q u n Hin) as (us & H1 & H2).
      rewrite H1. cbn [rbind]. f_equal. eapply nearest_even_unique; eauto.
Qed.

Lemma only_meas_false a : has_stress_or_other (items a) <-> only_meas a = false.
Proof.
  unfold has_stress_or_other. destruct a as [s|l]; cbn [items only_meas].
  - split.
    + intros (x & [->|[]] & H). auto.
    + intros H. exists s. split; [now left|auto].
  - split.
    + intros (x & Hin & H). destruct (forallb is_meas l) eqn:E; auto.
      rewrite forallb_forall in E. rewrite E in H; auto.
    + intros H. induction l as [|x r IH]; cbn in H; [discriminate|].
      destruct (is_meas x) eqn:E.
      * destruct IH as (y & Hin & Hy); auto. exists y. split; [now right|auto].
      * exists x. split; [now left|auto].
Qed.

Lemma stress_pos_other l : stress_time l <> 0 -> has_stress_or_other l.
Proof.
  unfold stress_time, has_stress_or_other. induction l as [|s r IH]; cbn [map total]; [lia|].
  intros H. destruct s as [m|x|o].
  - cbn [step_time] in H. destruct IH as (y & Hy & E); [lia|]. exists y. split; [now right|auto].
  - eexists; split; [now left|reflexivity].
  - eexists; split; [now left|reflexivity].
Qed.

(** Statement forms used by the property theorems. *)
Lemma looped_append_main old a d u dur :
  plain a -> requested d u dur -> dur <> 0 -> 0 < stress_time (items a) ->
  exists n, whole_cycles (stress_time (items a)) dur n /\
    (forall m, whole_cycles (stress_time (items a)) dur m -> m = n) /\
    exists fuel0, forall fuel, (fuel0 <= fuel)%nat ->
      exists out, append_steps fuel old a (Some d) u = Some (old ++ cycles n (items a), out) /\
        (out = Ok tt \/ out = Err UserWarningE) /\
        (out = Err UserWarningE <-> ~ (dur | stress_time (cycles n (items a)))).
Proof.
  intros Hp Hr Hn Hc. apply requested_iff in Hr.
  assert (only_meas a = false) as Hm by (apply only_meas_false, stress_pos_other; lia).
  destruct (append_looped old a d u dur Hp Hm Hr Hn Hc) as (n & f0 & Hw & Hrun).
  exists n. split; [auto|split].
  - intros m Hm'. eapply whole_cycles_unique; eauto.
  - exists f0. intros fuel Hf. eexists; split; [now apply Hrun|].
    rewrite stress_time_cycles.
    destruct (Z.eqb_spec ((Z.of_nat n * stress_time (items a)) mod dur) 0) as [E|E]; split.
    + now left.
    + split; [discriminate|]. intros H. destruct H. now apply Z.mod_divide.
    + now right.
    + split; auto. intros _ H. apply E. now apply Z.mod_divide.
Qed.

Lemma rejected_append old a d u fuel :
  (exists q, d = TN q /\ forall n, ~ In (u, n) documented_units) \/
  requested d u 0 \/
  ((exists dur, requested d u dur) /\ forall s, In s (items a) -> is_meas s = true) ->
  append_steps fuel old a (Some d) u = Some (old, Err UserConfigError).
Proof.
  intros [(q & -> & H)|[H|((dur & H) & Hm)]].
  - now apply append_bad_unit.
  - apply append_zero_duration. now apply requested_iff.
  - eapply append_only_meas; eauto. apply requested_iff; eauto.
Qed.

Lemma terminates_main old a d u dur :
  plain a -> has_stress_or_other (items a) -> requested d u dur -> dur <> 0 ->
  ((exists fuel r, append_steps fuel old a (Some d) u = Some r) <->
   (dur < 0 \/ 0 < stress_time (items a))).
Proof.
  intros Hp Hm Hr Hn. apply append_terminates_iff; auto.
  - now apply only_meas_false.
  - now apply requested_iff.
Qed.

Lemma diverges_main old a d u dur :
  plain a -> has_stress_or_other (items a) -> requested d u dur -> 0 < dur ->
  stress_time (items a) <= 0 -> forall fuel, append_steps fuel old a (Some d) u = None.
Proof.
  intros Hp Hm Hr Hn Hc fuel. eapply append_diverges; eauto.
  - now apply only_meas_false.
  - now apply requested_iff.
Qed.

(** C06 *)
Definition bound_by (P : string -> nat -> Prop) (d : dict nat) : Prop :=
  dwf d /\ (forall p n, dget d p = Some n -> P p n) /\
  (forall p n, P p n -> exists m, dget d p = Some m /\ (n <= m)%nat).

Lemma need_prm_bound P d kv :
  bound_by P d -> bound_by (fun p n => P p n \/ (p, n) = kv) (need_prm d kv).
Proof.
  destruct kv as [k n]. intros (Hwf & Hatt & Hub). unfold need_prm; cbn [fst snd].
  destruct (dget d k) as [cur|] eqn:E.
  - destruct (Nat.ltb_spec cur n) as [Hlt|Hge].
    + split; [now apply dwf_dset|split].
      * intros p m' Hg. rewrite dget_dset in Hg. destruct (String.eqb_spec k p) as [->|].
        -- inversion Hg; subst. now right.
        -- left; auto.
      * intros p m' [Hp|Hp].
        -- destruct (Hub _ _ Hp) as (x & Hx & Hle). rewrite dget_dset.
           destruct (String.eqb_spec k p) as [->|]; [|eauto].
           exists n. split; auto. rewrite E in Hx. inversion Hx; subst. lia.
        -- inversion Hp; subst. exists n. rewrite dget_dset_eq. auto.
    + split; auto. split.
      * intros p m' Hg. left; auto.
      * intros p m' [Hp|Hp]; [eauto|]. inversion Hp; subst. exists cur. auto.
  - split; [now apply dwf_dset|split].
    + intros p m' Hg. rewrite dget_dset in Hg. destruct (String.eqb_spec k p) as [->|].
      * inversion Hg; subst. now right.
      * left; auto.
    + intros p m' [Hp|Hp].
      * destruct (Hub _ _ Hp) as (x & Hx & Hle). rewrite dget_dset.
        destruct (String.eqb_spec k p) as [->|]; [congruence|eauto].
      * inversion Hp; subst. exists n. rewrite dget_dset_eq. auto.
Qed.

Lemma bound_by_ext (P Q : string -> nat -> Prop) d :
  (forall p n, P p n <-> Q p n) -> bound_by P d -> bound_by Q d.
Proof.
  intros H (A & B & C). split; auto. split.
  - intros p n Hg. apply H, B, Hg.
  - intros p n Hq. apply C, H, Hq.
Qed.

Lemma need_meas_bound kvs : forall P d,
  bound_by P d -> bound_by (fun p n => P p n \/ In (p, n) kvs) (fold_left need_prm kvs d).
Proof.
  induction kvs as [|kv r IH]; intros P d H; cbn [fold_left].
  - eapply bound_by_ext; [|exact H]. cbn; tauto.
  - eapply bound_by_ext; [|apply IH, need_prm_bound, H]. cbn. intros p n.
    split; [intros [[?|?]|?]; auto|intros [?|[?|?]]; auto].
Qed.

Lemma need_steps_bound l : forall P d,
  bound_by P d -> bound_by (fun p n => P p n \/ requests l p n) (fold_left need_step l d).
Proof.
  induction l as [|s r IH]; intros P d H; cbn [fold_left].
  - eapply bound_by_ext; [|exact H]. unfold requests. cbn. intros p n. split; [auto|].
    intros [?|(m & [] & _)]; auto.
  - destruct s as [m|x|o]; cbn [need_step].
    + eapply bound_by_ext; [|apply IH, need_meas_bound, H]. unfold requests. cbn. intros p n. split.
      * intros [[?|?]|(m' & ? & ?)]; eauto.
      * intros [?|(m' & [Hm|?] & ?)]; eauto. inversion Hm; subst. auto.
    + eapply bound_by_ext; [|apply IH, H]. unfold requests. cbn. intros p n. split.
      * intros [?|(m' & ? & ?)]; eauto.
      * intros [?|(m' & [Hm|?] & ?)]; eauto. discriminate.
    + eapply bound_by_ext; [|apply IH, H]. unfold requests. cbn. intros p n. split.
      * intros [?|(m' & ? & ?)]; eauto.
      * intros [?|(m' & [Hm|?] & ?)]; eauto. discriminate.
Qed.

Lemma calc_samples_bound l : bound_by (requests l) (calc_samples_needed l).
Proof.
  eapply bound_by_ext; [|apply (need_steps_bound l (fun _ _ => False))].
  - intros p n. cbn. tauto.
  - split; [constructor|split]; [discriminate|tauto].
Qed.

Lemma calc_samples_max l p n :
  dget (calc_samples_needed l) p = Some n <->
  (requests l p n /\ forall m, requests l p m -> (m <= n)%nat).
Proof.
  destruct (calc_samples_bound l) as (_ & Hatt & Hub). split.
  - intros H. split; [auto|]. intros m Hm. destruct (Hub _ _ Hm) as (x & Hx & Hle).
    rewrite H in Hx. inversion Hx; subst. lia.
  - intros (Hr & Hmax). destruct (Hub _ _ Hr) as (x & Hx & Hle).
    assert (x <= n)%nat by (apply Hmax, Hatt, Hx). replace n with x by lia. auto.
Qed.

Lemma calc_samples_none l p :
  dget (calc_samples_needed l) p = None <-> forall n, ~ requests l p n.
Proof.
  destruct (calc_samples_bound l) as (_ & Hatt & Hub). split.
  - intros H n Hr. destruct (Hub _ _ Hr) as (x & Hx & _). congruence.
  - intros H. destruct (dget (calc_samples_needed l) p) as [n|] eqn:E; auto.
    exfalso. eapply H, Hatt, E.
Qed.

Lemma calc_samples_perm l1 l2 p :
  Permutation l1 l2 -> dget (calc_samples_needed l1) p = dget (calc_samples_needed l2) p.
Proof.
  intros HP.
  assert (forall n, requests l1 p n <-> requests l2 p n) as He.
  { intros n. split; intros (m & Hm & Hin); exists m; split; auto.
    - eapply Permutation_in; eauto.
    - eapply Permutation_in; [apply Permutation_sym; eauto|auto]. }
  destruct (dget (calc_samples_needed l1) p) as [n|] eqn:E.
  - apply calc_samples_max in E as (A & B). symmetry. apply calc_samples_max. split.
    + now apply He.
    + intros m Hm. apply B, He, Hm.
  - symmetry. apply calc_samples_none. intros n Hr. apply He in Hr.
    eapply calc_samples_none in E. eauto.
Qed.

Lemma calc_samples_app_mono l1 l2 p n :
  dget (calc_samples_needed l1) p = Some n ->
  exists m, dget (calc_samples_needed (l1 ++ l2)) p = Some m /\ (n <= m)%nat.
Proof.
  intros H. apply calc_samples_max in H as (Hr & _).
  destruct (calc_samples_bound (l1 ++ l2)) as (_ & _ & Hub). apply Hub.
  destruct Hr as (m & Hm & Hin). exists m. split; auto. apply in_or_app; auto.
Qed.

(** C07 *)
Lemma for_loop_from_spec : forall l pre fuel,
  (length l < fuel)%nat ->
  for_loop_from fuel (IterState (pre ++ l) (Some (length pre)))
  = Some (l, StopIteration, IterState (pre ++ l) None).
Proof.
  induction l as [|x r IH]; intros pre fuel Hf; destruct fuel as [|fuel]; cbn [length] in Hf; try lia.
  - cbn [for_loop_from]. unfold ts_next; cbn [it_cur it_steps].
    rewrite app_nil_r. replace (nth_error pre (length pre)) with (@None (step V)); auto.
    symmetry. apply nth_error_None. lia.
  - cbn [for_loop_from]. unfold ts_next at 1; cbn [it_cur it_steps].
    rewrite nth_error_app2, Nat.sub_diag by lia. cbn [nth_error].
    specialize (IH (pre ++ [x]) fuel). rewrite app_length, <- app_assoc in IH. cbn in IH.
    replace (S (length pre)) with (length pre + 1)%nat by lia. rewrite IH by lia. reflexivity.
Qed.

Lemma for_loop_spec (s : iter_state V) fuel :
  (length (it_steps s) < fuel)%nat ->
  for_loop fuel s = Some (it_steps s, StopIteration, IterState (it_steps s) None).
Proof. intros H. exact (for_loop_from_spec (it_steps s) [] fuel H). Qed.

Lemma iter_do_steps (s : iter_state V) o : it_steps (iter_do s o) = it_steps s ++ match o with OAppend l => l | _ => [] end.
Proof.
  destruct o; cbn [iter_do ts_iter it_steps]; rewrite ?app_nil_r; auto.
  unfold ts_next. destruct (it_cur s); auto. destruct (nth_error (it_steps s) n); auto.
Qed.

Definition appended (os : list (iter_op V)) : list (step V) :=
  concat (map (fun o => match o with OAppend l => l | _ => [] end) os).

Lemma iter_run_steps os : forall s : iter_state V, it_steps (fold_left iter_do os s) = it_steps s ++ appended os.
Proof.
  induction os as [|o r IH]; intros s; cbn [fold_left].
  - unfold appended; cbn. now rewrite app_nil_r.
  - rewrite IH, iter_do_steps. unfold appended. cbn [map concat]. now rewrite app_assoc.
Qed.

Lemma nested_iteration (s : iter_state V) fuel :
  (length (it_steps s) < fuel)%nat ->
  forall xs e (s' : iter_state V), for_loop fuel s = Some (xs, e, s') -> ts_next s' = (Err AttributeError, s').
Proof.
  intros Hf xs e s' H. rewrite for_loop_spec in H by auto. inversion H; subst. reflexivity.
Qed.

(** C09 *)
Lemma nth_error_set_nth_eq {A} (l : list A) i x :
  (i < length l)%nat -> nth_error (set_nth l i x) i = Some x.
Proof.
  revert i. induction l as [|y r IH]; intros [|i] H; cbn in *; try lia; auto. apply IH. lia.
Qed.

Lemma nth_error_set_nth_neq {A} (l : list A) i j x :
  i <> j -> nth_error (set_nth l i x) j = nth_error l j.
Proof.
  revert i j. induction l as [|y r IH]; intros [|i] [|j] H; cbn; auto; congruence.
Qed.

Lemma set_nth_length {A} (l : list A) i x : length (set_nth l i x) = length l.
Proof. revert i. induction l as [|y r IH]; intros [|i]; cbn; auto. Qed.

Definition refs_ok (h : heap V) : Prop :=
  forall i r, nth_error (h_specs h) i = Some r -> (r < length (h_lists h))%nat.

Lemma heap_do_refs_ok fuel h o h' : refs_ok h -> heap_do fuel h o = Some h' -> refs_ok h'.
Proof.
  unfold refs_ok. intros Hok H. destruct o as [l|[r|]|i a lp u]; cbn [heap_do] in H.
  - inversion H; subst; cbn. intros i r Hr. rewrite app_length. specialize (Hok _ _ Hr). cbn; lia.
  - destruct (Nat.ltb_spec r (length (h_lists h))); [|discriminate]. inversion H; subst; cbn.
    intros j r' Hr. destruct (Nat.lt_ge_cases j (length (h_specs h))) as [Hj|Hj].
    + rewrite nth_error_app1 in Hr by auto. eauto.
    + rewrite nth_error_app2 in Hr by auto. destruct (j - length (h_specs h))%nat as [|k]; cbn in Hr.
      * inversion Hr; subst; auto.
      * destruct k; discriminate.
  - inversion H; subst; cbn. intros j r' Hr. rewrite app_length; cbn.
    destruct (Nat.lt_ge_cases j (length (h_specs h))) as [Hj|Hj].
    + rewrite nth_error_app1 in Hr by auto. specialize (Hok _ _ Hr). lia.
    + rewrite nth_error_app2 in Hr by auto. destruct (j - length (h_specs h))%nat as [|k]; cbn in Hr.
      * inversion Hr; subst; lia.
      * destruct k; discriminate.
  - destruct (nth_error (h_specs h) i) as [r|] eqn:E; [|discriminate].
    destruct (nth_error (h_lists h) r) as [cur|]; [|discriminate].
    destruct (append_steps fuel cur a lp u) as [[l' rr]|]; [|discriminate].
    inversion H; subst; cbn. intros j r' Hr. rewrite set_nth_length. eauto.
Qed.

(** Frame: appending through one TestSpec changes exactly the TestSpecs that hold
    the same list object. *)
Lemma heap_append_frame fuel h i a lp u h' j ri rj :
  refs_ok h -> heap_do fuel h (AppendTo i a lp u) = Some h' ->
  nth_error (h_specs h) i = Some ri -> nth_error (h_specs h) j = Some rj ->
  (rj <> ri -> view h' j = view h j) /\ (rj = ri -> view h' j = view h' i).
Proof.
  intros Hok H Hi Hj. cbn [heap_do] in H. rewrite Hi in H.
  destruct (nth_error (h_lists h) ri) as [cur|] eqn:Ec; [|discriminate].
  destruct (append_steps fuel cur a lp u) as [[l' rr]|]; [|discriminate].
  inversion H; subst h'. unfold view; cbn [h_specs h_lists]. rewrite Hi, Hj. split.
  - intros Hn. now rewrite nth_error_set_nth_neq by auto.
  - now intros ->.
Qed.

(** Histories without shared lists: every TestSpec is built without a list. *)
Definition own_list (o : heap_op V) : Prop := match o with NewSpec (Some _) => False | _ => True end.

Definition refs_inj (h : heap V) : Prop := NoDup (h_specs h).

Lemma heap_do_inj fuel h o h' :
  refs_ok h -> refs_inj h -> own_list o -> heap_do fuel h o = Some h' -> refs_inj h'.
Proof.
  unfold refs_inj. intros Hok Hinj Ho H. destruct o as [l|[r|]|i a lp u]; cbn [heap_do] in H; try contradiction.
  - inversion H; subst; auto.
  - inversion H; subst; cbn. apply (Permutation_NoDup (l := length (h_lists h) :: h_specs h)).
    + apply Permutation_cons_append.
    + constructor; auto. intros Hin. apply In_nth_error in Hin as [j Hj]. apply Hok in Hj. lia.
  - destruct (nth_error (h_specs h) i) as [r|] eqn:E; [|discriminate].
    destruct (nth_error (h_lists h) r) as [cur|]; [|discriminate].
    destruct (append_steps fuel cur a lp u) as [[l' rr]|]; [|discriminate].
    inversion H; subst; auto.
Qed.

Lemma heap_run_inj fuel os : forall h h',
  refs_ok h -> refs_inj h -> Forall own_list os -> heap_run fuel h os = Some h' ->
  refs_ok h' /\ refs_inj h'.
Proof.
  induction os as [|o r IH]; intros h h' Hok Hinj Hf H; cbn [heap_run] in H.
  - inversion H; subst; auto.
  - inversion Hf; subst. destruct (heap_do fuel h o) as [h1|] eqn:E; [|discriminate].
    eapply IH; [| | |exact H]; eauto using heap_do_refs_ok, heap_do_inj.
Qed.

(** No operation other than an append through TestSpec [j] itself changes what [j] shows. *)
Definition touches (j : nat) (o : heap_op V) : Prop :=
  match o with AppendTo i _ _ _ => i = j | _ => False end.

Lemma heap_do_view fuel h o h' j :
  refs_ok h -> refs_inj h -> own_list o -> (j < length (h_specs h))%nat ->
  heap_do fuel h o = Some h' -> ~ touches j o -> view h' j = view h j /\ (j < length (h_specs h'))%nat.
Proof.
  intros Hok Hinj Ho Hj H Ht. destruct o as [l|[r|]|i a lp u]; cbn [own_list] in Ho; try contradiction.
  - cbn [heap_do] in H. inversion H; subst; cbn. split; auto. unfold view; cbn.
    destruct (nth_error (h_specs h) j) as [r|] eqn:E; auto. apply Hok in E. now rewrite nth_error_app1.
  - cbn [heap_do] in H. inversion H; subst; cbn. rewrite app_length. split; [|cbn; lia]. unfold view; cbn.
    rewrite nth_error_app1 by auto.
    destruct (nth_error (h_specs h) j) as [r|] eqn:E; auto. apply Hok in E. now rewrite nth_error_app1.
  - cbn [touches] in Ht.
    destruct (nth_error (h_specs h) i) as [ri|] eqn:Ei; [|cbn [heap_do] in H; rewrite Ei in H; discriminate].
    destruct (nth_error (h_specs h) j) as [rj|] eqn:Ej;
      [|apply nth_error_None in Ej; lia].
    destruct (heap_append_frame fuel h i a lp u h' j ri rj Hok H Ei Ej) as [Hf _]. split.
    + apply Hf. intros ->. apply Ht. eapply NoDup_nth_error; eauto.
      * apply nth_error_Some. congruence.
      * congruence.
    + cbn [heap_do] in H. rewrite Ei in H. destruct (nth_error (h_lists h) ri); [|discriminate].
      destruct (append_steps fuel l a lp u) as [[? ?]|]; [|discriminate]. inversion H; subst; auto.
Qed.

Lemma heap_run_view fuel os : forall h h' j,
  refs_ok h -> refs_inj h -> Forall own_list os -> (j < length (h_specs h))%nat ->
  Forall (fun o => ~ touches j o) os ->
  heap_run fuel h os = Some h' -> view h' j = view h j.
Proof.
  induction os as [|o r IH]; intros h h' j Hok Hinj Hf Hj Hn H; cbn [heap_run] in H.
  - inversion H; subst; auto.
  - inversion Hf; subst. inversion Hn; subst.
    destruct (heap_do fuel h o) as [h1|] eqn:E; [|discriminate].
    destruct (heap_do_view fuel h o h1 j) as [Hv Hl]; auto.
    rewrite <- Hv. eapply IH; [| | | | |exact H]; eauto using heap_do_refs_ok, heap_do_inj.
Qed.

Definition heap0 : heap V := Heap [] [].
Lemma heap0_ok : refs_ok heap0 /\ refs_inj heap0.
Proof. split; [intros [|i] r H; discriminate|constructor]. Qed.

Lemma isolation fuel pre post h1 h2 j :
  Forall own_list pre -> Forall own_list post ->
  heap_run fuel heap0 pre = Some h1 -> heap_run fuel h1 post = Some h2 ->
  (j < length (h_specs h1))%nat ->
  Forall (fun o => ~ touches j o) post ->
  view h2 j = view h1 j.
Proof.
  intros Hp Hq H1 H2 Hj Hn. destruct heap0_ok as [A B].
  destruct (heap_run_inj fuel pre heap0 h1 A B Hp H1) as [C D].
  eapply heap_run_view; eauto.
Qed.

End Lemmas.
