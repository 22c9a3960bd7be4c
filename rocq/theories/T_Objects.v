(** Property C97: step objects and the test's own list as argument of append_steps. *)
From Coq Require Import Lia.
From Verif Require Import M_Base M_Time M_TestSpec M_Objects S_Time S_TestSpec S_Objects L_Base L_TestSpec L_Objects.
Open Scope Z_scope.

(** Every test of a reachable store has steps, and shows them. *)
Theorem C97_tests_have_steps : forall V fuel (h : store V) i own, reached fuel h -> keeps h i own ->
  exists l, list_is h own l /\ shown h i = Some l.
Proof.
  intros V fuel h i own Rh K. destruct (ok_test h i own (reached_ok _ _ Rh) K) as (refs & E & F).
  exists (look_up (o_steps h) refs). split; [exists refs; auto|]. unfold shown. unfold keeps in K. now rewrite K, E.
Qed.
Print Assumptions C97_tests_have_steps.

(** A step, or a list object other than the test's own: the value semantics of C01 to
    C05.  The steps themselves stay as they are, and only the tests that keep the
    same list object see the change. *)
Theorem C97_another_list : forall V fuel0 fuel (h : store V) i own old a x lp u,
  reached fuel0 h -> keeps h i own -> list_is h own old -> a <> AList own -> arg_is h a x ->
  match append_steps fuel old x lp u with
  | None => obj_do fuel h (Append i a lp u) = None
  | Some (l', out) => exists h', obj_do fuel h (Append i a lp u) = Some (h', out) /\ o_steps h' = o_steps h /\
      forall j own' l, keeps h j own' -> list_is h own' l ->
        keeps h' j own' /\ list_is h' own' (if Nat.eqb own' own then l' else l)
  end.
Proof.
  intros V fuel0 fuel h i own old a x lp u Rh K (refs & Er & Fr) Na Ha. pose proof (reached_ok _ _ Rh) as Ok.
  pose proof (append_other fuel h own refs a x lp u Ok Er Na Ha) as A. rewrite (refer_look _ _ _ Fr) in A.
  assert (D : obj_do fuel h (Append i a lp u) = append_obj fuel h own a lp u).
  { cbn [obj_do]. unfold keeps in K. rewrite K. destruct a as [r|r]; auto. destruct x as [s|l]; [destruct Ha|]. destruct Ha as (rs & -> & _). reflexivity. }
  rewrite D. destruct (append_steps fuel old x lp u) as [[l' out]|]; auto. destruct A as (n & -> & A). eexists. split; [exact A|]. split; [reflexivity|].
  intros j own' l Kj (rj & Ej & Fj). split; [exact Kj|]. destruct (Nat.eqb_spec own' own) as [->|Ne].
  - eexists. cbn [o_lists]. split; [apply nth_error_set_nth_eq; apply nth_error_Some; congruence|].
    destruct (append_obj_ok _ _ _ _ _ _ _ _ Ok A) as [S1 _]. unfold refer. cbn [o_steps].
    apply (look_refer h). intros r Hr. refine (S1 own _ r _ Hr). cbn [o_lists]. apply nth_error_set_nth_eq. apply nth_error_Some. congruence.
  - exists rj. cbn [o_lists]. rewrite nth_error_set_nth_neq by auto. split; auto.
Qed.
Print Assumptions C97_another_list.

(** The test's own list, once: it is doubled. *)
Theorem C97_own_list_doubles : forall V fuel0 fuel (h : store V) i own old u,
  reached fuel0 h -> keeps h i own -> list_is h own old ->
  exists h', obj_do fuel h (Append i (AList own) None u) = Some (h', Ok tt) /\ test_is h' i (old ++ old).
Proof.
  intros V fuel0 fuel h i own old u Rh K (refs & Er & Fr). cbn [obj_do]. pose proof K as K'. unfold keeps in K'. rewrite K', Er.
  eexists. split; [apply append_own; eauto|]. exists own. split; [exact K|]. exists (refs ++ refs). cbn [o_lists].
  split; [apply nth_error_set_nth_eq, nth_error_Some; congruence|]. unfold refer. now apply Forall2_app.
Qed.
Print Assumptions C97_own_list_doubles.

(** The test's own list, in a loop: every pass doubles the list and then counts all of
    it.  The test ends up with 2^n times its steps, where the time counted in [n]
    passes is the first to reach the duration; this is twice the stress time that has
    been added. *)
Theorem C97_own_list_loop : forall V fuel0 (h : store V) i own old d u dur,
  reached fuel0 h -> keeps h i own -> list_is h own old -> requested d u dur -> dur <> 0 -> 0 < stress_time old ->
  exists n, passes (stress_time old) dur n /\ (forall m, passes (stress_time old) dur m -> m = n) /\
    forall fuel, (n <= fuel)%nat -> exists h' l' out,
      obj_do fuel h (Append i (AList own) (Some d) u) = Some (h', out) /\ test_is h' i l' /\ l' = cycles (2 ^ n) old /\
      counted (stress_time old) n = 2 * (stress_time l' - stress_time old) /\
      (out = Ok tt \/ out = Err UserWarningE) /\ (out = Err UserWarningE <-> ~ (dur | counted (stress_time old) n)).
Proof.
  intros V fuel0 h i own old d u dur Rh K (refs & Er & Fr) Rq Nz C. pose proof (refer_look _ _ _ Fr) as Lk.
  destruct (passes_exists (stress_time old) dur C) as (n & P). exists n. split; auto. split; [intros m Pm; eapply passes_unique; eauto|].
  intros fuel F. pose proof (append_own_loop h own refs d u dur n Er (proj2 (requested_iff _ _ _) Rq) Nz) as A. cbn zeta in A. rewrite Lk in A. specialize (A C P fuel F).
  cbn [obj_do]. pose proof K as K'. unfold keeps in K'. rewrite K', Er. eexists _, _, _. split; [exact A|]. split; [|split; [reflexivity|split; [|split]]].
  - exists own. split; [exact K|]. exists (copies (2 ^ n) refs). cbn [o_lists]. split; [apply nth_error_set_nth_eq, nth_error_Some; congruence|].
    unfold refer. cbn [o_steps]. rewrite <- Lk, <- look_copies. apply (look_refer h). intros r Hr. unfold copies in Hr. apply in_concat in Hr as (x & Hx & Hr). apply repeat_spec in Hx as ->.
    destruct (reached_ok _ _ Rh) as [S1 _]. exact (S1 _ _ _ Er Hr).
  - rewrite stress_time_cycles, pow_nat, counted_closed. ring.
  - destruct (counted (stress_time old) n mod dur =? 0); auto.
  - destruct (Z.eqb_spec (counted (stress_time old) n mod dur) 0) as [Q|Q].
    + split; [discriminate|]. intros N. exfalso. apply N. now apply Z.mod_divide.
    + split; auto. intros _ N. apply Q. now apply Z.mod_divide.
Qed.
Print Assumptions C97_own_list_loop.

(** Without net stress it never stops. *)
Theorem C97_own_list_forever : forall V fuel0 (h : store V) i own old d u dur,
  reached fuel0 h -> keeps h i own -> list_is h own old -> requested d u dur -> 0 < dur -> has_stress_or_other old -> stress_time old <= 0 ->
  forall fuel, obj_do fuel h (Append i (AList own) (Some d) u) = None.
Proof.
  intros V fuel0 h i own old d u dur Rh K (refs & Er & Fr) Rq P (s & Hs & Ns) C fuel. pose proof (refer_look _ _ _ Fr) as Lk.
  cbn [obj_do]. pose proof K as K'. unfold keeps in K'. rewrite K', Er. apply (append_own_never h own refs d u dur); rewrite ?Lk; eauto. now apply requested_iff.
Qed.
Print Assumptions C97_own_list_forever.

(** Hence a looped append may stop, without a warning, with half of the requested time. *)
Theorem C97_loop_reaches_duration_refuted : exists (h h' : store Q) i own old l' dur,
  reached 0 h /\ keeps h i own /\ list_is h own old /\ 0 < stress_time old /\ 0 < dur /\
  (forall fuel, (2 <= fuel)%nat -> obj_do fuel h (Append i (AList own) (Some (TD dur)) None) = Some (h', Ok tt)) /\ test_is h' i l' /\
  2 * (stress_time l' - stress_time old) = dur.
Proof.
  set (s := SStrs (StrsSpec [("temp"%string, 300%Q)] 3600000000 "day")).
  exists (Store [s] [[0%nat]] [0%nat]), (Store [s] [[0; 0; 0; 0]%nat] [0%nat]), 0%nat, 0%nat, [s], [s; s; s; s], (6 * 3600000000).
  split; [exists [MakeStep s; MakeList [0%nat]; MakeTest (Some 0%nat)]; reflexivity|]. split; [reflexivity|].
  split; [exists [0%nat]; split; [reflexivity|repeat constructor]|]. split; [reflexivity|]. split; [reflexivity|].
  split; [|split; [exists 0%nat; split; [reflexivity|]; eexists; split; [reflexivity|repeat constructor]|reflexivity]].
  intros fuel F. destruct fuel as [|[|fuel]]; [lia|lia|]. cbn. now destruct fuel.
Qed.
Print Assumptions C97_loop_reaches_duration_refuted.

Lemma same_length {A B} (P : A -> B -> Prop) l l' : Forall2 P l l' -> length l = length l'.
Proof. induction 1; cbn; auto. Qed.
(** The copies are the same objects: assigning a duration to one step changes the
    stress time of a test by that amount for every occurrence. *)
Theorem C97_cycles_share_their_steps : forall V fuel0 fuel (h h1 h2 : store V) i own ro b lp u out rb r us x,
  reached fuel0 h -> keeps h i own -> nth_error (o_lists h) own = Some ro -> b <> own -> nth_error (o_lists h) b = Some rb ->
  obj_do fuel h (Append i (AList b) lp u) = Some (h1, out) ->
  nth_error (o_steps h) r = Some (SStrs x) -> obj_do fuel h1 (SetDuration r us) = Some (h2, Ok tt) ->
  exists n old1 cycle1 old2 cycle2,
    list_is h own old1 /\ list_is h1 b cycle1 /\ test_is h1 i (old1 ++ cycles n cycle1) /\
    list_is h2 b cycle2 /\ test_is h2 i (old2 ++ cycles n cycle2) /\ length old2 = length old1 /\
    stress_time (old2 ++ cycles n cycle2) = stress_time (old1 ++ cycles n cycle1)
      + Z.of_nat (count_occ Nat.eq_dec ro r + n * count_occ Nat.eq_dec rb r) * (us - ss_dur x).
Proof.
  intros V fuel0 fuel h h1 h2 i own ro b lp u out rb r us x Rh K Eo Nb Eb A Es Sd. pose proof (reached_ok _ _ Rh) as Ok0.
  assert (Hb : refer h rb (look_up (o_steps h) rb)) by (eapply ok_list; eauto).
  assert (Ha : arg_is h (AList b) (Many (look_up (o_steps h) rb))) by (exists rb; auto).
  assert (Na : AList b <> AList own) by congruence.
  cbn [obj_do] in A. pose proof K as K'. unfold keeps in K'. rewrite K', Eb in A.
  pose proof (append_other fuel h own ro (AList b) _ lp u Ok0 Eo Na Ha) as P.
  destruct (append_steps fuel (look_up (o_steps h) ro) (Many (look_up (o_steps h) rb)) lp u) as [[l' out']|]; [|congruence].
  destruct P as (n & -> & P). rewrite P in A. injection A as <- <-. clear P. cbn [refs_of] in *. rewrite (list_at_some _ _ _ Eb) in *.
  cbn [obj_do o_steps o_lists o_tests] in Sd. rewrite Es in Sd. injection Sd as <-.
  assert (Lt : (own < length (o_lists h))%nat) by (apply nth_error_Some; congruence).
  set (steps2 := set_nth (o_steps h) r (with_duration us (SStrs x))).
  assert (Len : length steps2 = length (o_steps h)) by apply set_nth_length.
  destruct Ok0 as [S1 _]. assert (V1 : forall q, In q rb -> (q < length (o_steps h))%nat) by (intros q Hq; exact (S1 _ _ _ Eb Hq)).
  assert (V0 : forall q, In q ro -> (q < length (o_steps h))%nat) by (intros q Hq; exact (S1 _ _ _ Eo Hq)).
  assert (V2 : forall q, In q (ro ++ copies n rb) -> (q < length (o_steps h))%nat).
  { intros q Hq. apply in_app_or in Hq as [Hq|Hq]; auto. unfold copies in Hq. apply in_concat in Hq as (z & Hz & Hq). apply repeat_spec in Hz as ->. auto. }
  exists n, (look_up (o_steps h) ro), (look_up (o_steps h) rb), (look_up steps2 ro), (look_up steps2 rb).
  assert (B : nth_error (set_nth (o_lists h) own (ro ++ copies n rb)) b = Some rb) by (rewrite nth_error_set_nth_neq; auto).
  assert (O : nth_error (set_nth (o_lists h) own (ro ++ copies n rb)) own = Some (ro ++ copies n rb)) by (now apply nth_error_set_nth_eq).
  rewrite <- !look_copies, <- !look_up_app.
  assert (W : forall refs, (forall q, In q refs -> (q < length (o_steps h))%nat) -> Forall2 (fun r s => nth_error steps2 r = Some s) refs (look_up steps2 refs)).
  { intros refs Q. apply (look_refer (Store steps2 [] [])). cbn [o_steps]. rewrite Len. exact Q. }
  split; [exists ro; split; [exact Eo|]; apply (look_refer h); auto|].
  split; [exists rb; split; [exact B|]; apply (look_refer h); auto|].
  split; [exists own; split; [exact K|]; exists (ro ++ copies n rb); split; [exact O|]; apply (look_refer h); auto|].
  split; [exists rb; split; [exact B|exact (W rb V1)]|].
  split; [exists own; split; [exact K|]; exists (ro ++ copies n rb); split; [exact O|exact (W _ V2)]|].
  split; [transitivity (length ro); [symmetry; exact (same_length _ _ _ (W ro V0))|exact (same_length _ _ _ (look_refer h ro V0))]|].
  unfold steps2. rewrite (set_look h r us _ _ Es), count_occ_app, count_copies. reflexivity.
Qed.
Print Assumptions C97_cycles_share_their_steps.

(** ** Examples *)
(** An hour of stress and a measurement, in a list of their own, and two tests: one that
    keeps this list, one that is empty. *)
Definition hour : step Q := SStrs (StrsSpec [("temp"%string, 300%Q)] 3600000000 "hour").
Definition check : step Q := SMeas (MeasSpec [("p"%string, 1%nat)] [] "check").
Definition bench_ops : list (obj_op Q) := [MakeStep hour; MakeStep check; MakeList [0; 1]%nat; MakeTest (Some 0%nat); MakeTest None].
Definition bench_store : store Q := Store [hour; check] [[0; 1]%nat; []] [0; 1]%nat.
Lemma bench_reached : reached 0 bench_store.
Proof. exists bench_ops. reflexivity. Qed.
Lemma bench_lists : list_is bench_store 0 [hour; check] /\ list_is bench_store 1 [].
Proof. split; eexists; (split; [reflexivity|repeat constructor]). Qed.
(** Three hours into the empty test: three cycles, and the other test is as before. *)
Example C97_another_list_example : exists h', obj_do 9 bench_store (Append 1 (AList 0) (Some (TN 3)) None) = Some (h', Ok tt) /\
  keeps h' 1 1 /\ list_is h' 1 [hour; check; hour; check; hour; check] /\ keeps h' 0 0 /\ list_is h' 0 [hour; check].
Proof.
  pose proof (C97_another_list Q 0 9 bench_store 1 1 [] (AList 0) (Many [hour; check]) (Some (TN 3)) None bench_reached eq_refl (proj2 bench_lists)) as T.
  specialize (T ltac:(discriminate) (proj1 bench_lists)).
  replace (append_steps 9 [] (Many [hour; check]) (Some (TN 3)) None) with (Some ([hour; check; hour; check; hour; check], Ok tt)) in T by reflexivity.
  destruct T as (h' & E & _ & T). exists h'. split; [exact E|].
  destruct (T 1%nat 1%nat _ eq_refl (proj2 bench_lists)) as [A B]. destruct (T 0%nat 0%nat _ eq_refl (proj1 bench_lists)) as [A' B']. auto.
Qed.
(** Ten hours into the test that keeps the list: three passes count 14 hours but add only
    seven. *)
Example C97_own_list_example : exists h' l', obj_do 3 bench_store (Append 0 (AList 0) (Some (TN 10)) None) = Some (h', Err UserWarningE) /\
  test_is h' 0 l' /\ length l' = 16%nat /\ stress_time l' - 3600000000 = 7 * 3600000000.
Proof.
  assert (Rq : requested (TN 10) None 36000000000).
  { apply requested_iff. reflexivity. }
  destruct (C97_own_list_loop Q 0 bench_store 0 0 [hour; check] (TN 10) None 36000000000 bench_reached eq_refl (proj1 bench_lists) Rq ltac:(lia) eq_refl)
    as (n & P & U & T).
  assert (n = 3%nat) as ->.
  { symmetry. apply U. split; [vm_compute; discriminate|]. intros m L. destruct m as [|[|[|]]]; try lia; reflexivity. }
  destruct (T 3%nat (le_n _)) as (h' & l' & out & E & T' & -> & Cn & Oo & W). exists h', (cycles (2 ^ 3) [hour; check]).
  split; [rewrite E; do 2 f_equal; apply W; intros (k & Q); change (counted (stress_time [hour; check]) 3) with 50400000000 in Q; lia|]. split; [exact T'|]. split; reflexivity.
Qed.
(** A day instead of an hour, assigned once, changes all three cycles. *)
Example C97_shared_example : exists h1 h2 l, obj_do 9 bench_store (Append 1 (AList 0) (Some (TN 3)) None) = Some (h1, Ok tt) /\
  obj_do 9 h1 (SetDuration 0 86400000000) = Some (h2, Ok tt) /\ test_is h2 1 l /\ stress_time l = 3 * 86400000000.
Proof.
  eexists _, _, _. split; [reflexivity|]. split; [reflexivity|]. split; [|].
  - exists 1%nat. split; [reflexivity|]. eexists. split; [reflexivity|repeat constructor].
  - reflexivity.
Qed.
(** Stress with a negative duration takes the own list past any bound. *)
Example C97_forever_example : forall fuel,
  obj_do fuel (Store [SStrs (StrsSpec [] (-5) "back"); check] [[0; 1]%nat] [0%nat]) (Append 0 (AList 0) (Some (TN 10)) None) = None.
Proof.
  apply (C97_own_list_forever Q 0 _ 0 0 [SStrs (StrsSpec [] (-5) "back"); check] (TN 10) None 36000000000).
  - exists [MakeStep (SStrs (StrsSpec [] (-5) "back")); MakeStep check; MakeList [0; 1]%nat; MakeTest (Some 0%nat)]. reflexivity.
  - reflexivity.
  - eexists. split; [reflexivity|repeat constructor].
  - apply requested_iff. reflexivity.
  - reflexivity.
  - eexists. split; [left; reflexivity|reflexivity].
  - vm_compute. discriminate.
Qed.
