(** Property theorems C24-C27: the minimiser, over the reals. *)
From Coq Require Import Reals QArith Qreals Lra.
From Verif Require Import M_Base M_Num M_NumR M_Minimize S_Minimize L_Minimize.
Open Scope R_scope.

(** Example objective: distance to 3, one problem; it advances generator 0. *)
Definition ex_F : list R -> M (list R) := fun xs w => (Ok (map (fun x => Rabs (x - 3)) xs), fun g => S (w g)).
(** The same, but raising outside [0, 10]. *)
Definition ex_G : list R -> M (list R) := fun xs w =>
  if forallb (fun x => if Rle_dec 0 x then if Rle_dec x 10 then true else false else false) xs
  then ex_F xs w else (Err ValueError, w).

(** C24 *)
Theorem C24_only_inside_the_bounds :
  forall (F G : list R -> M (list R)) lo hi prec eps maxiter lg w,
  (lg = true -> 0 < lo) -> lo <= hi -> 0 <= prec ->
  (forall x w, lo <= x <= hi -> F [x] w = G [x] w) ->
  minimize F 1 lo hi prec eps maxiter lg w = minimize G 1 lo hi prec eps maxiter lg w.
Proof. exact minimize_inside. Qed.
Print Assumptions C24_only_inside_the_bounds.

Theorem C24_result_and_budget :
  forall (F : list R -> M (list R)) lo hi prec eps maxiter lg w r w',
  (lg = true -> 0 < lo) -> lo <= hi -> 0 <= prec ->
  minimize_run F 1 lo hi prec eps maxiter lg w = (Ok r, w') ->
  (exists y, minimize F 1 lo hi prec eps maxiter lg w = (Ok [y], w') /\ lo <= y <= hi) /\
  (length (mr_evals r) <= S maxiter)%nat.
Proof. exact minimize_result. Qed.
Print Assumptions C24_result_and_budget.

Example C24_example : minimize ex_F 1 0 10 3 0 20 false (fun _ => 0%nat) = minimize ex_G 1 0 10 3 0 20 false (fun _ => 0%nat).
Proof.
  apply C24_only_inside_the_bounds; try lra. intros x w X. unfold ex_G. cbn.
  destruct (Rle_dec 0 x); [|lra]. destruct (Rle_dec x 10); [reflexivity|lra].
Qed.

(** C25 *)
Theorem C25_best_evaluated_point :
  forall (F : list R -> M (list R)) n lo hi prec eps maxiter lg w r w',
  0 <= prec -> minimize_run F n lo hi prec eps maxiter lg w = (Ok r, w') ->
  exists ys, minimize F n lo hi prec eps maxiter lg w = (Ok ys, w') /\ length ys = n /\
  forall i y, nth_error ys i = Some y ->
    exists us0 fus0 u0 f0, In (us0, fus0) (mr_evals r) /\ nth_error us0 i = Some u0 /\ nth_error fus0 i = Some f0 /\
      y = to_point lg u0 /\
      forall us fus f, In (us, fus) (mr_evals r) -> nth_error fus i = Some f -> f0 <= f.
Proof. exact minimize_best. Qed.
Print Assumptions C25_best_evaluated_point.

(** C26 *)
Theorem C26_unimodal_bracket_and_accuracy :
  forall (F : list R -> M (list R)) g lo hi t prec eps maxiter lg w,
  (lg = true -> 0 < lo) -> lo <= hi -> 0 < prec ->
  unimodal (fun x => lo <= x <= hi) g t ->
  (forall x w, lo <= x <= hi -> exists w', F [x] w = (Ok [g x], w')) ->
  exists r w' y b, minimize_run F 1 lo hi prec eps maxiter lg w = (Ok r, w') /\
    minimize F 1 lo hi prec eps maxiter lg w = (Ok [y], w') /\
    mr_states r = [b] /\
    to_point lg (ma b) <= t <= to_point lg (mb b) /\ to_point lg (ma b) <= y <= to_point lg (mb b) /\
    (mr_conv r = true -> Rabs (lim lg y - lim lg t) < 2 * (sqrt eps * Rabs (lim lg y) + prec / 3)).
Proof. exact minimize_unimodal. Qed.
Print Assumptions C26_unimodal_bracket_and_accuracy.

(** With enough iterations a single problem ends by convergence, whatever the function. *)
Theorem C26_convergence :
  forall (F : list R -> M (list R)) lo hi prec eps maxiter lg w r w',
  (lg = true -> 0 < lo) -> lo <= hi -> 0 < prec -> lim lg hi - lim lg lo <= INR maxiter * (prec / 3) ->
  minimize_run F 1 lo hi prec eps maxiter lg w = (Ok r, w') -> mr_conv r = true.
Proof. exact minimize_conv. Qed.
Print Assumptions C26_convergence.

Theorem C26_vectorised_accuracy :
  forall (F : list R -> M (list R)) n g t lo hi prec eps maxiter lg w,
  (lg = true -> 0 < lo) -> lo <= hi -> 0 < prec ->
  (forall i, (i < n)%nat -> lo <= t i <= hi /\ unimodal (fun x => lg = true -> 0 < x) (g i) (t i)) ->
  acts_as F n (fun x => lg = true -> 0 < x) g ->
  exists r w' ys, minimize_run F n lo hi prec eps maxiter lg w = (Ok r, w') /\
    minimize F n lo hi prec eps maxiter lg w = (Ok ys, w') /\ length ys = n /\
    (mr_conv r = true -> forall i y, nth_error ys i = Some y ->
       Rabs (lim lg y - lim lg (t i)) < 2 * (sqrt eps * Rabs (lim lg y) + prec / 3)).
Proof. exact minimize_vec. Qed.
Print Assumptions C26_vectorised_accuracy.

Lemma ex_unimodal (D : R -> Prop) : D 3 -> unimodal D (fun x => Rabs (x - 3)) 3.
Proof.
  intros D3. split; [exact D3|]. split; intros x y _ _ ? ?; unfold Rabs; do 2 destruct (Rcase_abs _); lra.
Qed.
Example C26_example : exists y w', minimize ex_F 1 0 10 3 0 10 false (fun _ => 0%nat) = (Ok [y], w') /\ 1 < y < 5.
Proof.
  destruct (C26_unimodal_bracket_and_accuracy ex_F (fun x => Rabs (x - 3)) 0 10 3 3 0 10 false (fun _ => 0%nat))
    as (r & w' & y & b & E1 & E2 & _ & _ & _ & A); try lra; [apply ex_unimodal; lra| |].
  - intros x w _. now eexists.
  - exists y, w'. split; [exact E2|]. assert (C : mr_conv r = true).
    { eapply C26_convergence; [| | | |exact E1]; try lra. cbn. lra. }
    specialize (A C). cbn in A. rewrite sqrt_0 in A. revert A. unfold Rabs. destruct (Rcase_abs _); destruct (Rcase_abs _); lra.
Qed.
Example C26_vector_example : exists r w' ys,
  minimize_run ex_F 4 (/ 10) 10 (/ 100) 0 50 true (fun _ => 0%nat) = (Ok r, w') /\
  minimize ex_F 4 (/ 10) 10 (/ 100) 0 50 true (fun _ => 0%nat) = (Ok ys, w') /\ length ys = 4%nat.
Proof.
  destruct (C26_vectorised_accuracy ex_F 4 (fun _ x => Rabs (x - 3)) (fun _ => 3) (/ 10) 10 (/ 100) 0 50 true (fun _ => 0%nat))
    as (r & w' & ys & E1 & E2 & L & _); try lra.
  - intros i _. split; [lra|]. apply ex_unimodal. intros _. lra.
  - intros xs w L _. exists (map (fun x => Rabs (x - 3)) xs), (fun g => S (w g)). split; [reflexivity|]. split; [now rewrite map_length|].
    intros i x Hi. rewrite nth_error_map, Hi. reflexivity.
  - exists r, w', ys. auto.
Qed.

(** The runs of C26_example and C26_vector_example meet the hypotheses of C24 and C25. *)
Example C24_C25_example : exists r w' ys,
  minimize_run ex_F 4 (/ 10) 10 (/ 100) 0 50 true (fun _ => 0%nat) = (Ok r, w') /\
  minimize ex_F 4 (/ 10) 10 (/ 100) 0 50 true (fun _ => 0%nat) = (Ok ys, w') /\
  forall i y, nth_error ys i = Some y -> exists us0 fus0 u0, In (us0, fus0) (mr_evals r) /\
    nth_error us0 i = Some u0 /\ y = npow10 u0.
Proof.
  destruct C26_vector_example as (r & w' & ys & E1 & E2 & _). exists r, w', ys. split; [exact E1|]. split; [exact E2|].
  destruct (C25_best_evaluated_point ex_F 4 (/ 10) 10 (/ 100) 0 50 true (fun _ => 0%nat) r w' ltac:(lra) E1)
    as (ys' & E2' & _ & B). rewrite E2 in E2'. injection E2' as <-.
  intros i y Hi. destruct (B i y Hi) as (us0 & fus0 & u0 & f0 & H1 & H2 & _ & -> & _). exists us0, fus0, u0. auto.
Qed.

(** C27 *)
Theorem C27_vectorised_leaves_the_bounds_refuted :
  exists (F : list R -> M (list R)) lo hi prec eps maxiter w y z w',
    lo < hi /\ 0 < prec /\ minimize F 2 lo hi prec eps maxiter false w = (Ok [y; z], w') /\ hi < y.
Proof.
  destruct leave_bounds as (y & z & w' & E & L).
  exists leave_F, (-38), 62, (3 / 100), 4, 2%nat, (fun _ => 0%nat), y, z, w'. repeat split; try lra. exact E.
Qed.
Print Assumptions C27_vectorised_leaves_the_bounds_refuted.

Theorem C27_excursion_is_bounded :
  forall (F : list R -> M (list R)) n lo hi prec eps maxiter lg w r w',
  (lg = true -> 0 < lo) -> lo <= hi -> 0 <= prec ->
  minimize_run F n lo hi prec eps maxiter lg w = (Ok r, w') ->
  (length (mr_evals r) <= S maxiter)%nat /\
  forall us fus u, In (us, fus) (mr_evals r) -> In u us ->
    lim lg lo - overshoot (lim lg lo) (lim lg hi) (sqrt eps) (length (mr_evals r) - 1) <= u <=
    lim lg hi + overshoot (lim lg lo) (lim lg hi) (sqrt eps) (length (mr_evals r) - 1).
Proof. exact minimize_overshoot. Qed.
Print Assumptions C27_excursion_is_bounded.

Theorem C27_excursion_small_tolerance :
  forall (F : list R -> M (list R)) n lo hi prec eps maxiter lg w r w',
  (lg = true -> 0 < lo) -> lo <= hi -> 0 <= prec -> 2 * INR maxiter * sqrt eps <= 1 ->
  minimize_run F n lo hi prec eps maxiter lg w = (Ok r, w') ->
  forall us fus u, In (us, fus) (mr_evals r) -> In u us ->
    lim lg lo - (lim lg hi - lim lg lo) * (2 * INR maxiter * sqrt eps) <= u <=
    lim lg hi + (lim lg hi - lim lg lo) * (2 * INR maxiter * sqrt eps).
Proof. exact minimize_overshoot_small. Qed.
Print Assumptions C27_excursion_small_tolerance.

(** The call made by the simulator: 13 decades, 50 iterations, 64-bit machine
    precision: at most 2.6e-5 decades outside. *)
Example C27_example : forall r w',
  minimize_run ex_F 4 (/ 1000) 10000000000 (/ 100000) (mach_64bit_eps (V := R)) 50 true (fun _ => 0%nat) = (Ok r, w') ->
  forall us fus u, In (us, fus) (mr_evals r) -> In u us -> -3 - 0.000026 <= u <= 10 + 0.000026.
Proof.
  intros r w' E us fus u H1 H2.
  assert (S : 0 <= sqrt (mach_64bit_eps (V := R)) <= 0.00000002).
  { split; [apply sqrt_pos|]. replace 0.00000002 with (sqrt (0.00000002 * 0.00000002)) by (apply sqrt_square; lra).
    apply sqrt_le_1_alt. unfold mach_64bit_eps. cbn. unfold Q2R. cbn. lra. }
  assert (L10 : forall k, lim true (10 ^ k) = INR k).
  { intros k. unfold lim. cbn. rewrite ln_pow by lra. field. assert (H := ln10_p). lra. }
  assert (A : lim true (/ 1000) = -3).
  { unfold lim. cbn. rewrite ln_Rinv by lra. replace 1000 with (10 ^ 3) by ring. rewrite ln_pow by lra. cbn. field. assert (H := ln10_p). lra. }
  assert (B : lim true 10000000000 = 10).
  { replace 10000000000 with (10 ^ 10) by ring. rewrite L10. cbn. lra. }
  eapply C27_excursion_small_tolerance in E; [| | | | |exact H1|exact H2]; try lra.
  - rewrite A, B in E. replace (INR 50) with 50 in E by (cbn; lra). lra.
  - replace (INR 50) with 50 by (cbn; lra). lra.
Qed.
