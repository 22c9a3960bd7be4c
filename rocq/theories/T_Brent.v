(** Property theorems C84: the minimiser follows Brent's method. *)
From Coq Require Import Reals QArith Qreals Lra.
From Verif Require Import M_Base M_Num M_NumR M_Minimize S_Minimize S_Brent L_Base L_Minimize L_Brent.
Open Scope R_scope.

(** C84 *)
Theorem C84_search_follows_brent :
  forall (F : list R -> M (list R)) lo hi prec eps maxiter lg w w' r,
  (lg = true -> 0 < lo) -> lo < hi -> 0 < prec ->
  minimize_run F 1 lo hi prec eps maxiter lg w = (Ok r, w') ->
  let a := lim lg lo in let b := lim lg hi in let E := history_of 0 (mr_evals r) in
  (exists x fx, minimize F 1 lo hi prec eps maxiter lg w = (Ok [to_point lg x], w') /\ best E x fx) /\
  (exists f0 E', E = (a + golden * (b - a), f0) :: E') /\
  (forall E1 p E2, E = E1 ++ p :: E2 -> E1 <> [] ->
     brent a b (sqrt eps) (prec / 3) E1 (fst p) /\ ~ done a b (sqrt eps) (prec / 3) E1) /\
  (done a b (sqrt eps) (prec / 3) E \/ length E = S maxiter) /\
  (forall g, (forall xs w fs w', F xs w = (Ok fs, w') -> fs = map g xs) ->
     forall p, In p E -> snd p = g (to_point lg (fst p))).
Proof. exact minimize_brent_single. Qed.

(** Several searches at once: each element follows the method on its own evaluations
    until its bracket is short enough. *)
Theorem C84_each_element_follows_brent :
  forall (F : list R -> M (list R)) lo hi prec eps maxiter lg w w' r,
  (lg = true -> 0 < lo) -> lo < hi -> 0 < prec ->
  forall n, minimize_run F n lo hi prec eps maxiter lg w = (Ok r, w') ->
  forall i, (i < n)%nat ->
  let a := lim lg lo in let b := lim lg hi in let E := history_of i (mr_evals r) in
  (exists f0 E', E = (a + golden * (b - a), f0) :: E') /\
  forall E1 p E2, E = E1 ++ p :: E2 -> E1 <> [] ->
    (exists E0 E3, E1 = E0 ++ E3 /\ E0 <> [] /\ done a b (sqrt eps) (prec / 3) E0) \/
    brent a b (sqrt eps) (prec / 3) E1 (fst p).
Proof. exact minimize_brent. Qed.

(** On a parabola the interpolation aims at the minimum itself. *)
Theorem C84_parabola :
  forall (F : list R -> M (list R)) lo hi prec eps maxiter w w' r c0 c1 c2 m,
  lo < hi -> 0 < prec -> c2 <> 0 -> c1 + 2 * c2 * m = 0 ->
  (forall xs w fs w', F xs w = (Ok fs, w') -> fs = map (fun x => c0 + c1 * x + c2 * (x * x)) xs) ->
  minimize_run F 1 lo hi prec eps maxiter false w = (Ok r, w') ->
  forall E1 p E2, history_of 0 (mr_evals r) = E1 ++ p :: E2 -> E1 <> [] ->
  exists x fx a b e t, best E1 x fx /\ left_of lo E1 x a /\ right_of hi E1 x b /\ step_before E1 e /\
    adjusted (sqrt eps) (prec / 3) x a b t (fst p) /\
    (t = m \/ (t = x + golden * ((if Rle_dec ((a + b) / 2) x then a else b) - x) /\
       (Rabs e <= tolerance (sqrt eps) (prec / 3) x \/ ~ (a <= m <= b /\ Rabs (m - x) <= Rabs e / 2)))).
Proof.
  intros F lo hi prec eps maxiter w w' r c0 c1 c2 m L P C M HF H E1 p E2 Sp N.
  destruct (minimize_brent_single F lo hi prec eps maxiter false w w' r ltac:(discriminate) L P H) as (_ & _ & Q & _ & V).
  destruct (Q E1 p E2 Sp N) as [(x & fx & a & b & e & t & B & Lf & Rt & St & A & Ad) _]. exists x, fx, a, b, e, t.
  split; [exact B|]. split; [exact Lf|]. split; [exact Rt|]. split; [exact St|]. split; [exact Ad|].
  apply (aim_parabola (sqrt eps) (prec / 3) E1 c0 c1 c2 m x fx a b e t); auto.
  intros q Hq. apply (V _ HF q). rewrite Sp. apply in_or_app. now left.
Qed.

(** No evaluation closer to an earlier one than the tolerance. *)
Theorem C84_points_keep_apart :
  forall (F : list R -> M (list R)) lo hi prec eps maxiter lg w w' r,
  (lg = true -> 0 < lo) -> lo < hi -> 0 < prec ->
  minimize_run F 1 lo hi prec eps maxiter lg w = (Ok r, w') ->
  forall E1 u fu E2, history_of 0 (mr_evals r) = E1 ++ (u, fu) :: E2 -> E1 <> [] ->
  exists x fx, best E1 x fx /\ forall y fy, In (y, fy) E1 -> sqrt eps * Rabs x + prec / 3 <= Rabs (u - y).
Proof.
  intros F lo hi prec eps maxiter lg w w' r Hl L P H E1 u fu E2 Sp N.
  destruct (minimize_brent_single F lo hi prec eps maxiter lg w w' r Hl L P H) as (_ & _ & Q & _).
  destruct (Q E1 (u, fu) E2 Sp N) as [B D]. apply (brent_apart (lim lg lo) (lim lg hi) (sqrt eps) (prec / 3) E1 u (sqrt_pos _) ltac:(lra) B D).
Qed.

(** Example: the parabola (x - 3)^2 between 0 and 10. *)
Definition pa_F : list R -> M (list R) := fun xs w => (Ok (map (fun x => 9 + -6 * x + 1 * (x * x)) xs), w).
Lemma pa_run : exists r, minimize_run pa_F 1 0 10 (3 / 100) 0 10 false (fun _ => 0%nat) = (Ok r, fun _ => 0%nat).
Proof.
  destruct (minimize_unimodal pa_F (fun x => 9 + -6 * x + 1 * (x * x)) 0 10 3 (3 / 100) 0 10 false (fun _ => 0%nat)) as (r & w' & y & b & E & _); try lra.
  - split; [lra|]. split; intros x y X Y U V; nra.
  - intros x w _. now eexists.
  - exists r. rewrite E. f_equal. revert E. generalize (fun _ : nat => 0%nat). intros w E. unfold minimize_run, mrun in E.
    apply bind_ok in E as (f0 & w1 & E1 & E).
    assert (Pure : forall xs w fs w', evalF false pa_F xs w = (Ok fs, w') -> w' = w).
    { intros xs v fs v' Q. apply evalF_ok in Q as [Q _]. now injection Q as _ <-. }
    apply Pure in E1 as ->. revert E. match goal with |- mloop _ _ _ _ _ ?s ?e _ = _ -> _ => generalize s e end. generalize 10%nat.
    induction n as [|k IH]; intros ss ev; cbn [mloop]; destruct (forallb _ ss); try (intros Q; now injection Q as _ <-).
    intros Q. apply bind_ok in Q as (fus & w2 & Q1 & Q2). apply Pure in Q1 as ->. now apply IH in Q2.
Qed.

Lemma golden_range : 0.38 < golden < 0.383.
Proof.
  unfold golden. assert (2.234 < sqrt 5 < 2.24); [|lra].
  split; [rewrite <- (sqrt_square 2.234) by lra|rewrite <- (sqrt_square 2.24) by lra]; apply sqrt_lt_1; lra.
Qed.

(** The first two points of that search are golden sections; the search goes on. *)
Example C84_example : exists r, minimize_run pa_F 1 0 10 (3 / 100) 0 10 false (fun _ => 0%nat) = (Ok r, fun _ => 0%nat) /\
  exists f0 f1 E, history_of 0 (mr_evals r) =
    (10 * golden, f0) :: (10 * golden + golden * (10 - 10 * golden), f1) :: E.
Proof.
  destruct pa_run as [r E]. exists r. split; [exact E|].
  destruct (C84_search_follows_brent pa_F 0 10 (3 / 100) 0 10 false _ _ r ltac:(discriminate) ltac:(lra) ltac:(lra) E) as (_ & (f0 & E' & E0) & Q & S & _).
  cbv zeta in *. cbn [lim] in *. assert (G := golden_range).
  replace (0 + golden * (10 - 0)) with (10 * golden) in E0 by lra.
  assert (Tl : forall x, tolerance (sqrt 0) (3 / 100 / 3) x = 0.01) by (intros x; unfold tolerance; rewrite sqrt_0; lra).
  assert (B1 : best [(10 * golden, f0)] (10 * golden) f0).
  { exists 0%nat. split; [reflexivity|]. intros [|j] y fy Z; [injection Z as <- <-; split; [lra|lia]|destruct j; discriminate Z]. }
  assert (L1 : left_of 0 [(10 * golden, f0)] (10 * golden) 0).
  { split; [now left|]. split; [lra|]. intros y [->|[<-|[]]]; cbn; lra. }
  assert (R1 : right_of 10 [(10 * golden, f0)] (10 * golden) 10).
  { split; [now left|]. split; [lra|]. intros y [->|[<-|[]]]; cbn; lra. }
  destruct E' as [|[u f1] E'].
  - exfalso. destruct S as [(x & fx & a & b & B & Lf & Rt & D)|S]; [|rewrite E0 in S; discriminate S]. rewrite E0 in B, Lf, Rt.
    destruct (best_unique _ _ _ _ _ B B1) as [-> ->]. rewrite (left_unique _ _ _ _ _ Lf L1), (right_unique _ _ _ _ _ Rt R1), Tl in D.
    assert (P := Rabs_pos (10 * golden - (0 + 10) / 2)). lra.
  - exists f0, f1, E'. rewrite E0. f_equal. f_equal. f_equal.
    destruct (Q [(10 * golden, f0)] (u, f1) E' E0 ltac:(discriminate)) as [(x & fx & a & b & e & t & B & Lf & Rt & St & A & Ad) _]. cbn [fst] in Ad.
    destruct (best_unique _ _ _ _ _ B B1) as [-> ->]. rewrite (left_unique _ _ _ _ _ Lf L1), (right_unique _ _ _ _ _ Rt R1) in A, Ad.
    apply step_before_short in St as ->; [|cbn; lia]. unfold aim in A. unfold adjusted in Ad. cbv zeta in A, Ad. rewrite Tl in A, Ad. rewrite Rabs_R0 in A.
    destruct A as [(w & v & _ & _ & Z & _)|[-> _]]; [lra|]. destruct (Rle_dec ((0 + 10) / 2) (10 * golden)) as [Z|Z]; [lra|].
    assert (0.38 * (10 - 10 * golden) < golden * (10 - 10 * golden) < 0.383 * (10 - 10 * golden)) by (split; apply Rmult_lt_compat_r; lra).
    destruct Ad as [[[Y|Y] _]|(_ & _ & [[Y _]|[_ Y]])]; try lra.
    rewrite Rabs_pos_eq in Y; lra.
Qed.

(** Interpolation: after the values 4, 1, 4 and 9 at 1, 2, 5 and 0, with a step of -3
    before the last, the target is the minimum 3. *)
Example C84_interpolation_example :
  aim 0 (1 / 100) [(5, 4); (2, 1); (1, 4); (0, 9)] 2 1 1 5 (-3) 3.
Proof.
  left. exists (5, 4), (1, 4). unfold tolerance. split; [|split; [|split; [|split; [|split]]]].
  - split; [now left|]. split; [cbn; lra|]. intros p [<-|[<-|[<-|[<-|[]]]]]; cbn; lra.
  - split; [right; right; now left|]. split; [cbn; lra|]. split; [cbn; lra|]. intros p [<-|[<-|[<-|[<-|[]]]]]; cbn; lra.
  - rewrite (Rabs_left (-3)) by lra. lra.
  - exists 9, (-6), 1. split; [lra|]. split; [|lra]. intros p [<-|[<-|[<-|[]]]]; cbn; lra.
  - lra.
  - rewrite (Rabs_left (-3)), Rabs_pos_eq by lra. lra.
Qed.

Print Assumptions C84_search_follows_brent.
Print Assumptions C84_each_element_follows_brent.
Print Assumptions C84_parabola.
Print Assumptions C84_points_keep_apart.
