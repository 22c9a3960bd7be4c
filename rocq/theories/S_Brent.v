(** Brent's method of minimisation, in terms of the evaluations made so far: a list of
    points with the values found there, oldest first. *)
From Coq Require Import Reals List.
Import ListNotations.
Open Scope R_scope.

(** The evaluations of the element [i] of a vectorised search. *)
Definition history_of (i : nat) (evals : list (list R * list R)) : list (R * R) :=
  map (fun p => (nth i (fst p) 0, nth i (snd p) 0)) evals.

Section Spec.
Variables (lo hi rel abs_ : R).

(** The last one of the points with the lowest value. *)
Definition best (E : list (R * R)) (x fx : R) : Prop :=
  exists k, nth_error E k = Some (x, fx) /\
    forall j y fy, nth_error E j = Some (y, fy) -> fx <= fy /\ ((k < j)%nat -> fx < fy).
(** A point with the lowest value among the others, and among the rest. *)
Definition second (E : list (R * R)) (x : R) (w : R * R) : Prop :=
  In w E /\ fst w <> x /\ forall p, In p E -> fst p <> x -> snd w <= snd p.
Definition third (E : list (R * R)) (x w : R) (v : R * R) : Prop :=
  In v E /\ fst v <> x /\ fst v <> w /\ forall p, In p E -> fst p <> x -> fst p <> w -> snd v <= snd p.

(** The nearest evaluated points on both sides of [x], or the limits. *)
Definition known (E : list (R * R)) (lim y : R) : Prop := y = lim \/ In y (map fst E).
Definition left_of (E : list (R * R)) (x a : R) : Prop :=
  known E lo a /\ a < x /\ forall y, known E lo y -> y < x -> y <= a.
Definition right_of (E : list (R * R)) (x b : R) : Prop :=
  known E hi b /\ x < b /\ forall y, known E hi y -> x < y -> b <= y.

(** How far the last evaluation was from what was then the best point, and the same
    for the evaluation before. *)
Definition last_step (E : list (R * R)) (s : R) : Prop :=
  ((length E <= 1)%nat /\ s = 0) \/
  exists E0 p x fx, E = E0 ++ [p] /\ best E0 x fx /\ s = fst p - x.
Definition step_before (E : list (R * R)) (s : R) : Prop := exists E0 p, E = E0 ++ [p] /\ last_step E0 s.

(** [z] is the extremum of the parabola through three points. *)
Definition extremum (p1 p2 p3 : R * R) (z : R) : Prop :=
  exists c0 c1 c2, c2 <> 0 /\ (forall p, In p [p1; p2; p3] -> snd p = c0 + c1 * fst p + c2 * (fst p * fst p)) /\
    c1 + 2 * c2 * z = 0.

Definition tolerance (x : R) : R := rel * Rabs x + abs_.
Definition golden : R := (3 - sqrt 5) / 2.

(** The bracket is short enough. *)
Definition done (E : list (R * R)) : Prop :=
  exists x fx a b, best E x fx /\ left_of E x a /\ right_of E x b /\
    Rabs (x - (a + b) / 2) < 2 * tolerance x - (b - (a + b) / 2).

(** The point that is aimed at: interpolation through the three best points, provided
    that the step before the last was not negligible, that the result is in the
    bracket and at most half of that step away; otherwise the golden section of the
    longer side. *)
Definition aim (E : list (R * R)) (x fx a b e t : R) : Prop :=
  let usable z := a <= z <= b /\ Rabs (z - x) <= Rabs e / 2 in
  (exists w v, second E x w /\ third E x (fst w) v /\ tolerance x < Rabs e /\ extremum (x, fx) w v t /\ usable t) \/
  (t = x + golden * ((if Rle_dec ((a + b) / 2) x then a else b) - x) /\
   (Rabs e <= tolerance x \/
    exists w v, second E x w /\ third E x (fst w) v /\ forall z, extremum (x, fx) w v z -> ~ usable z)).

(** No evaluation within two tolerances of the ends of the bracket (or else one
    tolerance towards the middle) and none within one tolerance of the best point. *)
Definition adjusted (x a b t u : R) : Prop :=
  let tol := tolerance x in
  ((t - a < 2 * tol \/ b - t < 2 * tol) /\ (x < (a + b) / 2 /\ u = x + tol \/ (a + b) / 2 <= x /\ u = x - tol)) \/
  (2 * tol <= t - a /\ 2 * tol <= b - t /\
   (Rabs (t - x) < tol /\ (x < t /\ u = x + tol \/ t <= x /\ u = x - tol) \/ tol <= Rabs (t - x) /\ u = t)).

(** [u] is evaluated after [E]. *)
Definition brent (E : list (R * R)) (u : R) : Prop :=
  exists x fx a b e t, best E x fx /\ left_of E x a /\ right_of E x b /\ step_before E e /\
    aim E x fx a b e t /\ adjusted x a b t u.
End Spec.
