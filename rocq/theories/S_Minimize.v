(** Specification notions for the minimiser. *)
From Coq Require Import Reals.
From Verif Require Import M_Base M_Num M_NumR.
Open Scope R_scope.

(** [g] strictly decreases up to [t] and strictly increases after it, at the
    points where [D] holds. *)
Definition unimodal (D : R -> Prop) (g : R -> R) (t : R) : Prop :=
  D t /\
  (forall x y, D x -> D y -> x < y -> y <= t -> g y < g x) /\
  (forall x y, D x -> D y -> t <= x -> x < y -> g x < g y).

(** A vectorised objective that acts element by element through the functions
    [g 0], [g 1], ... on points satisfying [D]; it may have side effects. *)
Definition acts_as (F : list R -> M (list R)) (n : nat) (D : R -> Prop) (g : nat -> R -> R) : Prop :=
  forall xs w, length xs = n -> (forall x, In x xs -> D x) ->
  exists fs w', F xs w = (Ok fs, w') /\ length fs = n /\
    forall i x, nth_error xs i = Some x -> nth_error fs i = Some (g i x).

(** The coordinate in which the search runs: the decimal logarithm with log_gold. *)
Definition lim (lg : bool) (v : R) : R := if lg then nlog10 v else v.

(** Excursion of a vectorised search over an interval after [k] iterations, for
    the relative tolerance [r]. *)
Definition overshoot (lo hi r : R) (k : nat) : R := (hi - lo) * ((1 + r) ^ k - 1).
