(** Specification notions over the reals for degradation laws. *)
From Coq Require Import Reals List.
Open Scope R_scope.

(** Strictly monotone where [P] holds. *)
Definition strictly_monotone (P : R -> Prop) (g : R -> R) : Prop :=
  (forall x y, P x -> P y -> x < y -> g x < g y) \/ (forall x y, P x -> P y -> x < y -> g y < g x).

(** Total of a list of durations. *)
Definition total (ds : list R) : R := fold_right Rplus 0 ds.
