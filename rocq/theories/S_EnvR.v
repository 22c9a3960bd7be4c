(** Specification of reading a value to a number of significant figures. *)
From Coq Require Import Reals.
Open Scope R_scope.

(** [e] is the decimal exponent of [x]. *)
Definition magnitude (x : R) (e : Z) : Prop := powerRZ 10 e <= Rabs x < powerRZ 10 (e + 1).
(** [y] is [x] to [p] significant figures: zero is kept; otherwise [y] is a multiple
    of the unit of the p-th digit, no multiple is closer to [x], and [y] has the
    sign of [x]. *)
Definition sig_figs (p : Z) (x y : R) : Prop :=
  (x = 0 -> y = 0) /\
  (x <> 0 -> exists e n, magnitude x e /\
     let unit := powerRZ 10 (e - p + 1) in
     y = IZR n * unit /\ (forall m, Rabs (y - x) <= Rabs (IZR m * unit - x)) /\
     Rabs (y - x) <= unit / 2 /\ 0 < x * y).
