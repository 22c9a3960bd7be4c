(** Specification notions for steps and step lists as objects. *)
From Verif Require Import M_Base M_Time M_TestSpec M_Objects S_TestSpec.
Open Scope Z_scope.

Section Spec.
Context {V : Type}.
Implicit Types (h : store V) (l : list (step V)).

(** What a program can build. *)
Definition reached (fuel : nat) h : Prop := exists ops, obj_run fuel store0 ops = Some h.
(** References and the steps they refer to. *)
Definition refer h (refs : list nat) l : Prop := Forall2 (fun r s => nth_error (o_steps h) r = Some s) refs l.
Definition list_is h (r : nat) l : Prop := exists refs, nth_error (o_lists h) r = Some refs /\ refer h refs l.
Definition arg_is h (a : sarg) (x : to_add V) : Prop :=
  match a, x with
  | AStep r, One s => nth_error (o_steps h) r = Some s
  | AList r, Many l => list_is h r l
  | _, _ => False
  end.
(** The test [i] keeps its steps in the list object [own]. *)
Definition keeps h (i own : nat) : Prop := nth_error (o_tests h) i = Some own.
Definition test_is h (i : nat) l : Prop := exists own, keeps h i own /\ list_is h own l.

(** The time counted in [n] passes that each double a list of duration [c] and then
    count all of it. *)
Fixpoint counted (c : Z) (n : nat) : Z :=
  match n with O => 0 | S m => counted c m + 2 ^ Z.of_nat n * c end.
(** The least number of such passes that counts up to [d]. *)
Definition passes (c d : Z) (n : nat) : Prop :=
  d <= counted c n /\ forall m, (m < n)%nat -> counted c m < d.
Definition copies {A} (n : nat) (l : list A) : list A := concat (repeat l n).
End Spec.
