(** Specification notions for test specifications. *)
From Verif Require Import M_Base M_Time S_Time M_TestSpec.
Open Scope Z_scope.

Section Spec.
Context {V : Type}.
Implicit Types (l : list (step V)) (s : step V).

(** The steps handed to append_steps, as a list. *)
Definition items (a : to_add V) : list (step V) :=
  match a with One s => [s] | Many l => l end.

(** Stress time contributed by one step: only plain stress specifications count. *)
Definition step_time s : Z := match s with SStrs x => ss_dur x | _ => 0 end.

Fixpoint total (zs : list Z) : Z := match zs with [] => 0 | z :: r => z + total r end.

Definition stress_time l : Z := total (map step_time l).

(** [n] whole cycles. *)
Fixpoint cycles (n : nat) l : list (step V) :=
  match n with O => [] | S m => l ++ cycles m l end.

(** The least whole number of cycles of length [c] that reaches [d]. *)
Definition whole_cycles (c d : Z) (n : nat) : Prop :=
  (d <= 0 /\ n = 0%nat) \/ (0 < d /\ (Z.of_nat n - 1) * c < d <= Z.of_nat n * c).

(** Arguments the interface documents: a stress step, a measurement step, or a list. *)
Definition plain (a : to_add V) : Prop :=
  match a with One (SOther _) => False | _ => True end.

Definition has_stress_or_other l : Prop := exists s, In s l /\ is_meas s = false.

(** Requests for a parameter in a test. *)
Definition requests l (p : string) (n : nat) : Prop :=
  exists m, In (SMeas m) l /\ In (p, n) (ms_counts m).

(** The requested loop duration in microseconds: the timedelta itself, or the
    number of documented units rounded to the nearest microsecond. *)
Definition requested (d : tval) (u : option string) (dur : Z) : Prop :=
  match d with
  | TD us => us = dur
  | TN q => exists n, In (u, n) documented_units /\ nearest_even (q * inject_Z n) dur
  end.

End Spec.
