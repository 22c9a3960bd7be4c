(** Specification notions for the range of timedeltas. *)
From Verif Require Import M_Base M_Time M_TestSpec M_Sim S_TestSpec.
Open Scope Z_scope.

(** Less than a billion days after, and not more than a billion days less one before. *)
Definition td_ok (us : Z) : Prop := - 999999999 * 86400000000 <= us < 1000000000 * 86400000000.

Section Spec.
Context {V : Type}.
(** All partial sums of the stress times of a loop for the duration [dur]. *)
Definition bad_sum (a : to_add V) (dur : Z) (n k : nat) : Prop :=
  Z.of_nat n * stress_time (items a) < dur /\ ~ td_ok (Z.of_nat n * stress_time (items a) + stress_time (firstn k (items a))).
Definition sums_ok (a : to_add V) (dur : Z) : Prop := forall n k, ~ bad_sum a dur n k.
(** All times of a test that starts at [z]. *)
Definition times_ok (z : Z) (l : list (step V)) : Prop := forall k, td_ok (z + stress_time (firstn k l)).
Definition starts_at (init : option (simstate V)) (z : Z) : Prop :=
  match init with Some st => st_elapsed st = TD z | None => z = 0 end.
End Spec.
