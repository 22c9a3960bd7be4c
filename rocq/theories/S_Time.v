(** Specification of rounding and of the accepted unit names. *)
From Verif Require Import M_Base M_Time.
Open Scope Q_scope.

(** [z] is the integer nearest to [q], ties to even. *)
Definition nearest_even (q : Q) (z : Z) : Prop :=
  inject_Z z - q <= 1 # 2 /\ q - inject_Z z <= 1 # 2 /\
  (inject_Z z - q == 1 # 2 \/ q - inject_Z z == 1 # 2 -> Z.Even z).

(** The documented unit names with the number of microseconds each denotes. *)
Definition documented_units : list (option string * Z) :=
  [ (Some "days"%string, 86400000000%Z); (Some "d"%string, 86400000000%Z);
    (Some "hours"%string, 3600000000%Z); (Some "h"%string, 3600000000%Z); (None, 3600000000%Z);
    (Some "seconds"%string, 1000000%Z); (Some "s"%string, 1000000%Z);
    (Some "milliseconds"%string, 1000%Z); (Some "ms"%string, 1000%Z);
    (Some "microseconds"%string, 1%Z); (Some "us"%string, 1%Z) ].
