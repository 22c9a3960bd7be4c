(** What the table of measured values of one parameter should be. *)
From Verif Require Import M_Base M_Num M_Nd M_Time M_TestSpec M_Report.
Open Scope nat_scope.

(** The numbers of lots, chips and devices of an array: a two-dimensional array is
    one lot, a one-dimensional one is one chip. *)
Inductive layout : list nat -> nat -> nat -> nat -> Prop :=
| lay3 L C D : layout [L; C; D] L C D
| lay2 C D : layout [C; D] 1 C D
| lay1 D : layout [D] 1 1 D.

(** Element [l][c][d] of row-major data. *)
Definition at3 {V} (C D : nat) (data : list V) (l c d : nat) (v : V) : Prop := nth_error data ((l * C + c) * D + d) = Some v.

Definition labels {V} (r : row V) : option nat * option nat * option nat := (r_lot r, r_chp r, r_dev r).
