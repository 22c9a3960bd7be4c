(** Specification notions for the values of a report that were read by an instrument. *)
From Coq Require Import QArith Reals ZArith.
From Verif Require Import M_Base M_Num M_Nd M_RandVar M_Report M_Env S_Env.

(** Numbers with at most [p] decimal digits. *)
Definition figures (p : Z) (y : Q) : Prop := exists n k, (Z.abs n < 10 ^ p)%Z /\ (y == inject_Z n * Qpower 10 k)%Q.
Definition figuresR (p : Z) (y : R) : Prop := exists n k, (Z.abs n < 10 ^ p)%Z /\ y = (IZR n * powerRZ 10 k)%R.
(** One of the given limits. *)
Definition a_limit {V} (lims : option (option V * option V)) (y : V) : Prop :=
  exists l h, lims = Some (l, h) /\ (l = Some y \/ h = Some y).
(** What an instrument can show: some value rounded, then limited. *)
Definition can_show {V} `{NumOps V} (i : instm V) (y : V) : Prop :=
  exists x r, rounded (in_prec i) x r /\ limited (in_range i) r y.
