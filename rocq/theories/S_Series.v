(** The readings of one device in the course of a test. *)
From Coq Require Import QArith.
From Verif Require Import M_Base M_Num M_Time M_TestSpec M_Report.
Open Scope nat_scope.

Section Spec.
Context {V : Type} `{NumOps V}.

Definition is_no (o : option nat) (n : nat) : bool := match o with Some m => Nat.eqb m n | None => false end.
(** The rows of the parameter [name] of device [c] on chip [b] of lot [a]. *)
Definition belongs (name : string) (a b c : nat) (r : row V) : bool :=
  String.eqb (r_param r) name && is_no (r_lot r) a && is_no (r_chp r) b && is_no (r_dev r) c.
Definition series (name : string) (a b c : nat) (rows : list (row V)) : list (row V) := filter (belongs name a b c) rows.

(** The steps that measure the parameter [name] of device number [c], and the stress
    time before each.  The first step has number [i] and begins at [t]. *)
Fixpoint asked (name : string) (c i : nat) (t : Z) (l : list (step V)) : list (nat * Z) :=
  match l with
  | [] => []
  | SMeas m :: r => match dget (ms_counts m) name with
                    | Some k => if Nat.ltb c k then [(i, t)] else []
                    | None => []
                    end ++ asked name c (S i) t r
  | SStrs s :: r => asked name c (S i) (t + ss_dur s) r
  | SOther _ :: r => asked name c (S i) t r
  end.
Definition at_step (it : nat * Z) (r : row V) : Prop := r_step r = fst it /\ r_time r = TD (snd it).
End Spec.
