(** The rows of both tables of a report, by position. *)
From Verif Require Import M_Base M_Num M_Nd M_RandVar M_Latent M_Time M_TestSpec M_Device M_Report M_Env M_Sim
  S_TestSpec S_Device S_Sim S_Shape S_Total.
Open Scope nat_scope.

Section Spec.
Context {V : Type} `{NumOps V}.

(** A summary row shows the nominal conditions of its step. *)
Definition row_conds (r : dict (cell V)) (conds : dict V) : Prop := forall c v, dget conds c = Some v -> dget r c = Some (CNum v).

(** The row of step number [i], started at time [t]. *)
Definition summary_says (s : step V) (i : nat) (t : Z) (r : dict (cell V)) : Prop :=
  match s with
  | SMeas m => row_says r (ms_name m) "measure" i (TD 0) (TD t) (TD t) /\ row_conds r (ms_conds m)
  | SStrs x => row_says r (ss_name x) "stress" i (TD (ss_dur x)) (TD t) (TD (t + ss_dur x)) /\ row_conds r (ss_conds x)
  | SOther _ => False
  end.
(** One row for each step, at its position. *)
Definition summary_exact (l : list (step V)) (i : nat) (t : Z) (rows : list (dict (cell V))) : Prop :=
  length rows = length l /\
  forall l1 s l2, l = l1 ++ s :: l2 -> exists r, nth_error rows (length l1) = Some r /\ summary_says s (i + length l1) (t + stress_time l1) r.
Definition only_steps (l : list (step V)) : Prop := forall o, ~ In (SOther o) l.

(** The number of rows of a table if request [kv] gives [f kv] rows. *)
Fixpoint row_count (f : string * nat -> nat) (l : list (step V)) : nat :=
  match l with
  | [] => 0
  | SMeas m :: r => list_sum (map f (ms_counts m)) + row_count f r
  | _ :: r => row_count f r
  end.
End Spec.
