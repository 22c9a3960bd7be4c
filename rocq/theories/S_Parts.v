(** Specification notions for "simulating part of a device". *)
From Verif Require Import M_Base M_Num M_Nd M_RandVar M_Latent M_Device M_Env M_TestSpec M_Report.
From Verif Require Import S_Foot.
Open Scope nat_scope.

Section Spec.
Context {V : Type} `{NumOps V}.

(** The entries of a dictionary whose names are kept, and what remains of a test
    step, of a simulation state and of a report. *)
Definition keep {A} (K : string -> bool) (d : dict A) : dict A := filter (fun kv => K (fst kv)) d.
Definition measuring (K : string -> bool) (s : step V) : step V :=
  match s with
  | SMeas m => SMeas (MeasSpec (keep K (ms_counts m)) (ms_conds m) (ms_name m))
  | _ => s
  end.
Definition state_part (K : string -> bool) (s : simstate V) : simstate V :=
  SimState (st_elapsed s) (keep K (st_prm s)) (keep K (st_prm0 s)) (keep K (st_mech s))
           (keep K (st_mech0 s)) (keep K (st_lat s)).
Definition report_part (K : string -> bool) (r : report V) : report V :=
  Report (rp_chps r) (rp_lots r) (keep K (rp_counts r))
         (filter (fun x => K (r_param x)) (rp_meas r)) (rp_sum r).

(** The rows of one name. *)
Definition rows_of (n : string) (r : report V) : list (row V) :=
  filter (fun x => String.eqb (r_param x) n) (rp_meas r).

(** [F] tells which random generators each parameter uses, and [G] which ones the
    rest of the test uses.  The parameters of [S] have theirs to themselves. *)
Definition separate `{HashOrd} (S : string -> Prop) (F : string -> nat -> Prop) (G : nat -> Prop)
  (e : env V) (d : device V) (l : list (step V)) : Prop :=
  (forall n x, dget d n = Some x -> parameter_in (F n) e l n x) /\
  (forall n n' g, S n -> dget d n <> None -> dget d n' <> None -> n <> n' -> F n g -> ~ F n' g) /\
  (forall n g, S n -> dget d n <> None -> F n g -> ~ G g) /\
  surroundings_in G e d l.

(** The same parameters listed in another order. *)
Definition reordered (d d' : device V) : Prop := dwf d /\ dwf d' /\ forall n, dget d n = dget d' n.
End Spec.
