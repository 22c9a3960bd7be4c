(** Specification notions for array shapes in simulations. *)
From Verif Require Import M_Base M_Num M_Nd M_RandVar M_Latent M_Time M_TestSpec M_Device M_Report M_Env M_Sim
  S_TestSpec S_Device S_Sim.
Open Scope nat_scope.

Section Spec.
Context {V : Type} `{NumOps V}.

(** What equations are given: numbers and arrays with one element per device. *)
Definition operand (L C n : nat) (p : pyval V) : Prop := (exists y, p = PNum y) \/ shaped L C n p.
Definition operands (L C n : nat) (args : dict (pyval V)) : Prop := forall x p, In (x, p) args -> operand L C n p.

(** An equation that works on numbers and arrays: it returns a number or an array
    with one element per device. *)
Definition numeric_at (L C n : nat) (f : eqn V) : Prop :=
  forall args w v w', dwf args -> operands L C n args -> call f args w = (Ok v, w') -> operand L C n v.
Definition numeric (f : eqn V) : Prop := forall L C n, numeric_at L C n f.
(** An equation that respects shapes: given at least one array it also returns one. *)
Definition respects_at (L C n : nat) (f : eqn V) : Prop :=
  forall args w v w', dwf args -> operands L C n args -> call f args w = (Ok v, w') ->
    operand L C n v /\ ((exists x a, In (x, PArr a) args) -> shaped L C n v).
Definition respects (f : eqn V) : Prop := forall L C n, respects_at L C n f.
(** The equation of a parameter: given an array of current values it returns one. *)
Definition follows_at (L C n : nat) (f : eqn V) : Prop :=
  forall args w v w', dwf args -> operands L C n args -> call f args w = (Ok v, w') ->
    operand L C n v /\ ((exists a, In ("init"%string, PArr a) args) -> shaped L C n v).
Definition follows (f : eqn V) : Prop := forall L C n, follows_at L C n f.

Definition regular (d : device V) : Prop :=
  forall name p, dget d name = Some (PDeg p) ->
    respects (lm_eqn (dp_init p)) /\ numeric (lm_eqn (dp_cond p)) /\ follows (lm_eqn (dp_own p)) /\
    forall nm m, dget (dp_mechs p) nm = Some m -> numeric (lm_eqn (mc_mdl m)).
(** The same for particular numbers of lots, chips and devices only; [ns name n]: the
    parameter occurs with [n] devices. *)
Definition regular_at (d : device V) (L C : nat) (ns : string -> nat -> Prop) : Prop :=
  forall name p n, dget d name = Some (PDeg p) -> ns name n ->
    respects_at L C n (lm_eqn (dp_init p)) /\ numeric_at L C n (lm_eqn (dp_cond p)) /\ follows_at L C n (lm_eqn (dp_own p)) /\
    forall nm m, dget (dp_mechs p) nm = Some m -> numeric_at L C n (lm_eqn (mc_mdl m)).

(** Conditions and requests of steps are Python dictionaries. *)
Definition step_wf (s : step V) : Prop :=
  match s with
  | SMeas m => dwf (ms_conds m) /\ dwf (ms_counts m)
  | SStrs x => dwf (ss_conds x)
  | SOther _ => True
  end.

(** A parameter value: a number or an array with one element per device, and
    certainly an array when the initial value model has a latent variable. *)
Definition prm_fits (p : degprm V) (L C n : nat) (v : pyval V) : Prop :=
  operand L C n v /\ (lm_vars (dp_init p) <> [] -> shaped L C n v).

(** Latent values of a degraded parameter: arrays, or dictionaries of arrays for
    its conditional shift and its mechanisms. *)
Definition lats_fit (p : degprm V) (L C n : nat) (ls : dict (pyval V)) : Prop :=
  forall k v, In (k, v) ls -> shaped L C n v \/
    ((k = "cond"%string \/ In k (dkeys (dp_mechs p))) /\
     exists l, v = PDict l /\ forall x u, In (x, u) l -> shaped L C n u).

(** Every array of the state has shape (lots, chips, sample count). *)
Definition state_fits (d : device V) (L C : nat) (counts : dict nat) (st : simstate V) : Prop :=
  forall name p, dget d name = Some (PDeg p) -> exists n mv v v0 ls,
    dget counts name = Some n /\
    dget (st_mech st) name = Some mv /\
    (forall nm m, dget (dp_mechs p) nm = Some m -> exists x, dget mv nm = Some x /\ shaped L C n x) /\
    dget (st_prm st) name = Some v /\ prm_fits p L C n v /\
    dget (st_prm0 st) name = Some v0 /\ prm_fits p L C n v0 /\
    dget (st_lat st) name = Some ls /\ lats_fit p L C n ls.

(** What the rows of one requested quantity look like: for a degraded parameter one
    row for each lot, chip and device number; for an environmental condition one
    row for each sensor.  Nothing is said of circuit parameters. *)
Definition rows_fit (d : device V) (L C : nat) (kv : string * nat) (g : list (row V)) : Prop :=
  match dget d (fst kv) with
  | Some (PDeg _) => labelled L C (snd kv) g
  | Some (PCirc _) => True
  | None => unlabelled (snd kv) g
  end.
End Spec.
