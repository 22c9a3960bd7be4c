(** What the current value of a degraded parameter is made of. *)
From Verif Require Import M_Base M_Num M_Nd M_RandVar M_Latent M_Time M_TestSpec M_Device M_Report M_Env M_Sim S_Sum.
Open Scope nat_scope.

Section Spec.
Context {V : Type} `{NumOps V}.

(** The arguments of the parameter's own equation: the initial value, the neutral
    value of the conditional shift, the current value of every mechanism under its
    name and, for every other name of the signature, the parameter's latent value of
    that name if it has one. *)
Record current_args (p : degprm V) (init : pyval V) (mechs lats args : dict (pyval V)) : Prop := {
  ca_wf : dwf args;
  ca_init : dget args "init" = Some init;
  ca_cond : dget args "cond" = Some (PNum (dp_cunit p));
  ca_mech : forall nm, In nm (dkeys (dp_mechs p)) -> dmem mechs nm = true /\ dget args nm = dget mechs nm;
  ca_other : forall x, x <> "init"%string -> x <> "cond"%string -> ~ In x (dkeys (dp_mechs p)) ->
    dget args x = if smem x (compute_args (lm_eqn (dp_own p))) then dget lats x else None }.

(** The current value is what the equation returned for these arguments. *)
Definition composed (L C n : nat) (p : degprm V) (name : string) (st : simstate V) : Prop :=
  exists v init mechs lats args w w',
    dget (st_prm st) name = Some v /\ dget (st_prm0 st) name = Some init /\
    dget (st_mech st) name = Some mechs /\ dget (st_lat st) name = Some lats /\
    current_args p init mechs lats args /\
    call_or_loop (lm_eqn (dp_own p)) args L C n w = (Ok v, w').

(** Element by element: the initial value plus the neutral shift plus the sum of
    all mechanisms. *)
Definition summed (L C n : nat) (p : degprm V) (name : string) (st : simstate V) : Prop :=
  exists v init mechs arrs,
    dget (st_prm st) name = Some (PArr v) /\ dget (st_prm0 st) name = Some (PArr init) /\
    dget (st_mech st) name = Some mechs /\ mechs = List.combine (dkeys (dp_mechs p)) (map PArr arrs) /\
    length arrs = length (dp_mechs p) /\
    nshape v = [L; C; n] /\ nshape init = [L; C; n] /\ Forall (fun a => nshape a = [L; C; n]) arrs /\
    forall i j k, i < L -> j < C -> k < n ->
      aget v [i; j; k] = nadd (nadd (aget init [i; j; k]) (dp_cunit p)) (sum_at arrs [i; j; k]).
End Spec.
