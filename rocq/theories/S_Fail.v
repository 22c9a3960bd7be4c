(** Parameters whose devices fail for good. *)
From Coq Require Import QArith.
From Verif Require Import M_Base M_Num M_Nd M_RandVar M_Latent M_Time M_TestSpec M_Device M_Report M_Script
  S_Device S_Shape S_Reading.
Open Scope nat_scope.

Section Spec.
Context {V : Type} `{NumOps V} `{Rng V}.

(** The number that the name [x] stands for at one device. *)
Definition value_at (args : dict (pyval V)) (idx : list nat) (x : string) : V :=
  match dget args x with Some v => elem v idx | None => n0 end.
(** An equation that computes [g] for every device separately, whether it is given
    arrays or called once per device. *)
Definition pointwise (L C n : nat) (f : eqn V) (g : (string -> V) -> V) : Prop :=
  forall args w v w', dwf args -> operands L C n args -> call_or_loop f args L C n w = (Ok v, w') ->
    forall l c d, l < L -> c < C -> d < n -> elem v [l; c; d] = g (value_at args [l; c; d]).

(** The parameter's own latent values at one device. *)
Definition own_values (p : degprm V) (lats : dict (pyval V)) (idx : list nat) (x : string) : V :=
  if smem x (compute_args (lm_eqn (dp_own p))) then value_at lats idx x else n0.

(** A device with own latent values [own], whose value [g] computes, can fail and stays
    failed: every mechanism is a failure mechanism; a device that is failed at first
    fails; further mechanisms leaving their neutral values do not repair it; and a
    reading, for which all mechanisms are neutral, shows a failure only if the current
    value does. *)
Record breaks (p : degprm V) (g : (string -> V) -> V) (failed : V -> Prop) (own : string -> V) : Prop := {
  br_kind : forall nm m, dget (dp_mechs p) nm = Some m -> mc_kind m = KFail;
  br_init : forall env, (forall x, x <> "init"%string -> x <> "cond"%string -> ~ In x (dkeys (dp_mechs p)) -> env x = own x) ->
    failed (env "init"%string) -> failed (g env);
  br_more : forall env env', (forall x, x <> "init"%string -> x <> "cond"%string -> ~ In x (dkeys (dp_mechs p)) -> env x = own x) ->
    (forall x, ~ In x (dkeys (dp_mechs p)) -> env' x = env x) ->
    (forall nm m, dget (dp_mechs p) nm = Some m -> neqb (env nm) (mc_unitary m) = false -> env' nm = env nm) ->
    failed (g env) -> failed (g env');
  br_read : forall env, (forall x, x <> "init"%string -> x <> "cond"%string -> ~ In x (dkeys (dp_mechs p)) -> env x = own x) ->
    (forall nm m, dget (dp_mechs p) nm = Some m -> env nm = mc_unitary m) -> failed (g env) -> failed (env "init"%string) }.
End Spec.

(** What the readings of a transistor, one every week for two years, say of its
    lifetime: it works for some weeks and then no more. *)
Definition lifetime (readings : list Q) (ev : M_Script.event) : Prop :=
  exists good bad, readings = repeat 1%Q good ++ repeat 0%Q bad /\ 1 <= good /\ good + bad = 105 /\
    match ev with
    | M_Script.FailedAt h => bad <> 0 /\ (h == 168 * inject_Z (Z.of_nat good))%Q
    | M_Script.Censored => bad = 0
    end.
