(** What the numbers in the table of measurements are. *)
From Verif Require Import M_Base M_Num M_Nd M_RandVar M_Latent M_Time M_TestSpec M_Device M_Report M_Env M_Sim
  S_Latent S_Device S_Env S_Sim S_Shape S_Total.
Open Scope nat_scope.

Section Spec.
Context {V : Type} `{NumOps V} `{Rng V}.

(** [readings] are what the instrument registered for [name] (an ideal one if there
    is none) shows for the values [truth]: an error drawn for each value, then
    rounding, then limiting. *)
Definition read_with (e : env V) (name : string) (truth readings : list V) : Prop :=
  exists ins,
    (dget e (name ++ "_instm") = Some (AInst ins) \/
     (dget e (name ++ "_instm") = None /\ in_prec ins = None /\ in_err ins = None /\ in_range ins = None)) /\
    length readings = length truth /\
    exists es w w',
      (match in_err ins with Some r => reads r (length truth) w es w' | None => w' = w end) /\
      forall k x, nth_error truth k = Some x -> exists x' r y,
        (match in_err ins with Some _ => exists ek, nth_error es k = Some ek /\ x' = nadd x ek | None => x' = x end) /\
        rounded (in_prec ins) x' r /\ limited (in_range ins) r y /\ nth_error readings k = Some y.

(** The arguments of a parameter's equation in a measurement: its current value in
    place of the initial value, the conditional shift, every mechanism's neutral
    value, and its own latent values, in this order. *)
Record shifted_args (p : degprm V) (current shift : pyval V) (lats args : dict (pyval V)) : Prop := {
  sa_wf : dwf args;
  sa_init : dget args "init" = Some current;
  sa_cond : dget args "cond" = Some shift;
  sa_mech : forall nm m, dget (dp_mechs p) nm = Some m -> dget args nm = Some (PNum (mc_unitary m));
  sa_other : forall x, x <> "init"%string -> x <> "cond"%string -> ~ In x (dkeys (dp_mechs p)) ->
    dget args x = if smem x (compute_args (lm_eqn (dp_own p))) then dget lats x else None;
  sa_order : exists rest, dkeys args = "init"%string :: "cond"%string :: dkeys (dp_mechs p) ++ rest }.

(** The values of [k] devices per chip of a degraded parameter in state [st] under
    conditions [cs]: current values and latent values of the first [k] devices. *)
Definition deg_truth (L C k : nat) (p : degprm V) (name : string) (st : simstate V) (cs : dict (pyval V)) (truth : nd V) : Prop :=
  exists cur current lats lats' cl cargs shift args w1 w2 w3,
    dget (st_prm st) name = Some cur /\ cut k cur current /\
    dget (st_lat st) name = Some lats /\ cut_all k lats lats' /\ dget lats' "cond" = Some (PDict cl) /\
    (forall x, dget cargs x = if smem x (compute_args (lm_eqn (dp_cond p))) then first_of [cl; cs] x else None) /\
    dwf cargs /\ operands L C k cargs /\
    call_or_loop (lm_eqn (dp_cond p)) cargs L C k w1 = (Ok shift, w2) /\ operand L C k shift /\
    shifted_args p current shift lats' args /\ operands L C k args /\
    call_or_loop (lm_eqn (dp_own p)) args L C k w2 = (Ok (PArr truth), w3) /\
    nshape truth = [L; C; k] /\ length (ndata truth) = L * C * k.

(** What the rows [g] for a request of [k] values of [name] contain. *)
Definition measured (e : env V) (d : device V) (L C : nat) (st : simstate V) (conds : dict (dict (pyval V)))
    (kv : string * nat) (g : list (row V)) : Prop :=
  exists cs, dget conds (fst kv) = Some cs /\
  match dget d (fst kv) with
  | Some (PDeg p) => exists truth, deg_truth L C (snd kv) p (fst kv) st cs truth /\ read_with e (fst kv) (ndata truth) (map r_val g) /\
      labelled L C (snd kv) g
  | Some (PCirc c) => exists lats v w w', dget (st_lat st) (fst kv) = Some lats /\
      circ_vals c (snd kv) cs (st_prm st) lats w = (Ok v, w') /\
      forall a L' C' n, v = PArr a -> nshape a = [L'; C'; n] -> length (ndata a) = L' * C' * n ->
        read_with e (fst kv) (ndata a) (map r_val g) /\ labelled L' C' n g
  | None => exists a, dget cs (fst kv) = Some (PArr a) /\ read_with e (fst kv) (ndata a) (map r_val g) /\ unlabelled (snd kv) g
  end.

(** One element of a number or array. *)
Definition elem (p : pyval V) (idx : list nat) : V := match p with PNum x => x | PArr a => aget a idx | _ => n0 end.

(** The value of a formula when its names stand for numbers. *)
Fixpoint feval (e : formula V) (env : string -> V) : V :=
  match e with
  | FNum v => v
  | FArg x => env x
  | FMap f e => f (feval e env)
  | FMap2 f e1 e2 => f (feval e1 env) (feval e2 env)
  end.

(** The numbers that the names of a parameter's equation stand for when device
    [idx] is measured: the device's own current value, shift and latent values. *)
Definition device_args (p : degprm V) (cur shift : pyval V) (lats : dict (pyval V)) (idx : list nat) (env : string -> V) : Prop :=
  env "init"%string = elem cur idx /\ env "cond"%string = elem shift idx /\
  (forall nm m, dget (dp_mechs p) nm = Some m -> env nm = mc_unitary m) /\
  forall x a, x <> "init"%string -> x <> "cond"%string -> ~ In x (dkeys (dp_mechs p)) -> dget lats x = Some (PArr a) -> env x = aget a idx.
(** The same for the conditional shift: the device's latent values and conditions. *)
Definition shift_args (cl cs : dict (pyval V)) (idx : list nat) (env : string -> V) : Prop :=
  forall x v, first_of [cl; cs] x = Some v -> env x = elem v idx.
End Spec.
