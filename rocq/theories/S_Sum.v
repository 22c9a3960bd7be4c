(** Specification of the default parameter equation: the sum of its parts. *)
From Coq Require Import QArith.
From Verif Require Import M_Base M_Num M_Nd M_RandVar M_Latent M_Time M_Minimize M_Device.
Open Scope nat_scope.

Section Spec.
Context {V : Type} `{NumOps V}.

(** Every mechanism advanced by itself, in order. *)
Inductive advanced (times conds lats mvals : dict (pyval V)) (L C D : nat) :
  dict (mech V) -> world -> dict (pyval V) -> world -> Prop :=
| adv_nil w : advanced times conds lats mvals L C D [] w [] w
| adv_cons nm m t v l x r w w1 xs w' :
    dget times nm = Some t -> dget mvals nm = Some v -> dget lats nm = Some (PDict l) ->
    mech_deg_vals m t v conds l L C D w = (Ok x, w1) ->
    advanced times conds lats mvals L C D r w1 xs w' ->
    advanced times conds lats mvals L C D ((nm, m) :: r) w ((nm, x) :: xs) w'.

(** No name with a role of its own in the default equation. *)
Definition plain_names (ms : dict (mech V)) : Prop :=
  NoDup (dkeys ms) /\ ~ In "init"%string (dkeys ms) /\ ~ In "cond"%string (dkeys ms).

(** The sum of one element of several arrays. *)
Definition sum_at (arrs : list (nd V)) (idx : list nat) : V := fold_left nadd (map (fun a => aget a idx) arrs) n0.
End Spec.
