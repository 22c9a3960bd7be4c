(** Specification notions for dictionaries of counts that are used again. *)
From Verif Require Import M_Base M_Num M_Nd M_RandVar M_Latent M_Time M_TestSpec M_Device M_Report M_Env M_Sim M_Reuse S_Sim.
Open Scope nat_scope.

Section Spec.
Context {V : Type} `{NumOps V}.

(** The circuit parameter [p] is computed from the parameter [q]. *)
Definition uses (d : device V) (p q : string) : Prop :=
  exists c, dget d p = Some (PCirc c) /\ In q (dkeys d) /\ In q (compute_args (lm_eqn c)).
(** [n] samples of [q] are asked for, or are needed, directly or not, for what is. *)
Inductive wanted (d : device V) (counts : dict nat) : string -> nat -> Prop :=
| w_asked q n : dget counts q = Some n -> wanted d counts q n
| w_used p q n : wanted d counts p n -> uses d p q -> wanted d counts q n.

(** [c] has all the names of [c0], with at least its numbers. *)
Definition at_least (c c0 : dict nat) : Prop := forall q n, dget c0 q = Some n -> exists m, dget c q = Some m /\ n <= m.
Definition same_device (d : device V) (l : list init_call) : Prop := forall c, In c l -> ic_dev c = d.
End Spec.
