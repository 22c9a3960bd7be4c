(** Specification notions for independence of the iteration order of sets. *)
From Verif Require Import M_Base M_Num M_Nd M_RandVar M_Latent M_Device M_Env.
Open Scope nat_scope.

Section Spec.
Context {V : Type} `{NumOps V}.

(** Two variables do not draw from one generator. *)
Definition apart (r1 r2 : rv V) : Prop :=
  (exists v, rv_dist r1 = DDeter v) \/ (exists v, rv_dist r2 = DDeter v) \/ rv_gen r1 <> rv_gen r2.

(** The device-level variables of distinct conditions do not share a generator. *)
Definition separate (e : env V) (conds : list string) : Prop :=
  forall c1 c2 m1 m2, In c1 conds -> In c2 conds -> c1 <> c2 ->
    vrtn_mdl e c1 = Ok m1 -> vrtn_mdl e c2 = Ok m2 -> apart (em_dev m1) (em_dev m2).
End Spec.
