(** Specification notions for optional packages. *)
From Coq Require Import Reals.
From Verif Require Import M_Base M_Num M_NumR M_Nd M_RandVar M_Latent M_Device M_Import.
Open Scope string_scope.

(** The modules an export to a framework needs, in the order in which it comes to
    need them, with the packages to install. *)
Definition needs (target : string) : list (string * string) :=
  if String.eqb target "pymc" then [("pymc", "pymc")]
  else [("torch", "torch"); ("pyro", "pyro-ppl"); ("pyro.distributions", "pyro-ppl")].
Definition lacks (sys : string -> import) (mp : string * string) : bool :=
  match sys (fst mp) with NotFound => true | _ => false end.
Definition first_missing (sys : string -> import) (target : string) : option (string * string) :=
  find (lacks sys) (needs target).
Definition message (m p : string) : string :=
  "Trying to use a feature that requires the optional " ++ m ++
  " module. Please install or fix package """ ++ p ++ """ first.".
Definition framework (target : string) : Prop := target = "pymc" \/ target = "pyro".

Section Spec.
Context {V : Type} `{NumOps V}.
(** A variable whose device layer is random, and Normal if there is a deterministic
    value other than 0 to re-centre it on. *)
Definition exportable (o : lvar V) : Prop :=
  lv_devf o = true /\
  (lv_deter o = None \/ (exists v, lv_deter o = Some v /\ neqb v n0 = true) \/ exists mu sigma, rv_dist (lv_dev o) = DNormal mu sigma).
(** The same variable with another device distribution. *)
Definition with_dist (o : lvar V) (d : dist V) : lvar V :=
  LVar (lv_name o) (lv_type o) (lv_deter o) (lv_unit o) (lv_op o)
       (Rv (rv_gen (lv_dev o)) d (rv_name (lv_dev o))) (lv_devf o) (lv_chp o) (lv_chpf o) (lv_lot o) (lv_lotf o).
(** Its device layer moved by the deterministic value. *)
Definition moved (o : lvar V) : lvar V :=
  match lv_deter o, rv_dist (lv_dev o) with
  | Some v, DNormal mu sigma =>
      if neqb v n0 then o
      else with_dist o (DNormal (match lv_type o with Some Scaling => nmul v mu | _ => nadd v mu end) sigma)
  | _, _ => o
  end.
(** [k] attempts to export a variable, one after the other. *)
Fixpoint attempts (mods : modules) (k : nat) (target : string) (o : lvar V) : lvar V :=
  match k with
  | 0%nat => o
  | S k => attempts mods k target (snd (cbi_export' mods o target))
  end.
End Spec.
