(** Populations that degradation shifts as a whole. *)
From Coq Require Import Reals List String Bool.
From Verif Require Import M_Base M_Num M_NumR M_Nd M_RandVar M_Latent M_Time M_TestSpec M_Device M_Report M_Env M_Sim
  S_Latent S_Total S_Const S_Moments S_Moments2.
Import ListNotations.
Open Scope R_scope.

(** What step number [s] shows of a device of parameter [name] in the report of a run. *)
Definition step_reading (r : res (simstate R * report R)) (s : nat) (name : string) (i : nat * nat * nat) : R :=
  match r with
  | Ok sr => match find (fun x => is_row name i x && Nat.eqb (r_step x) s) (rp_meas (snd sr)) with Some x => r_val x | None => 0 end
  | Err _ => 0
  end.
(** The initial value of that device in the state that the run ends with. *)
Definition initial_value (r : res (simstate R * report R)) (name : string) (i : nat * nat * nat) : R :=
  match r with
  | Ok sr => match dget (st_prm0 (fst sr)) name with Some (PArr a) => aget a [fst (fst i); snd (fst i); snd i] | _ => 0 end
  | Err _ => 0
  end.

(** A parameter that is the sum of an initial value, with the latent variable [o], and
    of laws that are the same for all devices: no mechanism has latent variables. *)
Record rigid (d : device R) (name : string) (p : degprm R) (o : lvar R) : Prop := {
  ri_prm : dget d name = Some (PDeg p);
  ri_sum : exists laws units, additive p laws units;
  ri_same : forall nm m, dget (dp_mechs p) nm = Some m -> lm_vars (mc_mdl m) = [];
  ri_init : lm_eqn (dp_init p) = eqn_basic;
  ri_var : dget (lm_vars (dp_init p)) "init_val" = Some o }.
