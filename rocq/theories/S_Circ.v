(** How many values per chip the equation of a circuit parameter is given. *)
From Verif Require Import M_Base M_Num M_Nd M_RandVar M_Latent M_Time M_TestSpec M_Device M_Report M_Env M_Sim
  S_Device S_Sim S_Shape S_Total.
Open Scope nat_scope.

Section Spec.
Context {V : Type}.

(** In the measurement [m] of test [l], which asks for [k] values of the circuit
    parameter [q], the name [x] stands for an array with [n] values per chip: a latent
    variable has as many as the test needs of the circuit parameter, a condition as
    many as this measurement asks for, and a degraded parameter as many as the test
    needs of that parameter. *)
Inductive comes_with (d : device V) (l : list (step V)) (m : meas_spec V) (q : string) (k : nat) (c : lmdl V) (x : string) : nat -> Prop :=
| cw_latent n : In x (dkeys (lm_vars c)) -> greatest (needs d l q) n -> comes_with d l m q k c x n
| cw_condition : ~ In x (dkeys (lm_vars c)) -> In x (dkeys (ms_conds m)) -> comes_with d l m q k c x k
| cw_parameter p n : ~ In x (dkeys (lm_vars c)) -> ~ In x (dkeys (ms_conds m)) ->
    dget d x = Some (PDeg p) -> lm_vars (dp_init p) <> [] -> greatest (needs d l x) n -> comes_with d l m q k c x n.

(** Two arrays that differ only in the number of values per chip can be combined. *)
Definition combinable (n n' : nat) : Prop := n = n' \/ n = 1 \/ n' = 1.
End Spec.
