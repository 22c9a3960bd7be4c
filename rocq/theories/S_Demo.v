(** What the demonstration scripts presuppose of numpy and of arithmetic on their
    literals. *)
From Coq Require Import QArith.
From Verif Require Import M_Base M_Num M_RandVar.
Open Scope Q_scope.

Section Spec.
Context {V : Type} `{NumOps V} `{Rng V}.

(** numpy accepts normal distributions with literal parameters and no negative standard
    deviation, Gamma(2, 1) and the standard uniform distribution. *)
Record numpy_accepts : Prop := {
  na_normal : forall mu sigma : Q, 0 <= sigma -> rvalid (NNormal (nofQ mu) (nofQ sigma)) = true;
  na_gamma : neqb (nofQ 1) n0 = false /\ rvalid (NGamma (nofQ 2) (ndiv n1 (nofQ 1))) = true;
  na_uniform : rvalid (NUniform (nofQ 0) (nofQ 1)) = true }.

(** The comparisons of the scripts hold: 25 + 273.15 == 298.15,
    0.88 + 0.02 * 7 == 1.02, and the quotients by 3600 of these numbers of seconds. *)
Record literals : Prop := {
  li_temp : neqb (nadd (nofQ 25) (nofQ (27315 # 100))) (nofQ (29815 # 100)) = true;
  li_vdd : neqb (nadd (nofQ (88 # 100)) (nmul (nofQ (2 # 100)) (nofQ (7 # 1)))) (nofQ (102 # 100)) = true;
  li_same : neqb (nofQ 4) (nofQ 4) = true /\ neqb (nofQ (87 # 100)) (nofQ (87 # 100)) = true;
  li_hours : forall h : Z, In h [100; 300; 122]%Z ->
    neqb (ndiv (nofQ ((h * 3600 * 1000000) # 1000000)) (nofQ 3600)) (nofQ (h # 1)) = true }.
End Spec.
Arguments numpy_accepts V {_ _}.
Arguments literals V {_}.
