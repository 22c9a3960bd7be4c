(** A concrete random generator over the rationals, used only in Examples and in
    refutation witnesses: draws are loc + scale * state and the state counts up. *)
From Coq Require Import QArith.
From Verif Require Import M_Base M_Num M_RandVar.
Open Scope Q_scope.

#[export] Instance ToyRng : Rng Q := {
  rdraw p s :=
    let z := inject_Z (Z.of_nat s) in
    (match p with
     | NNormal m sg => Qred (m + sg * z)
     | NGamma k th => Qred (k * th * z)
     | NUniform lo hi => Qred (lo + (hi - lo) * (z / (z + 1)))
     end, Datatypes.S s);
  rvalid p := match p with
              | NNormal _ sg => Qle_bool 0 sg
              | NGamma k th => (Qle_bool 0 k && Qle_bool 0 th)%bool
              | NUniform lo hi => Qle_bool lo hi
              end
}.
