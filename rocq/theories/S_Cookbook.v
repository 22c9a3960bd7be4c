(** Specification notions for the prebuilt tests. *)
From Coq Require Import QArith.
From Verif Require Import M_Base M_Num M_TestSpec S_TestSpec.
Open Scope Z_scope.

Section Spec.
Context {V : Type} `{NumOps V}.
(** A measurement of everything requested at a temperature (in Celsius, converted
    to Kelvin) and voltage. *)
Definition measures_at (to_meas : dict nat) (temp_c vdd : V) (s : step V) : Prop :=
  exists m, s = SMeas m /\ ms_counts m = to_meas /\
    ms_conds m = [("temp"%string, nadd temp_c (nofQ (27315 # 100))); ("vdd"%string, vdd)].
Definition stresses_at (temp_c vdd : V) (us : Z) (s : step V) : Prop :=
  exists x, s = SStrs x /\ ss_dur x = us /\
    ss_conds x = [("temp"%string, nadd temp_c (nofQ (27315 # 100))); ("vdd"%string, vdd)].
End Spec.
Definition hour : Z := 3600000000.
