(** Prebuilt test environments (gerabaldi/cookbook/test_envs.py). *)
From Coq Require Import QArith.
From Verif Require Export M_Base M_Num M_Nd M_RandVar M_Latent M_Device M_Report M_Env.
Open Scope nat_scope.

Section CookEnv.
Context {V : Type} `{NumOps V}.

(** ideal_env, lines 10-20 *)
Definition ideal_env : res (env V) := env_init [] RNone [] RNone.

(** [Normal(mu, sigma)] with its own new generator [g] *)
Definition normal (g : nat) (mu sigma : Q) : rv V := Rv g (DNormal (nofQ mu) (nofQ sigma)) None.

(** volt_and_temp_env, lines 23-59.  The eight Normal objects have generators of
    their own, numbered from [g] in the order in which they are made. *)
Definition volt_vrtns (g : nat) : res (emdl V) :=
  emdl_init (Some (normal g 0 (3 # 10000))) (Some (normal (g + 1) 0 (5 # 10000))) (Some (normal (g + 2) 0 0))
            "offset" (Some "Voltage Variation Model"%string).
Definition temp_vrtns (g : nat) : res (emdl V) :=
  emdl_init (Some (normal (g + 3) 0 (5 # 100))) (Some (normal (g + 4) 0 (2 # 10))) (Some (normal (g + 5) 0 (5 # 10)))
            "offset" (Some "Temperature Variation Model"%string).
Definition volt_meas (g : nat) : instm V :=
  Instm (Some "Basic Voltmeter"%string) (Some 3%Z) (Some (normal (g + 6) 0 (2 # 10000))) (Some (Some (nofQ 0), Some (nofQ 12))).
Definition temp_meas (g : nat) : instm V :=
  Instm (Some "Basic Temp Sensor"%string) (Some 2%Z) (Some (normal (g + 7) (- 27315 # 100) (2 # 10)))
        (Some (Some (nofQ (-40)), Some (nofQ 180))).
Definition volt_and_temp_env (g : nat) : res (env V) :=
  rbind (volt_vrtns g) (fun v => rbind (temp_vrtns g) (fun t =>
    env_init [t; v] (RDict [("temp"%string, 0); ("vdd"%string, 1)])
             [temp_meas g; volt_meas g] (RDict [("temp"%string, 0); ("vdd"%string, 1)]))).
End CookEnv.
