(** The prebuilt degradation mechanism (gerabaldi/cookbook/mech_mdls.py), in exact
    arithmetic. *)
From Coq Require Import Reals QArith.
From Flocq Require Import Core.
From Verif Require Export M_Base M_Num M_NumR M_Nd M_RandVar M_Latent M_Device M_LatentMdl.
Open Scope R_scope.

(** line 11: BOLTZMANN_CONST_EV *)
Definition boltzmann_ev : R := 8617 / 100000000.

(** [x ** y] for [x >= 0]; a negative base, and 0 to a negative power, are not
    modelled (numpy gives nan or inf). *)
Definition r_power (x y : R) : R := if Req_bool x 0 then (if Req_bool y 0 then 1 else 0) else Rpower x y.

(** nbti_vth_shift_empirical, lines 26-27, on numbers or arrays, evaluated from left
    to right.  A temperature of 0 is not modelled (division by zero). *)
Definition nbti_eqn : eqn R :=
  Eqn ["a_0"; "e_aa"; "temp"; "vdd"; "alpha"; "time"; "n"]%string [] None (fun a =>
    let arg := dgetE a in
    let kt := rbind (arg "temp"%string) (pmap (Rmult boltzmann_ev)) in
    let x := rbind (rbind (arg "e_aa"%string) (fun e => rbind kt (pmap2 Rdiv e))) (pmap exp) in
    let p1 := rbind (arg "a_0"%string) (fun a0 => rbind x (pmap2 Rmult a0)) in
    let v := rbind (arg "vdd"%string) (fun vdd => rbind (arg "alpha"%string) (pmap2 r_power vdd)) in
    let p2 := rbind p1 (fun p1 => rbind v (pmap2 Rmult p1)) in
    let t := rbind (arg "time"%string) (fun time => rbind (arg "n"%string) (pmap2 r_power time)) in
    lift (rbind p2 (fun p2 => rbind t (pmap2 Rmult p2)))).

(** [LatentVar(dev_vrtn_mdl=Normal(mu, sigma))] with the generator [g] *)
Definition latent_normal (g : nat) (mu sigma : Q) : res (lvar R) :=
  lvar_init (Some (Rv g (DNormal (nofQ mu) (nofQ sigma)) None)) None None None None "scaling".

(** jedec_nbti_mdl, lines 14-37, the generators numbered from [g] *)
Definition jedec_nbti_mdl (g : nat) : res (mech R) :=
  rbind (latent_normal g (6 # 1000) (2 # 10000)) (fun a0 =>
  rbind (latent_normal (g + 1) (5 # 100) (2 # 10000)) (fun e =>
  rbind (latent_normal (g + 2) (34 # 10) (4 # 1000)) (fun al =>
  rbind (latent_normal (g + 3) (21 # 100) (5 # 1000)) (fun n =>
  rbind (snd (lmdl_init (Some nbti_eqn) [a0; e; al; n] [("a_0", 0%nat); ("e_aa", 1%nat); ("alpha", 2%nat); ("n", 3%nat)]%string)) (fun m =>
  Ok (Mech KDeg m (nofQ 0) None)))))).
