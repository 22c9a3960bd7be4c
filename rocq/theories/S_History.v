(** How one degradation mechanism of one parameter develops in the course of a test. *)
From Coq Require Import QArith.
From Verif Require Import M_Base M_Num M_Nd M_RandVar M_Latent M_Time M_TestSpec M_Device M_Report M_Env M_Sim
  S_Latent S_Device S_Env S_Sim S_Shape S_Total S_Reading.
Open Scope nat_scope.

Section Spec.
Context {V : Type} `{NumOps V} `{Rng V} `{HashOrd}.

(** What is fixed during a test: environment, device, numbers of lots, chips and
    devices, the parameter and its mechanism, and the latter's latent values. *)
Record scene := Scene {
  sc_env : env V; sc_dev : device V; sc_lots : nat; sc_chps : nat; sc_counts : dict nat;
  sc_name : string; sc_num : nat; sc_mech : mech V; sc_lats : dict (pyval V) }.

(** Conditions [cs] are what the environment produced for the parameter in some
    stress with requested conditions [base]. *)
Definition produced (s : scene) (base : dict V) (cs : dict (pyval V)) : Prop :=
  exists all w w', gen_env_cond_vals (sc_env s) base (PList (map fst (deg_prms (sc_dev s))))
      (Some (TInfo (sc_chps s) (sc_lots s) (sc_counts s))) (Some (sc_dev s)) true 1 1 w = (Ok all, w') /\
    dget all (sc_name s) = Some cs.

(** One element of an array for every lot, chip and device. *)
Definition everywhere (s : scene) (P : list nat -> Prop) : Prop :=
  forall l c d, l < sc_lots s -> c < sc_chps s -> d < sc_num s -> P [l; c; d].
Definition full (s : scene) (a : nd V) : Prop :=
  nshape a = [sc_lots s; sc_chps s; sc_num s] /\ length (ndata a) = sc_lots s * sc_chps s * sc_num s.

(** The arguments of the mechanism's equation: its latent values, then the
    conditions, then the times. *)
Definition law_args (s : scene) (cs : dict (pyval V)) (times : nd V) (args : dict (pyval V)) : Prop :=
  dwf args /\
  forall x, dget args x =
    match (if smem x (compute_args (lm_eqn (mc_mdl (sc_mech s)))) then first_of [sc_lats s; cs] x else None) with
    | Some p => Some p
    | None => if String.eqb x "time" then Some (PArr times) else None
    end.

(** What a stress of duration [dur] under conditions [cs] makes of the values [v]:
    [t] are the times that would have produced [v] under [cs]; the equation is
    evaluated at these times plus the duration in the mechanism's unit.  Values are
    kept where the time exceeds 9e9 (unless infinite), and a failure mechanism that
    has left its neutral value keeps its value. *)
Definition advanced (s : scene) (cs : dict (pyval V)) (dur : Z) (v t x : nd V) : Prop :=
  let m := sc_mech s in
  full s v /\ full s t /\ full s x /\
  (match mc_kind m with
   | KDeg => exists w w', mech_equiv_time m (PArr v) cs (sc_lats s) (sc_lots s) (sc_chps s) (sc_num s) w = (Ok (PArr t), w')
   | KFail => everywhere s (fun i => aget t i = n0)
   end) /\
  exists u t' args y w w',
    unit_map (mc_unit m) = Some u /\ full s t' /\ everywhere s (fun i => aget t' i = nadd (aget t i) (td_num u dur)) /\
    law_args s cs t' args /\
    call_or_loop (lm_eqn (mc_mdl m)) args (sc_lots s) (sc_chps s) (sc_num s) w = (Ok y, w') /\
    operands (sc_lots s) (sc_chps s) (sc_num s) args /\
    everywhere s (fun i =>
      let z := if nltb (nofQ 9000000000) (aget t' i) && negb (nposinf (aget v i)) then aget v i else elem y i in
      aget x i = match mc_kind m with
                 | KDeg => z
                 | KFail => if neqb (aget v i) (mc_unitary m) then z else aget v i
                 end).

(** Over a sequence of steps only the stresses change the mechanism, each in this
    way; [found] lists the values and equivalent times of the stresses. *)
Inductive history (s : scene) : list (step V) -> nd V -> list (nd V * nd V) -> nd V -> Prop :=
| hi_nil v : full s v -> history s [] v [] v
| hi_meas m l v found x : history s l v found x -> history s (SMeas m :: l) v found x
| hi_other o l v found x : history s l v found x -> history s (SOther o :: l) v found x
| hi_strs (k : strs_spec V) l v t v1 cs found x :
    produced s (ss_conds k) cs -> advanced s cs (ss_dur k) v t v1 -> history s l v1 found x ->
    history s (SStrs k :: l) v ((v, t) :: found) x.

(** The law of one device: the value of the mechanism's formula when its names
    stand for the device's latent values, the requested conditions and the time. *)
Definition device_law (f : formula V) (s : scene) (base : dict V) (i : list nat) (time : V) : V :=
  feval f (fun x => match dget (sc_lats s) x with
                    | Some p => elem p i
                    | None => match dget base x with
                              | Some c => c
                              | None => if String.eqb x "time" then time else n0
                              end
                    end).

(** Durations of the stresses of a list of steps as numbers in unit [u]. *)
Definition stress_times (u : tunit) (l : list (step V)) : list V :=
  flat_map (fun x => match x with SStrs k => [td_num u (ss_dur k)] | _ => [] end) l.
End Spec.
Arguments scene : clear implicits.
