(** Parameters that are the sum of an initial value and of degradation laws. *)
From Coq Require Import Reals.
From Verif Require Import M_Base M_Num M_NumR M_Nd M_RandVar M_Latent M_Time M_TestSpec M_Device
  S_Latent S_Device S_Sum S_Total S_Reading S_History S_HistoryR.
Open Scope R_scope.

(** The default equation, no conditional shift, no latent variables of its own, and
    every mechanism [nm] a degradation mechanism that starts at 0 and follows the
    formula [laws nm] in the time unit [units nm]. *)
Record additive (p : degprm R) (laws : string -> formula R) (units : string -> tunit) : Prop := {
  ad_own : lm_eqn (dp_own p) = eqn_basic_sum /\ lm_vars (dp_own p) = [];
  ad_cond : lm_eqn (dp_cond p) = eqn_const 0 /\ dp_cunit p = 0;
  ad_init : lm_vars (dp_init p) <> [];
  ad_names : plain_names (dp_mechs p) /\ ~ In "mechs"%string (dkeys (dp_mechs p));
  ad_mech : forall nm m, dget (dp_mechs p) nm = Some m ->
    mc_kind m = KDeg /\ mc_unitary m = 0 /\ given_by (lm_eqn (mc_mdl m)) (laws nm) /\ unit_map (mc_unit m) = Some (units nm) }.

(** The time that [k] searches with relative error [eps] and absolute error [del] may
    make of the true time [t]. *)
Definition within (eps del : R) (k : nat) (t tau : R) : Prop :=
  (1 - eps) ^ k * t - INR k * del <= tau <= (1 + eps) ^ k * (t + INR k * del).

(** The stresses among some steps. *)
Definition stresses {V} (l : list (M_TestSpec.step V)) : list (strs_spec V) := flat_map (fun x => match x with SStrs k => [k] | _ => [] end) l.

(** Smaller or greater. *)
Definition ordered (up : bool) (x y : R) : Prop := if up then x <= y else y <= x.

(** The law goes only in one direction in the course of time, and the time [t] that
    was found for the values [v] falls short of the true one by at most the duration
    of the stress. *)
Definition goes_on (up : bool) (f : formula R) (u : tunit) (s : scene R) (k : strs_spec R) (vt : nd R * nd R) : Prop :=
  everywhere s (fun i =>
    (forall y z, 0 <= y <= z -> ordered up (device_law f s (ss_conds k) i y) (device_law f s (ss_conds k) i z)) /\
    exists tau, 0 <= tau <= aget (snd vt) i + td_num u (ss_dur k) /\ aget (fst vt) i = device_law f s (ss_conds k) i tau).

(** The same under the conditions [cs] that the environment actually produced. *)
Definition law_in (f : formula R) (s : scene R) (cs : dict (pyval R)) (i : list nat) (time : R) : R :=
  feval f (fun x => match dget (sc_lats s) x with
                    | Some p => elem p i
                    | None => match dget cs x with
                              | Some p => elem p i
                              | None => if String.eqb x "time" then time else n0
                              end
                    end).
Inductive travelled `{Rng R} `{HashOrd} (s : scene R) : list (M_TestSpec.step R) -> nd R -> list (dict (pyval R) * (nd R * nd R)) -> nd R -> Prop :=
| tr_nil v : full s v -> travelled s [] v [] v
| tr_meas m l v found x : travelled s l v found x -> travelled s (SMeas m :: l) v found x
| tr_other o l v found x : travelled s l v found x -> travelled s (SOther o :: l) v found x
| tr_strs k l v t v1 cs found x :
    produced s (ss_conds k) cs -> advanced s cs (ss_dur k) v t v1 -> travelled s l v1 found x ->
    travelled s (SStrs k :: l) v ((cs, (v, t)) :: found) x.
Definition goes_on_in (up : bool) (f : formula R) (u : tunit) (s : scene R) (k : strs_spec R) (cvt : dict (pyval R) * (nd R * nd R)) : Prop :=
  let law := law_in f s (fst cvt) in
  everywhere s (fun i =>
    (forall y z, 0 <= y <= z -> ordered up (law i y) (law i z)) /\
    exists tau, 0 <= tau <= aget (snd (snd cvt)) i + td_num u (ss_dur k) /\ aget (fst (snd cvt)) i = law i tau).
