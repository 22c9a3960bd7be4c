(** Degradation under changing conditions: laws that are one curve of an exposure. *)
From Coq Require Import Reals.
From Verif Require Import M_Base M_Num M_NumR M_Nd M_RandVar M_Latent M_Time M_TestSpec M_Minimize M_Device
  M_CookMech S_Device S_DeviceR S_Total S_History S_Const S_Search.
Open Scope R_scope.

(** Under the conditions [cs] the law of every device is its curve [g i], passed
    through at the rate [rate i]: exposure is rate times time. *)
Definition follows_curve (f : formula R) (s : scene R) (g : list nat -> R -> R) (rate : list nat -> R) (cs : dict (pyval R)) : Prop :=
  everywhere s (fun i => 0 < rate i /\ forall t, 0 <= t -> law_in f s cs i t = g i (rate i * t)).
(** The same for requested conditions that the devices see exactly. *)
Definition follows_curve_at (f : formula R) (s : scene R) (g : list nat -> R -> R) (rate : list nat -> R) (base : dict R) : Prop :=
  everywhere s (fun i => 0 < rate i /\ forall t, 0 <= t -> device_law f s base i t = g i (rate i * t)).

(** The curves start anywhere and go strictly in one direction. *)
Definition curves (s : scene R) (g : list nat -> R -> R) : Prop := everywhere s (fun i => strictly_monotone (fun x => 0 <= x) (g i)).

(** Exposure by stresses of the durations [ds] at the rates [rs]. *)
Fixpoint exposure (rs ds : list R) : R :=
  match rs, ds with r :: rs, d :: ds => r * d + exposure rs ds | _, _ => 0 end.

(** The rates of the stresses among some steps for the device [i]. *)
Definition rates_of (rate : dict R -> list nat -> R) (l : list (M_TestSpec.step R)) (i : list nat) : list R := map (fun k => rate (ss_conds k) i) (stresses l).

(** The exposure that searches with relative error [eps] and absolute error [del],
    at the rates [rs], may make of the true exposure [x]. *)
Definition exposed (eps del : R) (rs : list R) (x y : R) : Prop :=
  (1 - eps) ^ length rs * x - del * total rs <= y <= (1 + eps) ^ length rs * (x + del * total rs).

(** No time exceeds the limit up to which equations are evaluated. *)
Definition evaluated (eps del : R) (rs : list R) (x : R) : Prop :=
  forall r, In r rs -> (1 + eps) ^ length rs * (x + del * total rs) <= 9000000000 * r.

(** Every equivalent time found is the time at which the law has the device's value
    under the conditions of this stress, up to the errors. *)
Definition accurate_in (f : formula R) (s : scene R) (eps del : R) (found : list (dict (pyval R) * (nd R * nd R))) : Prop :=
  forall cs v t, In (cs, (v, t)) found -> everywhere s (fun i => forall tau, 0 <= tau -> aget v i = law_in f s cs i tau ->
    (1 - eps) * tau - del <= aget t i <= (1 + eps) * tau + del).

(** The search for the equivalent times of [v] under [cs] ends because every element
    has reached the tolerance. *)
Definition settles_in (s : scene R) (cs : dict (pyval R)) (v : nd R) : Prop :=
  forall w r w', minimize_run (equiv_obj (sc_mech s) (PArr v) v cs (sc_lats s) (sc_lots s) (sc_chps s) (sc_num s)) (length (ndata v))
      (/ 1000) 10000000000 (/ 100000) mach_64bit_eps 50 true w = (Ok r, w') -> mr_conv r = true.

(** The NBTI law at a temperature and voltage as a rate of exposure. *)
Definition nbti_rate (x : nbti_lats) (temp vdd : R) (i : list nat) : R :=
  Rpower (aget (nl_a0 x) i * exp (aget (nl_e x) i / (boltzmann_ev * temp)) * Rpower vdd (aget (nl_alpha x) i)) (/ aget (nl_n x) i).
