(** Searches for equivalent times that end by convergence. *)
From Coq Require Import Reals QArith.
From Verif Require Import M_Base M_Num M_NumR M_Nd M_RandVar M_Latent M_Time M_TestSpec M_Minimize M_Device
  M_CookMech S_Device S_DeviceR S_Total S_History S_CookMech.
Open Scope R_scope.

Section Spec.
Context `{Rng R} `{HashOrd}.

(** Whenever the equivalent times of the values [v] are searched under conditions that
    the environment may produce, the search ends because every element has reached
    the tolerance, not because the 50 iterations are used up. *)
Definition settles (s : scene R) (base : dict R) (v : nd R) : Prop :=
  forall cs w r w', produced s base cs ->
    minimize_run (equiv_obj (sc_mech s) (PArr v) v cs (sc_lats s) (sc_lots s) (sc_chps s) (sc_num s)) (length (ndata v))
      (/ 1000) 10000000000 (/ 100000) mach_64bit_eps 50 true w = (Ok r, w') -> mr_conv r = true.

(** The law of every device is 0 for a fresh device and goes strictly in one
    direction in the course of time. *)
Definition progresses (f : formula R) (s : scene R) (base : dict R) : Prop :=
  everywhere s (fun i => device_law f s base i 0 = 0 /\ strictly_monotone (fun t => 0 <= t) (device_law f s base i)).

(** Errors of such a search: one part in 50000, and 0.0011 units of time for fresh
    devices. *)
Definition rel_error : R := / 50000.
Definition abs_error : R := 11 / 10000.
End Spec.

(** The empirical NBTI equation as a formula, and its four latent values per device. *)
Definition nbti_form : formula R :=
  FMap2 Rmult (FMap2 Rmult (FMap2 Rmult (FArg "a_0") (FMap exp (FMap2 Rdiv (FArg "e_aa") (FMap (Rmult boltzmann_ev) (FArg "temp")))))
                           (FMap2 r_power (FArg "vdd") (FArg "alpha")))
              (FMap2 r_power (FArg "time") (FArg "n")).
Record nbti_lats := NbtiLats { nl_a0 : nd R; nl_e : nd R; nl_alpha : nd R; nl_n : nd R }.
Definition nbti_dict (x : nbti_lats) : dict (pyval R) :=
  [("a_0", PArr (nl_a0 x)); ("e_aa", PArr (nl_e x)); ("alpha", PArr (nl_alpha x)); ("n", PArr (nl_n x))]%string.
(** The law of one device at a temperature and voltage. *)
Definition nbti_at (x : nbti_lats) (temp vdd : R) (i : list nat) (t : R) : R :=
  nbti_law (aget (nl_a0 x) i) (aget (nl_e x) i) temp vdd (aget (nl_alpha x) i) (aget (nl_n x) i) t.
