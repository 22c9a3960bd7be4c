(** The empirical NBTI law. *)
From Coq Require Import Reals String List.
From Verif Require Import M_Base M_Num M_NumR M_Nd M_RandVar M_Latent M_Device.
Open Scope R_scope.

(** [a0 * exp(e / (k T)) * v^alpha * t^n] for positive temperature and voltage and
    positive times; nothing has happened at time 0. *)
Definition nbti_law (a0 e temp vdd alpha n t : R) : R :=
  if Rle_dec t 0 then 0
  else a0 * exp (e / (8617 / 100000000 * temp)) * Rpower vdd alpha * Rpower t n.

(** One sample: its latent values and its conditions. *)
Record sample_pt := Pt { s_a0 : R; s_e : R; s_alpha : R; s_n : R; s_temp : R; s_vdd : R }.
Definition physical (p : sample_pt) : Prop := 0 < s_a0 p /\ 0 < s_n p /\ 0 < s_temp p /\ 0 < s_vdd p.
Definition shift_of (p : sample_pt) (t : R) : R := nbti_law (s_a0 p) (s_e p) (s_temp p) (s_vdd p) (s_alpha p) (s_n p) t.

(** The latent values and conditions of samples, as arrays of shape [s]. *)
Definition lats_of (s : list nat) (ps : list sample_pt) : dict (pyval R) :=
  [("a_0", PArr (Nd s (map s_a0 ps))); ("e_aa", PArr (Nd s (map s_e ps)));
   ("alpha", PArr (Nd s (map s_alpha ps))); ("n", PArr (Nd s (map s_n ps)))]%string.
Definition conds_of (s : list nat) (ps : list sample_pt) : dict (pyval R) :=
  [("temp", PArr (Nd s (map s_temp ps))); ("vdd", PArr (Nd s (map s_vdd ps)))]%string.
