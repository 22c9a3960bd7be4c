(** Accuracy of the equivalent times that occur in a test. *)
From Coq Require Import Reals.
From Verif Require Import M_Base M_Num M_NumR M_Nd M_Device S_Total S_History.
Open Scope R_scope.

(** Every equivalent time of the list is the time [tau] at which the law has the
    device's value, up to a relative error [eps] and an absolute error [del]. *)
Definition accurate (f : formula R) (s : scene R) (base : dict R) (eps del : R) (found : list (nd R * nd R)) : Prop :=
  forall v t, In (v, t) found -> everywhere s (fun i => forall tau, 0 <= tau -> aget v i = device_law f s base i tau ->
    (1 - eps) * tau - del <= aget t i <= (1 + eps) * tau + del).
