(** gen_init_state with the caller's dictionary of counts as an object: the function
    writes into it (sim.py lines 53-83), also if it fails afterwards. *)
From Verif Require Export M_Base M_Num M_Nd M_RandVar M_Latent M_Time M_TestSpec M_Device M_Report M_Env M_Sim.
Open Scope nat_scope.

Section Reuse.
Context {V : Type} `{NumOps V} `{Rng V}.

(** One call with dev_counts and without a report: the outcome, the dictionary
    afterwards.  DeviceMdl.gen_init_state (devices.py lines 1305-1319) does not write
    into it: line 1317 is never reached. *)
Definition gen_init_call (d : device V) (counts : dict nat) (C L : nat) (elapsed : tval) (w : world)
  : res (simstate V) * dict nat * world :=
  match counts with
  | [] => (Err UserConfigError, [], w)
  | _ =>
      let devs := fst (augment d (counts, None) (dkeys counts)) in
      match dev_init_state d devs C L w with
      | (Ok sc, w') => (Ok (override_elapsed (fst sc) elapsed), devs, w')
      | (Err ex, w') => (Err ex, devs, w')
      end
  end.

(** A call of a program: the device model and the other arguments. *)
Record init_call := InitCall { ic_dev : device V; ic_chps : nat; ic_lots : nat; ic_time : tval }.
(** A sequence of calls that are given the same dictionary object; exceptions are
    caught. *)
Fixpoint gen_init_calls (l : list init_call) (counts : dict nat) (w : world)
  : list (res (simstate V)) * dict nat * world :=
  match l with
  | [] => ([], counts, w)
  | c :: r =>
      let '(o, counts1, w1) := gen_init_call (ic_dev c) counts (ic_chps c) (ic_lots c) (ic_time c) w in
      let '(os, counts2, w2) := gen_init_calls r counts1 w1 in
      (o :: os, counts2, w2)
  end.
End Reuse.
