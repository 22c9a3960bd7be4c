(** Properties of dictionaries of counts that are used again: C99. *)
From Coq Require Import QArith Lia.
From Verif Require Import M_Base M_Num M_Nd M_RandVar M_Latent M_Time M_TestSpec M_Device M_Report M_Env M_Sim M_Reuse M_Toy
  S_Device S_Sim S_Reuse L_Reuse T_Sim.
Open Scope nat_scope.

(** The call is gen_init_state, with the dictionary it leaves. *)
Theorem C99_the_call : forall V (O : NumOps V) (R : Rng V) (d : device V) c C L t w, c <> [] ->
  gen_init_state d (Some c) C L None t w =
  match gen_init_call d c C L t w with
  | (Ok st, c', w') => (Ok (InitRes st c' None), w')
  | (Err ex, _, w') => (Err ex, w')
  end.
Proof. intros V O R. exact call_is_init. Qed.
Print Assumptions C99_the_call.

Theorem C99_counts_grow_to_what_is_wanted : forall V (O : NumOps V) (R : Rng V) (d : device V) l c w os c' w',
  same_device d l -> gen_init_calls l c w = (os, c', w') ->
  at_least c' c /\ (forall q n, dget c' q = Some n -> wanted d c q n) /\
  (length d <= S (length l) \/ (circuits_plain d /\ l <> []) ->
     (forall q n, dget c' q = Some n <-> greatest (wanted d c q) n) /\
     forall l2 w2, same_device d l2 -> snd (fst (gen_init_calls l2 c' w2)) = c').
Proof. intros V O R. exact calls_final. Qed.
Print Assumptions C99_counts_grow_to_what_is_wanted.

Theorem C99_success_means_counted : forall V (O : NumOps V) (R : Rng V) (d : device V) c C L t w st c' w',
  dwf d -> gen_init_call d c C L t w = (Ok st, c', w') -> forall x, In x (dkeys d) -> exists n, dget c' x = Some n.
Proof. intros V O R. exact call_success. Qed.
Print Assumptions C99_success_means_counted.

(** A ring of oscillators computed from threshold voltages, and its frequency computed
    from the ring. *)
Definition ex_of (x : string) : lmdl Q := LMdl (Eqn [x] [] None (fun a => lift (dgetE a x))) [].
Definition ex_ring_dev : device Q := [("freq"%string, PCirc (ex_of "ring")); ("ring"%string, PCirc (ex_of "vth")); ("vth"%string, PDeg ex_vth)].
Definition ex_init : init_call := InitCall ex_ring_dev 2 1 (TD 0).
Example C99_example_wanted : same_device ex_ring_dev [ex_init; ex_init] /\
  (forall q n, dget [("freq", 3); ("vth", 7); ("ring", 3)]%string q = Some n <-> greatest (wanted ex_ring_dev [("freq", 3); ("vth", 7)]%string q) n) /\
  snd (fst (gen_init_calls [ex_init; ex_init] [("freq", 3); ("vth", 7)]%string ex_w)) = [("freq", 3); ("vth", 7); ("ring", 3)]%string.
Proof.
  assert (S2 : same_device ex_ring_dev [ex_init; ex_init]) by (intros c [<-|[<-|[]]]; reflexivity). split; [exact S2|].
  assert (E : snd (fst (gen_init_calls [ex_init; ex_init] [("freq", 3); ("vth", 7)]%string ex_w)) = [("freq", 3); ("vth", 7); ("ring", 3)]%string) by (vm_compute; reflexivity).
  split; [|exact E]. destruct (gen_init_calls [ex_init; ex_init] [("freq", 3); ("vth", 7)]%string ex_w) as [[os c'] w'] eqn:G. cbn [fst snd] in E. subst c'.
  destruct (C99_counts_grow_to_what_is_wanted Q _ _ _ _ _ _ _ _ _ S2 G) as (_ & _ & K). apply K. left. cbn. lia.
Qed.
(** A call that failed can succeed when it is simply repeated ... *)
Theorem C99_failure_is_repeatable_refuted : exists (d : device Q) c0 C L t w st w',
  gen_init_calls [InitCall d C L t; InitCall d C L t] c0 w = ([Err KeyError; Ok st], [("freq", 2); ("ring", 2); ("vth", 2)]%string, w') /\
  c0 = [("freq", 2)]%string.
Proof. exists ex_ring_dev, [("freq", 2)]%string, 2, 1, (TD 0), ex_w. vm_compute. do 2 eexists. split; reflexivity. Qed.
Print Assumptions C99_failure_is_repeatable_refuted.
(** ... and a dictionary used for one device makes more samples of another: the
    second device is asked for one threshold voltage, and has five of them. *)
Definition ex_other : device Q := [("vth"%string, PDeg ex_vth)].
Definition vths (r : res (simstate Q)) : option (list nat) :=
  match r with Ok st => match dget (st_prm st) "vth" with Some (PArr a) => Some (nshape a) | _ => None end | Err _ => None end.
Theorem C99_reuse_is_harmless_refuted : exists (d1 d2 : device Q) c0 w o1 o2 c' w' o3 c3 w3,
  gen_init_calls [InitCall d1 1 1 (TD 0); InitCall d2 1 1 (TD 0)] c0 w = ([o1; o2], c', w') /\ vths o2 = Some [1; 1; 5] /\
  gen_init_calls [InitCall d2 1 1 (TD 0)] c0 w = ([o3], c3, w3) /\ vths o3 = Some [1; 1; 1].
Proof.
  exists ex_dev, ex_other, [("freq", 5); ("vth", 1)]%string, ex_w. vm_compute. do 7 eexists. repeat split.
Qed.
Print Assumptions C99_reuse_is_harmless_refuted.
