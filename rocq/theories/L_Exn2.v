(** Exceptions: results of equations that do not fit. *)
From Coq Require Import Lia.
From Verif Require Import M_Base M_Num M_Nd M_RandVar M_Latent M_Device S_Device S_Shape S_Exn L_Base L_Nd L_Total2.
Open Scope nat_scope.

Section L.
Context {V : Type} `{NumOps V}.

Lemma mapM_first {A B} (f : A -> M B) a l w x w' : f a w = (Err x, w') -> mapM f (a :: l) w = (Err x, w').
Proof. intros E. cbn [mapM]. unfold bind. now rewrite E. Qed.
Lemma indices_first L C D : 0 < L -> 0 < C -> 0 < D -> exists r, indices [L; C; D] = [0; 0; 0] :: r.
Proof.
  intros HL HC HD. destruct L as [|L], C as [|C], D as [|D]; try lia. cbn. eexists. reflexivity.
Qed.
Lemma no_number_raises (f : eqn V) x L C n args w w1 : no_number f x ->
  dwf args -> operands L C n args -> accepts f (dkeys args) -> 0 < L -> 0 < C -> 0 < n ->
  call f args w = (Err ValueError, w1) ->
  exists w', call_or_loop f args L C n w = (Err x, w').
Proof.
  intros N W O A HL HC Hn E. unfold call_or_loop, try_value_error. rewrite E. unfold loop_compute.
  destruct (indices_first L C n HL HC Hn) as [r ->].
  destruct (single_index_runs L C n 0 0 0 args O HL HC Hn) as (a & Ea & Ka & Na).
  destruct (N a w1) as (v & w' & Ev & Hv); [unfold dwf in *; now rewrite Ka|exact Na|now rewrite Ka|].
  exists w'. enough (G : loop_elem f args [0; 0; 0] w1 = (Err x, w')) by (unfold bind at 1; now rewrite (mapM_first _ _ _ _ _ _ G)).
  cbn [loop_elem]. unfold lift at 1. rewrite Ea. unfold bind at 1. unfold bind at 1. rewrite Ev. unfold lift.
  destruct v as [y|y|b|d]; cbn [to_scalar]; try tauto.
  - destruct Hv as [Hl ->]. destruct (ndata b) as [|v0 [|v1 l]]; cbn in Hl; try reflexivity. lia.
  - now subst.
Qed.

Lemma bshape_last (s t : list nat) m n : m <> 1 -> n <> 1 -> m <> n -> bshape (s ++ [m]) (t ++ [n]) = None.
Proof.
  intros. unfold bshape. rewrite !rev_app_distr. cbn [rev app bshape_rev option_map]. destruct (bshape_rev _ _); [|reflexivity].
  destruct (m =? n) eqn:E1; [apply Nat.eqb_eq in E1; lia|].
  destruct (m =? 1) eqn:E2; [apply Nat.eqb_eq in E2; lia|]. destruct (n =? 1) eqn:E3; [apply Nat.eqb_eq in E3; lia|]. reflexivity.
Qed.
Lemma wrong_shape_raises (m : mech V) (t p b : nd V) s k conds lats L C D w w1 :
  nshape t = [L; C; D] -> nshape p = [L; C; D] ->
  nshape b = s ++ [k] -> k <> 1 -> D <> 1 -> k <> D ->
  call (lm_eqn (mc_mdl m)) (mech_args m (PArr t) conds lats) w = (Ok (PArr b), w1) ->
  mech_deg_vals m (PArr t) (PArr p) conds lats L C D w = (Err ValueError, w1).
Proof.
  intros Ht Hp Hb H1 H2 H3 E.
  assert (B : base_deg_vals m (PArr t) (PArr p) conds lats L C D w = (Err ValueError, w1)).
  { unfold base_deg_vals. erewrite bind_eval by reflexivity. erewrite bind_eval by reflexivity. rewrite Ht, Hp, bshape_same.
    erewrite bind_eval by (unfold call_or_loop, try_value_error; rewrite E; reflexivity). erewrite bind_eval by reflexivity.
    unfold bmap3. rewrite Ht, Hp, bshape_same, Hb. change [L; C; D] with ([L; C] ++ [D]). rewrite bshape_last by auto. reflexivity. }
  unfold mech_deg_vals. destruct (mc_kind m); [exact B|]. erewrite bind_eval by reflexivity. unfold bind at 1. now rewrite B.
Qed.
End L.
