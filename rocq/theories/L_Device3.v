(** Lemmas about measurements of degraded and circuit parameters and about time
    units. *)
From Coq Require Import QArith.
From Verif Require Import M_Base M_Num M_Nd M_RandVar M_Latent M_Time M_Minimize M_Device S_Device L_Base L_Nd L_Device L_Device2.
Open Scope nat_scope.

Section L.
Context {V : Type} `{NumOps V}.
Implicit Types (f : eqn V) (args conds lats : dict (pyval V)) (m : mech V).

(** ** Circuit parameters: C37, C38 *)
Lemma circ_cut (c : lmdl V) k conds prms lats w r w' :
  circ_vals c k conds prms lats w = (Ok r, w') ->
  exists args a b n s,
    (forall x, dget args x = if smem x (compute_args (lm_eqn c)) then first_of [lats; conds; prms] x else None) /\
    call (lm_eqn c) args w = (Ok (PArr a), w') /\ r = PArr b /\
    nshape a = n :: s /\ nshape b = Nat.min k n :: s /\
    (length (ndata a) = prod (nshape a) ->
     length (ndata b) = prod (nshape b) /\
     forall idx, inside (nshape b) idx -> inside (nshape a) idx /\ aget b idx = aget a idx).
Proof.
  intros E. unfold circ_vals in E. mstep E. exists (gather (compute_args (lm_eqn c)) [lats; conds; prms] []).
  destruct a as [v|v|a|d]; try discriminate. apply lift_ok in E as [E <-].
  apply rbind_ok in E as (b & Eb & Q). injection Q as <-. exists a, b.
  assert (exists n s, nshape a = n :: s /\ nshape b = Nat.min k n :: s) as (n & s & S1 & S2).
  { unfold nslice_first in Eb. destruct (nshape a) as [|n s]; [discriminate|]. injection Eb as <-. now exists n, s. }
  exists n, s. repeat split; auto.
  - intros x. rewrite gather_get. cbn [dget]. destruct (smem x _); auto. now destruct (first_of _ x).
  - apply nslice_first_get in Eb as [Wb _]; auto.
  - rewrite S1. rewrite S2 in H1. inversion H1; subst. constructor; auto. lia.
  - apply nslice_first_get in Eb as (Wb & n' & s' & S1' & S2' & G); auto.
Qed.

Lemma circ_missing (c : lmdl V) k conds prms lats x w :
  In x (e_req (lm_eqn c)) -> first_of [lats; conds; prms] x = None ->
  circ_vals c k conds prms lats w = (Err TypeError, w).
Proof.
  intros Hin Hn. unfold circ_vals. apply bind_eval_err. apply call_accepts. intros [A _].
  specialize (A x Hin). apply dmem_keys in A. unfold dmem in A. rewrite gather_get, Hn in A. cbn in A.
  destruct (smem x _); discriminate.
Qed.

(** ** C36 *)
Lemma In_dset {A} (d : dict A) k a k' a' : In (k', a') (dset d k a) -> (k' = k /\ a' = a) \/ In (k', a') d.
Proof.
  induction d as [|[k2 a2] r IH]; cbn [dset In].
  - intros [Q|[]]. injection Q as <- <-. auto.
  - destruct (String.eqb k k2); cbn [In].
    + intros [Q|I]; auto. injection Q as <- <-. auto.
    + intros [Q|I]; auto. destruct (IH I); auto.
Qed.

Lemma psum_zero l : nadd n0 n0 = n0 -> (forall x, In x l -> x = PNum n0) -> psum (PNum n0) l = Ok (PNum n0).
Proof.
  intros Z. induction l as [|x r IH]; intros A; cbn [psum]; auto. rewrite (A x) by now left.
  unfold pmap2. cbn [to_nd rbind]. rewrite bmap2_scalar_r. cbn. rewrite Z. apply IH. intros y I. apply A. now right.
Qed.

Lemma add_zero (a : nd V) : nshape a <> [] -> awf a -> (forall x, In x (ndata a) -> nadd x n0 = x) ->
  pmap2 nadd (PArr a) (PNum n0) = Ok (PArr a).
Proof.
  intros Ne Wf Z. unfold pmap2. cbn [to_nd rbind]. rewrite bmap2_scalar_r. cbn [rbind].
  assert (E : nbuild (nshape a) (fun idx => nadd (aget a idx) n0) = a).
  { transitivity (nbuild (nshape a) (aget a)); [|now apply nbuild_aget]. apply nbuild_ext. intros idx Hv.
    apply Z. eapply nth_error_In. now apply ndata_aget. }
  rewrite E. now rewrite of_nd_arr.
Qed.

(** Arguments of the parameter equation on measurement. *)
Lemma cond_args (mechs : dict (mech V)) args2 x :
  dget (fold_left (fun acc (nm : string * mech V) => dset acc (fst nm) (PNum (mc_unitary (snd nm)))) mechs args2) x =
  match find (fun nm => String.eqb (fst nm) x) (rev mechs) with
  | Some nm => Some (PNum (mc_unitary (snd nm)))
  | None => dget args2 x
  end.
Proof.
  revert args2. induction mechs as [|[k m] r IH]; intros args2; cbn [fold_left rev find fst snd]; auto.
  rewrite IH. rewrite dget_dset.
  assert (G : forall (l : list (string * mech V)) y, find (fun nm => String.eqb (fst nm) x) (l ++ [y]) =
    match find (fun nm => String.eqb (fst nm) x) l with Some z => Some z | None => if String.eqb (fst y) x then Some y else None end).
  { intros l y. induction l as [|z l IHl]; cbn; auto. destruct (String.eqb (fst z) x); auto. }
  rewrite G. destruct (find _ (rev r)); auto. cbn [fst snd]. destruct (String.eqb k x); auto.
Qed.

Lemma ideal_measurement (p : degprm V) conds a lats cl L C K w :
  lm_eqn (dp_own p) = eqn_basic_sum -> lm_eqn (dp_cond p) = eqn_const n0 ->
  (forall nm m, In (nm, m) (dp_mechs p) -> mc_unitary m = n0 /\ nm <> "init"%string /\ nm <> "cond"%string) ->
  dget lats "cond" = Some (PDict cl) -> dget lats "mechs" = None ->
  nadd n0 n0 = n0 -> (forall x, In x (ndata a) -> nadd x n0 = x) ->
  length (ndata a) = prod (nshape a) -> nth_error (nshape a) 2 = Some K ->
  cond_shifted p conds (PArr a) lats L C K w = (Ok (PArr a), w).
Proof.
  intros Eo Ec Em Hc Hm Z Za Wf Hk. unfold cond_shifted.
  assert (Ne : nshape a <> []) by (intros Q; rewrite Q in Hk; discriminate).
  erewrite (bind_eval (lift (third_dim (PArr a)))) by (unfold third_dim; rewrite Hk; reflexivity).
  rewrite Nat.ltb_irrefl. erewrite (bind_eval (lift (Ok _))) by reflexivity. cbn [fst snd].
  erewrite (bind_eval (lift _)) by (unfold dgetE; rewrite Hc; reflexivity).
  erewrite bind_eval.
  2:{ unfold calc_cond_vals. rewrite Ec. apply try_succ. reflexivity. }
  cbn [dset String.eqb Ascii.eqb Bool.eqb]. set (args3 := fold_left _ _ _).
  assert (G : forall x, dget args3 x = match find (fun nm => String.eqb (fst nm) x) (rev (dp_mechs p)) with
    | Some nm => Some (PNum (mc_unitary (snd nm)))
    | None => dget [("init"%string, PArr a); ("cond"%string, PNum n0)] x end) by (intros x; apply cond_args).
  assert (Nf : forall x, x = "init"%string \/ x = "cond"%string -> find (fun nm : string * mech V => String.eqb (fst nm) x) (rev (dp_mechs p)) = None).
  { intros x Hx. destruct (find _ _) as [[nm m]|] eqn:F; auto. apply find_some in F as [I Q]. apply in_rev in I.
    apply Em in I as (_ & N1 & N2). apply String.eqb_eq in Q. cbn in Q. destruct Hx; congruence. }
  assert (Gi : dget args3 "init" = Some (PArr a)) by (rewrite G, Nf; auto).
  assert (Gc : dget args3 "cond" = Some (PNum n0)) by (rewrite G, Nf; auto).
  rewrite Eo.
  assert (Ea : add_own (compute_args (@eqn_basic_sum V _)) lats args3 = args3).
  { unfold compute_args. cbn [eqn_basic_sum e_req e_opt e_kw app add_own].
    assert (Di : dmem args3 "init" = true) by (unfold dmem; now rewrite Gi).
    assert (Dc : dmem args3 "cond" = true) by (unfold dmem; now rewrite Gc).
    rewrite !Di, !Dc, Hm. now destruct (dmem args3 "mechs"). }
  rewrite Ea. apply try_succ. unfold call. cbn [eqn_basic_sum e_req e_opt e_kw e_body forallb].
  unfold dmem. rewrite Gi, Gc. cbn [andb]. unfold dgetE. rewrite Gi, Gc. cbn [rbind].
  rewrite (add_zero a Ne Wf Za). cbn [rbind]. rewrite psum_zero; auto.
  - cbn [rbind]. rewrite (add_zero a Ne Wf Za). reflexivity.
  - intros x I. apply in_map_iff in I as ([k v] & Q & I). cbn in Q. subst x. apply filter_In in I as [I F]. cbn [fst] in F.
    assert (A : forall l acc, (forall nm m, In (nm, m) l -> mc_unitary m = n0) ->
      (forall k v, In (k, v) acc -> k = "init"%string \/ k = "cond"%string \/ v = PNum n0) ->
      forall k v, In (k, v) (fold_left (fun acc (nm : string * mech V) => dset acc (fst nm) (PNum (mc_unitary (snd nm)))) l acc) ->
      k = "init"%string \/ k = "cond"%string \/ v = PNum n0).
    { clear. induction l as [|[nm m] r IH]; intros acc U A k v I; cbn [fold_left] in I; [eapply A; eauto|].
      eapply IH; [| |exact I].
      - intros; eapply U; right; eauto.
      - intros k' v' I'. apply In_dset in I' as [[-> ->]|I']; [|eapply A; eauto]. cbn [snd]. rewrite (U nm m) by now left. auto. }
    apply A in I.
    + destruct I as [->|[->|I]]; auto; discriminate F.
    + intros nm m I'. apply Em in I'. tauto.
    + intros k' v' [Q|[Q|[]]]; injection Q as <- <-; auto.
Qed.

(** ** C57 *)
Lemma same_gather idx names l1 l2 c1 c2 acc1 acc2 : same_args idx l1 l2 -> same_args idx c1 c2 -> same_args idx acc1 acc2 ->
  same_args idx (gather names [l1; c1] acc1) (gather names [l2; c2] acc2).
Proof.
  intros Sl Sc Sa x. rewrite !gather_get. destruct (smem x names); [|apply Sa].
  cbn [first_of]. specialize (Sl x). specialize (Sc x). specialize (Sa x).
  destruct (dget l1 x), (dget l2 x); try contradiction; auto.
  destruct (dget c1 x), (dget c2 x); try contradiction; auto.
Qed.

Lemma same_mech_args idx m t1 t2 c1 c2 l1 l2 : same_at idx t1 t2 -> same_args idx c1 c2 -> same_args idx l1 l2 ->
  same_args idx (mech_args m t1 c1 l1) (mech_args m t2 c2 l2).
Proof.
  intros St Sc Sl. apply same_gather; auto. intros x. cbn [dget]. destruct (String.eqb x "time"); auto.
Qed.

Lemma deg_vals_local m s idx (t1 t2 p1 p2 : nd V) c1 c2 l1 l2 L C D w1 w2 r1 r2 w1' w2' :
  local_at (lm_eqn (mc_mdl m)) s idx L C D -> inside s idx ->
  nshape t1 = s -> nshape t2 = s -> nshape p1 = s -> nshape p2 = s ->
  aget t1 idx = aget t2 idx -> aget p1 idx = aget p2 idx -> same_args idx c1 c2 -> same_args idx l1 l2 ->
  mech_deg_vals m (PArr t1) (PArr p1) c1 l1 L C D w1 = (Ok r1, w1') ->
  mech_deg_vals m (PArr t2) (PArr p2) c2 l2 L C D w2 = (Ok r2, w2') ->
  exists a1 a2, r1 = PArr a1 /\ r2 = PArr a2 /\ nshape a1 = s /\ nshape a2 = s /\ aget a1 idx = aget a2 idx.
Proof.
  intros Loc Hin T1 T2 P1 P2 Et Ep Sc Sl E1 E2.
  assert (S1 := E1). assert (S2 := E2).
  apply mech_deg_frozen in S1 as (d1 & e1 & a1 & C1 & N1 & -> & _ & Sh1 & _); [|congruence].
  apply mech_deg_frozen in S2 as (d2 & e2 & a2 & C2 & N2 & -> & _ & Sh2 & _); [|congruence].
  assert (St : same_at idx (PArr t1) (PArr t2)) by (right; exists t1, t2; repeat split; congruence).
  destruct (Loc _ _ _ _ _ _ _ _ (same_mech_args idx m _ _ _ _ _ _ St Sc Sl) C1 C2) as (f1 & f2 & -> & -> & F1 & F2 & Ef).
  cbn [to_nd] in N1, N2. injection N1 as <-. injection N2 as <-.
  exists a1, a2. assert (A1 : nshape a1 = s) by (rewrite <- P1; apply Sh1; congruence).
  assert (A2 : nshape a2 = s) by (rewrite <- P2; apply Sh2; congruence).
  repeat split; auto.
  apply mech_deg_ok in E1 as (t1' & p1' & d1' & e1' & a1' & Q1 & Q2 & Q3 & Q4 & Q5 & _ & _ & _ & _ & G1).
  apply mech_deg_ok in E2 as (t2' & p2' & d2' & e2' & a2' & U1 & U2 & U3 & U4 & U5 & _ & _ & _ & _ & G2).
  cbn [to_nd] in *. injection Q1 as <-. injection Q2 as <-. injection U1 as <-. injection U2 as <-.
  rewrite C1 in Q3. injection Q3 as <-. rewrite C2 in U3. injection U3 as <-. cbn [to_nd] in *.
  injection Q4 as <-. injection U4 as <-. injection Q5 as <-. injection U5 as <-.
  rewrite G1 by (rewrite A1; exact Hin). rewrite G2 by (rewrite A2; exact Hin).
  rewrite (bget_same t1), (bget_same t2), (bget_same p1), (bget_same p2), (bget_same f1), (bget_same f2)
    by (rewrite ?T1, ?T2, ?P1, ?P2, ?F1, ?F2; exact Hin).
  now rewrite Et, Ep, Ef.
Qed.

Lemma fail_equiv_zero m a conds lats L C D w : mc_kind m = KFail ->
  mech_equiv_time m (PArr a) conds lats L C D w = (Ok (PArr (nfull (nshape a) n0)), w).
Proof. intros K. unfold mech_equiv_time. now rewrite K. Qed.

Lemma full_plus s (v c : V) : s <> [] -> pmap2 nadd (PArr (nfull s v)) (PNum c) = Ok (PArr (nfull s (nadd v c))).
Proof.
  intros Ne. unfold pmap2. cbn [to_nd rbind]. rewrite bmap2_scalar_r. cbn [rbind nshape nfull nbuild].
  assert (E : nbuild s (fun idx => nadd (aget (nfull s v) idx) c) = nfull s (nadd v c)).
  { apply nbuild_ext. intros idx Hv. unfold nfull. now rewrite aget_nbuild. }
  unfold nfull in E at 1. unfold nfull, nbuild in *. cbn [nshape] in *. rewrite E. now apply (f_equal Ok), of_nd_arr.
Qed.

Lemma fail_stress_local m s idx (p1 p2 : nd V) c1 c2 l1 l2 L C D dur w1 w2 r1 r2 w1' w2' :
  mc_kind m = KFail -> local_at (lm_eqn (mc_mdl m)) s idx L C D -> s <> [] -> inside s idx ->
  nshape p1 = s -> nshape p2 = s -> aget p1 idx = aget p2 idx -> same_args idx c1 c2 -> same_args idx l1 l2 ->
  stress_mech m c1 l1 L C D (PArr p1) dur w1 = (Ok r1, w1') ->
  stress_mech m c2 l2 L C D (PArr p2) dur w2 = (Ok r2, w2') ->
  exists a1 a2, r1 = PArr a1 /\ r2 = PArr a2 /\ nshape a1 = s /\ nshape a2 = s /\ aget a1 idx = aget a2 idx.
Proof.
  intros K Loc Ne Hin P1 P2 Ep Sc Sl E1 E2. unfold stress_mech in E1, E2.
  erewrite bind_eval in E1 by now apply fail_equiv_zero. erewrite bind_eval in E2 by now apply fail_equiv_zero.
  rewrite P1 in E1. rewrite P2 in E2. rewrite full_plus in E1 by auto. rewrite full_plus in E2 by auto.
  erewrite (bind_eval (lift _)) in E1 by reflexivity. erewrite (bind_eval (lift _)) in E2 by reflexivity.
  eapply deg_vals_local; [exact Loc|exact Hin| | | | | | | | |exact E1|exact E2]; auto.
Qed.

Lemma stress_local m s idx (p1 p2 t1 t2 : nd V) c1 c2 l1 l2 L C D dur w1 w2 r1 r2 w1' w2' u1 u2 :
  local_at (lm_eqn (mc_mdl m)) s idx L C D -> s <> [] -> inside s idx ->
  nshape p1 = s -> nshape p2 = s -> aget p1 idx = aget p2 idx -> same_args idx c1 c2 -> same_args idx l1 l2 ->
  mech_equiv_time m (PArr p1) c1 l1 L C D w1 = (Ok (PArr t1), u1) ->
  mech_equiv_time m (PArr p2) c2 l2 L C D w2 = (Ok (PArr t2), u2) ->
  nshape t1 = s -> nshape t2 = s -> aget t1 idx = aget t2 idx ->
  stress_mech m c1 l1 L C D (PArr p1) dur w1 = (Ok r1, w1') ->
  stress_mech m c2 l2 L C D (PArr p2) dur w2 = (Ok r2, w2') ->
  exists a1 a2, r1 = PArr a1 /\ r2 = PArr a2 /\ nshape a1 = s /\ nshape a2 = s /\ aget a1 idx = aget a2 idx.
Proof.
  intros Loc Ne Hin P1 P2 Ep Sc Sl Q1 Q2 T1 T2 Et E1 E2. unfold stress_mech in E1, E2.
  erewrite bind_eval in E1 by exact Q1. erewrite bind_eval in E2 by exact Q2.
  assert (G : forall t : nd V, nshape t = s -> pmap2 nadd (PArr t) (PNum dur) = Ok (PArr (nbuild s (fun i => nadd (aget t i) dur)))).
  { intros t St. unfold pmap2. cbn [to_nd rbind]. rewrite bmap2_scalar_r. cbn [rbind]. rewrite St. now rewrite of_nd_arr. }
  rewrite G in E1, E2 by auto.
  erewrite (bind_eval (lift _)) in E1 by reflexivity. erewrite (bind_eval (lift _)) in E2 by reflexivity.
  refine (deg_vals_local m s idx (nbuild s (fun i => nadd (aget t1 i) dur)) (nbuild s (fun i => nadd (aget t2 i) dur)) p1 p2 _ _ _ _ _ _ _ _ _ _ _ _ _ Loc Hin eq_refl eq_refl P1 P2 _ Ep Sc Sl E1 E2).
  rewrite !aget_nbuild by exact Hin. now rewrite Et.
Qed.

(** C30: the equation sees exactly the duration of the step. *)
Lemma fail_stress_args m (p : nd V) conds lats L C D dur w r w' :
  mc_kind m = KFail -> nshape p <> [] ->
  dget lats "time" = None -> dget conds "time" = None ->
  stress_mech m conds lats L C D (PArr p) dur w = (Ok r, w') ->
  exists args d, call_or_loop (lm_eqn (mc_mdl m)) args L C D w = (Ok d, w') /\
    dget args "time" = Some (PArr (nfull (nshape p) (nadd n0 dur))) /\
    forall x, x <> "time"%string ->
      dget args x = if smem x (compute_args (lm_eqn (mc_mdl m))) then first_of [lats; conds] x else None.
Proof.
  intros K Ne Tl Tc E. unfold stress_mech in E. erewrite bind_eval in E by now apply fail_equiv_zero.
  rewrite full_plus in E by auto. erewrite (bind_eval (lift _)) in E by reflexivity.
  apply mech_deg_ok in E as (t & q & d & e & a & _ & _ & Ec & _). eexists _, d. split; [exact Ec|].
  split.
  - rewrite mech_args_get. cbn [first_of]. rewrite Tl, Tc. now destruct (smem _ _).
  - intros x Nx. rewrite mech_args_get. destruct (smem x _).
    + destruct (first_of _ x); auto. now destruct (String.eqb_spec x "time").
    + now destruct (String.eqb_spec x "time").
Qed.

(** C32: which of the two evaluations is used does not matter. *)
Lemma fallback_same f args L C D a w : acts_per_sample f args L C D a -> sized L C D (PDict args) ->
  (call f args w = (Ok (PArr a), w) \/ call f args w = (Err ValueError, w)) ->
  call_or_loop f args L C D w = (Ok (PArr a), w).
Proof.
  intros A Sz [E|E]; unfold call_or_loop; [now apply try_succ|].
  unfold try_value_error. rewrite E. now apply loop_same.
Qed.

(** C37: how many values are left. *)
Lemma circ_count (c : lmdl V) k conds prms lats w r w' :
  circ_vals c k conds prms lats w = (Ok r, w') ->
  exists args a b,
    (forall x, dget args x = if smem x (compute_args (lm_eqn c)) then first_of [lats; conds; prms] x else None) /\
    call (lm_eqn c) args w = (Ok (PArr a), w') /\ r = PArr b /\
    forall L C n, nshape a = [L; C; n] -> length (ndata a) = L * C * n -> C <> 0 ->
      nshape b = [Nat.min k L; C; n] /\ length (ndata b) = Nat.min k L * C * n /\
      (length (ndata b) = L * C * k <-> Nat.min k L * n = L * k) /\
      forall i j d, i < Nat.min k L -> j < C -> d < n -> aget b [i; j; d] = aget a [i; j; d].
Proof.
  intros E. apply circ_cut in E as (args & a & b & n0 & s & A1 & A2 & A3 & A4 & A5 & A6).
  exists args, a, b. repeat split; auto.
  - rewrite A5. rewrite A4 in H0. injection H0 as -> ->. reflexivity.
  - rewrite A4 in H0. injection H0 as -> ->. rewrite (proj1 (A6 ltac:(rewrite A4; cbn; lia))), A5. cbn. lia.
  - intros Q. rewrite A4 in H0. injection H0 as -> ->. rewrite (proj1 (A6 ltac:(rewrite A4; cbn; lia))), A5 in Q. cbn in Q. nia.
  - intros Q. rewrite A4 in H0. injection H0 as -> ->. rewrite (proj1 (A6 ltac:(rewrite A4; cbn; lia))), A5. cbn. nia.
  - intros i j d Hi Hj Hd. rewrite A4 in H0. injection H0 as -> ->. apply A6; [rewrite A4; cbn; lia|].
    rewrite A5. repeat constructor; auto.
Qed.
End L.

(** ** C11 *)
Lemma upd_nth {A} (l : list A) i g j : nth_error (upd l i g) j = if i =? j then option_map g (nth_error l j) else nth_error l j.
Proof.
  revert i j. induction l as [|x r IH]; intros i j; cbn [upd].
  - destruct j; cbn; now destruct (i =? _).
  - destruct i, j; cbn; auto.
Qed.

Lemma set_unit_some own g : exists u, set_time_unit own g = Some u.
Proof. destruct own, g; cbn; eauto. Qed.

Lemma set_unit_idem own g g' : set_time_unit (set_time_unit own g) g' = set_time_unit own g.
Proof. destruct (set_unit_some own g) as [u ->]. reflexivity. Qed.

Lemma fold_upd_nth g ms : forall h c,
  nth_error (fold_left (fun h m => upd h m (fun own => set_time_unit own g)) ms h) c =
  if existsb (Nat.eqb c) ms then option_map (fun own => set_time_unit own g) (nth_error h c) else nth_error h c.
Proof.
  induction ms as [|m r IH]; intros h c; cbn [fold_left existsb]; auto.
  rewrite IH, upd_nth. rewrite (Nat.eqb_sym m c). destruct (Nat.eqb_spec c m) as [->|]; cbn [orb]; auto.
  destruct (existsb _ r); auto. destruct (nth_error h m) as [o|]; cbn; auto. f_equal. apply set_unit_idem.
Qed.

Definition uses (c : nat) (p : tu_prm) : bool := tp_deg p && existsb (Nat.eqb c) (tp_mechs p).

Lemma resolved_set own p dev : resolved own p dev = set_time_unit own (or_unit p dev).
Proof. destruct own; auto. destruct p as [[|]|]; auto. Qed.

Lemma propagate_nth dev ps : forall h c,
  nth_error (dev_propagate dev ps h) c =
  match find (uses c) ps with
  | Some p => option_map (fun own => resolved own (tp_unit p) dev) (nth_error h c)
  | None => nth_error h c
  end.
Proof.
  unfold dev_propagate. induction ps as [|p r IH]; intros h c; cbn [fold_left find]; auto.
  rewrite IH. unfold uses at 2. unfold prm_propagate. destruct (tp_deg p); cbn [andb]; auto.
  rewrite fold_upd_nth. destruct (existsb _ (tp_mechs p)); auto.
  destruct (nth_error h c) as [o|]; cbn [option_map]; [|now destruct (find _ r)].
  rewrite resolved_set. destruct (find _ r) as [q|]; auto. f_equal. rewrite resolved_set. apply set_unit_idem.
Qed.

Lemma propagate_again dev ps dev' ps' h c : find (uses c) ps <> None ->
  nth_error (dev_propagate dev' ps' (dev_propagate dev ps h)) c = nth_error (dev_propagate dev ps h) c.
Proof.
  intros U. rewrite (propagate_nth dev' ps'). destruct (find (uses c) ps') as [q|]; auto.
  rewrite (propagate_nth dev ps). destruct (find (uses c) ps) as [p|]; [|congruence].
  destruct (nth_error h c); cbn; auto. f_equal. rewrite !resolved_set. apply set_unit_idem.
Qed.

Lemma uses_spec c p : uses c p = true <-> used_by c p.
Proof.
  unfold uses, used_by. rewrite andb_true_iff, existsb_exists. split.
  - intros (A & x & I & Q). apply Nat.eqb_eq in Q. subst x. auto.
  - intros (A & I). split; auto. exists c. split; auto. apply Nat.eqb_refl.
Qed.

Lemma find_first {A} (g : A -> bool) l1 x l2 : (forall y, In y l1 -> g y = false) -> g x = true ->
  find g (l1 ++ x :: l2) = Some x.
Proof.
  intros N X. induction l1 as [|y r IH]; cbn [app find]; [now rewrite X|].
  rewrite N by now left. apply IH. intros z I. apply N. now right.
Qed.

Lemma find_none_all {A} (g : A -> bool) l : (forall y, In y l -> g y = false) -> find g l = None.
Proof. induction l as [|y r IH]; cbn; auto. intros N. rewrite N by now left. apply IH. auto. Qed.

Lemma uses_false c p : ~ used_by c p -> uses c p = false.
Proof. intros N. destruct (uses c p) eqn:E; auto. apply uses_spec in E. tauto. Qed.

Lemma propagate_first dev l1 p l2 h c own : nth_error h c = Some own -> used_by c p ->
  (forall q, In q l1 -> ~ used_by c q) ->
  nth_error (dev_propagate dev (l1 ++ p :: l2) h) c = Some (resolved own (tp_unit p) dev) /\
  forall dev' ps', nth_error (dev_propagate dev' ps' (dev_propagate dev (l1 ++ p :: l2) h)) c
                   = Some (resolved own (tp_unit p) dev).
Proof.
  intros Hn U N.
  assert (F : find (uses c) (l1 ++ p :: l2) = Some p).
  { apply find_first; [intros y I; apply uses_false; auto|now apply uses_spec]. }
  assert (E : nth_error (dev_propagate dev (l1 ++ p :: l2) h) c = Some (resolved own (tp_unit p) dev)).
  { rewrite propagate_nth, F, Hn. reflexivity. }
  split; auto. intros dev' ps'. rewrite propagate_again; auto. rewrite F. discriminate.
Qed.

Lemma propagate_unused dev ps h c : (forall q, In q ps -> ~ used_by c q) ->
  nth_error (dev_propagate dev ps h) c = nth_error h c.
Proof. intros N. rewrite propagate_nth, find_none_all; auto. intros y I. apply uses_false. auto. Qed.
