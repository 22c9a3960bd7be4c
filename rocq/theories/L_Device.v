(** Lemmas about device models. *)
From Coq Require Import QArith.
From Verif Require Import M_Base M_Num M_Nd M_RandVar M_Latent M_Time M_Minimize M_Device S_Device L_Base L_Nd.
Open Scope nat_scope.

(** ** Monad *)
Lemma lift_ok {A} (r : res A) w a w' : lift r w = (Ok a, w') -> r = Ok a /\ w' = w.
Proof. unfold lift. intros E. injection E as -> ->. auto. Qed.

Lemma ret_ok {A} (a b : A) w w' : ret a w = (Ok b, w') -> b = a /\ w' = w.
Proof. unfold ret. intros E. injection E as -> ->. auto. Qed.

Lemma try_ok {A} (m h : M A) w a w' : try_value_error m h w = (Ok a, w') ->
  m w = (Ok a, w') \/ exists w1, m w = (Err ValueError, w1) /\ h w1 = (Ok a, w').
Proof.
  unfold try_value_error. destruct (m w) as [[x|e] w1]; [auto|]. destruct e; try discriminate. eauto.
Qed.

Lemma try_other {A} (m h : M A) w e w' : m w = (Err e, w') -> e <> ValueError -> try_value_error m h w = (Err e, w').
Proof. unfold try_value_error. intros -> N. destruct e; congruence. Qed.

Lemma try_succ {A} (m h : M A) w a w' : m w = (Ok a, w') -> try_value_error m h w = (Ok a, w').
Proof. unfold try_value_error. now intros ->. Qed.

Lemma rbind_ok {A B} (r : res A) (f : A -> res B) b : rbind r f = Ok b -> exists a, r = Ok a /\ f a = Ok b.
Proof. destruct r; cbn; [eauto|discriminate]. Qed.

Lemma dgetE_ok {A} (d : dict A) k a : dgetE d k = Ok a <-> dget d k = Some a.
Proof. unfold dgetE. destruct (dget d k); split; congruence. Qed.

Ltac mstep H :=
  first
    [ apply bind_lift_ok in H; let a := fresh "a" in let E := fresh "E" in destruct H as (a & E & H)
    | apply bind_ok in H; let a := fresh "a" in let w := fresh "w" in let E := fresh "E" in
      destruct H as (a & w & E & H) ].

Lemma foldM_all_ok {A S} (f : S -> A -> M S) l s w s' w' :
  foldM f l s w = (Ok s', w') ->
  forall x, In x l -> exists s1 w1 s2 w2, f s1 x w1 = (Ok s2, w2).
Proof.
  revert s w. induction l as [|y r IH]; intros s w E x Hin; [destruct Hin|].
  cbn [foldM] in E. apply bind_ok in E as (s1 & w1 & E1 & E2). destruct Hin as [->|Hin]; eauto.
Qed.

(** ** Broadcasting *)
Lemma bproj0_app s1 s2 : forall i1 i2, length i1 = length s1 ->
  bproj0 (s1 ++ s2) (i1 ++ i2) = bproj0 s1 i1 ++ bproj0 s2 i2.
Proof.
  induction s1 as [|d r IH]; intros [|i j] i2 L; cbn in L; try discriminate; cbn [app bproj0]; auto.
  f_equal. apply IH. lia.
Qed.

Lemma bproj0_rev s : forall idx, length idx = length s -> bproj0 (rev s) (rev idx) = rev (bproj0 s idx).
Proof.
  induction s as [|d r IH]; intros [|i j] L; cbn in L; try discriminate; auto.
  cbn [rev bproj0]. rewrite bproj0_app by (rewrite !rev_length; lia). rewrite IH by lia. reflexivity.
Qed.

Lemma bproj0_firstn s : forall idx, bproj0 s (firstn (length s) idx) = bproj0 s idx.
Proof.
  induction s as [|d r IH]; intros [|i j]; cbn [length firstn bproj0]; auto. now rewrite IH.
Qed.

Lemma bproj_rev s idx : length s <= length idx -> bproj s idx = rev (bproj0 (rev s) (rev idx)).
Proof.
  intros L. unfold bproj. rewrite <- (bproj0_firstn (rev s)), rev_length, firstn_rev.
  rewrite bproj0_rev by (rewrite skipn_length; lia). now rewrite rev_involutive.
Qed.

Lemma valid_app s1 s2 i1 i2 : valid s1 i1 -> valid s2 i2 -> valid (s1 ++ s2) (i1 ++ i2).
Proof. apply Forall2_app. Qed.

Lemma valid_rev s idx : valid s idx -> valid (rev s) (rev idx).
Proof.
  intros Hv. induction Hv as [|i n idx s Hi _ IH]; [constructor|]. cbn [rev].
  apply valid_app; auto. repeat constructor; auto.
Qed.

Lemma valid_rev' s idx : valid (rev s) (rev idx) -> valid s idx.
Proof. intros Hv. apply valid_rev in Hv. now rewrite !rev_involutive in Hv. Qed.

Lemma stretches_len s u : stretches s u -> length s <= length u.
Proof. induction 1; cbn; lia. Qed.

Lemma under_len s u : under s u -> length s <= length u.
Proof. intros U. apply stretches_len in U. now rewrite !rev_length in U. Qed.

Lemma stretches_refl s : stretches s s.
Proof. induction s; constructor; auto. Qed.

Lemma under_refl s : under s s.
Proof. apply stretches_refl. Qed.

Lemma stretches_trans s u v : stretches s u -> stretches u v -> stretches s v.
Proof.
  intros A. revert v. induction A; intros v B.
  - constructor.
  - inversion B; subst; constructor; auto.
  - inversion B; subst; [|constructor; auto]. constructor; auto.
Qed.

Lemma under_trans s u v : under s u -> under u v -> under s v.
Proof. apply stretches_trans. Qed.

Lemma bshape_rev_stretches s : forall t u, bshape_rev s t = Some u -> stretches s u /\ stretches t u.
Proof.
  induction s as [|a s IH]; intros t u E; cbn [bshape_rev] in E.
  - injection E as <-. split; [constructor|apply stretches_refl].
  - destruct t as [|b t].
    + injection E as <-. split; [apply stretches_refl|constructor].
    + destruct (bshape_rev s t) as [r|] eqn:Er; [|discriminate]. destruct (IH _ _ Er) as [S1 S2].
      destruct (Nat.eqb_spec a b) as [->|].
      { injection E as <-. split; constructor; auto. }
      destruct (Nat.eqb_spec a 1) as [->|].
      { injection E as <-. split; constructor; auto. }
      destruct (Nat.eqb_spec b 1) as [->|]; [|discriminate].
      injection E as <-. split; constructor; auto.
Qed.

Lemma bshape_under s t u : bshape s t = Some u -> under s u /\ under t u.
Proof.
  unfold bshape, under. destruct (bshape_rev (rev s) (rev t)) as [r|] eqn:E; [|discriminate].
  cbn. intros Q. injection Q as <-. rewrite rev_involutive. eapply bshape_rev_stretches; eauto.
Qed.

Lemma bproj0_valid s u : stretches s u -> forall idx, valid u idx -> valid s (bproj0 s idx).
Proof.
  induction 1; intros idx Hv.
  - constructor.
  - inversion Hv; subst. cbn [bproj0 Nat.eqb]. constructor; [lia|now apply IHstretches].
  - inversion Hv; subst. cbn [bproj0]. constructor; [|now apply IHstretches]. destruct (Nat.eqb_spec a 1); lia.
Qed.

Lemma bproj_valid s u idx : under s u -> valid u idx -> valid s (bproj s idx).
Proof.
  intros U Hv. assert (L := under_len _ _ U). rewrite bproj_rev by (rewrite (valid_length _ _ Hv); lia).
  apply valid_rev'. rewrite rev_involutive. eapply bproj0_valid; eauto. now apply valid_rev.
Qed.

Lemma bproj0_comp s u : stretches s u -> forall idx, bproj0 s (bproj0 u idx) = bproj0 s idx.
Proof.
  induction 1; intros idx; [reflexivity|destruct idx as [|i idx]; cbn [bproj0]; auto ..].
  - now rewrite IHstretches.
  - rewrite IHstretches. destruct (Nat.eqb a 1); auto.
Qed.

Lemma bproj_length s idx : length s <= length idx -> length (bproj s idx) = length s.
Proof.
  intros L. rewrite bproj_rev by auto. rewrite rev_length.
  assert (G : forall t i, length t <= length i -> length (bproj0 t i) = length t).
  { induction t as [|d t IH]; intros [|i j] X; cbn in *; try lia. rewrite IH; lia. }
  rewrite G; rewrite !rev_length; auto.
Qed.

Lemma bproj_comp s u idx : under s u -> length u <= length idx -> bproj s (bproj u idx) = bproj s idx.
Proof.
  intros U L. assert (Ls := under_len _ _ U).
  rewrite (bproj_rev s (bproj u idx)) by (rewrite bproj_length; lia).
  rewrite (bproj_rev u idx) by lia. rewrite rev_involutive, (bproj0_comp _ _ U). symmetry. apply bproj_rev. lia.
Qed.

Lemma bproj0_shows s : forall idx, length s <= length idx -> shows_rev s idx (bproj0 s idx).
Proof.
  induction s as [|d r IH]; intros [|i j] L; cbn in L; try lia; cbn [bproj0]; try constructor.
  destruct (Nat.eqb_spec d 1) as [->|]; constructor; auto; apply IH; lia.
Qed.

Lemma shows_fun s idx i1 i2 : shows_rev s idx i1 -> shows_rev s idx i2 -> i1 = i2.
Proof.
  intros A. revert i2. induction A; intros i2 B; inversion B; subst; auto; try congruence; f_equal; auto.
Qed.

Lemma shows_bproj s u idx' idx : under s u -> valid u idx' -> shows s idx' idx <-> bproj s idx' = idx.
Proof.
  intros U Hv. assert (L : length s <= length idx') by (rewrite (valid_length _ _ Hv); now apply under_len).
  assert (G := bproj0_shows (rev s) (rev idx') ltac:(rewrite !rev_length; auto)).
  unfold shows. rewrite bproj_rev by auto. split.
  - intros X. rewrite (shows_fun _ _ _ _ G X). apply rev_involutive.
  - intros <-. now rewrite rev_involutive.
Qed.

Section L.
Context {V : Type} `{NumOps V}.
Implicit Types (f : eqn V) (args conds lats : dict (pyval V)) (m : mech V).

(** ** Argument lookup *)
Lemma gather_get names (sources : list (dict (pyval V))) (acc : dict (pyval V)) x :
  dget (gather names sources acc) x =
  if smem x names then match first_of sources x with Some v => Some v | None => dget acc x end else dget acc x.
Proof.
  revert acc. induction names as [|y r IH]; intros acc; cbn [gather]; auto.
  rewrite IH. unfold smem. cbn [existsb]. fold (smem x r).
  assert (E : forall s : list (dict (pyval V)), (fix look (s : list (dict (pyval V))) : option (pyval V) :=
                match s with [] => None | d :: s' => match dget d y with Some v => Some v | None => look s' end end) s
              = first_of s y).
  { induction s as [|d s IHs]; cbn; auto. destruct (dget d y); auto. }
  rewrite E. destruct (String.eqb_spec x y) as [->|N]; cbn [orb].
  - destruct (first_of sources y) as [v|]; [|destruct (smem y r); auto].
    rewrite dget_dset_eq. destruct (smem y r); auto.
  - replace (dget match first_of sources y with Some v => dset acc y v | None => acc end x) with (dget acc x); auto.
    destruct (first_of sources y); auto. rewrite dget_dset_neq; auto.
Qed.

Lemma mech_args_get m times conds lats x :
  dget (mech_args m times conds lats) x =
  match (if smem x (compute_args (lm_eqn (mc_mdl m))) then first_of [lats; conds] x else None) with
  | Some v => Some v
  | None => if String.eqb x "time" then Some times else None
  end.
Proof.
  unfold mech_args. rewrite gather_get. cbn [dget]. destruct (smem _ _); auto.
Qed.

Lemma mech_args_time m times conds lats : dmem (mech_args m times conds lats) "time" = true.
Proof.
  unfold dmem. rewrite mech_args_get. destruct (if smem _ _ then _ else _); auto.
Qed.

(** ** Calls *)
Lemma call_accepts f args :
  (accepts f (dkeys args) -> forall w, call f args w = e_body f args w) /\
  (~ accepts f (dkeys args) -> forall w, call f args w = (Err TypeError, w)).
Proof.
  unfold call, accepts.
  assert (A : forallb (dmem args) (e_req f) = true <-> forall x, In x (e_req f) -> In x (dkeys args)).
  { rewrite forallb_forall. split; intros G x Hx; apply dmem_keys; auto. }
  assert (B : (match e_kw f with Some _ => true | None => forallb (fun k => smem k (e_req f ++ e_opt f)) (dkeys args) end)
              = true <-> (e_kw f = None -> forall x, In x (dkeys args) -> In x (e_req f) \/ In x (e_opt f))).
  { destruct (e_kw f).
    - split; auto. intros _ X. discriminate.
    - rewrite forallb_forall. split; intros G.
      + intros _ x Hx. apply in_app_iff. apply smem_In. auto.
      + intros x Hx. apply smem_In, in_app_iff. auto. }
  split; intros G w.
  - rewrite (proj2 A), (proj2 B); tauto.
  - destruct (forallb (dmem args) (e_req f)) eqn:E1; cbn [andb]; [|reflexivity].
    destruct (match e_kw f with Some _ => true | None => _ end) eqn:E2; [|reflexivity].
    exfalso. apply G. split; [now apply A|now apply B].
Qed.

Lemma call_no_time f args w : ~ takes_time f -> dmem args "time" = true -> call f args w = (Err TypeError, w).
Proof.
  intros N T. apply call_accepts. intros [_ A]. apply N. unfold takes_time.
  destruct (e_kw f) eqn:E; [right; right; discriminate|]. apply dmem_keys in T.
  destruct (A eq_refl _ T); auto.
Qed.

Lemma call_or_loop_no_time f args L C D w : ~ takes_time f -> dmem args "time" = true ->
  call_or_loop f args L C D w = (Err TypeError, w).
Proof. intros N T. apply try_other; [|discriminate]. now apply call_no_time. Qed.

(** C31 *)
Lemma mech_deg_no_time m t p conds lats L C D w s : ~ takes_time (lm_eqn (mc_mdl m)) ->
  bshape (nshape t) (nshape p) = Some s ->
  mech_deg_vals m (PArr t) (PArr p) conds lats L C D w = (Err TypeError, w).
Proof.
  intros N B. unfold mech_deg_vals.
  assert (E : base_deg_vals m (PArr t) (PArr p) conds lats L C D w = (Err TypeError, w)).
  { unfold base_deg_vals. cbn [to_nd]. unfold bind at 1 2, lift. rewrite B.
    eapply bind_eval_err. apply call_or_loop_no_time; auto. apply mech_args_time. }
  destruct (mc_kind m); auto. unfold bind at 1, lift. cbn [to_nd].
  now apply (bind_eval_err (base_deg_vals m (PArr t) (PArr p) conds lats L C D)).
Qed.

Lemma mech_deg_no_time_ok m t p conds lats L C D w r w' : ~ takes_time (lm_eqn (mc_mdl m)) ->
  mech_deg_vals m t p conds lats L C D w <> (Ok r, w').
Proof.
  intros N E. unfold mech_deg_vals in E.
  assert (B : forall w r w', base_deg_vals m t p conds lats L C D w <> (Ok r, w')).
  { clear E. intros w0 r0 w0' E. unfold base_deg_vals in E. mstep E. mstep E.
    destruct (bshape _ _); [|discriminate]. mstep E.
    rewrite call_or_loop_no_time in E2; [discriminate|auto|apply mech_args_time]. }
  destruct (mc_kind m); [now apply B in E|]. mstep E. mstep E. now apply B in E1.
Qed.

Lemma mech_equiv_no_time m a conds lats L C D w : ~ takes_time (lm_eqn (mc_mdl m)) ->
  mc_kind m = KDeg ->
  mech_equiv_time m (PArr a) conds lats L C D w = (Err TypeError, w).
Proof.
  intros N K. unfold mech_equiv_time. rewrite K. unfold bind at 1, lift. cbn [to_nd].
  apply bind_eval_err. unfold minimize. apply bind_eval_err. unfold minimize_run, mrun.
  apply bind_eval_err. unfold evalF. apply bind_eval_err. unfold equiv_obj.
  apply bind_eval_err. unfold residue. apply try_other; [|discriminate].
  apply bind_eval_err. apply call_no_time; auto. apply mech_args_time.
Qed.

(** ** What a successful evaluation gives *)
Lemma base_deg_ok m times pre conds lats L C D w r w' :
  base_deg_vals m times pre conds lats L C D w = (Ok r, w') ->
  exists t p d e a, to_nd times = Ok t /\ to_nd pre = Ok p /\
    call_or_loop (lm_eqn (mc_mdl m)) (mech_args m times conds lats) L C D w = (Ok d, w') /\
    to_nd d = Ok e /\ r = PArr a /\ awf a /\
    under (nshape t) (nshape a) /\ under (nshape p) (nshape a) /\ under (nshape e) (nshape a) /\
    forall idx, valid (nshape a) idx ->
      aget a idx = keep_or (bget t idx) (bget p idx) (bget e idx).
Proof.
  intros E. unfold base_deg_vals in E. mstep E. mstep E.
  destruct (bshape (nshape a) (nshape a0)) as [s|] eqn:Es; [|discriminate].
  mstep E. mstep E. mstep E. apply ret_ok in E as [-> ->].
  unfold bmap3 in E4. rewrite Es in E4. destruct (bshape s (nshape a2)) as [u|] eqn:Eu; [|discriminate].
  injection E4 as <-. exists a, a0, a1, a2, (nbuild u (fun idx => keep_or (bget a idx) (bget a0 idx) (bget a2 idx))).
  destruct (bshape_under _ _ _ Es). destruct (bshape_under _ _ _ Eu).
  repeat split; auto using awf_nbuild; cbn [nshape nbuild]; eauto using under_trans.
  intros idx Hv. now rewrite aget_nbuild by auto.
Qed.

Lemma mech_deg_ok m times pre conds lats L C D w r w' :
  mech_deg_vals m times pre conds lats L C D w = (Ok r, w') ->
  exists t p d e a, to_nd times = Ok t /\ to_nd pre = Ok p /\
    call_or_loop (lm_eqn (mc_mdl m)) (mech_args m times conds lats) L C D w = (Ok d, w') /\
    to_nd d = Ok e /\ r = PArr a /\ awf a /\
    under (nshape t) (nshape a) /\ under (nshape p) (nshape a) /\ under (nshape e) (nshape a) /\
    forall idx, valid (nshape a) idx ->
      aget a idx = (if match mc_kind m with KDeg => true | KFail => neqb (bget p idx) (mc_unitary m) end
                    then keep_or (bget t idx) (bget p idx) (bget e idx) else bget p idx).
Proof.
  intros E. unfold mech_deg_vals in E. destruct (mc_kind m).
  - apply base_deg_ok in E as (t & p & d & e & a & E). exists t, p, d, e, a. tauto.
  - mstep E. mstep E. apply base_deg_ok in E1 as (t & p & d & e & b & A1 & A2 & A3 & A4 & -> & A6 & A7 & A8 & A9 & A10).
    mstep E. mstep E. apply ret_ok in E as [-> ->]. cbn [to_nd] in E1. injection E1 as <-.
    assert (p = a) by congruence. subst a. unfold bmap2 in E2.
    destruct (bshape (nshape p) (nshape b)) as [u|] eqn:Eu; [|discriminate]. injection E2 as <-.
    destruct (bshape_under _ _ _ Eu) as [U1 U2].
    exists t, p, d, e. eexists. repeat split; eauto using awf_nbuild; cbn [nshape nbuild]; eauto using under_trans.
    intros idx Hv. rewrite aget_nbuild by auto. destruct (neqb (bget p idx) (mc_unitary m)); auto.
    unfold bget at 1. rewrite A10 by eauto using bproj_valid.
    assert (Lb : length (nshape b) <= length idx) by (rewrite (valid_length _ _ Hv); now apply under_len).
    unfold bget. now rewrite !bproj_comp.
Qed.

(** C12: the elementwise outcome *)
Lemma mech_deg_frozen m t p conds lats L C D w r w' :
  mech_deg_vals m (PArr t) (PArr p) conds lats L C D w = (Ok r, w') -> nshape t = nshape p ->
  exists d e a, call_or_loop (lm_eqn (mc_mdl m)) (mech_args m (PArr t) conds lats) L C D w = (Ok d, w') /\
    to_nd d = Ok e /\ r = PArr a /\ under (nshape p) (nshape a) /\
    (nshape e = nshape p -> nshape a = nshape p) /\
    forall idx' idx, inside (nshape a) idx' -> shows (nshape p) idx' idx ->
      (nltb (nofQ 9000000000) (aget t idx) = true -> nposinf (aget p idx) = false -> aget a idx' = aget p idx) /\
      (nltb (nofQ 9000000000) (aget t idx) = false -> mc_kind m = KDeg ->
       aget a idx' = aget e (bproj (nshape e) idx')).
Proof.
  intros E S. assert (E0 := E). apply mech_deg_ok in E as (t' & p' & d & e & a & A1 & A2 & A3 & A4 & A5 & A6 & A7 & A8 & A9 & A10).
  cbn [to_nd] in A1, A2. injection A1 as <-. injection A2 as <-.
  exists d, e, a. repeat split; auto.
  - intros Se. unfold mech_deg_vals in E0. subst r.
    assert (B : forall r w', base_deg_vals m (PArr t) (PArr p) conds lats L C D w = (Ok r, w') ->
      forall b, r = PArr b -> nshape b = nshape p).
    { intros r0 w0 E b ->. unfold base_deg_vals in E. cbn [to_nd] in E. mstep E. injection E1 as <-. mstep E. injection E1 as <-.
      rewrite S, bshape_same in E. mstep E. rewrite A3 in E1. injection E1 as <- <-. mstep E.
      assert (a0 = e) by congruence. subst a0. mstep E. apply ret_ok in E as [Q _].
      rewrite bmap3_same in E2 by congruence. injection E2 as <-. injection Q as ->. now cbn. }
    destruct (mc_kind m); [now apply (B _ _ E0)|]. mstep E0. mstep E0. cbn [to_nd] in E. injection E as <-.
    assert (exists b, a1 = PArr b) as [b ->].
    { apply base_deg_ok in E1 as (? & ? & ? & ? & b & ? & ? & ? & ? & -> & _). eauto. }
    specialize (B _ _ E1 b eq_refl). mstep E0. cbn [to_nd] in E. injection E as <-.
    mstep E0. rewrite bmap2_same in E by auto. injection E as <-. apply ret_ok in E0 as [Q _]. injection Q as ->. reflexivity.
  - assert (Hp : bproj (nshape p) idx' = idx) by (eapply shows_bproj; eauto).
    intros Hl Hi. rewrite A10 by auto. unfold bget. rewrite S, Hp. unfold keep_or, deg_limit.
    rewrite Hl, Hi. cbn. destruct (mc_kind m); auto. destruct (neqb _ _); auto.
  - assert (Hp : bproj (nshape p) idx' = idx) by (eapply shows_bproj; eauto).
    intros Hl K. rewrite A10 by auto. rewrite K. unfold bget. rewrite S, Hp. unfold keep_or, deg_limit.
    now rewrite Hl.
Qed.

(** C29 for one evaluation *)
Lemma fail_latched m times p conds lats L C D w r w' :
  mc_kind m = KFail -> mech_deg_vals m times (PArr p) conds lats L C D w = (Ok r, w') ->
  exists a, r = PArr a /\ under (nshape p) (nshape a) /\
  forall idx' idx, inside (nshape a) idx' -> shows (nshape p) idx' idx ->
    neqb (aget p idx) (mc_unitary m) = false -> aget a idx' = aget p idx.
Proof.
  intros K E. apply mech_deg_ok in E as (t & p' & d & e & a & A1 & A2 & A3 & A4 & -> & A6 & A7 & A8 & A9 & A10).
  cbn [to_nd] in A2. injection A2 as <-. exists a. repeat split; auto. intros idx' idx Hv Hs Hf.
  rewrite A10, K by auto. assert (Hp : bproj (nshape p) idx' = idx) by (eapply shows_bproj; eauto).
  unfold bget. rewrite Hp, Hf. reflexivity.
Qed.
End L.
