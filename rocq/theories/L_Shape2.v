(** Array shapes: generated states, measurements and whole simulations. *)
From Coq Require Import Arith.
From Verif Require Import M_Base M_Num M_Nd M_RandVar M_Latent M_Time M_TestSpec M_Minimize M_Device M_Report M_Env M_Sim
  S_TestSpec S_Device S_Env S_Sim S_Report S_Shape
  L_Base L_Nd L_Latent L_TestSpec L_Device L_Device2 L_Device3 L_Env L_Env2 L_Env3 L_Sim L_Sim2 L_Sim3 L_Report L_Shape.
Open Scope nat_scope.

Section L.
Context {V : Type} `{NumOps V} `{Rng V} `{HashOrd}.

(** ** The generated state *)
Lemma gen_latent_shape (o : lvar V) D C L w a w' : gen_latent o D C L w = (Ok a, w') -> shaped L C D (PArr a).
Proof.
  unfold gen_latent. intros E. apply bind_ok in E as (lots & w1 & E1 & E). apply bind_ok in E as (chps & w2 & E2 & E).
  apply bind_ok in E as (devs & w3 & E3 & E). apply sample_length in E1, E2, E3. apply lift_ok in E as [E ->].
  apply rbind_ok in E as (lot & A1 & E). apply rbind_ok in E as (chp & A2 & E). apply rbind_ok in E as (dev & A3 & E).
  unfold nreshape in A1, A2, A3.
  repeat match goal with X : (if ?c then _ else _) = Ok _ |- _ => destruct c; [injection X as <-|discriminate] end.
  destruct (lv_op o) as [t|]; [|discriminate].
  apply rbind_ok in E as (vals & A1 & E). apply rbind_ok in E as (x & A2 & A3).
  assert (S1 : nshape vals = [L; C; D]).
  { destruct (lv_deter o); [|now injection A1 as <-]. unfold bmap2 in A1. cbn [nshape nfull nbuild] in A1. rewrite bshape_same in A1.
    now injection A1 as <-. }
  assert (S2 : nshape x = [L; C; D]).
  { unfold bmap2 in A2. rewrite S1 in A2. cbn [nshape] in A2. rewrite bshape3 in A2 by auto. now injection A2 as <-. }
  unfold bmap2 in A3. rewrite S2 in A3. cbn [nshape] in A3. rewrite bshape3 in A3 by auto. injection A3 as <-. apply shaped_build.
Qed.

Lemma gen_latents_shape (m : lmdl V) D C L w l w' : gen_latents m D C L w = (Ok l, w') ->
  (forall k v, In (k, v) l -> shaped L C D v) /\ dwf l /\ (lm_vars m <> [] -> exists k a, In (k, PArr a) l).
Proof.
  unfold gen_latents. intros E. split; [|split].
  - eapply foldM_inv with (P := fun acc : dict (pyval V) => forall k v, In (k, v) acc -> shaped L C D v) in E; [exact E| |intros ? ? []].
    intros acc kv w1 acc' w2 _ HI E0. apply bind_ok in E0 as (a & w3 & E0 & E1). apply ret_ok in E1 as [-> ->].
    intros k v Hin. apply In_dset in Hin as [[-> ->]|Hin]; [eapply gen_latent_shape; eauto|eauto].
  - eapply foldM_inv with (P := @dwf (pyval V)) in E; [exact E| |constructor].
    intros acc kv w1 acc' w2 _ HI E0. apply bind_ok in E0 as (a & w3 & E0 & E1). apply ret_ok in E1 as [-> ->]. now apply dwf_dset.
  - intros Hl. revert E. destruct (lm_vars m) as [|kv r]; [congruence|]. cbn [foldM]. intros E.
    apply bind_ok in E as (acc & w1 & E1 & E). apply bind_ok in E1 as (a & w2 & E1 & E2). apply ret_ok in E2 as [-> ->].
    eapply foldM_inv with (P := fun acc : dict (pyval V) => exists k a, In (k, PArr a) acc) in E; [exact E| |exists (fst kv), a; now left].
    intros acc kv' w3 acc' w4 _ _ E0. apply bind_ok in E0 as (a' & w5 & E0 & E3). apply ret_ok in E3 as [-> ->].
    exists (fst kv'), a'. eapply dget_In, dget_dset_eq.
Qed.

Lemma In_dupdate {A} (e : dict A) : forall d k v, In (k, v) (dupdate d e) -> In (k, v) d \/ In (k, v) e.
Proof.
  unfold dupdate. induction e as [|[k' v'] e IH]; intros d k v Hin; cbn [fold_left fst snd] in Hin; auto.
  apply IH in Hin as [Hin|Hin]; [|right; now right]. apply In_dset in Hin as [[-> ->]|Hin]; [right; now left|now left].
Qed.

Lemma prm_latents_shape (p : degprm V) D C L w l w' : prm_latents p D C L w = (Ok l, w') -> lats_fit p L C D l.
Proof.
  unfold prm_latents. intros E. apply bind_ok in E as (c & w1 & E1 & E). apply bind_ok in E as (ml & w2 & E2 & E).
  apply bind_ok in E as (own & w3 & E3 & E). apply ret_ok in E as [-> ->].
  apply gen_latents_shape in E1 as [E1 _]. apply gen_latents_shape in E3 as [E3 _].
  assert (F : lats_fit p L C D ml).
  { eapply foldM_inv with (P := lats_fit p L C D) in E2; [exact E2| |].
    - intros acc [nm m] w4 acc' w5 Hin HI E0. apply bind_ok in E0 as (x & w6 & E0 & E4). apply ret_ok in E4 as [-> ->].
      apply gen_latents_shape in E0 as [E0 _]. intros k v Hk. apply In_dset in Hk as [[-> ->]|Hk]; [|exact (HI _ _ Hk)].
      right. split; [right; change nm with (fst (nm, m)); now apply in_map|]. exists x. split; auto.
    - intros k v [Q|[]]. injection Q as <- <-. right. split; auto. exists c. split; auto. }
  intros k v Hin. apply In_dupdate in Hin as [Hin|Hin]; [exact (F _ _ Hin)|left; eauto].
Qed.

Lemma init_mech_get (p : degprm V) D C L nm m : dwf (dp_mechs p) -> dget (dp_mechs p) nm = Some m ->
  dget (prm_init_mech p D C L) nm = Some (mech_init_vals m D C L).
Proof.
  unfold prm_init_mech. intros W Hm. apply dget_In in Hm. revert W Hm. unfold dwf, dkeys. generalize (dp_mechs p) as l, (@nil (string * pyval V)) as acc.
  assert (O : forall (l : dict (mech V)) acc, ~ In nm (map fst l) ->
    dget (fold_left (fun acc (nm : string * mech V) => dset acc (fst nm) (mech_init_vals (snd nm) D C L)) l acc) nm = dget acc nm).
  { induction l as [|[k m'] l IH]; intros acc N; cbn [fold_left fst snd]; auto. cbn in N. rewrite IH by tauto. apply dget_dset_neq. tauto. }
  induction l as [|[k m'] l IH]; intros acc W Hin; [destruct Hin|]. cbn [fold_left fst snd map] in *. inversion W; subst.
  destruct Hin as [Q|Hin]; [injection Q as -> ->|auto]. rewrite O by auto. apply dget_dset_eq.
Qed.

Lemma init_vals_shape (m : lmdl V) D C L w v w' : respects_at L C D (lm_eqn m) -> gen_init_vals m D C L w = (Ok v, w') ->
  operand L C D v /\ (lm_vars m <> [] -> shaped L C D v).
Proof.
  unfold gen_init_vals. intros Rs E. apply bind_ok in E as (l & w1 & E1 & E). apply gen_latents_shape in E1 as (S1 & Wl & S2).
  eapply Rs in E as [X1 X2]; [|exact Wl|intros x p Hin; right; eauto]. split; auto.
Qed.

Lemma dev_init_shape d counts C L w st cnt w' ns : device_wf d -> regular_at d L C ns -> (forall name n, dget counts name = Some n -> ns name n) ->
  dev_init_state d counts C L w = (Ok (st, cnt), w') -> state_fits d L C counts st.
Proof.
  intros [W1 W2] Rg Hns E. apply dev_init_ok in E as (_ & _ & P0 & _ & _ & G & _); auto.
  intros name p Hd. destruct (G _ _ Hd) as (n & ls & v & wa & wb & wc & G1 & G2 & G3 & G4 & G5 & G6).
  destruct (Rg _ _ _ Hd (Hns _ _ G1)) as (R1 & _). pose proof (init_vals_shape _ _ _ _ _ _ _ R1 G5) as X.
  exists n, (prm_init_mech p n C L), v, v, ls. rewrite P0. repeat split; auto; try apply X; try (eapply prm_latents_shape; eauto).
  intros nm m Hm. exists (mech_init_vals m n C L). split; [apply init_mech_get; eauto|apply shaped_build].
Qed.

(** ** Measurements *)
Lemma slice_shape k L C n (a b : nd V) : nshape a = [L; C; n] -> k <= n -> nslice_third k a = Ok b -> shaped L C k (PArr b).
Proof.
  intros Sa Hk E. apply nslice_third_get in E as (Wb & x & y & z & r & Q & Sb & _). rewrite Sa in Q. injection Q as <- <- <- <-.
  exists b. split; auto. rewrite Nat.min_l in Sb by auto. split; auto. rewrite Wb, Sb. apply prod3.
Qed.

Lemma reduce_val_shaped k L C n (v : pyval V) o : k <= n -> shaped L C n v -> reduce_val k v = Ok o -> exists u, o = Some u /\ shaped L C k u.
Proof.
  intros Hk (a & -> & A1 & A2) E. cbn [reduce_val] in E. apply rbind_ok in E as (b & E1 & E). injection E as <-.
  exists (PArr b). split; auto. eapply slice_shape; eauto.
Qed.

Lemma reduce_dims_In k (d : dict (pyval V)) : forall d', reduce_dims k d = Ok d' ->
  forall x u, In (x, u) d' -> exists v, In (x, v) d /\ reduce_val k v = Ok (Some u).
Proof.
  induction d as [|[key v] r IH]; intros d' E x u Hin; cbn [reduce_dims] in E.
  - injection E as <-. destruct Hin.
  - apply rbind_ok in E as (o & E1 & E). apply rbind_ok in E as (r' & E2 & E). injection E as <-.
    destruct o as [y|].
    + destruct Hin as [Q|Hin]; [injection Q as <- <-; exists v; split; auto; now left|].
      destruct (IH _ E2 _ _ Hin) as (v' & ? & ?). exists v'. split; auto. now right.
    + destruct (IH _ E2 _ _ Hin) as (v' & ? & ?). exists v'. split; auto. now right.
Qed.

Lemma reduce_val_dict k (d : dict (pyval V)) o : reduce_val k (PDict d) = Ok o -> exists d', o = Some (PDict d') /\ reduce_dims k d = Ok d'.
Proof.
  intros E. cbn [reduce_val] in E. apply rbind_ok in E as (d' & E1 & E). injection E as <-. exists d'. split; auto. rewrite <- E1.
  clear. induction d as [|[key v] r IH]; cbn [reduce_dims]; auto.
  destruct (reduce_val k v); cbn [rbind]; auto. now rewrite IH.
Qed.

Lemma reduce_lats (p : degprm V) k L C n ls ls' : k <= n -> lats_fit p L C n ls -> reduce_dims k ls = Ok ls' -> lats_fit p L C k ls'.
Proof.
  intros Hk F E x u Hin. destruct (reduce_dims_In _ _ _ E _ _ Hin) as (v & Hv & Ev).
  destruct (F _ _ Hv) as [S|(Hx & l & -> & S)].
  - left. destruct (reduce_val_shaped _ _ _ _ _ _ Hk S Ev) as (y & Q & S'). injection Q as <-. exact S'.
  - right. split; auto. apply reduce_val_dict in Ev as (l' & Q & El). injection Q as ->. exists l'. split; auto.
    intros y z Hy. destruct (reduce_dims_In _ _ _ El _ _ Hy) as (v & Hl & Ev).
    destruct (reduce_val_shaped _ _ _ _ _ _ Hk (S _ _ Hl) Ev) as (y' & Q & S'). injection Q as <-. exact S'.
Qed.

Lemma unitary_operands L C n (l : dict (mech V)) : forall acc : dict (pyval V), operands L C n acc ->
  operands L C n (fold_left (fun acc (nm : string * mech V) => dset acc (fst nm) (PNum (mc_unitary (snd nm)))) l acc).
Proof. induction l as [|nm l IH]; intros acc Ha; cbn [fold_left]; auto. apply IH. apply operands_dset; auto. left. eauto. Qed.

Lemma unitary_wf (l : dict (mech V)) : forall acc : dict (pyval V), dwf acc ->
  dwf (fold_left (fun acc (nm : string * mech V) => dset acc (fst nm) (PNum (mc_unitary (snd nm)))) l acc).
Proof. induction l as [|nm l IH]; intros acc Ha; cbn [fold_left]; auto. apply IH. now apply dwf_dset. Qed.

Lemma unitary_keys k (l : dict (mech V)) : forall acc : dict (pyval V), dmem acc k = true \/ In k (map fst l) ->
  dmem (fold_left (fun acc (nm : string * mech V) => dset acc (fst nm) (PNum (mc_unitary (snd nm)))) l acc) k = true.
Proof.
  induction l as [|nm l IH]; intros acc Hk; cbn [fold_left map] in *; [destruct Hk as [Hk|[]]; exact Hk|]. apply IH. rewrite dmem_dset.
  destruct Hk as [->|[<-|Hk]]; [left; apply Bool.orb_true_r|left; now rewrite String.eqb_refl|now right].
Qed.

Lemma cond_shifted_shape (p : degprm V) cs deg ls L C n k w v w' : numeric_at L C k (lm_eqn (dp_cond p)) -> follows_at L C k (lm_eqn (dp_own p)) ->
  operand L C n deg -> lats_fit p L C n ls -> operands L C k cs -> k <= n ->
  cond_shifted p cs deg ls L C k w = (Ok v, w') -> operand L C k v.
Proof.
  intros Nc Ro Hd Fl Oc Hk E. unfold cond_shifted in E. apply bind_lift_ok in E as (n' & E0 & E).
  destruct Hd as [[y ->]|(a & -> & A1 & A2)]; [discriminate|]. cbn [third_dim] in E0. rewrite A1 in E0. cbn in E0. injection E0 as <-.
  apply bind_lift_ok in E as ([args1 ls1] & E1 & E). cbn [fst snd] in E.
  assert (X : (exists b, shaped L C k (PArr b) /\ args1 = [("init"%string, PArr b); ("cond"%string, PDict [])]) /\ lats_fit p L C k ls1).
  { destruct (Nat.ltb_spec k n).
    - apply rbind_ok in E1 as (a1 & Ea & E1). apply rbind_ok in E1 as (l1 & El & E1). injection E1 as <- <-. split; [|eapply reduce_lats; eauto].
      cbn [reduce_dims] in Ea. apply rbind_ok in Ea as (o & Eo & Ea).
      destruct (reduce_val_shaped _ L C n _ _ Hk (ex_intro _ a (conj eq_refl (conj A1 A2))) Eo) as (u & -> & S). destruct S as (b & -> & B).
      cbn in Ea. injection Ea as <-. exists b. split; auto. exists b. auto.
    - injection E1 as <- <-. assert (k = n) by lia. subst k. split; auto. exists a. split; auto. exists a. auto. }
  destruct X as [(b & Sb & ->) F1]. apply bind_lift_ok in E as (cl & E2 & E). apply bind_ok in E as (cv & w2 & E3 & E).
  apply rbind_ok in E2 as (q & E2 & E4). apply dgetE_ok in E2. destruct q; try discriminate. injection E4 as ->.
  apply numeric_call in E3; auto; [|apply gather_wf; constructor|apply gather_operands; auto using operands_nil; eapply latent_operands; eauto].
  eapply follows_call in E as [E _]; eauto.
  { apply add_own_wf, unitary_wf. repeat constructor; cbn; intuition discriminate. }
  cbn [dset String.eqb Ascii.eqb Bool.eqb].
  eapply add_own_operands; [exact F1| |].
  - intros x [->|Hx]; apply unitary_keys; [left|now right]. reflexivity.
  - apply unitary_operands. intros x q [Q|[Q|[]]]; injection Q as <- <-; auto. now right.
Qed.

Lemma measure_with_length e prm (vals : list V) w ys w' : measure_with e prm vals w = (Ok ys, w') -> length ys = length vals.
Proof.
  unfold measure_with. intros E. apply bind_lift_ok in E as (f & _ & E). destruct f; [|discriminate]. now apply measure_ok in E as [E _].
Qed.

Lemma stamp_nth (rows : list (row V)) : forall vals k r, length vals = length rows -> nth_error rows k = Some r ->
  exists v, nth_error (map (fun rv : row V * V => Row (r_param (fst rv)) (r_step (fst rv)) (r_dev (fst rv)) (r_chp (fst rv))
                           (r_lot (fst rv)) (r_time (fst rv)) (snd rv)) (combine rows vals)) k =
            Some (Row (r_param r) (r_step r) (r_dev r) (r_chp r) (r_lot r) (r_time r) v).
Proof.
  induction rows as [|r0 rows IH]; intros [|v vals] k r E Hk; try discriminate; [now destruct k|].
  destruct k as [|k]; cbn [nth_error combine map] in *; [injection Hk as ->; eexists; reflexivity|]. apply IH; auto.
Qed.

Lemma measure_shape e d i m conds w0 w1 st rep prm k w g w' n ns :
  regular_at d (rp_lots rep) (rp_chps rep) ns -> ns prm k -> dwf (ms_conds m) -> dwf (ms_counts m) -> In (prm, k) (ms_counts m) ->
  (forall p, dget d prm = Some (PDeg p) -> dget (rp_counts rep) prm = Some n /\ k <= n) ->
  state_fits d (rp_lots rep) (rp_chps rep) (rp_counts rep) st ->
  gen_env_cond_vals e (ms_conds m) (PCounts (ms_counts m)) (Some (info_of rep)) (Some d) false 1 1 w0 = (Ok conds, w1) ->
  measure_prm e d i conds (ms_conds m) st rep prm k w = (Ok g, w') ->
  rows_fit d (rp_lots rep) (rp_chps rep) (prm, k) g.
Proof.
  intros Rg Hns W1 W2 Hin Hn F Ec E. apply dget_wf_In in Hin; auto. unfold measure_prm in E. apply bind_ok in E as (rows & wa & E1 & E).
  apply bind_ok in E as (vals & wb & E2 & E). apply ret_ok in E as [-> ->]. apply measure_with_length in E2. rewrite map_length in E2.
  unfold rows_fit. cbn [fst snd]. destruct (dget d prm) as [[p|c]|] eqn:Hd; auto.
  - destruct (Hn _ eq_refl) as [Hc Hk]. clear Hn. destruct (F _ _ Hd) as (n1 & mv & v & v0 & ls & B1 & B2 & B3 & B4 & [B5 _] & B6 & B7 & B8 & B9).
    assert (n1 = n) by congruence. subst n1. rewrite B4 in E1.
    apply bind_lift_ok in E1 as (cs & D1 & E1). apply bind_lift_ok in E1 as (ls' & D2 & E1). apply bind_ok in E1 as (x & w2 & D3 & E1).
    apply lift_ok in E1 as [E1 ->]. apply dgetE_ok in D1, D2. assert (ls' = ls) by congruence. subst ls'.
    destruct (Rg _ _ _ Hd Hns) as (_ & R2 & R3 & _).
    eapply cond_shifted_shape in D3; eauto; [|exact (conds_operands _ _ _ _ _ _ _ _ _ _ _ _ _ _ _ W1 Ec Hd D1 Hin)].
    destruct D3 as [[y ->]|(a & -> & A1 & A2)]; [rewrite format_other in E1 by discriminate; discriminate|].
    destruct (format_param a prm (st_elapsed st) i (rp_lots rep) (rp_chps rep) k) as (rows' & Q & Ln & G); [rewrite A1; constructor|exact A2|].
    rewrite Q in E1. injection E1 as ->. split; [rewrite map_length, combine_length; lia|].
    intros l c dd Hl Hcc Hdd. destruct (G _ _ _ Hl Hcc Hdd) as (y & _ & Gy).
    destruct (stamp_nth _ vals _ _ E2 Gy) as (z & Z). eexists. split; [exact Z|]. cbn [r_lot r_chp r_dev]. auto.
  - destruct (dget (st_prm st) prm); [discriminate|]. destruct (dmem (ms_conds m) prm) eqn:Mc; [|discriminate].
    apply dmem_Some in Mc as [v0 Mc]. apply bind_lift_ok in E1 as (cs & D1 & E1). apply bind_lift_ok in E1 as (v & D2 & E1).
    apply lift_ok in E1 as [E1 ->]. apply dgetE_ok in D1, D2.
    destruct (env_conds_elements _ _ _ _ _ _ _ _ _ _ _ W1 Ec _ _ Mc) as (mm & t & xb & chps & wb' & wc & wd & _ & _ & _ & _ & G).
    specialize (G _ _ D1). cbn [dev_prm] in G. rewrite Hd in G. destruct (G eq_refl) as (n' & a & sens & devs & w2 & w3 & w4 & -> & G1 & G2 & G3 & _).
    cbn [request_count] in G1. rewrite Hin in G1. injection G1 as <-. cbn [dget] in D2. rewrite String.eqb_refl in D2. injection D2 as <-.
    rewrite (format_cond a prm (st_elapsed st) i 1 k 1) in E1; [|rewrite G2; constructor|lia]. injection E1 as <-.
    rewrite map_length in E2. split; [rewrite map_length, combine_length, map_length; lia|].
    intros r Hr. apply in_map_iff in Hr as ([r0 x] & <- & Hr). apply in_combine_l in Hr. apply in_map_iff in Hr as (y & <- & _). auto.
Qed.

(** ** The default equations *)
Lemma call_body (f : eqn V) args w v w' : call f args w = (Ok v, w') -> e_body f args w = (Ok v, w') /\
  (e_kw f = None -> forall x p, In (x, p) args -> In x (e_req f ++ e_opt f)).
Proof.
  unfold call. intros E. destruct (forallb (dmem args) (e_req f)); cbn [andb] in E; [|discriminate].
  destruct (match e_kw f with Some _ => true | None => _ end) eqn:K; [|discriminate]. split; auto.
  intros Hk x p Hin. rewrite Hk in K. rewrite forallb_forall in K. apply smem_In, K. change x with (fst (x, p)). now apply in_map.
Qed.

Lemma const_respects (v : V) : respects (eqn_const v).
Proof.
  intros L C n args w u w' W A E. apply call_body in E as [E K]. apply ret_ok in E as [-> _]. split; [left; eauto|].
  intros (x & a & Hin). destruct (K eq_refl _ _ Hin).
Qed.

Lemma basic_respects : respects (V := V) eqn_basic.
Proof.
  intros L C n args w u w' W A E. apply call_body in E as [E K]. apply lift_ok in E as [E _]. apply dgetE_ok in E. split; [exact (A _ _ (dget_In _ _ _ E))|].
  intros (x & a & Hin). destruct (K eq_refl _ _ Hin) as [Q|[]]. cbn [eqn_basic e_req app] in Q. subst x.
  apply dget_wf_In in Hin; auto. rewrite Hin in E. injection E as <-. destruct (A _ _ (dget_In _ _ _ Hin)) as [[y Q]|S]; [discriminate|exact S].
Qed.

Lemma psum_shape L C n (l : list (pyval V)) : forall acc r, operand L C n acc -> (forall x, In x l -> operand L C n x) -> psum acc l = Ok r ->
  operand L C n r /\ (shaped L C n acc \/ (exists x, In x l /\ shaped L C n x) -> shaped L C n r).
Proof.
  induction l as [|x l IH]; intros acc r Ha Hl E; cbn [psum] in E.
  - injection E as <-. split; auto. intros [S|(x & [] & _)]; auto.
  - apply rbind_ok in E as (s & E1 & E). eapply pmap2_shape in E1 as [P1 P2]; [|exact Ha|apply Hl; now left].
    destruct (IH _ _ P1 (fun y Hy => Hl y (or_intror Hy)) E) as [Q1 Q2]. split; auto.
    intros [S|(y & [->|Hy] & S)]; apply Q2; [left; auto|left; auto|right; eauto].
Qed.

Lemma basic_sum_respects : respects (V := V) eqn_basic_sum.
Proof.
  intros L C n args w u w' W A E. apply call_body in E as [E _]. apply lift_ok in E as [E _].
  apply rbind_ok in E as (i & E1 & E). apply rbind_ok in E as (c & E2 & E). apply rbind_ok in E as (ic & E3 & E). apply rbind_ok in E as (s & E4 & E).
  apply dgetE_ok in E1, E2.
  eapply pmap2_shape in E3 as [P1 P2]; [|exact (A _ _ (dget_In _ _ _ E1))|exact (A _ _ (dget_In _ _ _ E2))].
  eapply psum_shape in E4 as [Q1 Q2]; [|left; eauto|intros x Hx; apply in_map_iff in Hx as ([k v] & <- & Hx); apply filter_In in Hx as [Hx _]; exact (A _ _ Hx)].
  eapply pmap2_shape in E as [R1 R2]; [|exact P1|exact Q1]. split; auto.
  intros (x & a & Hin). apply R2. assert (Sa : shaped L C n (PArr a)) by (destruct (A _ _ Hin) as [[y Q]|S]; [discriminate|exact S]).
  destruct (String.eqb x "init" || String.eqb x "cond")%bool eqn:Ex.
  - left. apply P2. apply dget_wf_In in Hin; auto. apply Bool.orb_true_iff in Ex as [Ex|Ex]; apply String.eqb_eq in Ex; subst x.
    + left. rewrite Hin in E1. injection E1 as <-. exact Sa.
    + right. rewrite Hin in E2. injection E2 as <-. exact Sa.
  - right. apply Q2. right. exists (PArr a). split; auto. apply in_map_iff. exists (x, PArr a). split; auto. apply filter_In. split; auto. cbn [fst]. now rewrite Ex.
Qed.

(** Elementwise equations of two arguments. *)
Lemma elementwise_respects f x y : respects (V := V) (Eqn [x; y] [] None
  (fun a => lift (rbind (dgetE a x) (fun u => rbind (dgetE a y) (fun v => pmap2 f u v))))).
Proof.
  intros L C n args w u w' W A E. apply call_body in E as [E K]. apply lift_ok in E as [E _].
  apply rbind_ok in E as (i & E1 & E). apply rbind_ok in E as (c & E2 & E). apply dgetE_ok in E1, E2.
  eapply pmap2_shape in E as [R1 R2]; [|exact (A _ _ (dget_In _ _ _ E1))|exact (A _ _ (dget_In _ _ _ E2))]. split; auto.
  intros (k & a & Hin). apply R2. assert (Sa : shaped L C n (PArr a)) by (destruct (A _ _ Hin) as [[z Q]|S]; [discriminate|exact S]).
  pose proof (K eq_refl _ _ Hin) as Kx. apply dget_wf_In in Hin; auto. cbn in Kx. destruct Kx as [<-|[<-|[]]]; [left|right]; congruence.
Qed.

Lemma respects_follows (f : eqn V) : respects f -> follows f.
Proof. intros R L C n args w v w' W A E. destruct (R L C n _ _ _ _ W A E) as [R1 R2]. split; auto. intros (a & Ha). eauto. Qed.

Lemma respects_numeric (f : eqn V) : respects f -> numeric f.
Proof. intros R L C n args w v w' W A E. exact (proj1 (R _ _ _ _ _ _ _ W A E)). Qed.

Lemma regular_all (d : device V) L C ns : regular d -> regular_at d L C ns.
Proof. intros R name p n Hp _. destruct (R _ _ Hp) as (R1 & R2 & R3 & R4). split; [apply R1|]. split; [apply R2|]. split; [apply R3|]. intros nm m Hm. exact (R4 _ _ Hm _ _ _). Qed.
Definition any : string -> nat -> Prop := fun _ _ => True.

(** ** Whole runs *)
Lemma run_tableP e d (P : step V -> Prop) (I : simstate V -> Prop) (group : nat -> tval -> string * nat -> list (row V) -> Prop) rep0
  (HS : forall i s st rep w st' rep' w', P (SStrs s) -> same_info rep0 rep -> I st -> stress_step e d i s st rep w = (Ok (st', rep'), w') -> I st')
  (HM : forall i m st rep w conds w1 kv w2 g w3, P (SMeas m) -> same_info rep0 rep -> I st ->
     gen_env_cond_vals e (ms_conds m) (PCounts (ms_counts m)) (Some (info_of rep)) (Some d) false 1 1 w = (Ok conds, w1) ->
     In kv (ms_counts m) -> measure_prm e d i conds (ms_conds m) st rep (fst kv) (snd kv) w2 = (Ok g, w3) ->
     group i (st_elapsed st) kv g) l : (forall s, In s l -> P s) ->
  forall i st rep w st' rep' w', same_info rep0 rep -> I st ->
  run_steps e d i l st rep w = (Ok (st', rep'), w') ->
  (exists rows, rp_meas rep' = rp_meas rep ++ rows /\ table_of group i (st_elapsed st) l rows) /\ I st' /\ same_info rep0 rep'.
Proof.
  induction l as [|x l IH]; intros HP i st rep w st' rep' w' Hr Hi E.
  - apply ret_ok in E as [E ->]. injection E as -> ->. split; auto. exists []. rewrite app_nil_r. split; auto. constructor.
  - rewrite run_cons in E. apply bind_ok in E as ([st1 rep1] & w1 & E1 & E2). cbn [fst snd] in E2.
    assert (HP' : forall s, In s l -> P s) by (intros; apply HP; now right). specialize (IH HP'). specialize (HP x (or_introl eq_refl)).
    destruct x as [m|s|o]; cbn [sim_step fst snd] in E1.
    + apply meas_step_ok in E1 as (conds & rws & w2 & Eg & Ef & -> & ->).
      apply IH in E2 as ((rows & R1 & R2) & I'); [|exact Hr|exact Hi]. split; auto. cbn [add_summary add_measurements rp_meas] in R1.
      apply meas_groups with (P := group i (st_elapsed st)) in Ef as (gs & -> & F).
      * exists (concat gs ++ rows). rewrite R1. cbn [app]. rewrite app_assoc. split; auto. now constructor.
      * intros kv w3 g w4 Hin Em. eapply HM; eauto.
    + assert (I1 : I st1) by (eapply HS; eauto).
      apply stress_step_ok in E1 as (conds & st2 & w2 & x & _ & Ef & Ex & -> & ->).
      apply IH in E2 as ((rows & R1 & R2) & I'); auto. split; auto.
      apply stress_fold_same in Ef as (_ & Ef & _). rewrite <- Ef, Ex. cbn [add_summary rp_meas set_elapsed st_elapsed] in R1, R2.
      exists rows. split; auto. now constructor.
    + apply ret_ok in E1 as [E1 ->]. injection E1 as -> ->. apply IH in E2 as ((rows & R1 & R2) & I'); auto. split; auto.
      exists rows. split; auto. now constructor.
Qed.

Lemma run_shapes e d l i st rep w st' rep' w' :
  device_wf d -> regular d -> (forall s, In s l -> step_wf s) ->
  (forall x k n p, requests l x k -> dget d x = Some (PDeg p) -> dget (rp_counts rep) x = Some n -> k <= n) ->
  state_fits d (rp_lots rep) (rp_chps rep) (rp_counts rep) st ->
  run_steps e d i l st rep w = (Ok (st', rep'), w') ->
  (exists rows, rp_meas rep' = rp_meas rep ++ rows /\
     table_of (fun _ _ => rows_fit d (rp_lots rep) (rp_chps rep)) i (st_elapsed st) l rows) /\
  state_fits d (rp_lots rep) (rp_chps rep) (rp_counts rep) st' /\ same_info rep rep'.
Proof.
  intros W Rg Ws Hk F E.
  eapply run_tableP with (P := fun s => step_wf s /\ forall m, s = SMeas m -> incl (ms_counts m) (flat_map (fun s => match s with SMeas m => ms_counts m | _ => [] end) l))
    (I := state_fits d (rp_lots rep) (rp_chps rep) (rp_counts rep)) (rep0 := rep)
    (group := fun _ _ => rows_fit d (rp_lots rep) (rp_chps rep)) in E; eauto; [| | |now repeat split].
  - intros j s s1 r1 w1 s2 r2 w2 [Hs _] (Q1 & Q2 & Q3) Hf Es. eapply stress_step_shape with (ns := any) in Es; unfold any; eauto using regular_all; rewrite Q1, Q2, Q3 in *; auto.
  - intros j m s1 r1 w1 conds w2 [prm k] w3 g w4 [[Hs1 Hs2] Hi] (Q1 & Q2 & Q3) Hf Ec Hin Em. cbn [fst snd] in *. rewrite <- Q1, <- Q2, <- Q3 in *.
    destruct (dget (rp_counts r1) prm) as [n|] eqn:Hn.
    + eapply measure_shape with (n := n) (ns := any); unfold any; eauto using regular_all. intros p Hp. split; [exact Hn|]. eapply Hk; eauto.
      specialize (Hi m eq_refl _ Hin). apply in_flat_map in Hi as (s & Hl & Hi). destruct s as [m'|?|?]; [exists m'; auto|destruct Hi|destruct Hi].
    + eapply measure_shape with (n := 0) (ns := any); unfold any; eauto using regular_all. intros p Hp. destruct (Hf _ _ Hp) as (n & ? & ? & ? & ? & Q & _). congruence.
  - intros s Hin. split; auto. intros m -> x Hx. apply in_flat_map. exists (SMeas m). auto.
Qed.

Lemma raise_mono (c : lmdl V) names prm : forall acc q k, dget (fst acc) q = Some k ->
  exists n, dget (fst (raise_counts c names prm acc)) q = Some n /\ k <= n.
Proof.
  unfold raise_counts. generalize (required_prms c names) as l. induction l as [|x l IH]; intros acc q k Hq; cbn [fold_left]; eauto.
  destruct (dget (fst acc) prm) as [m|] eqn:Hm; [|auto].
  destruct (match dget (fst acc) x with None => true | Some m0 => m0 <? m end) eqn:Sm; [|auto].
  destruct (String.eqb_spec x q) as [->|Nq].
  - rewrite Hq in Sm. apply Nat.ltb_lt in Sm. destruct (IH (dset (fst acc) q m, option_map (fun r => dset r q m) (snd acc)) q m) as (n & En & Hn); [apply dget_dset_eq|].
    exists n. split; auto. lia.
  - apply IH. cbn [fst]. now rewrite dget_dset_neq.
Qed.

Lemma augment_mono (d : device V) l : forall acc q k, dget (fst acc) q = Some k -> exists n, dget (fst (augment d acc l)) q = Some n /\ k <= n.
Proof.
  unfold augment. induction l as [|p l IH]; intros acc q k Hq; cbn [fold_left]; eauto.
  destruct (dget d p) as [[x|c]|]; auto. destruct (raise_mono c (dkeys d) p acc q k Hq) as (m & Hm & Hle).
  destruct (IH _ _ _ Hm) as (n & Hn & Hle'). exists n. split; auto. lia.
Qed.

Lemma simulate_shapes e d l C L w st' rep' w' :
  device_wf d -> regular d -> (forall s, In s l -> step_wf s) ->
  simulate e d l C L None w = (Ok (st', rep'), w') ->
  table_of (fun _ _ => rows_fit d L C) 0 (TD 0) l (rp_meas rep') /\
  state_fits d L C (rp_counts rep') st' /\ rp_lots rep' = L /\ rp_chps rep' = C.
Proof.
  intros W Rg Ws E. apply simulate_run in E as (st0 & rep0 & w0 & E & M0 & _ & C0 & L0 & T0 & _ & _ & _ & st1 & Ei & -> & Q); auto.
  apply dev_init_shape with (ns := any) in Ei; unfold any; auto using regular_all.
  apply run_shapes in E as ((rows & R1 & R2) & F & (Q1 & Q2 & Q3)); auto.
  - cbn [set_elapsed st_elapsed] in R2. rewrite M0, C0, L0 in *. cbn [app] in R1. rewrite R1, Q3. repeat split; auto; congruence.
  - intros x k n p Hr Hp Hn.
    destruct (calc_samples_bound l) as (_ & _ & Hub). destruct (Hub _ _ Hr) as (y & Hy & Hle).
    destruct (augment_mono d (dkeys (calc_samples_needed l)) (calc_samples_needed l, None) x y Hy) as (z & Hz & Hle').
    rewrite Q, Hz in Hn. injection Hn as <-. lia.
  - rewrite C0, L0. exact Ei.
Qed.
End L.
