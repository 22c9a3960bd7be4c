(** Lemmas about array shapes in simulations. *)
From Coq Require Import Arith.
From Verif Require Import M_Base M_Num M_Nd M_RandVar M_Latent M_Time M_TestSpec M_Minimize M_Device M_Report M_Env M_Sim
  S_TestSpec S_Device S_Env S_Sim S_Report S_Shape
  L_Base L_Nd L_Latent L_TestSpec L_Device L_Device2 L_Device3 L_Env L_Env2 L_Env3 L_Sim L_Sim2 L_Sim3 L_Report.
Open Scope nat_scope.

Section L.
Context {V : Type} `{NumOps V} `{Rng V} `{HashOrd}.

(** ** The minimiser keeps the number of elements *)
Lemma zip_update_length rt at_ (ss : list (mst V)) : forall fus, length fus = length ss -> length (zip_update rt at_ ss fus) = length ss.
Proof. induction ss as [|s ss IH]; intros [|f fus] E; cbn in *; try discriminate; auto. Qed.

Lemma evalF_length lg (F : list V -> M (list V)) xs w fs w' : evalF lg F xs w = (Ok fs, w') -> length fs = length xs.
Proof.
  unfold evalF. intros E. apply bind_ok in E as (g & w1 & E1 & E2).
  destruct (Nat.eqb_spec (length g) (length xs)); inversion E2; subst; auto.
Qed.

Lemma mloop_length rt at_ lg (F : list V -> M (list V)) fuel : forall ss ev w r w',
  mloop rt at_ lg F fuel ss ev w = (Ok r, w') -> length (mr_states r) = length ss.
Proof.
  induction fuel as [|k IH]; intros ss ev w r w' E; cbn [mloop] in E; destruct (forallb _ ss).
  - inversion E; subst; auto.
  - inversion E; subst; auto.
  - inversion E; subst; auto.
  - apply bind_ok in E as (fus & w1 & E1 & E2). apply evalF_length in E1. rewrite map_length in E1.
    apply IH in E2. rewrite E2. now apply zip_update_length.
Qed.

Lemma minimize_length (F : list V -> M (list V)) n lo hi pr me k lg w xs w' :
  minimize F n lo hi pr me k lg w = (Ok xs, w') -> length xs = n.
Proof.
  unfold minimize, minimize_run, mrun. intros E. apply bind_ok in E as (r & w1 & E & E2). apply ret_ok in E2 as [-> ->].
  apply bind_ok in E as (f0 & w2 & E0 & E). apply evalF_length in E0. rewrite repeat_length in E0.
  apply mloop_length in E. rewrite map_length, E, map_length. exact E0.
Qed.

(** ** Values *)
Lemma shaped_nd L C n (p : pyval V) a : shaped L C n p -> to_nd p = Ok a -> nshape a = [L; C; n] /\ p = PArr a /\ length (ndata a) = L * C * n.
Proof. intros (b & -> & S1 & S2) E. injection E as <-. auto. Qed.

Lemma prod3 L C n : prod [L; C; n] = L * C * n.
Proof. cbn. ring. Qed.

Lemma shaped_build L C n (f : list nat -> V) : shaped L C n (PArr (nbuild [L; C; n] f)).
Proof. exists (nbuild [L; C; n] f). split; auto. split; auto. rewrite (awf_nbuild [L; C; n] f). apply prod3. Qed.

Lemma operand_nd L C n (p : pyval V) : operand L C n p -> exists a, to_nd p = Ok a /\ (nshape a = [] /\ (exists y, a = Nd [] [y]) \/ nshape a = [L; C; n]).
Proof. intros [[y ->]|(a & -> & S1 & S2)]; eexists; (split; [reflexivity|]); [left|right]; eauto. Qed.

Lemma pmap2_shape f L C n (x y z : pyval V) : operand L C n x -> operand L C n y -> pmap2 f x y = Ok z ->
  operand L C n z /\ (shaped L C n x \/ shaped L C n y -> shaped L C n z).
Proof.
  intros Hx Hy E. unfold pmap2 in E.
  destruct Hx as [[u ->]|(a & -> & A1 & A2)], Hy as [[v ->]|(b & -> & B1 & B2)]; cbn [to_nd rbind] in E.
  - injection E as <-. split; [left; eexists; reflexivity|]. intros [(c & Q & _)|(c & Q & _)]; discriminate Q.
  - rewrite bmap2_scalar_l in E. cbn [rbind] in E. rewrite B1, of_nd_nbuild in E. injection E as <-.
    split; [right|intros _]; apply shaped_build.
  - rewrite bmap2_scalar_r in E. cbn [rbind] in E. rewrite A1, of_nd_nbuild in E. injection E as <-.
    split; [right|intros _]; apply shaped_build.
  - rewrite bmap2_same in E by congruence. cbn [rbind] in E. rewrite A1, of_nd_nbuild in E. injection E as <-.
    split; [right|intros _]; apply shaped_build.
Qed.

(** ** Equations *)
Lemma loop_shape f args L C n w (v : pyval V) w' : loop_compute f args L C n w = (Ok v, w') -> shaped L C n v.
Proof.
  unfold loop_compute. intros E. apply bind_ok in E as (xs & w1 & E & E2). apply ret_ok in E2 as [-> ->].
  apply mapM_length in E. rewrite length_indices, prod3 in E. eexists. split; [reflexivity|]. auto.
Qed.

Lemma numeric_call (f : eqn V) args L C n w v w' : numeric_at L C n f -> dwf args -> operands L C n args ->
  call_or_loop f args L C n w = (Ok v, w') -> operand L C n v.
Proof. intros N W A E. apply try_ok in E as [E|(w1 & _ & E)]; [eapply N; eauto|right; eapply loop_shape; eauto]. Qed.

Lemma follows_call (f : eqn V) args L C n w v w' : follows_at L C n f -> dwf args -> operands L C n args ->
  call_or_loop f args L C n w = (Ok v, w') -> operand L C n v /\ ((exists a, In ("init"%string, PArr a) args) -> shaped L C n v).
Proof.
  intros N W A E. apply try_ok in E as [E|(w1 & _ & E)]; [eapply N; eauto|]. apply loop_shape in E. split; auto. now right.
Qed.

Lemma operands_nil L C n : operands (V := V) L C n [].
Proof. intros x p []. Qed.

Lemma operands_dset L C n (args : dict (pyval V)) k v : operands L C n args -> operand L C n v -> operands L C n (dset args k v).
Proof. intros A Hv x p Hin. apply In_dset in Hin as [[-> ->]|Hin]; auto. now apply A in Hin. Qed.

Lemma gather_operands L C n names (l c : dict (pyval V)) : forall acc,
  operands L C n l -> operands L C n c -> operands L C n acc -> operands L C n (gather names [l; c] acc).
Proof.
  induction names as [|x names IH]; intros acc Hl Hc Ha; cbn [gather]; auto. apply IH; auto.
  destruct (dget l x) as [v|] eqn:E1; [apply operands_dset; auto; eapply Hl; eapply dget_In; eauto|].
  destruct (dget c x) as [v|] eqn:E2; auto. apply operands_dset; auto. eapply Hc; eapply dget_In; eauto.
Qed.

Lemma gather_wf names (src : list (dict (pyval V))) : forall acc, dwf acc -> dwf (gather names src acc).
Proof.
  induction names as [|x names IH]; intros acc Ha; cbn [gather]; auto. apply IH.
  match goal with |- context [match ?t with Some _ => _ | None => _ end] => destruct t end; auto. now apply dwf_dset.
Qed.

Lemma add_own_wf names (ls : dict (pyval V)) : forall acc, dwf acc -> dwf (add_own names ls acc).
Proof.
  induction names as [|x names IH]; intros acc Ha; cbn [add_own]; auto. apply IH.
  destruct (dmem acc x); auto. destruct (dget ls x); auto. now apply dwf_dset.
Qed.

Lemma add_own_In names (ls : dict (pyval V)) : forall acc k v, In (k, v) acc -> In (k, v) (add_own names ls acc).
Proof.
  induction names as [|x names IH]; intros acc k v Hin; cbn [add_own]; auto. apply IH.
  destruct (dmem acc x) eqn:E; auto. destruct (dget ls x); auto.
  rewrite dset_app_new by (now apply dmem_keys_false). apply in_or_app. now left.
Qed.

Lemma add_own_operands (p : degprm V) L C n ls names : forall acc, lats_fit p L C n ls ->
  (forall k, k = "cond"%string \/ In k (dkeys (dp_mechs p)) -> dmem acc k = true) ->
  operands L C n acc -> operands L C n (add_own names ls acc).
Proof.
  induction names as [|x names IH]; intros acc F K A; cbn [add_own]; auto. apply IH; auto.
  - intros k Hk. specialize (K k Hk). destruct (dmem acc x); auto. destruct (dget ls x); auto. rewrite dmem_dset, K. apply Bool.orb_true_r.
  - destruct (dmem acc x) eqn:E; auto. destruct (dget ls x) as [v|] eqn:G; auto. apply operands_dset; auto.
    apply dget_In in G. destruct (F _ _ G) as [S|(Hk & _)]; [now right|]. rewrite (K _ Hk) in E. discriminate.
Qed.

(** ** Mechanisms *)
Lemma mech_args_operands m times conds (l : dict (pyval V)) L C n : operand L C n times -> operands L C n conds -> operands L C n l ->
  operands L C n (mech_args m times conds l).
Proof. intros Ht Hc Hl. apply gather_operands; auto. intros x p [E|[]]. injection E as <- <-. exact Ht. Qed.

Lemma equiv_shape m (v : pyval V) conds l L C n w t w' : shaped L C n v ->
  mech_equiv_time m v conds l L C n w = (Ok t, w') -> shaped L C n t.
Proof.
  intros (a & -> & A1 & A2) E. unfold mech_equiv_time in E. destruct (mc_kind m).
  - apply bind_ok in E as (b & w1 & E1 & E). apply lift_ok in E1 as [E1 ->]. injection E1 as <-.
    apply bind_ok in E as (xs & w2 & E1 & E). apply ret_ok in E as [-> ->]. apply minimize_length in E1.
    rewrite of_nd_arr by (cbn [nshape]; rewrite A1; discriminate). eexists. split; [reflexivity|]. cbn [nshape ndata]. split; congruence.
  - apply ret_ok in E as [-> ->]. rewrite A1. apply shaped_build.
Qed.

Lemma base_deg_shape m (t v : pyval V) conds l L C n w x w' : numeric_at L C n (lm_eqn (mc_mdl m)) ->
  shaped L C n t -> shaped L C n v -> operands L C n conds -> operands L C n l ->
  base_deg_vals m t v conds l L C n w = (Ok x, w') -> shaped L C n x.
Proof.
  intros Nm St Sv Oc Ol E. pose proof St as St'. destruct St' as (a & -> & A1 & A2), Sv as (b & -> & B1 & B2). unfold base_deg_vals in E.
  apply bind_ok in E as (a' & w1 & E1 & E). apply lift_ok in E1 as [E1 ->]. injection E1 as <-.
  apply bind_ok in E as (b' & w1 & E1 & E). apply lift_ok in E1 as [E1 ->]. injection E1 as <-.
  destruct (bshape (nshape a) (nshape b)); [|discriminate].
  apply bind_ok in E as (d & w1 & E1 & E).
  apply numeric_call in E1; [|exact Nm|apply gather_wf; repeat constructor; intros []|apply mech_args_operands; auto; now right].
  apply bind_ok in E as (e & w2 & E2 & E). apply lift_ok in E2 as [E2 ->].
  apply bind_ok in E as (r & w2 & E3 & E). apply lift_ok in E3 as [E3 ->]. apply ret_ok in E as [-> ->].
  apply operand_nd in E1 as (e' & Q & [(_ & y & ->)|S]); rewrite Q in E2; injection E2 as <-.
  - rewrite bmap3_scalar3 in E3 by congruence. injection E3 as <-. rewrite A1. apply shaped_build.
  - rewrite bmap3_same in E3 by congruence. injection E3 as <-. rewrite A1. apply shaped_build.
Qed.

Lemma deg_shape m (t v : pyval V) conds l L C n w x w' : numeric_at L C n (lm_eqn (mc_mdl m)) ->
  shaped L C n t -> shaped L C n v -> operands L C n conds -> operands L C n l ->
  mech_deg_vals m t v conds l L C n w = (Ok x, w') -> shaped L C n x.
Proof.
  intros Nm St Sv Oc Ol E. unfold mech_deg_vals in E. destruct (mc_kind m); [exact (base_deg_shape _ _ _ _ _ _ _ _ _ _ _ Nm St Sv Oc Ol E)|].
  apply bind_ok in E as (b & w1 & E1 & E). apply lift_ok in E1 as [E1 ->].
  apply bind_ok in E as (s & w1 & E2 & E). apply base_deg_shape in E2; auto.
  apply bind_ok in E as (e & w2 & E3 & E). apply lift_ok in E3 as [E3 ->].
  apply bind_ok in E as (r & w2 & E4 & E). apply lift_ok in E4 as [E4 ->]. apply ret_ok in E as [-> ->].
  pose proof (shaped_nd _ _ _ _ _ Sv E1) as (B1 & _). pose proof (shaped_nd _ _ _ _ _ E2 E3) as (Z1 & _).
  rewrite bmap2_same in E4 by congruence. injection E4 as <-. rewrite B1. apply shaped_build.
Qed.

(** ** Conditions *)
Lemma conds_wf e base prms info dev stress nc nl w res w' :
  gen_env_cond_vals e base prms info dev stress nc nl w = (Ok res, w') -> forall x v, dget res x = Some v -> dwf v.
Proof.
  unfold gen_env_cond_vals. intros E. apply bind_ok in E as (bc & w1 & _ & E). apply bind_ok in E as (pc & w2 & _ & E).
  eapply foldM_inv with (P := fun acc : dict (dict (pyval V)) => forall x v, dget acc x = Some v -> dwf v) in E; [exact E| |intros ? ? Q; discriminate].
  clear. intros acc prm w acc' w' _ HI E. apply bind_ok in E as (v & w1 & E1 & E). apply ret_ok in E as [-> ->].
  intros x u. rewrite dget_dset. destruct (String.eqb prm x); [|apply HI]. intros Q. injection Q as <-.
  destruct (match dev with Some d => dget d prm | None => None end).
  - unfold gen_prm_conds in E1. eapply foldM_inv with (P := @dwf (pyval V)) in E1; [exact E1| |constructor].
    clear. intros s x w s' w' _ Hs E. apply bind_ok in E as (? & ? & _ & E). apply bind_ok in E as (? & ? & _ & E).
    apply bind_ok in E as (? & ? & _ & E). apply bind_ok in E as (? & ? & _ & E). apply ret_ok in E as [-> _]. now apply dwf_dset.
  - unfold gen_sensor_conds in E1. do 5 apply bind_ok in E1 as (? & ? & _ & E1). apply ret_ok in E1 as [-> _].
    constructor; [intros []|constructor].
Qed.

Lemma conds_operands e base prms info d stress nc nl w res w' name q cs n : dwf base ->
  gen_env_cond_vals e base prms (Some info) (Some d) stress nc nl w = (Ok res, w') ->
  dget d name = Some q -> dget res name = Some cs -> request_count prms (Some info) name = Some n ->
  operands (ti_lots info) (ti_chps info) n cs.
Proof.
  intros W E Hd Hr Hn x p Hin.
  assert (Hx : dget cs x = Some p) by (apply dget_wf_In; auto; eapply conds_wf; eauto).
  pose proof (env_conds_ok _ _ _ _ _ _ _ _ _ _ _ W E) as (_ & _ & K). specialize (K _ _ Hr). cbn [dev_prm] in K. rewrite Hd in K.
  assert (Hb : dmem base x = true) by (apply dmem_keys, K; unfold dmem; now rewrite Hx). apply dmem_Some in Hb as [v0 Hb].
  destruct (env_conds_elements _ _ _ _ _ _ _ _ _ _ _ W E _ _ Hb) as (m & t & xb & chps & wb & wc & wd & _ & _ & _ & _ & G).
  specialize (G _ _ Hr). cbn [dev_prm] in G. rewrite Hd in G. destruct (G _ Hx) as (n' & a & devs & w1 & w2 & -> & G1 & G2 & G3 & _).
  assert (n' = n) by congruence. subst n'. right. exists a. auto.
Qed.

(** ** One stress step *)
Lemma latent_operands (p : degprm V) L C n ls k l : lats_fit p L C n ls -> dget ls k = Some (PDict l) -> operands L C n l.
Proof.
  intros F G. apply dget_In in G. destruct (F _ _ G) as [(a & Q & _)|(_ & l' & Q & S)]; [discriminate|].
  injection Q as <-. intros x u Hin. right. eauto.
Qed.

Lemma deg_args times cs (ls : dict (pyval V)) mv L C n : forall (l : dict (mech V)) acc w a w',
  (forall nm m t v l' wa x wb, In (nm, m) l -> dget times nm = Some t -> dget mv nm = Some v -> dget ls nm = Some (PDict l') ->
     mech_deg_vals m t v cs l' L C n wa = (Ok x, wb) -> shaped L C n x) ->
  operands L C n (fst acc) -> dwf (fst acc) ->
  foldM (fun (acc : dict (pyval V) * dict (pyval V)) (nm : string * mech V) =>
           (t <- lift (dgetE times (fst nm)) ;;
            v <- lift (dgetE mv (fst nm)) ;;
            l <- lift (rbind (dgetE ls (fst nm)) as_dict) ;;
            x <- mech_deg_vals (snd nm) t v cs l L C n ;;
            ret (dset (fst acc) (fst nm) x, dset (snd acc) (fst nm) x))%m) l acc w = (Ok a, w') ->
  operands L C n (fst a) /\ dwf (fst a) /\
  (forall k, dmem (fst acc) k = true \/ In k (map fst l) -> dmem (fst a) k = true) /\
  forall k, (exists b, In (k, PArr b) (fst acc)) -> exists b, In (k, PArr b) (fst a).
Proof.
  induction l as [|[k m] l IH]; intros acc w a w' Hm Ha Wa E; cbn [foldM] in E.
  - apply ret_ok in E as [-> ->]. repeat split; auto. intros k [Hk|[]]; auto.
  - apply bind_ok in E as (acc1 & w1 & E0 & E). cbn [fst snd] in E0.
    apply bind_lift_ok in E0 as (t & E1 & E0). apply bind_lift_ok in E0 as (v & E2 & E0). apply bind_lift_ok in E0 as (l' & E3 & E0).
    apply bind_ok in E0 as (x & w2 & E4 & E0). apply ret_ok in E0 as [-> ->]. apply dgetE_ok in E1, E2.
    apply rbind_ok in E3 as (q & E3 & E5). apply dgetE_ok in E3. destruct q; try discriminate. injection E5 as ->.
    assert (Sx : shaped L C n x) by (eapply Hm; eauto; now left).
    apply IH in E as (A & Wr & B & D); cbn [fst snd] in *.
    + split; auto. split; auto. split.
      * intros k' [Hk|[<-|Hk]]; apply B; [left|left|now right]; rewrite dmem_dset; [rewrite Hk; apply Bool.orb_true_r|now rewrite String.eqb_refl].
      * intros k' (b & Hin). apply D. destruct (string_dec k k') as [<-|Nk].
        -- destruct Sx as (b' & -> & _). exists b'. eapply dget_In, dget_dset_eq.
        -- exists b. apply dget_In. rewrite dget_dset_neq by auto. apply dget_wf_In; auto.
    + intros. eapply Hm; eauto. now right.
    + apply operands_dset; auto. now right.
    + now apply dwf_dset.
Qed.

Lemma deg_vals_shape (p : degprm V) times cs i0 ls mv L C n w r w' :
  (forall nm m, dget (dp_mechs p) nm = Some m -> numeric_at L C n (lm_eqn (mc_mdl m))) -> follows_at L C n (lm_eqn (dp_own p)) -> dwf (dp_mechs p) ->
  (forall nm m t, dget (dp_mechs p) nm = Some m -> dget times nm = Some t -> shaped L C n t) ->
  (forall nm m, dget (dp_mechs p) nm = Some m -> exists x, dget mv nm = Some x /\ shaped L C n x) ->
  operands L C n cs -> lats_fit p L C n ls -> prm_fits p L C n i0 ->
  prm_deg_vals p times cs i0 ls mv L C n w = (Ok r, w') ->
  prm_fits p L C n (fst r) /\
  (forall nm m, dget (dp_mechs p) nm = Some m -> exists x, dget (snd r) nm = Some x /\ shaped L C n x).
Proof.
  intros Nm Ow W Ht Hv Oc Fl [I1 I2] E.
  assert (Sm : forall nm m t v l' wa x wb, In (nm, m) (dp_mechs p) -> dget times nm = Some t -> dget mv nm = Some v -> dget ls nm = Some (PDict l') ->
     mech_deg_vals m t v cs l' L C n wa = (Ok x, wb) -> shaped L C n x).
  { intros nm m t v l' wa x wb Hin E1 E2 E3 E4. apply dget_wf_In in Hin; auto.
    destruct (Hv _ _ Hin) as (v' & V1 & V2). rewrite V1 in E2. injection E2 as ->.
    exact (deg_shape _ _ _ _ _ _ _ _ _ _ _ (Nm _ _ Hin) (Ht _ _ _ Hin E1) V2 Oc (latent_operands _ _ _ _ _ _ _ Fl E3) E4). }
  split.
  - unfold prm_deg_vals in E. apply bind_ok in E as (a & w1 & E1 & E). apply bind_ok in E as (x & w2 & E2 & E). apply ret_ok in E as [-> ->].
    cbn [fst]. apply deg_args in E1 as (A & Wa & B & D); [|exact Sm| |].
    + apply follows_call in E2 as [X1 X2]; auto using add_own_wf.
      * split; auto. intros Hl. apply X2. destruct (I2 Hl) as (b & -> & _).
        destruct (D "init"%string) as (b' & Hin); [cbn [fst]; exists b; now left|]. exists b'. now apply add_own_In.
      * eapply add_own_operands; eauto. intros k [->|Hk]; apply B; [left|now right]. reflexivity.
    + intros k q [Q|[Q|[]]]; injection Q as <- <-; auto. left. eauto.
    + repeat constructor; cbn; intuition discriminate.
  - intros nm m Hm. apply deg_get in E as (_ & G); auto. destruct (G _ _ Hm) as (t & v & l & x & wa & wb & G1 & G2 & G3 & G4 & G5).
    exists x. split; auto. eapply Sm; eauto using dget_In.
Qed.

Lemma stress_prm_shape conds rep dur st name (p : degprm V) w st' w' d cs n ns :
  device_wf d -> regular_at d (rp_lots rep) (rp_chps rep) ns -> ns name n -> dget d name = Some (PDeg p) -> dget (rp_counts rep) name = Some n -> dget conds name = Some cs ->
  operands (rp_lots rep) (rp_chps rep) n cs ->
  state_fits d (rp_lots rep) (rp_chps rep) (rp_counts rep) st ->
  stress_prm conds rep dur st (name, p) w = (Ok st', w') ->
  state_fits d (rp_lots rep) (rp_chps rep) (rp_counts rep) st'.
Proof.
  intros [W1 W2] Rg Hns Hd Hn Hc Oc F E.
  apply stress_prm_ok in E as (n' & mv & cs' & m0 & ls & eq & w1 & times & i0 & r & A1 & A2 & A3 & A4 & A5 & A6 & A7 & A8 & A9 & ->).
  destruct (Rg _ _ _ Hd Hns) as (R1 & R2 & R3 & R4).
  destruct (F _ _ Hd) as (n1 & mv1 & v & v0 & ls1 & B1 & B2 & B3 & B4 & B5 & B6 & B7 & B8 & B9).
  assert (n' = n) by congruence. assert (n1 = n) by congruence. assert (mv1 = mv) by congruence. assert (cs' = cs) by congruence.
  assert (ls1 = ls) by congruence. assert (v0 = i0) by congruence. subst n' n1 mv1 cs' ls1 v0.
  apply deg_vals_shape in A9 as [X1 X2]; auto; eauto.
  - intros name' p' Hd'. destruct (string_dec name name') as [<-|Nn].
    + assert (p' = p) by congruence. subst p'. exists n, (snd r), (fst r), i0, ls. cbn [st_mech st_prm st_prm0 st_lat]. rewrite !dget_dset_eq.
      repeat split; auto; try apply X1; try apply B7.
    + cbn [st_mech st_prm st_prm0 st_lat]. rewrite !dget_dset_neq by auto. exact (F _ _ Hd').
  - intros nm m t Hm Ht. apply equiv_get in A6 as (K & G); eauto. destruct (G _ _ Hm) as (x & l & t1 & wa & wb & G1 & G2 & G3 & G4).
    destruct (B3 _ _ Hm) as (x' & Q & S). assert (x' = x) by congruence. subst x'.
    apply equiv_shape in G3; auto.
    apply add_durations_get in A7 as (K' & G'); [|unfold dwf; rewrite K; eapply W2; eauto].
    destruct (G' _ _ G4) as (mm & u & t' & D1 & D2 & D3 & D4). assert (t' = t) by congruence. subst t'.
    eapply pmap2_shape in D3 as [_ D3]; [apply D3; left; exact G3|right; exact G3|left; eauto].
Qed.

Lemma stress_step_shape e d i (s : strs_spec V) st rep w st' rep' w' ns :
  device_wf d -> regular_at d (rp_lots rep) (rp_chps rep) ns -> (forall name n, dget (rp_counts rep) name = Some n -> ns name n) -> dwf (ss_conds s) ->
  state_fits d (rp_lots rep) (rp_chps rep) (rp_counts rep) st ->
  stress_step e d i s st rep w = (Ok (st', rep'), w') ->
  state_fits d (rp_lots rep) (rp_chps rep) (rp_counts rep) st'.
Proof.
  intros W Rg Hns Wc F E. apply stress_step_ok in E as (conds & st1 & w1 & x & Ec & Ef & _ & -> & _).
  assert (G : state_fits d (rp_lots rep) (rp_chps rep) (rp_counts rep) st1); [|exact G].
  eapply foldM_inv with (P := state_fits d (rp_lots rep) (rp_chps rep) (rp_counts rep)) in Ef; eauto.
  intros s0 [name p] w2 s1 w3 Hin Hs E. apply deg_prms_get in Hin; [|apply W].
  pose proof E as E'. apply stress_prm_ok in E' as (n & mv & cs & m0 & ls & eq & w4 & times & i0 & r & A1 & A2 & A3 & _).
  eapply stress_prm_shape; eauto. exact (conds_operands _ _ _ _ _ _ _ _ _ _ _ _ _ _ _ Wc Ec Hin A3 A1).
Qed.
End L.
