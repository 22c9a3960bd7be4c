(** Lemmas about the simulator: steps, invariants, tables. *)
From Coq Require Import QArith Lia.
From Verif Require Import M_Base M_Num M_Nd M_RandVar M_Latent M_Time M_TestSpec M_Device M_Report M_Env M_Sim
  S_TestSpec S_Device S_Sim L_Base L_Nd L_Device L_Device2 L_Device3.
Open Scope nat_scope.

Section L.
Context {V : Type} `{NumOps V} `{Rng V} `{HashOrd}.
Implicit Types (e : env V) (d : device V) (st : simstate V) (rep : report V).

(** ** Running *)
Lemma run_cons e d i x l st rep w :
  run_steps e d i (x :: l) st rep w =
  bind (sim_step e d (st, rep) (i, x)) (fun sr => run_steps e d (S i) l (fst sr) (snd sr)) w.
Proof.
  unfold run_steps. cbn [enumerate foldM]. unfold bind. destruct (sim_step _ _ _ _ _) as [[[a b]|?] ?]; reflexivity.
Qed.

Lemma enumerate_app {A} (l1 l2 : list A) i : enumerate i (l1 ++ l2) = enumerate i l1 ++ enumerate (i + length l1) l2.
Proof.
  revert i. induction l1 as [|x r IH]; intros i; cbn [app enumerate length].
  - now rewrite Nat.add_0_r.
  - rewrite IH. now replace (S i + length r) with (i + S (length r)) by lia.
Qed.

Lemma run_app e d i l1 l2 st rep w :
  run_steps e d i (l1 ++ l2) st rep w =
  bind (run_steps e d i l1 st rep) (fun sr => run_steps e d (i + length l1) l2 (fst sr) (snd sr)) w.
Proof.
  unfold run_steps. rewrite enumerate_app, foldM_app. unfold bind.
  destruct (foldM _ _ _ _) as [[[a b]|?] ?]; reflexivity.
Qed.

Lemma stress_step_ok e d i (s : strs_spec V) st rep w st' rep' w' :
  stress_step e d i s st rep w = (Ok (st', rep'), w') ->
  exists conds st1 w1 x,
    gen_env_cond_vals e (ss_conds s) (PList (map fst (deg_prms d))) (Some (info_of rep)) (Some d) true 1 1 w = (Ok conds, w1) /\
    foldM (stress_prm conds rep (ss_dur s)) (deg_prms d) st w1 = (Ok st1, w') /\
    st_elapsed st1 = TD x /\ st' = set_elapsed st1 (TD (x + ss_dur s)) /\
    rep' = add_summary rep (summary_row (ss_name s) "stress" i (TD (ss_dur s)) (TD x) (TD (x + ss_dur s)) (ss_conds s)).
Proof.
  unfold stress_step. intros E. mstep E. mstep E. mstep E. mstep E.
  apply ret_ok in E as [E ->]. destruct (st_elapsed a0) as [x|q] eqn:Ex; cbn [add_time_td] in *; [|discriminate].
  injection E2 as <-. cbn [sub_time_td] in E3. injection E3 as <-. injection E as -> ->.
  replace (x + ss_dur s - ss_dur s)%Z with x by lia.
  exists a, a0, w0, x. repeat split; auto.
Qed.

Lemma meas_step_ok e d i (m : meas_spec V) st rep w st' rep' w' :
  meas_step e d i m st rep w = (Ok (st', rep'), w') ->
  exists conds rows w1,
    gen_env_cond_vals e (ms_conds m) (PCounts (ms_counts m)) (Some (info_of rep)) (Some d) false 1 1 w = (Ok conds, w1) /\
    foldM (fun acc (kv : string * nat) =>
             (r <- measure_prm e d i conds (ms_conds m) st rep (fst kv) (snd kv) ;; ret (acc ++ r))%m)
          (ms_counts m) [] w1 = (Ok rows, w') /\
    st' = st /\
    rep' = add_summary (add_measurements rep rows)
             (summary_row (ms_name m) "measure" i (TD 0) (st_elapsed st) (st_elapsed st) (ms_conds m)).
Proof.
  unfold meas_step. intros E. mstep E. mstep E. apply ret_ok in E as [E ->]. injection E as -> ->.
  exists a, a0, w0. repeat split; auto.
Qed.

Lemma stress_prm_ok conds rep dur st name p w st' w' :
  stress_prm conds rep dur st (name, p) w = (Ok st', w') ->
  exists n mv cs m0 ls eq w1 times i0 r,
    dget (rp_counts rep) name = Some n /\ dget (st_mech st) name = Some mv /\ dget conds name = Some cs /\
    dget (st_mech0 st) name = Some m0 /\ dget (st_lat st) name = Some ls /\
    prm_equiv_times p mv cs m0 ls (rp_lots rep) (rp_chps rep) n w = (Ok eq, w1) /\
    add_durations p dur eq = Ok times /\ dget (st_prm0 st) name = Some i0 /\
    prm_deg_vals p times cs i0 ls mv (rp_lots rep) (rp_chps rep) n w1 = (Ok r, w') /\
    st' = SimState (st_elapsed st) (dset (st_prm st) name (fst r)) (st_prm0 st)
                   (dset (st_mech st) name (snd r)) (st_mech0 st) (st_lat st).
Proof.
  unfold stress_prm. cbn [fst snd]. intros E. do 5 mstep E. mstep E. mstep E. mstep E. mstep E.
  apply ret_ok in E as [-> ->].
  repeat match goal with X : dgetE _ _ = Ok _ |- _ => apply dgetE_ok in X end.
  do 10 eexists. repeat (split; [eassumption|]). reflexivity.
Qed.

Lemma deg_prms_In d name p : In (name, p) (deg_prms d) <-> In (name, PDeg p) d.
Proof.
  unfold deg_prms. rewrite in_flat_map. split.
  - intros ([k [q|c]] & Hin & Hx); cbn in Hx; [|contradiction]. destruct Hx as [Q|[]]. now injection Q as -> ->.
  - intros Hin. exists (name, PDeg p). split; auto. now left.
Qed.

Lemma deg_prms_get d name p : dwf d -> In (name, p) (deg_prms d) <-> dget d name = Some (PDeg p).
Proof.
  intros W. rewrite deg_prms_In. split; [now apply dget_wf_In|apply dget_In].
Qed.

Lemma deg_prms_nodup d : dwf d -> NoDup (map fst (deg_prms d)).
Proof.
  unfold dwf. induction d as [|[k q] r IH]; cbn; [constructor|].
  intros N. inversion N as [|? ? Hni Hn]; subst. destruct q as [p|c]; cbn [app]; auto.
  cbn [map fst]. constructor; auto. intros Hin. apply Hni. apply in_map_iff in Hin as ([k' p'] & Q & Hin). cbn in Q. subst k'.
  apply deg_prms_In in Hin. apply in_map_iff. now exists (k, PDeg p').
Qed.

(** ** C41, C49: what never changes *)
Lemma stress_prm_same conds rep dur st kv w st' w' :
  stress_prm conds rep dur st kv w = (Ok st', w') ->
  same_start st st' /\ st_elapsed st' = st_elapsed st /\ dkeys (st_mech st') = dkeys (st_mech st).
Proof.
  destruct kv as [name p]. intros E. apply stress_prm_ok in E as (n & mv & cs & m0 & ls & eq & w1 & times & i0 & r & A1 & A2 & _ & _ & _ & _ & _ & _ & _ & ->).
  unfold same_start. cbn [st_lat st_prm0 st_mech0 st_mech st_elapsed]. repeat split; auto. rewrite dkeys_dset. unfold dmem. now rewrite A2.
Qed.

Lemma same_start_refl st : same_start st st.
Proof. now repeat split. Qed.
Lemma same_start_trans a b c : same_start (V := V) a b -> same_start b c -> same_start a c.
Proof. unfold same_start. intros (A1 & A2 & A3) (B1 & B2 & B3). repeat split; congruence. Qed.

Lemma stress_fold_same conds rep dur l st w st' w' :
  foldM (stress_prm conds rep dur) l st w = (Ok st', w') ->
  same_start st st' /\ st_elapsed st' = st_elapsed st /\ dkeys (st_mech st') = dkeys (st_mech st).
Proof.
  intros E. revert E. apply foldM_inv with (P := fun s' : simstate V => same_start st s' /\ st_elapsed s' = st_elapsed st /\ dkeys (st_mech s') = dkeys (st_mech st)).
  - intros s x w1 s' w1' _ (S1 & S2 & S3) Es. apply stress_prm_same in Es as (T1 & T2 & T3).
    split; [eapply same_start_trans; eauto|]. split; congruence.
  - repeat split.
Qed.

Lemma run_same e d l : forall i st rep w st' rep' w',
  run_steps e d i l st rep w = (Ok (st', rep'), w') ->
  same_start st st' /\ dkeys (st_mech st') = dkeys (st_mech st) /\ time_after (st_elapsed st) l (st_elapsed st') /\
  rp_counts rep' = rp_counts rep /\ rp_chps rep' = rp_chps rep /\ rp_lots rep' = rp_lots rep.
Proof.
  induction l as [|x l IH]; intros i st rep w st' rep' w' E.
  - apply ret_ok in E as [E ->]. injection E as -> ->. repeat split; auto. right. split; auto.
  - rewrite run_cons in E. apply bind_ok in E as ([st1 rep1] & w1 & E1 & E2). cbn [fst snd] in E2.
    apply IH in E2 as (S & K & T & R). destruct x as [m|s|o]; cbn [sim_step fst snd] in E1.
    + apply meas_step_ok in E1 as (conds & rows & w2 & _ & _ & -> & ->). cbn in R.
      repeat split; try apply S; try apply R; auto. destruct T as [(x & Tx & Ty)|(T1 & T2)].
      * left. exists x. split; auto.
      * right. split; auto. intros s [F|Hin]; [discriminate|]. now apply (T2 s).
    + apply stress_step_ok in E1 as (conds & st2 & w2 & x & _ & Ef & Ex & -> & ->). cbn [set_elapsed st_mech st_elapsed st_lat st_prm0 st_mech0 add_summary rp_counts rp_chps rp_lots] in R, K, T.
      apply stress_fold_same in Ef as (S' & T' & K').
      split; [eapply same_start_trans; [exact S'|]; exact S|]. split; [congruence|]. split; [|exact R].
      left. exists x. split; [congruence|]. destruct T as [(y & Ty & Tz)|(T1 & T2)].
      * injection Ty as <-. rewrite Tz. f_equal. unfold stress_time. cbn [map total step_time]. lia.
      * rewrite T1. f_equal. unfold stress_time. cbn [map total step_time].
        assert (Z : total (map step_time l) = 0%Z); [|lia]. clear -T2. induction l as [|y r IH]; auto.
        cbn [map total]. rewrite IH by (intros s Hin; apply (T2 s); now right).
        destruct y; cbn [step_time]; auto. destruct (T2 s); now left.
    + apply ret_ok in E1 as [E1 ->]. injection E1 as -> ->. repeat split; try apply S; try apply R; auto.
      destruct T as [(x & Tx & Ty)|(T1 & T2)].
      * left. exists x. split; auto.
      * right. split; auto. intros s [F|Hin]; [discriminate|]. now apply (T2 s).
Qed.

(** ** Folds that fill a dictionary *)
Lemma foldM_ext {A S} (f g : S -> A -> M S) l : (forall s x w, In x l -> f s x w = g s x w) ->
  forall s w, foldM f l s w = foldM g l s w.
Proof.
  intros E. induction l as [|x r IH]; intros s w; cbn [foldM]; auto.
  unfold bind. rewrite E by now left. destruct (g s x w) as [[s1|?] w1]; auto. apply IH. intros. apply E. now right.
Qed.

Lemma fold_dset {A B} (g : string * A -> M B) l : forall acc w r w',
  foldM (fun acc x => bind (g x) (fun t => ret (dset acc (fst x) t))) l acc w = (Ok r, w') ->
  NoDup (map fst l) -> (forall x, In x l -> ~ In (fst x) (dkeys acc)) ->
  dkeys r = dkeys acc ++ map fst l /\
  (forall x, In x l -> exists t wa wb, g x wa = (Ok t, wb) /\ dget r (fst x) = Some t) /\
  forall k, ~ In k (map fst l) -> dget r k = dget acc k.
Proof.
  induction l as [|[k a] l IH]; intros acc w r w' E N F.
  - apply ret_ok in E as [-> ->]. cbn [map]. rewrite app_nil_r. repeat split; auto. intros x [].
  - cbn [foldM] in E. apply bind_ok in E as (acc1 & w1 & E0 & E). apply bind_ok in E0 as (t1 & w2 & E1 & E2).
    apply ret_ok in E2 as [-> ->]. cbn [map fst] in *.
    inversion N as [|? ? Nk N']; subst.
    assert (Fk : dmem acc k = false) by (apply dmem_keys_false; exact (F (k, a) (or_introl eq_refl))).
    apply IH in E as (K & G & O); auto.
    + rewrite dkeys_dset, Fk in K. split; [rewrite K, <- app_assoc; reflexivity|]. split.
      * intros x [<-|Hin]; [|now apply G]. exists t1, w, w2. split; auto. cbn [fst]. rewrite O by auto. apply dget_dset_eq.
      * intros k' Hk. cbn [map fst In] in Hk. rewrite O by tauto. apply dget_dset_neq. tauto.
    + intros x Hin. rewrite dkeys_dset, Fk, in_app_iff. intros [Hx|[->|[]]].
      * apply (F x); auto. now right.
      * apply Nk. now apply in_map.
Qed.

Lemma equiv_get (p : degprm V) mv cs m0 ls L C n w eq w' : dwf (dp_mechs p) ->
  prm_equiv_times p mv cs m0 ls L C n w = (Ok eq, w') ->
  dkeys eq = dkeys (dp_mechs p) /\
  forall nm mm, dget (dp_mechs p) nm = Some mm -> exists v l t wa wb,
    dget mv nm = Some v /\ dget ls nm = Some (PDict l) /\
    mech_equiv_time mm v cs l L C n wa = (Ok t, wb) /\ dget eq nm = Some t.
Proof.
  intros W E. unfold prm_equiv_times in E.
  rewrite (foldM_ext _ (fun acc x => bind ((fun nm : string * mech V =>
     (v <- lift (dgetE mv (fst nm)) ;; lift (dgetE m0 (fst nm)) ;;;
      l <- lift (rbind (dgetE ls (fst nm)) as_dict) ;; mech_equiv_time (snd nm) v cs l L C n)%m) x)
     (fun t => ret (dset acc (fst x) t)))) in E.
  - apply fold_dset in E as (K & G & _); auto.
    split; [exact K|]. intros nm mm Hg. apply dget_In in Hg. destruct (G _ Hg) as (t & wa & wb & Eg & Et).
    cbn [fst snd] in *. mstep Eg. mstep Eg. mstep Eg.
    apply dgetE_ok in E. apply rbind_ok in E1 as (q & Eq1 & Eq2). apply dgetE_ok in Eq1.
    destruct q; try discriminate. injection Eq2 as ->. now exists a, a1, t, wa, wb.
  - intros s x w1 _. unfold bind, lift. destruct (dgetE mv (fst x)); auto. destruct (dgetE m0 (fst x)); auto.
    destruct (rbind _ _); auto.
Qed.

Lemma durations_get (p : degprm V) dur l : forall acc r, NoDup (map fst l) -> (forall x, In x l -> dget acc (fst x) = Some (snd x)) ->
  fold_left (fun (acc : res (dict (pyval V))) (kv : string * pyval V) =>
    rbind acc (fun d0 : dict (pyval V) =>
    rbind (dgetE (dp_mechs p) (fst kv)) (fun m =>
    match unit_map (mc_unit m) with
    | None => Err UserConfigError
    | Some u => rbind (pmap2 nadd (snd kv) (PNum (td_num u dur))) (fun t => Ok (dset d0 (fst kv) t))
    end))) l (Ok acc) = Ok r ->
  dkeys r = dkeys acc /\ (forall k, ~ In k (map fst l) -> dget r k = dget acc k) /\
  forall k t, In (k, t) l -> exists mm u t', dget (dp_mechs p) k = Some mm /\ unit_map (mc_unit mm) = Some u /\
     pmap2 nadd t (PNum (td_num u dur)) = Ok t' /\ dget r k = Some t'.
Proof.
  induction l as [|[k t] l IH]; intros acc r N A E; cbn [fold_left] in E.
  - injection E as <-. repeat split; auto. intros ? ? [].
  - inversion N as [|? ? Nk N']; subst. cbn [map fst] in *.
    match type of E with fold_left ?g l ?x = _ => assert (X : exists acc1, x = Ok acc1) end.
    { match goal with |- exists _, ?x = _ => destruct x as [a1|ex] end; [eauto|]. exfalso. clear -E.
      induction l; cbn [fold_left rbind] in E; [discriminate|auto]. }
    destruct X as [acc1 X]. rewrite X in E. cbn [rbind] in X. apply rbind_ok in X as (mm & M1 & X). apply dgetE_ok in M1.
    destruct (unit_map (mc_unit mm)) as [u|] eqn:U; [|discriminate]. apply rbind_ok in X as (t' & T & X). injection X as <-.
    cbn [snd] in *. assert (Mk : dmem acc k = true) by (pose proof (A (k, t) (or_introl eq_refl)) as Ak; cbn [fst] in Ak; unfold dmem; now rewrite Ak).
    apply IH in E as (K & O & G); auto.
    + rewrite dkeys_dset, Mk in K. split; auto. split.
      * intros k' Hk. cbn [map fst In] in Hk. rewrite O by tauto. apply dget_dset_neq. tauto.
      * intros k' t'' [Q|Hin]; [|now apply G]. injection Q as <- <-. exists mm, u, t'. rewrite O by auto.
        repeat split; auto. apply dget_dset_eq.
    + intros x Hin. rewrite dget_dset_neq; [apply A; now right|]. intros ->. apply Nk. now apply in_map.
Qed.

Lemma add_durations_get (p : degprm V) dur (eq times : dict (pyval V)) : dwf eq -> add_durations p dur eq = Ok times ->
  dkeys times = dkeys eq /\
  forall k t, dget eq k = Some t -> exists mm u t', dget (dp_mechs p) k = Some mm /\ unit_map (mc_unit mm) = Some u /\
     pmap2 nadd t (PNum (td_num u dur)) = Ok t' /\ dget times k = Some t'.
Proof.
  intros W E. unfold add_durations in E. apply durations_get in E as (K & _ & G); auto.
  - split; auto. intros k t Hk. apply G. now apply dget_In.
  - intros [k t] Hin. now apply dget_wf_In.
Qed.

Lemma deg_get (p : degprm V) times cs i0 ls mv L C n w r w' : dwf (dp_mechs p) ->
  prm_deg_vals p times cs i0 ls mv L C n w = (Ok r, w') ->
  dkeys (snd r) = dkeys (dp_mechs p) /\
  forall nm mm, dget (dp_mechs p) nm = Some mm -> exists t v l x wa wb,
    dget times nm = Some t /\ dget mv nm = Some v /\ dget ls nm = Some (PDict l) /\
    mech_deg_vals mm t v cs l L C n wa = (Ok x, wb) /\ dget (snd r) nm = Some x.
Proof.
  intros W E. unfold prm_deg_vals in E. mstep E. mstep E. apply ret_ok in E as [-> ->]. cbn [snd]. clear E1.
  revert W E0. unfold dwf, dkeys. generalize (dp_mechs p) as l.
  assert (G : forall (l : dict (mech V)) acc w a w0,
    NoDup (map fst l) -> (forall x, In x l -> ~ In (fst x) (dkeys (snd acc))) ->
    foldM (fun (acc : dict (pyval V) * dict (pyval V)) (nm : string * mech V) =>
           (t <- lift (dgetE times (fst nm)) ;;
            v <- lift (dgetE mv (fst nm)) ;;
            l <- lift (rbind (dgetE ls (fst nm)) as_dict) ;;
            x <- mech_deg_vals (snd nm) t v cs l L C n ;;
            ret (dset (fst acc) (fst nm) x, dset (snd acc) (fst nm) x))%m) l acc w = (Ok a, w0) ->
    dkeys (snd a) = dkeys (snd acc) ++ map fst l /\
    (forall k, ~ In k (map fst l) -> dget (snd a) k = dget (snd acc) k) /\
    forall nm mm, In (nm, mm) l -> exists t v l' x wa wb,
      dget times nm = Some t /\ dget mv nm = Some v /\ dget ls nm = Some (PDict l') /\
      mech_deg_vals mm t v cs l' L C n wa = (Ok x, wb) /\ dget (snd a) nm = Some x).
  { induction l as [|[k mm] l IH]; intros acc v1 b v2 N F E.
    - apply ret_ok in E as [-> ->]. cbn [map]. rewrite app_nil_r. repeat split; auto. intros ? ? [].
    - cbn [foldM] in E. apply bind_ok in E as (acc1 & v3 & E0 & E). apply bind_lift_ok in E0 as (a1 & E1 & E0).
      apply bind_lift_ok in E0 as (a2 & E2 & E0). apply bind_lift_ok in E0 as (a3 & E3 & E0).
      apply bind_ok in E0 as (a4 & v4 & E4 & E0). apply ret_ok in E0 as [-> ->]. cbn [map fst] in *.
      inversion N as [|? ? Nk N']; subst.
      assert (Fk : dmem (snd acc) k = false) by (apply dmem_keys_false; exact (F (k, mm) (or_introl eq_refl))).
      apply IH in E as (K & O & G); cbn [snd] in *; auto.
      + rewrite dkeys_dset, Fk in K. split; [rewrite K, <- app_assoc; reflexivity|]. split.
        * intros k' Hk. cbn [map fst In] in Hk. rewrite O by tauto. apply dget_dset_neq. tauto.
        * intros nm mm' [Q|Hin]; [|now apply G]. injection Q as <- <-. apply dgetE_ok in E1, E2.
          apply rbind_ok in E3 as (q & Eq1 & Eq2). apply dgetE_ok in Eq1. destruct q; try discriminate. injection Eq2 as ->.
          exists a1, a2, a3, a4, v1, v4. repeat split; auto. rewrite O by auto. apply dget_dset_eq.
      + intros x Hin. rewrite dkeys_dset, Fk, in_app_iff. intros [Hx|[->|[]]].
        * apply (F x); auto. now right.
        * apply Nk. now apply in_map. }
  intros l N E. apply G in E as (K & _ & R); auto.
  split; auto. intros nm mm Hg. apply R. now apply dget_In.
Qed.

(** ** One stress step on one mechanism *)
Lemma stress_mech_get conds rep dur st name (p : degprm V) w st' w' nm mm :
  dwf (dp_mechs p) -> dget (dp_mechs p) nm = Some mm ->
  stress_prm conds rep dur st (name, p) w = (Ok st', w') ->
  exists n cs ls l v t u t' x wa wb wc wd,
    dget (rp_counts rep) name = Some n /\ dget conds name = Some cs /\
    dget (st_lat st) name = Some ls /\ dget ls nm = Some (PDict l) /\ mech_val st name nm v /\
    mech_equiv_time mm v cs l (rp_lots rep) (rp_chps rep) n wa = (Ok t, wb) /\
    unit_map (mc_unit mm) = Some u /\ pmap2 nadd t (PNum (td_num u dur)) = Ok t' /\
    mech_deg_vals mm t' v cs l (rp_lots rep) (rp_chps rep) n wc = (Ok x, wd) /\
    mech_val st' name nm x.
Proof.
  intros W Hm E.
  apply stress_prm_ok in E as (n & mv & cs & m0 & ls & eq & w1 & times & i0 & r & A1 & A2 & A3 & A4 & A5 & A6 & A7 & A8 & A9 & ->).
  apply equiv_get in A6 as (K & G); auto. destruct (G _ _ Hm) as (v & l & t & wa & wb & B1 & B2 & B3 & B4).
  apply add_durations_get in A7 as (K' & G'); [|unfold dwf; now rewrite K].
  destruct (G' _ _ B4) as (mm' & u & t' & C1 & C2 & C3 & C4). rewrite Hm in C1. injection C1 as <-.
  apply deg_get in A9 as (_ & D); auto. destruct (D _ _ Hm) as (t2 & v2 & l2 & x & wc & wd & D1 & D2 & D3 & D4 & D5).
  rewrite C4 in D1. injection D1 as <-. rewrite B1 in D2. injection D2 as <-. rewrite B2 in D3. injection D3 as <-.
  exists n, cs, ls, l, v, t, u, t', x, wa, wb, wc, wd. repeat split; auto.
  - exists mv. auto.
  - exists (snd r). cbn [st_mech]. split; auto. apply dget_dset_eq.
Qed.

Lemma stress_prm_other conds rep dur st name (p : degprm V) w st' w' name' :
  name' <> name -> stress_prm conds rep dur st (name, p) w = (Ok st', w') ->
  dget (st_mech st') name' = dget (st_mech st) name' /\ dget (st_prm st') name' = dget (st_prm st) name'.
Proof.
  intros N E.
  apply stress_prm_ok in E as (n & mv & cs & m0 & ls & eq & w1 & times & i0 & r & A1 & A2 & A3 & A4 & A5 & A6 & A7 & A8 & A9 & ->).
  cbn [st_mech st_prm]. rewrite !dget_dset_neq by auto. auto.
Qed.

(** The fold over the degraded parameters touches each of them once. *)
Lemma stress_fold_get conds rep dur name (p : degprm V) l : forall st w st' w',
  NoDup (map fst l) -> In (name, p) l ->
  foldM (stress_prm conds rep dur) l st w = (Ok st', w') ->
  exists s1 w1 s2 w2, same_start st s1 /\ st_elapsed s1 = st_elapsed st /\
    dget (st_mech s1) name = dget (st_mech st) name /\ dget (st_prm s1) name = dget (st_prm st) name /\
    stress_prm conds rep dur s1 (name, p) w1 = (Ok s2, w2) /\
    dget (st_mech s2) name = dget (st_mech st') name /\ dget (st_prm s2) name = dget (st_prm st') name.
Proof.
  assert (Other : forall l st w st' w', ~ In name (map fst l) -> foldM (stress_prm conds rep dur) l st w = (Ok st', w') ->
    dget (st_mech st') name = dget (st_mech st) name /\ dget (st_prm st') name = dget (st_prm st) name).
  { intros l'. induction l' as [|[k q] l' IH]; intros st w st' w' N E; cbn [foldM] in E.
    - apply ret_ok in E as [-> ->]. auto.
    - cbn [map fst In] in N. mstep E. apply stress_prm_other with (name' := name) in E0 as [X1 X2]; [|intros ->; apply N; now left].
      apply IH in E as [Y1 Y2]; [|tauto]. split; congruence. }
  induction l as [|[k q] l IH]; intros st w st' w' N Hin E; [destruct Hin|].
  cbn [foldM] in E. mstep E. cbn [map fst] in N. inversion N as [|? ? Nk N']; subst. destruct Hin as [Q|Hin].
  - injection Q as -> ->. apply Other in E as [Y1 Y2]; auto.
    exists st, w, a, w0. repeat split; auto.
  - pose proof (stress_prm_same _ _ _ _ _ _ _ _ E0) as (S1 & S2 & _).
    apply stress_prm_other with (name' := name) in E0 as [X1 X2].
    + destruct (IH _ _ _ _ N' Hin E) as (s1 & w1 & s2 & w2 & B1 & B2 & B3 & B4 & B5 & B6 & B7).
      exists s1, w1, s2, w2. repeat split; try congruence; eauto using same_start_trans; try apply S1; auto.
      * destruct B1 as (? & ? & ?), S1 as (? & ? & ?). congruence.
      * destruct B1 as (? & ? & ?), S1 as (? & ? & ?). congruence.
      * destruct B1 as (? & ? & ?), S1 as (? & ? & ?). congruence.
    + intros <-. apply Nk. change name with (fst (name, p)). now apply in_map.
Qed.

Lemma stress_step_mech e d i (s : strs_spec V) st rep w st' rep' w' name nm mm :
  device_wf d -> has_mech d name nm mm ->
  stress_step e d i s st rep w = (Ok (st', rep'), w') ->
  exists n cs ls l v t u t' x wa wb wc wd,
    dget (rp_counts rep) name = Some n /\
    dget (st_lat st) name = Some ls /\ dget ls nm = Some (PDict l) /\ mech_val st name nm v /\
    mech_equiv_time mm v cs l (rp_lots rep) (rp_chps rep) n wa = (Ok t, wb) /\
    unit_map (mc_unit mm) = Some u /\ pmap2 nadd t (PNum (td_num u (ss_dur s))) = Ok t' /\
    mech_deg_vals mm t' v cs l (rp_lots rep) (rp_chps rep) n wc = (Ok x, wd) /\
    mech_val st' name nm x.
Proof.
  intros [W1 W2] (p & Hp & Hm) E. apply stress_step_ok in E as (conds & st1 & w1 & x0 & _ & Ef & _ & -> & _).
  apply (stress_fold_get _ _ _ name p) in Ef as (s1 & wa & s2 & wb & B1 & B2 & B3 & B4 & B5 & B6 & B7);
    [|now apply deg_prms_nodup|now apply deg_prms_get].
  apply stress_mech_get with (nm := nm) (mm := mm) in B5 as (n & cs & ls & l & v & t & u & t' & x & w2 & w3 & w4 & w5 & C1 & C2 & C3 & C4 & C5 & C6 & C7 & C8 & C9 & C10); auto; [|eauto].
  destruct B1 as (L1 & L2 & L3).
  exists n, cs, ls, l, v, t, u, t', x, w2, w3, w4, w5. repeat split; auto.
  - congruence.
  - destruct C5 as (mv & M1 & M2). exists mv. split; congruence.
  - destruct C10 as (mv & M1 & M2). exists mv. cbn [set_elapsed st_mech]. split; congruence.
Qed.
End L.
