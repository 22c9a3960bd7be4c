(** The same shift for all devices: under ideal conditions and without latent
    variables every array of a mechanism has equal elements. *)
From Coq Require Import Reals List Lia Lra String Bool Classical.
From Verif Require Import M_Base M_Num M_NumR M_Nd M_RandVar M_Latent M_Time M_TestSpec M_Device M_Report M_Env M_CookEnv M_Minimize M_Sim
  S_TestSpec S_Latent S_Device S_DeviceR S_Env S_Sim S_Shape S_Total S_Reading S_History S_Sum S_Const S_Moments S_Moments2 S_Rigid S_Series
  L_Base L_Nd L_Latent L_Device L_Env L_CookEnv L_Sim L_Sim2 L_Sim3 L_Shape L_Shape2 L_Total L_Reading L_History L_HistoryR L_Const L_Series L_InPlace3 L_Total2
  L_Moments L_Moments2 L_Moments4 L_Moments6 L_Moments7 L_Rigid.
Import ListNotations.
Open Scope nat_scope.

(** Lists with equal elements. *)
Definition same {A} (l : list A) : Prop := forall x y, In x l -> In y l -> x = y.
Lemma same_map {A B} (f : A -> B) l : same l -> same (map f l).
Proof. intros K x y Hx Hy. apply in_map_iff in Hx as (a & <- & Ha). apply in_map_iff in Hy as (b & <- & Hb). now rewrite (K a b). Qed.
Lemma same_repeat {A} (a : A) n : same (repeat a n).
Proof. intros x y Hx Hy. apply repeat_spec in Hx, Hy. congruence. Qed.

Section Min.
Context {V : Type} `{NumOps V}.
Lemma zip_update_in rt at_ ss fs x : In x (zip_update rt at_ ss fs) -> exists s f, In s ss /\ In f fs /\ x = update rt at_ s f.
Proof.
  revert fs. induction ss as [|s ss IH]; intros [|f fs] Hx; cbn [zip_update] in Hx; try contradiction. destruct Hx as [<-|Hx].
  - exists s, f. repeat split; now left.
  - destruct (IH _ Hx) as (s' & f' & H1 & H2 & ->). exists s', f'. repeat split; now right.
Qed.
Lemma zip_update_same rt at_ ss fs : same ss -> same fs -> same (zip_update rt at_ ss fs).
Proof.
  intros K1 K2 x y Hx Hy. apply zip_update_in in Hx as (s & f & S1 & F1 & ->). apply zip_update_in in Hy as (s' & f' & S2 & F2 & ->).
  now rewrite (K1 s s'), (K2 f f').
Qed.
Lemma zip_update_length rt at_ ss fs : length fs = length ss -> length (zip_update rt at_ ss fs) = length ss.
Proof. revert fs. induction ss as [|s ss IH]; intros [|f fs] E; cbn in *; try discriminate; auto. Qed.

Lemma minimize_same (F : list V -> M (list V)) n lo hi p eps it lg w ys w' :
  (forall xs fs w w', length xs = n -> same xs -> F xs w = (Ok fs, w') -> same fs) ->
  minimize F n lo hi p eps it lg w = (Ok ys, w') -> same ys.
Proof.
  intros K E. unfold minimize, minimize_run, mrun in E. apply bind_ok in E as (r & w1 & E & E2). apply ret_ok in E2 as [-> ->]. apply same_map.
  assert (Ev : forall xs fs w w', length xs = n -> same xs -> evalF lg F xs w = (Ok fs, w') -> same fs /\ length fs = n).
  { intros xs fs u u' Ln Sx Ex. unfold evalF in Ex. apply bind_ok in Ex as (gs & u1 & Ex & E2). destruct (length gs =? length xs) eqn:Q; [|discriminate E2].
    apply ret_ok in E2 as [-> ->]. apply Nat.eqb_eq in Q. split; [|congruence]. eapply K; [| |exact Ex]; [now rewrite map_length|now apply same_map]. }
  apply bind_ok in E as (f0 & w2 & E0 & E). apply Ev in E0 as [S0 L0]; [|apply repeat_length|apply same_repeat].
  match type of E with mloop _ _ _ _ _ ?a ?b _ = _ => assert (Sa : same a) by (now apply same_map); assert (La : length a = n) by (now rewrite map_length);
    revert Sa La E; generalize a, b end.
  revert w2. induction it as [|it IH]; intros w2 ss ev Ss Ls E; cbn [mloop] in E; destruct (forallb _ ss).
  - apply ret_ok in E as [-> ->]. exact Ss.
  - apply ret_ok in E as [-> ->]. exact Ss.
  - apply ret_ok in E as [-> ->]. exact Ss.
  - apply bind_ok in E as (fs & w3 & E3 & E). apply Ev in E3 as [S3 L3]; [|now rewrite map_length|now apply same_map].
    eapply IH; [| |exact E]; [now apply zip_update_same|rewrite zip_update_length; congruence].
Qed.
End Min.

Open Scope R_scope.
Section R.
Context {G : Rng R} {Ho : HashOrd}.

(** Arrays with equal elements. *)
Definition level (s : scene R) (a : nd R) : Prop := everywhere s (fun i => everywhere s (fun j => aget a i = aget a j)).
Lemma same_level s a : full s a -> same (ndata a) -> level s a.
Proof. intros (S1 & S2) K i1 i2 i3 H1 H2 H3 j1 j2 j3 J1 J2 J3. apply K; eapply In_aget; eauto. Qed.
Lemma level_same s a : full s a -> level s a -> same (ndata a).
Proof.
  intros (S1 & S2) K.
  assert (Q : forall x, In x (ndata a) -> exists i j k, (i < sc_lots s)%nat /\ (j < sc_chps s)%nat /\ (k < sc_num s)%nat /\ x = aget a [i; j; k]).
  { intros x Hx. apply (In_nth_error) in Hx as [i Hi]. set (sh := [sc_lots s; sc_chps s; sc_num s]).
    assert (Hlt : (i < prod sh)%nat). { unfold sh. rewrite prod3, <- S2. apply nth_error_Some. congruence. }
    assert (E : nth_error (indices sh) i = Some (nth i (indices sh) [])) by (apply nth_error_nth'; now rewrite length_indices).
    assert (Vi : valid sh (nth i (indices sh) [])) by (apply In_indices; eapply nth_error_In; eauto).
    assert (Fi : flat sh (nth i (indices sh) []) = i).
    { pose proof (nth_error_seq 0 (prod sh) i Hlt) as Q. rewrite <- flat_indices, nth_error_map, E in Q. cbn [option_map] in Q. now injection Q. }
    pose proof (ndata_aget a (nth i (indices sh) [])) as D. rewrite S1 in D. fold sh in D. rewrite Fi, Hi in D.
    assert (x = aget a (nth i (indices sh) [])) as ->. { assert (awf a) by (unfold awf; rewrite S1, S2, prod3; reflexivity). specialize (D H Vi). congruence. }
    apply valid3_inv in Vi as (l & c & d & -> & Hl & Hc & Hd). exists l, c, d. auto. }
  intros x y Hx Hy. destruct (Q x Hx) as (a1 & a2 & a3 & A1 & A2 & A3 & ->). destruct (Q y Hy) as (b1 & b2 & b3 & B1 & B2 & B3 & ->). now apply K.
Qed.

Section Scene.
Variables (s : scene R) (f : formula R) (u : tunit) (q : prm R).
Hypothesis Env : sc_env s = [].
Hypothesis La : sc_lats s = [].
Hypothesis Kd : mc_kind (sc_mech s) = KDeg.
Hypothesis Un : unit_map (mc_unit (sc_mech s)) = Some u.
Hypothesis Gb : given_by (lm_eqn (mc_mdl (sc_mech s))) f.
Hypothesis Hn : dget (sc_counts s) (sc_name s) = Some (sc_num s).
Hypothesis Hq : dget (sc_dev s) (sc_name s) = Some q.

(** One law for all devices. *)
Lemma law_level base cs : dwf base -> produced s base cs ->
  everywhere s (fun i => everywhere s (fun j => forall t, law_in f s cs i t = law_in f s cs j t)).
Proof.
  intros W Pr i1 i2 i3 H1 H2 H3 j1 j2 j3 J1 J2 J3 t. unfold law_in. rewrite La. cbn [dget]. apply feval_ext. intros x _. destruct (dget cs x) as [p|] eqn:E; auto.
  destruct (produced_exact s base Env W cs q Hn Hq Pr x p E) as (c & _ & Q). now rewrite (Q i1 i2 i3), (Q j1 j2 j3).
Qed.

Lemma advanced_level base cs dur v t x : dwf base -> produced s base cs -> S_History.advanced s cs dur v t x -> level s v -> level s x.
Proof.
  intros W Pr Ad Lv. pose proof (law_level base cs W Pr) as Ll. pose proof (advanced_law_in s f u cs dur v t x Kd Un Gb Ad) as Al.
  assert (Lt : level s t).
  { destruct Ad as (Fv & Ft & _ & Ht & (u' & t' & args & y & wa & wb & _ & _ & _ & (_ & La0) & _ & Oa0 & _)). rewrite Kd in Ht. destruct Ht as (w1 & w2 & Ht).
    apply same_level; auto. unfold mech_equiv_time in Ht. rewrite Kd in Ht. apply bind_ok in Ht as (a & w3 & E1 & Ht). cbn [to_nd] in E1. apply lift_ok in E1 as [E1 ->]. injection E1 as <-.
    apply bind_ok in Ht as (xs & w4 & E2 & Ht). apply ret_ok in Ht as [E3 ->]. destruct Fv as [Sv Nv]. rewrite Sv in E3. cbn in E3. injection E3 as ->. cbn [ndata].
    eapply minimize_same; [|exact E2]. clear E2. intros ts fs wc wd Ln St E. unfold equiv_obj in E. apply bind_ok in E as (r & w5 & Er & E).
    apply bind_ok in E as (b & w6 & Eb & E). apply lift_ok in Eb as [Eb ->]. destruct (list_eq_dec Nat.eq_dec (nshape b) (nshape v)) as [Sb|]; [|discriminate E]. apply ret_ok in E as [-> _].
    rewrite Sv in Er. cbn [of_nd nshape] in Er. set (sh := [sc_lots s; sc_chps s; sc_num s]) in *. set (a2 := mech_args (sc_mech s) (PArr (Nd sh ts)) cs (sc_lats s)).
    assert (Lb : law_args s cs (Nd sh ts) a2) by apply law_args_mech.
    assert (Oa : operands (sc_lots s) (sc_chps s) (sc_num s) a2).
    { intros z p Hz. apply dget_wf_In in Hz; [|apply Lb]. rewrite (proj2 Lb) in Hz. pose proof (La0 z) as Q.
      destruct (if smem z _ then _ else _) as [p0|].
      - injection Hz as ->. apply dget_In in Q. eapply Oa0; eauto.
      - destruct (String.eqb z "time"); [|discriminate]. injection Hz as <-. right. eexists. split; [reflexivity|]. cbn [nshape ndata]. split; [reflexivity|congruence]. }
    assert (Ov : operand (sc_lots s) (sc_chps s) (sc_num s) (PArr v)) by (right; eexists; split; [reflexivity|auto]).
    assert (Cd : forall d wx wy, call (lm_eqn (mc_mdl (sc_mech s))) a2 wx = (Ok d, wy) -> operand (sc_lots s) (sc_chps s) (sc_num s) d /\
      everywhere s (fun i => elem d i = law_in f s cs i (aget (Nd sh ts) i))).
    { intros d wx wy Ec. split.
      - pose proof Ec as Ec'. apply call_body in Ec' as [Ec' _]. destruct Gb as (_ & _ & Kn & Bd). rewrite Bd in Ec'. injection Ec' as Ec' _.
        destruct (fvalue_runs f _ _ _ a2 Oa) as (z & Ez & Oz & _); [|congruence]. intros n0 Hz. eapply call_required; [exact Ec|]. now apply Kn.
      - eapply law_value_in; eauto. unfold call_or_loop, try_value_error. rewrite Ec. reflexivity. }
    unfold residue in Er. fold a2 in Er. apply try_ok in Er as [Er|(w7 & Er & _)].
    - apply bind_ok in Er as (d & w7 & Ec & Ed). apply lift_ok in Ed as [Ed ->]. destruct (Cd _ _ _ Ec) as [Od Vd].
      assert (Fb : full s b).
      { split; [rewrite Sb, Sv; reflexivity|]. destruct (pmap2_shape _ _ _ _ _ _ _ Ov Od Ed) as [_ Sr]. destruct Sr as (b' & -> & _ & B2); [left; eexists; split; [reflexivity|auto]|].
        cbn [to_nd] in Eb. injection Eb as <-. exact B2. }
      assert (Lts : level s (Nd sh ts)) by (apply same_level; [split; [reflexivity|cbn [ndata]; congruence]|exact St]).
      apply (level_same s); auto. intros i1 i2 i3 H1 H2 H3 j1 j2 j3 J1 J2 J3.
      assert (Q : forall i1 i2 i3, (i1 < sc_lots s)%nat -> (i2 < sc_chps s)%nat -> (i3 < sc_num s)%nat ->
        aget b [i1; i2; i3] = Rabs (aget v [i1; i2; i3] - law_in f s cs [i1; i2; i3] (aget (Nd sh ts) [i1; i2; i3]))).
      { intros k1 k2 k3 K1 K2 K3. pose proof (pmap2_elem _ _ _ _ _ _ _ k1 k2 k3 Ov Od K1 K2 K3 Ed) as Pe. rewrite (Vd k1 k2 k3 K1 K2 K3) in Pe. cbn [elem nabs nsub ROps] in Pe.
        rewrite <- Pe. destruct (pmap2_shape _ _ _ _ _ _ _ Ov Od Ed) as [_ Sr]. destruct Sr as (b' & -> & _ & B2); [left; eexists; split; [reflexivity|auto]|].
        cbn [to_nd] in Eb. injection Eb as <-. reflexivity. }
      rewrite (Q i1 i2 i3), (Q j1 j2 j3) by auto. rewrite (Lv i1 i2 i3 H1 H2 H3 j1 j2 j3 J1 J2 J3), (Lts i1 i2 i3 H1 H2 H3 j1 j2 j3 J1 J2 J3), (Ll i1 i2 i3 H1 H2 H3 j1 j2 j3 J1 J2 J3). reflexivity.
    - exfalso. unfold bind in Er. destruct (call (lm_eqn (mc_mdl (sc_mech s))) a2 wc) as [[d|e] w8] eqn:Ec.
      + destruct (Cd _ _ _ Ec) as [Od _]. unfold lift in Er. injection Er as Er _. eapply (pmap2_no_value_error _ (PArr v) d v eq_refl); [|exact Er].
        destruct Od as [[z ->]|(b' & -> & B1 & _)]; [exact I|]. rewrite B1, Sv. reflexivity.
      + injection Er as -> _. unfold call in Ec. destruct (forallb (dmem a2) _) eqn:Fb; cbn [andb] in Ec; [|discriminate]. destruct (match e_kw _ with Some _ => _ | None => _ end); [|discriminate].
        destruct Gb as (_ & _ & Kn & Bd). rewrite Bd in Ec. destruct (fvalue_runs f _ _ _ a2 Oa) as (z & Ez & _); [|rewrite Ez in Ec; discriminate].
        intros n0 Hz. rewrite forallb_forall in Fb. apply dmem_keys, Fb, Kn, Hz. }
  intros i1 i2 i3 H1 H2 H3 j1 j2 j3 J1 J2 J3. destruct (Al i1 i2 i3 H1 H2 H3) as (_ & X1 & X2). destruct (Al j1 j2 j3 J1 J2 J3) as (_ & Y1 & Y2).
  pose proof (Lt i1 i2 i3 H1 H2 H3 j1 j2 j3 J1 J2 J3) as Qt. cbv beta in Qt. rewrite Qt in X1, X2.
  destruct (Rle_dec (aget t [j1; j2; j3] + td_num u dur) 9000000000) as [Q|Q].
  - rewrite X1, Y1 by auto. apply (Ll i1 i2 i3 H1 H2 H3 j1 j2 j3 J1 J2 J3).
  - rewrite X2, Y2 by lra. now apply Lv.
Qed.

Lemma history_level l v fd x : (forall k, In (SStrs k) l -> dwf (ss_conds k)) -> history s l v fd x -> level s v -> level s x.
Proof.
  intros W Hh. induction Hh as [v F|m l v fd x Hh IH|o l v fd x Hh IH|k l v t v1 cs fd x Pr Ad Hh IH]; intros Lv; auto.
  - apply IH; auto. intros k Hk. apply W. now right.
  - apply IH; auto. intros k Hk. apply W. now right.
  - apply IH; [intros k' Hk; apply W; now right|]. eapply advanced_level; eauto. apply W. now left.
Qed.
End Scene.

(** Two runs, two devices: the same shift. *)
Lemma two_shifts e d l C L w1 w2 st1 st2 rep1 rep2 w1' w2' name p o i j s m k :
  ideal_env = Ok e -> device_wf d -> regular d -> (forall s, In s l -> step_wf s) ->
  (forall q p, dget d q = Some (PDeg p) -> ~ In "init"%string (dkeys (dp_mechs p)) /\ ~ In "cond"%string (dkeys (dp_mechs p))) ->
  simulate e d l C L None w1 = (Ok (st1, rep1), w1') -> simulate e d l C L None w2 = (Ok (st2, rep2), w2') -> rp_counts rep1 = rp_counts rep2 ->
  rigid d name p o -> nth_error l s = Some (SMeas m) -> In (name, k) (ms_counts m) -> inside k C L i -> inside k C L j ->
  step_reading (Ok (st1, rep1)) s name i - initial_value (Ok (st1, rep1)) name i = step_reading (Ok (st2, rep2)) s name j - initial_value (Ok (st2, rep2)) name j.
Proof.
  intros En Wd Rg Ws Pn E1 E2 Cn Ri Hs Hin Hi Hj.
  destruct (one_run e d l C L w1 st1 rep1 w1' name p o i s m k En Wd Rg Ws Pn E1 Ri Hs Hin Hi) as (n & x & _ & _ & N1 & Hk & H1 & V1 & _).
  destruct (one_run e d l C L w2 st2 rep2 w2' name p o j s m k En Wd Rg Ws Pn E2 Ri Hs Hin Hj) as (n' & x' & _ & _ & N2 & _ & H2 & V2 & _).
  rewrite Cn, N2 in N1. injection N1 as ->. rewrite V1, V2.
  assert (Q : map (fun nm => aget (x nm) [fst (fst i); snd (fst i); snd i]) (dkeys (dp_mechs p)) = map (fun nm => aget (x' nm) [fst (fst j); snd (fst j); snd j]) (dkeys (dp_mechs p))); [|rewrite Q; lra].
  apply map_ext_in. intros nm Hnm. destruct (dget (dp_mechs p) nm) as [mm|] eqn:Hm; [|now apply dget_None_keys in Hm].
  destruct (H1 _ _ Hm) as [fd Hh]. destruct (H2 _ _ Hm) as [fd' Hh']. rewrite Cn in Hh. destruct (ri_sum _ _ _ _ Ri) as (laws & units & Ad).
  destruct (ad_mech _ _ _ Ad _ _ Hm) as (Kd & _ & Gb & Un). assert (e = []) as -> by (cbn in En; congruence).
  rewrite (history_unique (Scene [] d L C (rp_counts rep2) name n mm []) (laws nm) (units nm) _ _ _ _ eq_refl Kd Un Gb Hh _ _ Hh').
  assert (Lv : level (Scene [] d L C (rp_counts rep2) name n mm []) (x' nm)).
  { eapply (history_level (Scene [] d L C (rp_counts rep2) name n mm []) (laws nm) (units nm) (PDeg p)); [reflexivity|reflexivity|exact Kd|exact Un|exact Gb|exact N2|apply (ri_prm _ _ _ _ Ri)| |exact Hh'|].
    - intros k' Hk'. apply (Ws (SStrs k')). rewrite <- (firstn_skipn s l). apply in_or_app. now left.
    - intros a1 a2 a3 A1 A2 A3 b1 b2 b3 B1 B2 B3. cbn [sc_lots sc_chps sc_num] in *. unfold nfull. now rewrite !aget_build3. }
  destruct Hi as (I1 & I2 & I3), Hj as (J1 & J2 & J3). apply Lv; cbn [sc_lots sc_chps sc_num]; lia.
Qed.

Lemma rigid_moments_level {Om} (E : (Om -> R) -> R) (HE : expectation E) e d l counts C L (w : Om -> world) :
  ideal_env = Ok e -> sampled_device d counts -> regular d -> (forall s, In s l -> step_wf s) ->
  (forall q p, dget d q = Some (PDeg p) -> ~ In "init"%string (dkeys (dp_mechs p)) /\ ~ In "cond"%string (dkeys (dp_mechs p))) ->
  (forall om, exists st rep w', simulate e d l C L None (w om) = (Ok (st, rep), w') /\ rp_counts rep = counts) ->
  let plan := drawings_plan (drawings d counts) C L in distributed E plan w -> independent E plan w ->
  let run := fun om => fst (simulate e d l C L None (w om)) in
  exists shift : nat -> string -> R,
  forall s m name k p o i, nth_error l s = Some (SMeas m) -> In (name, k) (ms_counts m) -> rigid d name p o -> inside k C L i ->
    (forall om, step_reading (run om) s name i = initial_value (run om) name i + shift s name) /\
    E (fun om => step_reading (run om) s name i) = var_mean o + shift s name /\
    forall s' m' name' k' p' o' j, nth_error l s' = Some (SMeas m') -> In (name', k') (ms_counts m') -> rigid d name' p' o' -> inside k' C L j ->
      cov E (fun om => step_reading (run om) s name i) (fun om => step_reading (run om) s' name' j) = if String.eqb name name' then var_cov o i j else 0.
Proof.
  intros En Sd Rg Ws Pn Runs plan Ds Ki run. pose proof (dwf_device d _ Sd) as Wd.
  destruct (rigid_moments E HE e d l counts C L w En Sd Rg Ws Pn Runs Ds Ki) as [shift K]. fold run in K.
  exists (fun s name => shift s name (0, 0, 0)%nat). intros s m name k p o i Hs Hin Ri Hi.
  destruct (classic (inhabited Om)) as [[om0]|Nh].
  2: { exfalso. assert (Z : 1 = 0); [|lra]. rewrite <- (ex_one E HE). rewrite (ex_ext E HE (fun _ => 1) (fun _ => 0)) by (intros o0; exfalso; apply Nh; constructor; exact o0).
       apply (E_zero E HE). }
  assert (H0 : inside k C L (0, 0, 0)%nat) by (destruct Hi as (I1 & I2 & I3); repeat split; cbn [fst snd]; lia).
  assert (Q : shift s name i = shift s name (0, 0, 0)%nat).
  { destruct (Runs om0) as (st & rep & w' & E1 & C1).
    pose proof (two_shifts e d l C L _ _ _ _ _ _ _ _ name p o i (0, 0, 0)%nat s m k En Wd Rg Ws Pn E1 E1 eq_refl Ri Hs Hin Hi H0) as T.
    destruct (K _ _ _ _ _ _ _ Hs Hin Ri Hi) as [P1 _]. destruct (K _ _ _ _ _ _ _ Hs Hin Ri H0) as [P2 _]. specialize (P1 om0). specialize (P2 om0).
    unfold run in P1, P2. rewrite E1 in P1, P2. cbn [fst] in P1, P2. lra. }
  rewrite <- Q. exact (K _ _ _ _ _ _ _ Hs Hin Ri Hi).
Qed.
End R.
