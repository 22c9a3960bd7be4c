(** Lemmas: numbers of values in equations of circuit parameters. *)
From Coq Require Import Arith.
From Verif Require Import M_Base M_Num M_Nd M_RandVar M_Latent M_Time M_TestSpec M_Device M_Report M_Env M_Sim
  S_TestSpec S_Device S_Latent S_Env S_Sim S_Shape S_Total S_Reading S_Circ
  L_Base L_TestSpec L_Nd L_Latent L_Device L_Device3 L_Env L_Env2 L_Env3 L_Sim L_Sim3 L_Shape L_Shape2 L_Total L_Total2 L_Value L_Reading.
Open Scope nat_scope.

Section L.
Context {V : Type} `{NumOps V}.

(** ** Formulas *)
Definition last_axis (n : nat) (v : pyval V) : Prop := exists a s, v = PArr a /\ nshape a = s ++ [n].

Lemma bshape_last s t r n : bshape (s ++ [n]) t = Some r -> n <> 1 -> exists u, r = u ++ [n].
Proof.
  unfold bshape. rewrite rev_app_distr. cbn [rev app]. destruct (rev t) as [|b t']; cbn [bshape_rev option_map].
  - intros [= <-] _. cbn [rev]. rewrite rev_involutive. eauto.
  - destruct (bshape_rev (rev s) t') as [r'|]; [|discriminate]. intros E N.
    destruct (Nat.eqb_spec n b) as [->|_]; [injection E as <-; cbn [rev]; eauto|].
    destruct (Nat.eqb_spec n 1) as [Q|_]; [contradiction|].
    destruct (Nat.eqb_spec b 1) as [->|_]; [|discriminate]. injection E as <-. cbn [rev]. eauto.
Qed.
Lemma bshape_last' s t r n : bshape t (s ++ [n]) = Some r -> n <> 1 -> exists u, r = u ++ [n].
Proof.
  unfold bshape. rewrite rev_app_distr. cbn [rev app]. destruct (rev t) as [|b t']; cbn [bshape_rev option_map].
  - intros [= <-] _. cbn [rev]. rewrite rev_involutive. eauto.
  - destruct (bshape_rev t' (rev s)) as [r'|]; [|discriminate]. intros E N.
    destruct (Nat.eqb_spec b n) as [->|_]; [injection E as <-; cbn [rev]; eauto|].
    destruct (Nat.eqb_spec b 1) as [->|_]; [injection E as <-; cbn [rev]; eauto|].
    destruct (Nat.eqb_spec n 1) as [Q|_]; [contradiction|]. discriminate.
Qed.

Lemma of_nd_last (a : nd V) s n : nshape a = s ++ [n] -> last_axis n (of_nd a).
Proof.
  intros E. exists a, s. split; auto. apply of_nd_arr. rewrite E. destruct s; discriminate.
Qed.

Lemma pmap2_last f x y z n : last_axis n x \/ last_axis n y -> n <> 1 -> pmap2 f x y = Ok z -> last_axis n z.
Proof.
  intros K N E. unfold pmap2 in E. apply rbind_ok in E as (a & Ea & E). apply rbind_ok in E as (b & Eb & E).
  apply rbind_ok in E as (c & Ec & E). injection E as <-. unfold bmap2 in Ec.
  destruct (bshape (nshape a) (nshape b)) as [r|] eqn:Er; [|discriminate]. injection Ec as <-.
  destruct K as [(a' & s & -> & Es)|(b' & s & -> & Es)]; cbn [to_nd] in *.
  - injection Ea as ->. rewrite Es in Er. apply bshape_last in Er as [u ->]; auto. now apply of_nd_last with (s := u).
  - injection Eb as ->. rewrite Es in Er. apply bshape_last' in Er as [u ->]; auto. now apply of_nd_last with (s := u).
Qed.

Lemma fvalue_last (e : formula V) args x v n : In x (fnames e) -> dget args x = Some v -> last_axis n v -> n <> 1 ->
  forall z, fvalue e args = Ok z -> last_axis n z.
Proof.
  intros Hx Hv Hl N. induction e as [u|y|f e IH|f e1 IH1 e2 IH2]; cbn [fvalue fnames] in *; intros z E.
  - destruct Hx.
  - destruct Hx as [->|[]]. apply dgetE_ok in E. rewrite Hv in E. now injection E as <-.
  - apply rbind_ok in E as (y & Ey & E). destruct (IH Hx _ Ey) as (a & s & -> & Es). unfold pmap in E. cbn [to_nd rbind] in E.
    injection E as <-. apply of_nd_last with (s := s). exact Es.
  - apply rbind_ok in E as (y1 & E1 & E). apply rbind_ok in E as (y2 & E2 & E).
    apply pmap2_last with (n := n) in E; auto. apply in_app_or in Hx as [Hx|Hx]; [left|right]; auto.
Qed.

Lemma last_unique n n' v : last_axis n v -> last_axis n' v -> n = n'.
Proof.
  intros (a & s & -> & E) (a' & s' & Q & E'). injection Q as <-. rewrite E in E'. now apply app_inj_tail in E' as [_ ->].
Qed.

Lemma shaped_last L C n v : shaped L C n v -> last_axis n v.
Proof. intros (a & -> & E & _). exists a, [L; C]. auto. Qed.

(** ** Which exception *)
Definition some_operand (L C : nat) (v : pyval V) : Prop := (exists y, v = PNum y) \/ exists n, shaped L C n v.

Lemma bshape_mixed L C n n' : bshape [L; C; n] [L; C; n'] = None \/ exists m, bshape [L; C; n] [L; C; n'] = Some [L; C; m].
Proof.
  unfold bshape. cbn [rev app bshape_rev]. rewrite !Nat.eqb_refl. destruct (n =? n'); [right; cbn; eauto|].
  destruct (n =? 1); [right; cbn; eauto|]. destruct (n' =? 1); [right; cbn; eauto|]. now left.
Qed.

Lemma pmap2_mixed f L C x y : some_operand L C x -> some_operand L C y ->
  pmap2 f x y = Err ValueError \/ exists z, pmap2 f x y = Ok z /\ some_operand L C z.
Proof.
  assert (G : forall n v, operand L C n v -> some_operand L C v) by (intros n v [Q|Q]; [now left|right; eauto]).
  assert (A : forall n, operand L C n x -> operand L C n y -> exists z, pmap2 f x y = Ok z /\ some_operand L C z).
  { intros n Ox Oy. destruct (pmap2_runs f L C n x y Ox Oy) as (z & Ez & Oz & _). exists z. split; eauto. }
  intros [Hx|(n & Hx)] [Hy|(n' & Hy)].
  - right. apply (A 0); now left.
  - right. apply (A n'); [now left|now right].
  - right. apply (A n); [now right|now left].
  - destruct Hx as (a & -> & Sa & La), Hy as (b & -> & Sb & Lb). unfold pmap2. cbn [to_nd rbind]. unfold bmap2. rewrite Sa, Sb.
    destruct (bshape_mixed L C n n') as [->|(m & ->)]; [now left|]. right. cbn [rbind]. eexists. split; [reflexivity|].
    right. exists m. apply shaped_build.
Qed.

Lemma fvalue_mixed (e : formula V) L C args :
  (forall x, In x (fnames e) -> exists v, dget args x = Some v /\ some_operand L C v) ->
  fvalue e args = Err ValueError \/ exists z, fvalue e args = Ok z /\ some_operand L C z.
Proof.
  induction e as [u|y|f e IH|f e1 IH1 e2 IH2]; cbn [fvalue fnames]; intros K.
  - right. eexists. split; [reflexivity|]. left. eauto.
  - destruct (K y) as (v & Hv & Ov); [now left|]. right. exists v. split; auto. now apply dgetE_ok.
  - destruct (IH K) as [->|(z & -> & Oz)]; [now left|]. right. cbn [rbind].
    assert (G : exists n, operand L C n z) by (destruct Oz as [Q|(n & Q)]; [exists 0; now left|exists n; now right]).
    destruct G as [n G]. destruct (pmap_runs f L C n z G) as (y & Ey & [Oy|Oy] & _); exists y; (split; [exact Ey|]); [now left|right; eauto].
  - destruct IH1 as [->|(z1 & -> & O1)]; [intros; apply K, in_or_app; auto|now left|]. cbn [rbind].
    destruct IH2 as [->|(z2 & -> & O2)]; [intros; apply K, in_or_app; auto|now left|]. cbn [rbind]. now apply pmap2_mixed.
Qed.

Lemma circ_raises (c : lmdl V) f k cs prms lats L C x y v v' n n' w :
  given_by (lm_eqn c) f ->
  (forall u, In u (fnames f) -> exists a, first_of [lats; cs; prms] u = Some a /\ some_operand L C a) ->
  In x (fnames f) -> In y (fnames f) ->
  first_of [lats; cs; prms] x = Some v -> shaped L C n v -> first_of [lats; cs; prms] y = Some v' -> shaped L C n' v' ->
  ~ combinable n n' ->
  circ_vals c k cs prms lats w = (Err ValueError, w).
Proof.
  intros (Eo & Ek & Kn & Eb) K Hx Hy Vx Sx Vy Sy N. unfold circ_vals. apply bind_eval_err.
  set (args := gather _ _ _).
  assert (G : forall u, In u (fnames f) -> dget args u = first_of [lats; cs; prms] u).
  { intros u Hu. unfold args. rewrite gather_get. replace (smem u (compute_args (lm_eqn c))) with true.
    - destruct (K u Hu) as (a & -> & _). reflexivity.
    - symmetry. apply smem_In. apply Kn in Hu. unfold compute_args. apply in_or_app. now left. }
  assert (A : accepts (lm_eqn c) (dkeys args)).
  { split.
    - intros u Hu. apply Kn in Hu. destruct (K u Hu) as (a & Ea & _). apply dmem_keys. unfold dmem. now rewrite (G u Hu), Ea.
    - intros _ u Hu. apply dmem_keys in Hu. unfold dmem, args in Hu. rewrite gather_get in Hu. cbn [dget] in Hu.
      destruct (smem u (compute_args (lm_eqn c))) eqn:Su; [|discriminate]. apply smem_In in Su.
      unfold compute_args in Su. rewrite Ek, app_nil_r in Su. exact (in_app_or _ _ _ Su). }
  rewrite (proj1 (call_accepts _ args) A w), Eb. f_equal.
  destruct (fvalue_mixed f L C args) as [E|(z & E & _)]; auto.
  - intros u Hu. rewrite (G u Hu). auto.
  - exfalso. apply N. destruct (Nat.eq_dec n 1) as [|N1]; [right; now left|]. destruct (Nat.eq_dec n' 1) as [|N2]; [right; now right|]. left.
    apply last_unique with (v := z).
    + exact (fvalue_last f args x v n Hx (eq_trans (G x Hx) Vx) (shaped_last _ _ _ _ Sx) N1 z E).
    + exact (fvalue_last f args y v' n' Hy (eq_trans (G y Hy) Vy) (shaped_last _ _ _ _ Sy) N2 z E).
Qed.

(** ** Simulations *)
Context `{Rng V} {Ho : HashOrd}.

Lemma gen_latents_all (m : lmdl V) D C L w l w' : gen_latents m D C L w = (Ok l, w') -> forall x, In x (dkeys (lm_vars m)) -> In x (dkeys l).
Proof.
  unfold gen_latents. intros E.
  assert (G : forall vs acc w l w', foldM (fun acc (kv : string * lvar V) => (a <- gen_latent (snd kv) D C L ;; ret (dset acc (fst kv) (PArr a)))%m) vs acc w = (Ok l, w') ->
    (forall x, In x (dkeys acc) -> In x (dkeys l)) /\ forall x, In x (map fst vs) -> In x (dkeys l)).
  { clear. induction vs as [|[k o] vs IH]; intros acc w l w' E; cbn [foldM] in E.
    - apply ret_ok in E as [-> ->]. split; auto. intros x [].
    - apply bind_ok in E as (acc1 & w1 & E1 & E). apply bind_ok in E1 as (a & w2 & _ & E1). apply ret_ok in E1 as [-> ->]. cbn [fst] in *.
      destruct (IH _ _ _ _ E) as [A B]. assert (M : forall x, In x (dkeys acc) \/ x = k -> In x (dkeys l)).
      { intros x Hx. apply A. apply dmem_keys. rewrite dmem_dset. destruct Hx as [Hx| ->]; [|now rewrite String.eqb_refl].
        apply dmem_keys in Hx. rewrite Hx. apply Bool.orb_true_r. }
      split; auto. intros x [<-|Hx]; auto. }
  intros x Hx. exact (proj2 (G _ _ _ _ _ E) x Hx).
Qed.

Lemma counts_agree e d l chps lots w st' rep' w' q c f m k x y n n' :
  device_wf d -> regular d -> circuits_plain d -> (forall s, In s l -> step_wf s) ->
  (forall q p, dget d q = Some (PDeg p) -> ~ In "init"%string (dkeys (dp_mechs p)) /\ ~ In "cond"%string (dkeys (dp_mechs p))) ->
  simulate e d l chps lots None w = (Ok (st', rep'), w') ->
  dget d q = Some (PCirc c) -> given_by (lm_eqn c) f ->
  In (SMeas m) l -> In (q, k) (ms_counts m) -> In x (fnames f) -> In y (fnames f) ->
  comes_with d l m q k c x n -> comes_with d l m q k c y n' -> combinable n n'.
Proof.
  intros Wd Rg Cp Ws Pn E Hq Gv Hm Hk Hx Hy Cx Cy. apply in_split in Hm as (l1 & l2 & ->).
  set (l := l1 ++ SMeas m :: l2) in *.
  assert (Wm : step_wf (SMeas m)) by (apply Ws, in_or_app; right; now left). destruct Wm as [Wc Wn].
  destruct (simulate_shapes _ _ _ _ _ _ _ _ _ Wd Rg Ws E) as (_ & Ff & _ & _).
  pose proof E as E'. apply simulate_run in E' as (st00 & rep00 & w00 & Er & _ & _ & _ & _ & _ & _ & _ & _ & st01 & Ei & -> & Qc); auto.
  pose proof (run_same _ _ _ _ _ _ _ _ _ _ Er) as (_ & _ & _ & Q1 & _ & _).
  apply simulate_measured in E as (st0 & rep0 & w0 & st1 & rep1 & w1 & conds & w2 & gs & rest & E0 & _ & _ & C0 & L0 & K0 & E1 & Ec & _ & Fm); auto.
  assert (Hc : exists g, measured e d lots chps st1 conds (q, k) g).
  { clear -Fm Hk. induction Fm as [|a g la lg [Ha _] Fm IH]; [destruct Hk|]. destruct Hk as [->|Hk]; eauto. }
  destruct Hc as (g & cs & Hcs & Hc). cbn [fst snd] in *. rewrite Hq in Hc. destruct Hc as (lats & v & wa & wb & Hl & Ev & _).
  (* the state before the measurement *)
  pose proof (dev_init_shape _ _ _ _ _ _ _ _ any Wd (regular_all _ _ _ _ Rg) (fun _ _ _ => I) E0) as F0.
  pose proof (run_same _ _ _ _ _ _ _ _ _ _ E1) as (Ss & _ & _ & Q2 & Q3 & Q4).
  assert (F1 : state_fits d lots chps (rp_counts rep') st1).
  { apply run_shapes in E1 as (_ & F1 & _); auto.
    - now rewrite L0, C0, K0 in F1.
    - intros s Hs. apply Ws, in_or_app. now left.
    - intros u j j' p (m0 & I & R) Hp Hj. rewrite K0, Q1, Qc in Hj.
      destruct (calc_samples_bound l) as (_ & _ & Hub). destruct (Hub u j) as (y0 & Hy0 & Hle).
      { exists m0. split; auto. apply in_or_app. now left. }
      destruct (augment_mono d (dkeys (calc_samples_needed l)) (calc_samples_needed l, None) u y0 Hy0) as (z & Hz & Hle').
      rewrite Hz in Hj. injection Hj as <-. lia.
    - rewrite L0, C0, K0. exact F0. }
  assert (Hcnt : forall u j, greatest (needs d l u) j -> dget (rp_counts rep') u = Some j).
  { intros u j G. rewrite Q1, Qc. now apply needs_counts. }
  pose proof E0 as E0'. apply dev_init_ok in E0' as (_ & _ & _ & _ & _ & _ & Kc & _); [|apply Wd].
  destruct (Kc _ _ Hq) as (nq & lats0 & wc & wd & Hnq & Hl0 & Eg & _).
  assert (lats0 = lats).
  { destruct Ss as (Sl & _). cbn [set_elapsed st_lat] in *. congruence. }
  subst lats0.
  (* what the names stand for *)
  assert (G : forall u j, In u (fnames f) -> comes_with d l m q k c u j -> exists vv, first_of [lats; cs; st_prm st1] u = Some vv /\ shaped lots chps j vv).
  { intros u j Hu Cu. assert (Hua : In u (compute_args (lm_eqn c))).
    { destruct Gv as (_ & _ & Kn & _). apply Kn in Hu. unfold compute_args. apply in_or_app. now left. }
    assert (Lat : ~ In u (dkeys (lm_vars c)) -> dget lats u = None).
    { intros Nu. destruct (dget lats u) eqn:D; auto. exfalso. apply Nu. eapply gen_latents_keys; eauto.
      apply dmem_keys. unfold dmem. now rewrite D. }
    pose proof (env_conds_ok _ _ _ _ _ _ _ _ _ _ _ Wc Ec) as (_ & _ & Kk). specialize (Kk _ _ Hcs). cbn [dev_prm] in Kk. rewrite Hq in Kk.
    destruct Cu as [j Hj Gj|Nu Hu'|p j Nu Nc Hp Hi Gj].
    - apply (gen_latents_all _ _ _ _ _ _ _ Eg) in Hj. apply dmem_keys, dmem_Some in Hj as [vv Hv]. exists vv.
      cbn [first_of]. rewrite Hv. split; auto. apply Hcnt in Gj. assert (nq = j) by congruence. subst nq.
      eapply gen_latents_shape; eauto using dget_In.
    - assert (Hd : dmem cs u = true) by (apply Kk; split; auto). apply dmem_Some in Hd as [vv Hv]. exists vv.
      cbn [first_of]. rewrite (Lat Nu), Hv. split; auto.
      assert (Hb : exists v0, dget (ms_conds m) u = Some v0) by (apply dmem_Some, dmem_keys; auto). destruct Hb as [v0 Hb].
      destruct (env_conds_elements _ _ _ _ _ _ _ _ _ _ _ Wc Ec _ _ Hb) as (md & t & xb & cc & wx & wy & wz & _ & _ & _ & _ & Ge).
      specialize (Ge _ _ Hcs). cbn [dev_prm] in Ge. rewrite Hq in Ge. destruct (Ge _ Hv) as (n0' & a & dv & wp & wr & -> & G1 & G2 & G3 & _).
      cbn [request_count] in G1. assert (n0' = k) by (apply dget_wf_In in Hk; auto; congruence). subst n0'. exists a. auto.
    - assert (Hd : dget cs u = None).
      { destruct (dget cs u) eqn:D; auto. exfalso. apply Nc. apply (Kk u). unfold dmem. now rewrite D. }
      destruct (F1 _ _ Hp) as (n0' & mv & vv & v0 & ls & A1 & _ & _ & A2 & A3 & _).
      exists vv. cbn [first_of]. rewrite (Lat Nu), Hd, A2. split; auto. apply Hcnt in Gj. assert (n0' = j) by congruence. subst n0'.
      apply A3, Hi. }
  destruct (G x n Hx Cx) as (vx & Vx & Sx), (G y n' Hy Cy) as (vy & Vy & Sy).
  destruct (Nat.eq_dec n 1) as [|N1]; [right; now left|]. destruct (Nat.eq_dec n' 1) as [|N2]; [right; now right|]. left.
  destruct (circ_cut _ _ _ _ _ _ _ _ Ev) as (args & a & b & _ & _ & Ga & Ea & _). pose proof Gv as (Eo & Ek & Kn & Eb).
  apply call_body in Ea as [Ea _]. rewrite Eb in Ea. injection Ea as Ea _.
  assert (Gs : forall u, In u (fnames f) -> dget args u = first_of [lats; cs; st_prm st1] u).
  { intros u Hu. rewrite Ga. replace (smem u (compute_args (lm_eqn c))) with true; auto.
    symmetry. apply smem_In. apply Kn in Hu. unfold compute_args. apply in_or_app. now left. }
  apply last_unique with (v := PArr a).
  - exact (fvalue_last f args x vx n Hx (eq_trans (Gs x Hx) Vx) (shaped_last _ _ _ _ Sx) N1 _ Ea).
  - exact (fvalue_last f args y vy n' Hy (eq_trans (Gs y Hy) Vy) (shaped_last _ _ _ _ Sy) N2 _ Ea).
Qed.
End L.
