(** The devices of vts_paper_tddb_model_sensitivity.py fail for good. *)
From Coq Require Import QArith Lqa Lia Arith Sorted.
From Verif Require Import M_Base M_Num M_Nd M_RandVar M_Latent M_Time M_TestSpec M_Minimize M_Device M_Report M_Env M_Sim M_Demo
  S_Latent S_TestSpec S_Device S_Env S_Sim S_Report S_Shape S_Value S_Reading S_History S_Series S_Total S_Rows S_Demo S_Fail
  L_Base L_Nd L_Latent L_TestSpec L_Device L_Env L_Sim L_Sim2 L_Sim3 L_Report L_Shape L_Shape2 L_Total L_Total2 L_Value L_Reading L_Rows L_Series L_Fail L_Demo L_Demo2 L_Demo3.
Open Scope nat_scope.

Section G.
Context {V : Type} `{NumOps V} `{Rng V} `{HashOrd}.
(** ** The equation *)
Definition oxide_of (env : string -> V) : V :=
  if broken (map (fun x => defective (env "threshold"%string) (env x)) defects) || neqb (env "init"%string) (lit 0) then lit 0 else lit 1.

Lemma one_value_elem L C n (p : pyval V) v l c d : operand L C n p -> one_value p = Ok v -> l < L -> c < C -> d < n -> elem p [l; c; d] = v.
Proof.
  intros [[y ->]|(a & -> & A1 & A2)] E Hl Hc Hd; cbn [one_value elem] in *; [now injection E|].
  destruct (ndata a) as [|x [|]] eqn:Ed; try discriminate E. injection E as ->. cbn [length] in A2.
  symmetry in A2. apply Nat.eq_mul_1 in A2 as [A2 ->]. apply Nat.eq_mul_1 in A2 as [-> ->].
  assert (l = 0 /\ c = 0 /\ d = 0) as (-> & -> & ->) by lia. unfold aget. rewrite A1, Ed. reflexivity.
Qed.
Lemma dget_value L C n (args : dict (pyval V)) x v l c d : operands L C n args -> rbind (dgetE args x) one_value = Ok v -> l < L -> c < C -> d < n ->
  value_at args [l; c; d] x = v.
Proof.
  intros O E Hl Hc Hd. apply rbind_ok in E as (p & Ep & E). apply dgetE_ok in Ep. unfold value_at. rewrite Ep.
  eapply one_value_elem; eauto. apply dget_In in Ep. eauto.
Qed.
Lemma oxide_numeric : numeric (V := V) oxide_eqn.
Proof.
  intros L C n args w v w' W O E. unfold call in E. destruct (_ && _); [|discriminate E]. cbn [oxide_eqn e_body] in E. unfold lift in E. injection E as E _.
  apply rbind_ok in E as (vs & _ & E). apply rbind_ok in E as (t & _ & E). apply rbind_ok in E as (i & _ & E). injection E as <-. left. eauto.
Qed.
Lemma names_values L C n (args : dict (pyval V)) t l c d : operands L C n args -> l < L -> c < C -> d < n ->
  forall names vs, map_res (fun x => rbind (dgetE args x) one_value) names = Ok vs ->
  map (defective t) vs = map (fun x => defective t (value_at args [l; c; d] x)) names.
Proof.
  intros O Hl Hc Hd names. induction names as [|x names IH]; intros vs Ev; cbn [map_res] in Ev; [now injection Ev as <-|].
  apply rbind_ok in Ev as (y & Ey & Ev). apply rbind_ok in Ev as (ys & Eys & Ev). injection Ev as <-. cbn [map].
  now rewrite (dget_value _ _ _ _ _ _ _ _ _ O Ey Hl Hc Hd), (IH _ Eys).
Qed.
Lemma oxide_pointwise L C n : pointwise L C n (oxide_eqn (V := V)) oxide_of.
Proof.
  revert L C n. apply pointwise_of; [exact oxide_numeric| |].
  - intros env env' X. unfold oxide_of. rewrite !X. erewrite map_ext; [reflexivity|]. intros x. cbn. now rewrite !X.
  - intros L C n args w v w' W O E l c d Hl Hc Hd. unfold call in E. destruct (_ && _); [|discriminate E]. cbn [oxide_eqn e_body] in E. unfold lift in E. injection E as E _.
    apply rbind_ok in E as (vs & Ev & E). apply rbind_ok in E as (t & Et & E). apply rbind_ok in E as (i & Ei & E). injection E as <-. cbn [elem].
    unfold oxide_of. rewrite (dget_value _ _ _ _ _ _ _ _ _ O Et Hl Hc Hd), (dget_value _ _ _ _ _ _ _ _ _ O Ei Hl Hc Hd).
    now rewrite <- (names_values _ _ _ _ t _ _ _ O Hl Hc Hd defects vs Ev).
Qed.

(** ** Deterministic latent variables *)
Definition thrice (x : V) : V := nmul (nmul (nmul x n1) n1) n1.
Lemma sample_deter (r : rv V) v n w : rv_dist r = DDeter v -> sample r n w = (Ok (repeat v n), w).
Proof. destruct r as [g [] nm]; cbn; intros E; try discriminate E. injection E as ->. reflexivity. Qed.
Lemma nth_repeat_Some (x y : V) n i : nth_error (repeat x n) i = Some y -> y = x.
Proof. intros E. apply nth_error_In in E. now apply repeat_spec in E. Qed.
Lemma deter_latent q o D C L w a w' : deter q = Ok o -> gen_latent o D C L w = (Ok a, w') ->
  nshape a = [L; C; D] /\ length (ndata a) = L * C * D /\ forall l c d, l < L -> c < C -> d < D -> aget a [l; c; d] = thrice (lit q).
Proof.
  intros Eo E. apply lvar_init_rep in Eo as (t & Et & _ & Rp). assert (t = Scaling) as -> by (destruct t; [reflexivity|discriminate Et]).
  assert (G := gen_latent_main o _ D C L w Rp). destruct Rp as (_ & _ & _ & _ & Sd & Sc & Sl). cbn in Sd, Sc, Sl. destruct Sd as [_ Sd], Sc as [_ Sc], Sl as [_ Sl].
  rewrite (sample_deter _ _ _ _ Sl), (sample_deter _ _ _ _ Sc), (sample_deter _ _ _ _ Sd) in G. destruct G as (a' & Ea & G1 & G2 & G3). rewrite E in Ea. injection Ea as <- <-.
  do 2 (split; [assumption|]). intros l c d Hl Hc Hd. destruct (G3 l c d Hl Hc Hd) as (xd & xc & xl & X1 & X2 & X3 & X4).
  apply nth_repeat_Some in X1 as ->. apply nth_repeat_Some in X2 as ->. apply nth_repeat_Some in X3 as ->.
  destruct a as [sh dt]. cbn [nshape ndata] in *. subst sh. apply aget_flat with (x := thrice (lit q)). cbn [flat prod fold_right]. etransitivity; [|exact X4]. f_equal. lia.
Qed.
End G.

(** ** Defects *)
Lemma broken_mono l l' : (forall i, nth i l false = true -> nth i l' false = true) -> broken l = true -> broken l' = true.
Proof.
  intros M E. apply existsb_exists in E as (i & Hi & E). apply existsb_exists. exists i. split; auto.
  rewrite forallb_forall in E |- *. unfold column in *. intros x [<-|[<-|[<-|[]]]]; apply M, E; cbn; auto.
Qed.
Lemma broken_some l : broken l = true -> exists i, nth i l false = true.
Proof.
  intros E. apply existsb_exists in E as (i & _ & E). rewrite forallb_forall in E. exists i. apply E. now left.
Qed.
Lemma nth_map_true {A} (f : A -> bool) l i : nth i (map f l) false = true <-> exists x, nth_error l i = Some x /\ f x = true.
Proof.
  revert i. induction l as [|y l IH]; intros [|i]; cbn; try (split; [discriminate|intros (x & E & _); discriminate E]).
  - split; [eauto|intros (x & E & Hx)]. now injection E as ->.
  - apply IH.
Qed.

Section B.
Context {V : Type} `{NumOps V} `{Rng V} `{HashOrd}.
Definition shut (v : V) : Prop := neqb v (lit 0) = true.
(** What the argument needs of numbers. *)
Record counts_defects (t : V) : Prop := {
  cd_zero : neqb (lit 0 : V) (lit 0) = true;
  cd_one : neqb (lit 1 : V) (lit 0) = false;
  cd_some : forall v, nltb t v = true -> neqb v n0 = false;
  cd_none : nltb t n0 = false }.
Lemma shut_oxide t env : counts_defects t -> shut (oxide_of env) <->
  broken (map (fun x => defective (env "threshold"%string) (env x)) defects) = true \/ shut (env "init"%string).
Proof.
  intros Cd. unfold oxide_of, shut. rewrite <- Bool.orb_true_iff. destruct (_ || _); [rewrite (cd_zero _ Cd)|rewrite (cd_one _ Cd)]; intuition.
Qed.
Lemma oxide_breaks (p : degprm V) own : oxide_prm p -> counts_defects (own "threshold"%string) -> breaks p oxide_of shut own.
Proof.
  intros (i & th & m & _ & _ & Km & Um & ->) Cd.
  assert (Kk : dkeys (dp_mechs (DegPrm (init_of i) no_cond n0 (with_units (Some "hours"%string) (map (fun x => (x, m)) defects)) (LMdl oxide_eqn [("threshold"%string, th)]))) = defects)
    by (cbn [dp_mechs]; rewrite with_units_keys; reflexivity).
  assert (Kg : forall nm, In nm defects -> exists m', dget (with_units (Some "hours"%string) (map (fun x => (x, m)) defects)) nm = Some m' /\ mc_unitary m' = n0).
  { intros nm Hn. rewrite <- Kk in Hn. cbn [dp_mechs] in Hn. apply dmem_keys, dmem_Some in Hn as [m' Hm']. exists m'. split; auto.
    apply dget_In in Hm'. unfold with_units in Hm'. rewrite map_map in Hm'. apply in_map_iff in Hm' as (x & Q & _). injection Q as _ <-. exact Um. }
  assert (Nt : ~ In "threshold"%string defects) by (cbn; intuition discriminate).
  assert (Ni : ~ In "init"%string defects) by (cbn; intuition discriminate).
  constructor; rewrite ?Kk.
  - cbn [dp_mechs]. intros nm m' Hm'. apply dget_In in Hm'. unfold with_units in Hm'. rewrite map_map in Hm'. apply in_map_iff in Hm' as (x & Q & _). injection Q as _ <-. exact Km.
  - intros env _ E. apply (shut_oxide _ _ Cd). now right.
  - intros env env' Ho Hs Hk E. apply (shut_oxide _ _ Cd) in E. apply (shut_oxide _ _ Cd). rewrite (Hs _ Nt), (Hs _ Ni). destruct E as [E|E]; [left|now right].
    revert E. apply broken_mono. intros j Hj. apply nth_map_true in Hj as (x & Ex & Hx). apply nth_map_true. exists x. split; auto.
    destruct (Kg x) as (m' & Hm' & Um'); [now apply nth_error_In in Ex|]. rewrite (Hk x m' Hm'); [exact Hx|]. rewrite Um'.
    apply (cd_some _ Cd). rewrite <- Ho; [exact Hx|discriminate|discriminate|exact Nt].
  - intros env Ho Hu E. apply (shut_oxide _ _ Cd) in E as [E|E]; [exfalso|exact E]. apply broken_some in E as (j & Hj). apply nth_map_true in Hj as (x & Ex & Hx).
    destruct (Kg x) as (m' & Hm' & Um'); [now apply nth_error_In in Ex|]. rewrite (Hu x m' Hm'), Um' in Hx. unfold defective in Hx.
    rewrite Ho in Hx; [|discriminate|discriminate|exact Nt]. rewrite (cd_none _ Cd) in Hx. discriminate.
Qed.

(** ** The initial state *)
Lemma one_latent (f : eqn V) x q o D C L w l w' : deter q = Ok o -> gen_latents (LMdl f [(x, o)]) D C L w = (Ok l, w') ->
  exists a, l = [(x, PArr a)] /\ nshape a = [L; C; D] /\ length (ndata a) = L * C * D /\ forall i j k, i < L -> j < C -> k < D -> aget a [i; j; k] = thrice (lit q).
Proof.
  intros Eo E. unfold gen_latents in E. cbn [lm_vars foldM fst snd] in E. apply bind_ok in E as (l1 & w1 & E & E2). apply ret_ok in E2 as [-> ->].
  apply bind_ok in E as (a & w2 & Ea & E). apply ret_ok in E as [-> ->]. exists a. split; [reflexivity|]. eapply deter_latent; eauto.
Qed.
Lemma oxide_start (p : degprm V) name counts C L w st cnt w' n : oxide_prm p -> dget counts name = Some n ->
  dev_init_state [(name, PDeg p)] counts C L w = (Ok (st, cnt), w') ->
  exists lats, dget (st_lat st) name = Some lats /\ forall i j k, i < L -> j < C -> k < n ->
    value_at lats [i; j; k] "threshold"%string = thrice (lit (5 # 10)) /\ now st name [i; j; k] = thrice (lit 1).
Proof.
  intros (o & th & m & Eo & Et & _ & _ & ->) Hn E. unfold dev_init_state in E. cbn [foldM] in E. apply bind_ok in E as (g & w1 & E & E2). apply ret_ok in E2 as [E2 ->]. injection E2 as -> ->.
  apply bind_ok in E as (g' & w2 & E & E2). apply ret_ok in E2 as [-> ->]. unfold gen_prm_state in E. cbn [fst snd g_counts] in E.
  apply bind_lift_ok in E as (n' & En & E). apply dgetE_ok in En. assert (n' = n) by congruence. subst n'.
  apply bind_ok in E as (lats & w3 & El & E). apply bind_lift_ok in E as (cnt & Ec & E). assert (Mn : dmem counts name = true) by (unfold dmem; now rewrite Hn). rewrite Mn in Ec. injection Ec as <-.
  apply bind_ok in E as (prms & w4 & Ep & E). apply ret_ok in E as [-> ->].
  apply bind_lift_ok in Ep as (n' & En' & Ep). apply dgetE_ok in En'. assert (n' = n) by congruence. subst n'.
  apply bind_ok in Ep as (v & w5 & Ev & Ep). apply ret_ok in Ep as [-> ->].
  cbn [g_lat g_prm g_mech st_lat]. exists lats. split; [now rewrite dget_dset, String.eqb_refl|].
  unfold prm_latents in El. apply bind_ok in El as (cl & w6 & _ & El). apply bind_ok in El as (ml & w7 & _ & El). apply bind_ok in El as (ol & w8 & Eol & El). apply ret_ok in El as [-> ->].
  cbn [dp_own] in Eol. apply (one_latent _ _ _ _ _ _ _ _ _ _ Et) in Eol as (a & -> & A1 & A2 & A3).
  unfold gen_init_vals in Ev. cbn [dp_init init_of] in Ev. apply bind_ok in Ev as (il & w9 & Eil & Ev). apply (one_latent _ _ _ _ _ _ _ _ _ _ Eo) in Eil as (b & -> & B1 & B2 & B3).
  assert (v = PArr b) as -> by (cbn in Ev; now injection Ev as <- _).
  intros i j k Hi Hj Hk. split.
  - unfold value_at. cbn [dupdate]. unfold dupdate. cbn [fold_left fst snd]. rewrite dget_dset, String.eqb_refl. cbn [elem]. auto.
  - unfold now, value_at. cbn [st_prm]. rewrite dget_dset, String.eqb_refl. cbn [elem]. auto.
Qed.
End B.

(** ** Lists of readings *)
Lemma latched_shape (xs : list Q) : (forall x, In x xs -> x = 1%Q \/ x = 0%Q) -> StronglySorted (fun x y => shut x -> shut y) xs ->
  exists a b, xs = repeat 1%Q a ++ repeat 0%Q b.
Proof.
  induction xs as [|x xs IH]; intros K St; [exists 0, 0; reflexivity|]. inversion St as [|? ? S' F]; subst.
  destruct (K x (or_introl eq_refl)) as [-> | ->].
  - destruct IH as (a & b & ->); [intros; apply K; now right|exact S'|]. exists (S a), b. reflexivity.
  - exists 0, (S (length xs)). cbn. f_equal. clear IH St S'. rewrite Forall_forall in F.
    assert (Z : forall y, In y xs -> y = 0%Q). { intros y Hy. destruct (K y (or_intror Hy)) as [-> |]; auto. specialize (F _ Hy). exfalso. assert (shut 0%Q) by reflexivity. apply F in H. discriminate H. }
    clear F K. induction xs as [|y xs IH]; [reflexivity|]. cbn. rewrite (Z y (or_introl eq_refl)). f_equal. apply IH. intros z Hz. apply Z. now right.
Qed.

Lemma half_counts : counts_defects (V := Q) (thrice (lit (5 # 10))).
Proof.
  constructor; try reflexivity. intros v Hv. change (thrice (lit (5 # 10))) with (1 # 2)%Q in Hv. cbn in Hv |- *. unfold q_ltb, q_eqb in *.
  destruct (1 # 2 ?= v)%Q eqn:E; try discriminate Hv. apply Qlt_alt in E. destruct (v ?= 0)%Q eqn:E'; try reflexivity. apply Qeq_alt in E'. lra.
Qed.

Section F.
Context {R : Rng Q} {Ho : HashOrd}.
Variables (gen : nat -> nat) (ppow : Q -> Q -> Q).
Hypothesis Hnp : numpy_accepts Q.

Lemma field_no_reader e : field_env gen = Ok e -> dget e "tddb_instm" = None.
Proof.
  unfold field_env. intros E. apply rbind_ok in E as (t & _ & E). apply rbind_ok in E as (v & _ & E). injection E as <-. reflexivity.
Qed.

Lemma oxide_latched e p l m n w st rep w1 c : oxide_prm p -> measures (SMeas m :: l) m -> ms_counts m = [("tddb"%string, n)] ->
  device_ok [("tddb"%string, PDeg p)] (SMeas m :: l) 1 1 -> (forall s, In s (SMeas m :: l) -> step_wf s) -> dget e "tddb_instm" = None ->
  simulate e [("tddb"%string, PDeg p)] (SMeas m :: l) 1 1 None w = (Ok (st, rep), w1) -> c < n ->
  exists a b, map r_val (series "tddb" 0 0 c (rp_meas rep)) = repeat 1%Q a ++ repeat 0%Q b /\ 1 <= a.
Proof.
  intros Op Hm Hmc O Ws Ne E Hc.
  pose proof E as Er. apply simulate_run in Er as (s0 & rep0 & w0 & Er & _ & _ & C0 & L0 & _ & _ & _ & _ & st1 & Ei & -> & Qc); [|exact (dk_wf _ _ _ _ O)].
  assert (Hk : dget (rp_counts rep0) "tddb" = Some n).
  { rewrite Qc. apply needs_counts; [exact (dk_plain _ _ _ _ O)|]. exact (one_greatest _ _ _ _ _ Hm Hmc). }
  destruct (oxide_start p "tddb" _ _ _ _ _ _ _ _ Op Hk Ei) as (lats & Hl & Hv). destruct (Hv 0 0 c (le_n 1) (le_n 1) Hc) as [Ht Hi].
  apply run_same in Er as (Sf & _ & _ & Sc & _).
  assert (Hl' : dget (st_lat st) "tddb" = Some lats) by (destruct Sf as (Sf & _); cbn [set_elapsed st_lat] in Sf; congruence).
  assert (Ho' : own_values p lats [0; 0; c] "threshold"%string = thrice (lit (5 # 10))).
  { destruct Op as (i & th & mm & _ & _ & _ & _ & ->). exact Ht. }
  assert (Br : breaks p oxide_of shut (own_values p lats [0; 0; c])) by (apply oxide_breaks; [exact Op|rewrite Ho'; exact half_counts]).
  assert (Eo : lm_eqn (dp_own p) = oxide_eqn) by (destruct Op as (i & th & mm & _ & _ & _ & _ & ->); reflexivity).
  assert (Nm : forall x p0, dget [("tddb"%string, PDeg p)] x = Some (PDeg p0) -> ~ In "init"%string (dkeys (dp_mechs p0)) /\ ~ In "cond"%string (dkeys (dp_mechs p0))).
  { intros x p0 Hp. assert (N := proj1 (do_names _ _ _ (dk_deg _ _ _ _ O _ _ Hp))). split; intros Hx; apply N in Hx; tauto. }
  eapply simulate_fails with (n := n) (a := 0) (b := 0) (c := c) (failed := shut) in E as (st0 & w0' & vs & Ei' & _ & Fv & Ss & Fm); eauto;
    [|exact (dk_wf _ _ _ _ O)|exact (dk_plain _ _ _ _ O)|exact (dk_regular _ _ _ _ O)|reflexivity|intros k _; rewrite Eo; apply oxide_pointwise|exact Ne|congruence].
  rewrite Sc, Ei in Ei'. injection Ei' as <- <-. rewrite Hi in *. assert (S1 : StronglySorted (follows_on shut) vs) by now inversion Ss.
  assert (K : forall r v, tells p oxide_of (own_values p lats [0; 0; c]) r v -> (shut v -> r_val r = 0%Q) /\ (~ shut v -> r_val r = 1%Q)).
  { intros r v (env & <- & T1 & T2 & ->). split; intros Hs.
    - unfold oxide_of. unfold shut in Hs. rewrite Hs, Bool.orb_true_r. reflexivity.
    - assert (N : ~ shut (oxide_of env)) by (intros X; apply Hs; eapply (br_read _ _ _ _ Br); eauto). unfold oxide_of in N |- *. destruct (_ || _); [exfalso; apply N|]; reflexivity. }
  assert (D : forall v : Q, shut v \/ ~ shut v) by (intros v; unfold shut; destruct (neqb v (lit 0)); [now left|right; discriminate]).
  destruct (latched_shape (map r_val (series "tddb" 0 0 c (rp_meas rep)))) as (a & b & X).
  - clear - Fv K D. induction Fv as [|r v rs vs T F IH]; [intros x []|]. intros x [<-|Hx]; [|auto]. destruct (D v) as [Hs|Hs]; [right|left]; now apply (K _ _ T).
  - clear - Fv K D S1. induction Fv as [|r v rs vs T F IH]; [constructor|]. inversion S1 as [|? ? S2 S3]; subst. constructor; [auto|].
    clear IH S1 S2. induction F as [|r' v' rs vs T' F IH]; constructor; inversion S3 as [|? ? Hv S4]; subst; [|auto].
    intros X. destruct (D v) as [Hs|Hs]; [|apply (K _ _ T) in Hs; rewrite Hs in X; discriminate X]. rewrite (proj1 (K _ _ T') (Hv Hs)). reflexivity.
  - exists a, b. split; [exact X|]. destruct (Fm n ltac:(rewrite Hmc; reflexivity) Hc) as (rest & ->). inversion Fv as [|r ? rs ? T F Er']; subst. rewrite <- Er' in X. cbn [map] in X. destruct a as [|a]; [exfalso|lia].
    rewrite (proj2 (K _ _ T)) in X; [|discriminate]. destruct b; discriminate X.
Qed.

Lemma single_parts q l w r w' : single_test gen ppow q l w = (Ok r, w') ->
  exists e d st, field_env gen = Ok e /\ field_device gen ppow q = Ok d /\ simulate e d l 1 1 None w = (Ok (st, r), w').
Proof.
  unfold single_test. intros E. apply bind_lift_ok in E as (e & Ee & E). apply bind_lift_ok in E as (d & Ed & E).
  apply bind_ok in E as ([st rep] & w1 & E & E2). apply ret_ok in E2 as [-> ->]. exists e, d, st. auto.
Qed.
Lemma field_first n : field_steps (V := Q) n = SMeas (MeasSpec [("tddb"%string, n)] (tg (kelvin 35) (lit (9 # 10))) "FailCheck") :: cycles 104 (week n).
Proof. reflexivity. Qed.
Lemma field_latched n q w r w' c : n <> 1 -> c < n -> single_test gen ppow q (field_steps n) w = (Ok r, w') ->
  exists a b, map r_val (series "tddb" 0 0 c (rp_meas r)) = repeat 1%Q a ++ repeat 0%Q b /\ 1 <= a.
Proof.
  intros Hn Hc E. apply single_parts in E as (e & d & st & Ee & Ed & E).
  destruct (field_prm gen ppow Hnp n q Hn) as (p & Ed' & Op & P1 & P2 & P3). rewrite Ed in Ed'. injection Ed' as ->.
  assert (M := field_measures (V := Q) n).
  assert (O := one_device _ _ _ _ _ _ _ M eq_refl P1 P2 P3).
  assert (Fs := fun s Hs => proj1 (field_fine (V := Q) n s Hs)).
  rewrite field_first in E, M, O, Fs. exact (oxide_latched e p _ _ n w st r w' c Op M eq_refl O Fs (field_no_reader e Ee) E Hc).
Qed.
End F.
