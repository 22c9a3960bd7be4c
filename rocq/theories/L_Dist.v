(** Lemmas about distributions, seeding and the export of latent variables. *)
From Coq Require Import Reals Lra QArith Qreals.
From Flocq Require Import Core.
From Verif Require Import M_Base M_Num M_NumR M_Nd M_RandVar M_Latent S_Latent S_Dist L_Base L_Nd L_Latent.
Open Scope R_scope.

Lemma q2r0 : Q2R 0 = 0. Proof. unfold Q2R; cbn; lra. Qed.
Lemma q2r1 : Q2R 1 = 1. Proof. unfold Q2R; cbn; lra. Qed.

Lemma params_agree (d : dist R) : admissible d ->
  exists n m y, params_numpy d = Ok n /\ params_pymc d = Ok m /\ params_pyro d = Ok y /\
    np_mean n = pymc_mean m /\ np_mean n = pyro_mean y /\
    np_var n = pymc_var m /\ np_var n = pyro_var y /\
    (forall x, np_density n x = pymc_density m x) /\ (forall x, np_density n x = pyro_density y x).
Proof.
  destruct d as [v|mu s|a b|lo hi]; cbn [admissible]; intros Ha; [contradiction|..].
  - do 3 eexists. cbn [params_numpy params_pymc params_pyro].
    repeat (split; [reflexivity|]). split; [intros x|reflexivity]. cbn [np_density pymc_density].
    assert (Hs : s <> 0) by lra. pose proof PI_RGT_0 as Hpi.
    replace (s ^ 2) with (s * s) by ring. replace ((x - mu) ^ 2) with ((x - mu) * (x - mu)) by ring.
    replace (/ (s * s) / (2 * PI)) with (/ (s * s * (2 * PI))) by (field; split; lra).
    rewrite sqrt_inv, (sqrt_mult_alt (s * s) (2 * PI)), (sqrt_square s) by nra.
    assert (0 < sqrt (2 * PI)) by (apply sqrt_lt_R0; lra).
    replace (- / (s * s) / 2 * ((x - mu) * (x - mu))) with (- ((x - mu) * (x - mu)) / (2 * (s * s))) by (field; lra).
    field. split; lra.
  - assert (E : neqb b (n0 : R) = false).
    { cbn. apply Req_bool_false. rewrite q2r0. lra. }
    unfold params_numpy. rewrite E. cbn [n1 ndiv ROps nofQ]. rewrite q2r1.
    do 3 eexists. split; [reflexivity|]. split; [reflexivity|]. split; [reflexivity|].
    cbn [np_mean np_var pymc_mean pymc_var pyro_mean pyro_var np_density pymc_density pyro_density].
    repeat split; try (field; lra).
    all: intros x; destruct (Rlt_dec 0 x) as [Hx|Hx]; auto.
    all: replace (- x / (1 / b)) with (- b * x) by (field; lra).
    all: assert (Eb : Rpower (1 / b) a = / Rpower b a)
      by (unfold Rpower; rewrite <- exp_Ropp; f_equal; unfold Rdiv; rewrite Rmult_1_l, ln_Rinv by lra; ring).
    all: rewrite Eb; assert (0 < Rpower b a) by (apply exp_pos); field; lra.
  - do 3 eexists. repeat split; reflexivity.
Qed.

Section Seed.
Context {V : Type} `{NumOps V} `{Rng V}.
Open Scope nat_scope.

Lemma sample_calls_reads r ns w xss w' : ns <> [] ->
  sample_calls r ns w = (Ok xss, w') -> reads r (list_sum ns) w (concat xss) w'.
Proof.
  unfold sample_calls. revert w xss w'. induction ns as [|n ns IH]; intros w xss w' Hne E; [congruence|].
  cbn [mapM] in E. apply bind_ok in E as (xs & w1 & E1 & E). apply bind_ok in E as (yss & w2 & E2 & E).
  inversion E; subst. cbn [concat list_sum fold_right].
  destruct ns as [|m ns].
  - unfold mapM, ret in E2. inversion E2; subst. cbn [list_sum fold_right concat]. rewrite app_nil_r, Nat.add_0_r. now apply sample_reads.
  - eapply reads_app; [apply sample_reads; eassumption|]. apply IH; auto. discriminate.
Qed.

Lemma reads_same (r1 r2 : rv V) n w1 w2 xs ys w1' w2' :
  rv_dist r1 = rv_dist r2 -> w1 (rv_gen r1) = w2 (rv_gen r2) ->
  reads r1 n w1 xs w1' -> reads r2 n w2 ys w2' -> xs = ys.
Proof.
  intros Hd Hw (Hl & Hx) (Hl' & Hy). rewrite <- Hd in Hy.
  assert (Hnth : forall i, i < n -> nth_error xs i = nth_error ys i).
  { destruct (rv_dist r1) as [v|? ?|? ?|? ?].
    1:{ intros i Hi. destruct Hx as [Hx _], Hy as [Hy _].
        destruct (nth_error_Some_ex xs i) as [x Ex]; [lia|]. destruct (nth_error_Some_ex ys i) as [y Ey]; [lia|].
        rewrite Ex, Ey. f_equal. rewrite (Hx x), (Hy y); auto; eapply nth_error_In; eauto. }
    all: destruct Hx as (p & Hp & _ & Hx & _), Hy as (p' & Hp' & _ & Hy & _); rewrite Hp in Hp'; inversion Hp'; subst p';
      intros i Hi; rewrite Hx, Hy, Hw by auto; reflexivity. }
  clear -Hl Hl' Hnth. revert xs ys Hl Hl' Hnth. induction n as [|n IH]; intros [|x xs] [|y ys] Hl Hl' Hnth; cbn in *; try lia; auto.
  f_equal.
  - specialize (Hnth 0). cbn in Hnth. assert (E : Some x = Some y) by (apply Hnth; lia). congruence.
  - apply IH; try lia. intros i Hi. apply (Hnth (S i)). lia.
Qed.

(** Whether sampling raises does not depend on the state or on the quantity. *)
Lemma sample_err_indep r n w e w' : sample r n w = (Err e, w') ->
  w' = w /\ forall m w2, sample r m w2 = (Err e, w2).
Proof.
  unfold sample. destruct (rv_dist r); [discriminate|..];
    (destruct (params_numpy _) as [p|e1]; [destruct (rvalid p); [destruct (draws _ _ _); discriminate|]|];
     intros E; inversion E; subst; auto).
Qed.
Lemma sample_ok_indep r n w xs w' : sample r n w = (Ok xs, w') ->
  forall m w2, exists ys w2', sample r m w2 = (Ok ys, w2').
Proof.
  intros E m w2. destruct (sample r m w2) as [[ys|e] w2'] eqn:E2; eauto.
  apply sample_err_indep in E2 as [_ E2]. rewrite E2 in E. discriminate.
Qed.

Lemma seed_reproducible seed_state ent1 ent2 seed s1 s2 (d : dist V) g1 g2 nm1 nm2 ns ms w1 w2 xss w1' :
  seed <> 0%Z ->
  init_gen seed_state ent1 (Some seed) = Ok s1 -> init_gen seed_state ent2 (Some seed) = Ok s2 ->
  w1 g1 = s1 -> w2 g2 = s2 ->
  list_sum ns = list_sum ms -> ns <> [] -> ms <> [] ->
  sample_calls (Rv g1 d nm1) ns w1 = (Ok xss, w1') ->
  exists yss w2', sample_calls (Rv g2 d nm2) ms w2 = (Ok yss, w2') /\ concat yss = concat xss.
Proof.
  intros Hs E1 E2 Hw1 Hw2 Hsum Hn Hm Ex.
  assert (Hst : w1 g1 = w2 g2).
  { rewrite Hw1, Hw2. unfold init_gen in E1, E2. destruct (Z.eqb_spec seed 0); [contradiction|].
    destruct (seed <? 0)%Z; congruence. }
  assert (Hok : forall m w, exists ys w', sample (Rv g2 d nm2) m w = (Ok ys, w')).
  { destruct ns as [|n ns]; [congruence|]. unfold sample_calls in Ex. cbn [mapM] in Ex.
    apply bind_ok in Ex as (xs & w0 & E0 & _).
    assert (E0' : exists zs w0', sample (Rv g2 d nm2) n (fun _ => w1 g1) = (Ok zs, w0')).
    { revert E0. unfold sample. cbn [rv_dist rv_gen]. unfold ret. destruct d; [eauto|..];
        (match goal with |- context [params_numpy ?dd] => destruct (params_numpy dd) as [p|?] end;
         [destruct (rvalid p); [|discriminate]|discriminate];
         intros _; destruct (draws p n (w1 g1)); eauto). }
    destruct E0' as (zs & w0' & E0'). intros m w. eapply sample_ok_indep; eauto. }
  assert (Hok' : forall ks w, exists yss w', sample_calls (Rv g2 d nm2) ks w = (Ok yss, w')).
  { unfold sample_calls. induction ks as [|k ks IH]; intros w; cbn [mapM]; [cbn; unfold ret; eauto|].
    destruct (Hok k w) as (ys & wa & Ea). rewrite (bind_eval _ _ _ _ _ Ea).
    destruct (IH wa) as (yss & wb & Eb). rewrite (bind_eval _ _ _ _ _ Eb). unfold ret; eauto. }
  destruct (Hok' ms w2) as (yss & w2' & Ey). exists yss, w2'. split; auto. symmetry.
  apply sample_calls_reads in Ex, Ey; auto. rewrite Hsum in Ex.
  eapply reads_same; [| |exact Ex|exact Ey]; auto.
Qed.

Lemma deterministic_all (v : V) g nm n w :
  sample (Rv g (DDeter v) nm) n w = (Ok (repeat v n), w) /\
  params_numpy (DDeter v) = Err NotImplementedErr /\
  (forall target, get_cbi_form (Rv g (DDeter v) nm) target = Err NotImplementedErr).
Proof.
  repeat split; auto. intros target. unfold get_cbi_form. cbn.
  destruct (String.eqb target "pymc"); auto. destruct (String.eqb target "pyro"); auto.
Qed.
End Seed.

Section Histories.
Context {V : Type} `{NumOps V} `{Rng V}.
Open Scope nat_scope.

Lemma behaves_reads t r given n w xs w' : behaves t r given ->
  sample r n w = (Ok xs, w') -> layer_reads t given n w xs w'.
Proof.
  destruct given as [x|]; cbn [behaves layer_reads]; intros Hb E; rewrite Hb in E.
  - now apply sample_reads.
  - inversion E; auto.
Qed.
Lemma behaves_rejected t r given n w e w' : behaves t r given ->
  sample r n w = (Err e, w') -> exists x, given = Some x /\ rejected x e.
Proof.
  destruct given as [x|]; cbn [behaves]; intros Hb E; rewrite Hb in E; [|discriminate].
  exists x. split; auto. intros m w2. now apply sample_err_indep in E as [_ E].
Qed.

Lemma gen_latent_history dev chp lot deter name vt o l :
  lvar_init dev chp lot deter name vt = Ok o ->
  exists t s, vt = type_name t /\
    tells_all tells (Told t deter dev chp lot) l (fst (run_assigns lvar_assign o l)) s /\
    let o' := snd (run_assigns lvar_assign o l) in
    let ty := t_type s in
    forall D C L w, exists w3,
      (exists e x, gen_latent o' D C L w = (Err e, w3) /\ rejected x e /\
         (t_dev s = Some x \/ t_chp s = Some x \/ t_lot s = Some x)) \/
      (exists a lots chps devs w1 w2, gen_latent o' D C L w = (Ok a, w3) /\
         layer_reads ty (t_lot s) L w lots w1 /\
         layer_reads ty (t_chp s) (L * C) w1 chps w2 /\
         layer_reads ty (t_dev s) (L * C * D) w2 devs w3 /\
         nshape a = [L; C; D] /\ length (ndata a) = L * C * D /\
         forall l c d, l < L -> c < C -> d < D ->
         exists xd xc xl,
           nth_error devs ((l * C + c) * D + d) = Some xd /\
           nth_error chps (l * C + c) = Some xc /\
           nth_error lots l = Some xl /\
           elem3 a L C D l c d
             (combine ty (combine ty (match t_deter s with Some v => combine ty v xd | None => xd end) xc) xl)).
Proof.
  intros E. apply lvar_init_rep in E as (t & -> & _ & Hr).
  destruct (assigns_run _ _ l Hr) as (s & Ht & Hr'). exists t, s. split; auto. split; auto.
  intros o' ty D C L w. fold o' in Hr'.
  pose proof (gen_latent_main o' s D C L w Hr') as Hm.
  pose proof (lv_rep_shows _ _ Hr') as (_ & _ & _ & Hbd & Hbc & Hbl & _).
  destruct (sample (lv_lot o') L w) as [[lots|e] w1] eqn:E1.
  2:{ exists w1. left. destruct (behaves_rejected _ _ _ _ _ _ _ Hbl E1) as (x & Hx & Hj). eauto 8. }
  destruct (sample (lv_chp o') (L * C) w1) as [[chps|e] w2] eqn:E2.
  2:{ exists w2. left. destruct (behaves_rejected _ _ _ _ _ _ _ Hbc E2) as (x & Hx & Hj). eauto 8. }
  destruct (sample (lv_dev o') (L * C * D) w2) as [[devs|e] w3] eqn:E3.
  2:{ exists w3. left. destruct (behaves_rejected _ _ _ _ _ _ _ Hbd E3) as (x & Hx & Hj). eauto 8. }
  destruct Hm as (a & Ea & Hs & Hln & Hel). exists w3. right.
  exists a, lots, chps, devs, w1, w2. split; auto.
  split; [eapply behaves_reads; eauto|]. split; [eapply behaves_reads; eauto|]. split; [eapply behaves_reads; eauto|].
  split; auto. split; auto. intros i j k Hi Hj Hk.
  destruct (Hel i j k Hi Hj Hk) as (xd & xc & xl & H1 & H2 & H3 & H4).
  exists xd, xc, xl. repeat split; auto.
Qed.

Lemma gen_env_history dev chp bat name vt o l :
  emdl_init dev chp bat vt name = Ok o ->
  exists t s, vt = type_name t /\
    tells_all etells (ETold t dev chp bat) l (fst (run_assigns emdl_assign o l)) s /\
    let o' := snd (run_assigns emdl_assign o l) in
    let ty := et_type s in
    forall base D C L w, exists w3,
      (exists e x, gen_env o' base D C L w = (Err e, w3) /\ rejected x e /\
         (et_dev s = Some x \/ et_chp s = Some x \/ et_bat s = Some x)) \/
      (exists a xb chps devs w1 w2, gen_env o' base D C L w = (Ok a, w3) /\
         layer_reads ty (et_bat s) 1 w [xb] w1 /\
         layer_reads ty (et_chp s) (L * C) w1 chps w2 /\
         layer_reads ty (et_dev s) (L * C * D) w2 devs w3 /\
         nshape a = [L; C; D] /\ length (ndata a) = L * C * D /\
         forall l c d, l < L -> c < C -> d < D ->
         exists xd xc,
           nth_error devs ((l * C + c) * D + d) = Some xd /\
           nth_error chps (l * C + c) = Some xc /\
           elem3 a L C D l c d (combine ty (combine ty (combine ty base xb) xc) xd)).
Proof.
  intros E. pose proof (emdl_init_rep dev chp bat vt name) as Hi. destruct (vtype_of vt) as [t|] eqn:Et; [|congruence].
  destruct Hi as (o1 & E' & Hr). rewrite E in E'. inversion E'; subst o1.
  destruct (eassigns_run _ _ l Hr) as (s & Ht & Hr'). exists t, s. split; [now apply vtype_of_Some|].
  split; auto.
  intros o' ty base D C L w. fold o' in Hr'.
  pose proof (gen_env_main o' s base D C L w Hr') as Hm.
  pose proof (em_rep_shows _ _ Hr') as (_ & _ & Hbd & Hbc & Hbb).
  destruct (sample (em_bat o') 1 w) as [[bats|e] w1] eqn:E1.
  2:{ exists w1. left. destruct (behaves_rejected _ _ _ _ _ _ _ Hbb E1) as (x & Hx & Hj). eauto 8. }
  rewrite (Nat.mul_comm C L) in Hm.
  destruct (sample (em_chp o') (L * C) w1) as [[chps|e] w2] eqn:E2.
  2:{ exists w2. left. destruct (behaves_rejected _ _ _ _ _ _ _ Hbc E2) as (x & Hx & Hj). eauto 8. }
  rewrite (Nat.mul_comm D (L * C)) in Hm.
  destruct (sample (em_dev o') (L * C * D) w2) as [[devs|e] w3] eqn:E3.
  2:{ exists w3. left. destruct (behaves_rejected _ _ _ _ _ _ _ Hbd E3) as (x & Hx & Hj). eauto 8. }
  destruct Hm as (a & Ea & Hs & Hln & xb & -> & Hel). exists w3. right.
  exists a, xb, chps, devs, w1, w2. split; auto.
  split; [eapply behaves_reads; eauto|]. split; [eapply behaves_reads; eauto|]. split; [eapply behaves_reads; eauto|].
  split; auto. split; auto. intros i j k Hi Hj Hk.
  destruct (Hel i j k Hi Hj Hk) as (xd & xc & H1 & H2 & H3).
  exists xd, xc. repeat split; auto.
Qed.

(** No layer defined: the base value everywhere. *)
Lemma gen_env_ideal vt name o base D C L w : neutral_laws (V := V) ->
  emdl_init None None None vt name = Ok o ->
  exists a, gen_env o base D C L w = (Ok a, w) /\ nshape a = [L; C; D] /\ length (ndata a) = L * C * D /\
    forall l c d, l < L -> c < C -> d < D -> elem3 a L C D l c d base.
Proof.
  intros [Ha Hm] E. destruct (gen_env_history None None None name vt o [] E) as (t & s & -> & Ht & Hg).
  cbn in Ht. inversion Ht; subst s; clear Ht. cbn in Hg. destruct (Hg base D C L w) as (w3 & [Hf|Hf]).
  - destruct Hf as (e & x & _ & _ & [Hx|[Hx|Hx]]); discriminate.
  - destruct Hf as (a & xb & chps & devs & w1 & w2 & Eg & [Hb ->] & [Hc ->] & [Hd ->] & Hs & Hl & Hel).
    exists a. split; auto. split; auto. split; auto. intros i j k Hi Hj Hk.
    destruct (Hel i j k Hi Hj Hk) as (xd & xc & Hxd & Hxc & He). subst chps devs. inversion Hb; subst xb.
    apply nth_error_In in Hxd, Hxc. apply repeat_spec in Hxd, Hxc. subst xd xc.
    destruct t; cbn [combine neutral] in He; rewrite ?Ha, ?Hm in He; exact He.
Qed.
End Histories.

Section Export.
Context {V : Type} `{NumOps V}.

Lemma export_restores (o : lvar V) target x o' : cbi_export o target = (Ok x, o') ->
  (forall v, lv_deter o = Some v -> neqb v n0 = false ->
     forall mu sg, rv_dist (lv_dev o) = DNormal mu sg -> neqb mu n0 = false) ->
  o' = o.
Proof.
  unfold cbi_export. destruct (lv_devf o) eqn:Ef; cbn [negb]; [|discriminate].
  destruct (negb _); [discriminate|]. intros E Hz.
  destruct (lv_deter o) as [v|] eqn:Ed.
  2:{ cbn in E. repeat (destruct (rbind _ _) in E; [|discriminate]). inversion E; auto. }
  unfold truthy in E. destruct (neqb v n0) eqn:Ev; cbn [negb] in E.
  { destruct (rbind _ _) in E; [|discriminate]. inversion E; auto. }
  unfold get_centre, set_centre in E. destruct (lv_dev o) as [g d nm] eqn:Edev. cbn [rv_dist rv_gen rv_name] in *.
  destruct d as [?|mu sg|? ?|? ?]; cbn [rbind] in E; try discriminate.
  specialize (Hz v eq_refl Ev mu sg eq_refl). cbn [with_dev lv_dev rv_dist rv_gen rv_name] in E.
  destruct (rbind _ _) in E; [|discriminate]. rewrite Hz in E. cbn [negb] in E. inversion E; subst.
  destruct o; cbn in *. subst. reflexivity.
Qed.

Lemma export_recentres (o : lvar V) target x o' v mu sg t : cbi_export o target = (Ok x, o') ->
  lv_type o = Some t ->
  lv_deter o = Some v -> neqb v n0 = false -> rv_dist (lv_dev o) = DNormal mu sg -> neqb mu n0 = true ->
  o' = with_dev o (Rv (rv_gen (lv_dev o)) (DNormal (combine t v mu) sg) (rv_name (lv_dev o))).
Proof.
  unfold cbi_export. destruct (lv_devf o) eqn:Ef; cbn [negb]; [|discriminate].
  destruct (negb _); [discriminate|]. intros E Ht Ed Hv Hd Hmu. rewrite Ed in E. unfold truthy in E. rewrite Hv in E. cbn [negb] in E.
  unfold get_centre, set_centre in E. rewrite Hd, Ht in E. cbn [rbind] in E.
  destruct (rbind _ _) in E; [|discriminate]. rewrite Hmu in E. cbn [negb] in E. inversion E; subst.
  destruct t; reflexivity.
Qed.

(** Which distributions are handed over. *)
Lemma export_dev (o : lvar V) target x o' t : cbi_export o target = (Ok x, o') -> lv_type o = Some t ->
  exists mu' : dist V,
    (forall mu sg, rv_dist (lv_dev o) = DNormal mu sg -> mu' = DNormal
       (match lv_deter o with Some v => if neqb v n0 then mu else combine t v mu | None => mu end) sg) /\
    (target = "pymc"%string /\ (exists p, params_pymc mu' = Ok p /\ cbi_dev x = InPymc (rv_name (lv_dev o)) p) \/
     target = "pyro"%string /\ (exists p, params_pyro mu' = Ok p /\ cbi_dev x = InPyro (rv_name (lv_dev o)) p)).
Proof.
  unfold cbi_export. destruct (lv_devf o) eqn:Ef; cbn [negb]; [|discriminate].
  intros E Ht. rewrite Ht in E.
  set (o1 := match lv_deter o with Some v => if neqb v n0 then o else
     match set_centre (lv_dev o) v (Some (op_of t)) with Ok r => with_dev o r | Err _ => o end | None => o end).
  exists (rv_dist (lv_dev o1)). split.
  { intros mu sg Hd. unfold o1. destruct (lv_deter o) as [v|]; auto. destruct (neqb v n0); auto.
    unfold set_centre. rewrite Hd. cbn. destruct t; reflexivity. }
  assert (Hn : rv_name (lv_dev o1) = rv_name (lv_dev o)).
  { unfold o1. destruct (lv_deter o) as [v|]; auto. destruct (neqb v n0); auto.
    unfold set_centre. destruct (rv_dist (lv_dev o)); reflexivity. }
  assert (Et : (target = "pymc" \/ target = "pyro")%string).
  { destruct (String.eqb_spec target "pymc"); auto. destruct (String.eqb_spec target "pyro"); auto. discriminate. }
  replace (negb ((target =? "pymc")%string || (target =? "pyro")%string)) with false in E
    by (destruct Et; subst; reflexivity).
  assert (Hx : exists c, get_cbi_form (lv_dev o1) target = Ok c /\ cbi_dev x = c).
  { unfold truthy in E. unfold o1.
    destruct (lv_deter o) as [v|].
    2:{ destruct (get_cbi_form (lv_dev o) target) as [c|]; [|discriminate]. exists c. split; auto.
        cbn [rbind] in E. destruct (if lv_chpf o then _ else _) in E; [|discriminate].
        cbn [rbind] in E. destruct (if lv_lotf o then _ else _) in E; [|discriminate]. inversion E; reflexivity. }
    destruct (neqb v n0); cbn [negb] in E.
    { destruct (get_cbi_form (lv_dev o) target) as [c|]; [|discriminate]. exists c. split; auto.
      cbn [rbind] in E. destruct (if lv_chpf o then _ else _) in E; [|discriminate].
      cbn [rbind] in E. destruct (if lv_lotf o then _ else _) in E; [|discriminate]. inversion E; reflexivity. }
    assert (Hop : (match t with Scaling => Scaling | Offset => Offset end) = t) by (destruct t; reflexivity).
    rewrite Hop in E.
    destruct (get_centre (lv_dev o)) as [mu|]; [|discriminate]. cbn [rbind] in E.
    destruct (set_centre (lv_dev o) v (Some (op_of t))) as [r|]; [|discriminate]. cbn [rbind] in E.
    destruct (get_cbi_form (lv_dev (with_dev o r)) target) as [c|]; [|discriminate]. exists c. split; auto.
    cbn [rbind] in E. destruct (if lv_chpf _ then _ else _) in E; [|discriminate].
    cbn [rbind] in E. destruct (if lv_lotf _ then _ else _) in E; [|discriminate].
    cbn [rbind] in E. destruct (negb (neqb mu n0)); [destruct (set_centre _ mu None)|]; inversion E; reflexivity. }
  destruct Hx as (c & Hc & Hxc). unfold get_cbi_form in Hc. rewrite Hn in Hc.
  destruct Et; subst target; cbn in Hc.
  - left. split; auto. destruct (params_pymc _) as [p|]; [|discriminate]. exists p. cbn in Hc. inversion Hc; subst. auto.
  - right. split; auto. destruct (params_pyro _) as [p|]; [|discriminate]. exists p. cbn in Hc. inversion Hc; subst. auto.
Qed.

(** Names carried by the exported distributions. *)
Lemma form_named (r : rv V) target c : get_cbi_form r target = Ok c -> form_name c = rv_name r.
Proof.
  unfold get_cbi_form. destruct (String.eqb target "pymc").
  - destruct (params_pymc _); cbn; [|discriminate]. intros E; inversion E; reflexivity.
  - destruct (String.eqb target "pyro"); [|discriminate].
    destruct (params_pyro _); cbn; [|discriminate]. intros E; inversion E; reflexivity.
Qed.

Lemma export_names (o : lvar V) target x o' : cbi_export o target = (Ok x, o') ->
  form_name (cbi_dev x) = rv_name (lv_dev o) /\
  (match cbi_chp x with Some c => lv_chpf o = true /\ form_name c = rv_name (lv_chp o) | None => lv_chpf o = false end) /\
  (match cbi_lot x with Some c => lv_lotf o = true /\ form_name c = rv_name (lv_lot o) | None => lv_lotf o = false end).
Proof.
  unfold cbi_export. destruct (lv_devf o) eqn:Ef; cbn [negb]; [|discriminate].
  destruct (negb _); [discriminate|]. set (t := match lv_type o with Some Scaling => Scaling | _ => Offset end).
  set (pre := match lv_deter o with Some v => _ | None => _ end).
  assert (Hpre : forall old o1, pre = Ok (old, o1) ->
     rv_name (lv_dev o1) = rv_name (lv_dev o) /\ lv_chp o1 = lv_chp o /\ lv_chpf o1 = lv_chpf o /\
     lv_lot o1 = lv_lot o /\ lv_lotf o1 = lv_lotf o).
  { intros old o1. unfold pre. destruct (lv_deter o) as [v|]; [|intros E; inversion E; auto].
    destruct (truthy v); [|intros E; inversion E; auto].
    unfold get_centre, set_centre. destruct (rv_dist (lv_dev o)); try discriminate. cbn.
    intros E; inversion E; subst; auto. }
  destruct pre as [[old o1]|e]; [|discriminate]. destruct (Hpre _ _ eq_refl) as (Hn & Hc & Hcf & Hl & Hlf).
  rewrite Hc, Hcf, Hl, Hlf.
  destruct (get_cbi_form (lv_dev o1) target) as [d|] eqn:Ed; [|discriminate]. cbn [rbind].
  assert (Hlay : forall (f : bool) (r : rv V) y,
      (if f then rbind (get_cbi_form r target) (fun z => Ok (Some z)) else Ok None) = Ok y ->
      match y with Some c => f = true /\ form_name c = rv_name r | None => f = false end).
  { intros f r y. destruct f; [|intros E; inversion E; auto].
    destruct (get_cbi_form r target) eqn:Eg; cbn; [|discriminate]. intros E; inversion E; subst. split; auto.
    now apply form_named with target. }
  destruct (if lv_chpf o then _ else _) as [c|] eqn:Ec; [|discriminate]. cbn [rbind].
  destruct (if lv_lotf o then _ else _) as [l|] eqn:El; [|discriminate]. cbn [rbind].
  apply Hlay in Ec, El. apply form_named in Ed. rewrite Hn in Ed.
  assert (G : forall (A : res (cbi V) * lvar V), A = (Ok x, o') ->
     (fst A = Ok (Cbi t d c l) \/ exists e, fst A = Err e) ->
     form_name (cbi_dev x) = rv_name (lv_dev o) /\
     (match cbi_chp x with Some c => lv_chpf o = true /\ form_name c = rv_name (lv_chp o) | None => lv_chpf o = false end) /\
     (match cbi_lot x with Some c => lv_lotf o = true /\ form_name c = rv_name (lv_lot o) | None => lv_lotf o = false end)).
  { intros A -> [E|[e E]]; cbn in E; inversion E; subst. cbn. auto. }
  intros E. apply (G _ E). destruct old as [cc|]; cbn; auto. destruct (truthy cc); cbn; auto.
  destruct (set_centre _ _ _); cbn; eauto.
Qed.

Lemma init_names dev chp lot deter n vt (o : lvar V) : lvar_init dev chp lot deter (Some n) vt = Ok o ->
  lv_devf o = (if dev then true else false) /\ lv_chpf o = (if chp then true else false) /\
  lv_lotf o = (if lot then true else false) /\
  (dev <> None -> rv_name (lv_dev o) =
     Some (match chp, lot with None, None => n | _, _ => (n ++ "_dev")%string end)) /\
  (chp <> None -> rv_name (lv_chp o) = Some (n ++ "_chp")%string) /\
  (lot <> None -> rv_name (lv_lot o) = Some (n ++ "_lot")%string).
Proof.
  unfold lvar_init, set_type. destruct (vtype_of vt) as [t|] eqn:Et.
  2:{ destruct (layer n0 dev), (layer n0 chp), (layer n0 lot); discriminate. }
  destruct dev as [d|], chp as [c|], lot as [l|]; cbn; try (destruct deter; [|discriminate]);
    intros E; inversion E; subst; cbn; repeat split; auto; congruence.
Qed.

Lemma append_inj_l (n a b : string) : (n ++ a)%string = (n ++ b)%string -> a = b.
Proof. induction n as [|ch n IH]; cbn; auto. intros E. inversion E; auto. Qed.

Lemma export_distinct dev chp lot deter n vt (o : lvar V) target x o' :
  lvar_init dev chp lot deter (Some n) vt = Ok o -> cbi_export o target = (Ok x, o') ->
  form_name (cbi_dev x) = Some (match chp, lot with None, None => n | _, _ => (n ++ "_dev")%string end) /\
  (match cbi_chp x with Some c => chp <> None /\ form_name c = Some (n ++ "_chp")%string | None => chp = None end) /\
  (match cbi_lot x with Some c => lot <> None /\ form_name c = Some (n ++ "_lot")%string | None => lot = None end) /\
  NoDup (map form_name (cbi_parts x)).
Proof.
  intros Ei Ex. destruct (init_names _ _ _ _ _ _ _ Ei) as (Hdf & Hcf & Hlf & Hd & Hc & Hl).
  pose proof (export_names _ _ _ _ Ex) as (Nd_ & Nc & Nl).
  assert (Hdev : dev <> None).
  { intros ->. unfold cbi_export in Ex. rewrite Hdf in Ex. discriminate. }
  specialize (Hd Hdev). rewrite Hd in Nd_.
  assert (Nc' : match cbi_chp x with Some c => chp <> None /\ form_name c = Some (n ++ "_chp")%string | None => chp = None end).
  { destruct (cbi_chp x) as [c|]; rewrite Hcf in Nc; destruct chp; try discriminate; auto; [|now destruct Nc].
    destruct Nc as [_ Nc]. split; [discriminate|]. rewrite Nc. apply Hc. discriminate. }
  assert (Nl' : match cbi_lot x with Some c => lot <> None /\ form_name c = Some (n ++ "_lot")%string | None => lot = None end).
  { destruct (cbi_lot x) as [c|]; rewrite Hlf in Nl; destruct lot; try discriminate; auto; [|now destruct Nl].
    destruct Nl as [_ Nl]. split; [discriminate|]. rewrite Nl. apply Hl. discriminate. }
  split; [exact Nd_|]. split; [exact Nc'|]. split; [exact Nl'|].
  assert (Hs : forall a b, a <> b -> Some (n ++ a)%string <> Some (n ++ b)%string).
  { intros a b Hab E. inversion E as [E1]. apply append_inj_l in E1. auto. }
  assert (H3 : NoDup [Some (n ++ "_dev")%string; Some (n ++ "_chp")%string; Some (n ++ "_lot")%string]).
  { repeat constructor; cbn; intuition; (eapply Hs; [|eassumption]; discriminate). }
  unfold cbi_parts. destruct (cbi_chp x) as [c|], (cbi_lot x) as [l|]; cbn [map app].
  - destruct Nc' as [Hc1 ->], Nl' as [Hl1 ->]. rewrite Nd_. destruct chp; [|congruence]. exact H3.
  - destruct Nc' as [Hc1 ->]. rewrite Nd_. destruct chp; [|congruence].
    apply (NoDup_remove_1 [_; _] [] _ H3).
  - destruct Nl' as [Hl1 ->]. rewrite Nd_, Nc'. destruct lot; [|congruence].
    apply (NoDup_remove_1 [_] [_] _ H3).
  - repeat constructor. cbn. tauto.
Qed.
End Export.

(** Statistics of finite samples. *)
Lemma rsum_map_scale v l : rsum (map (fun x => v * x) l) = v * rsum l.
Proof. induction l; cbn; lra. Qed.
Lemma rsum_map_off v l : rsum (map (fun x => v + x) l) = INR (length l) * v + rsum l.
Proof.
  induction l as [|x l IH]; [cbn; lra|]. cbn [map rsum length]. rewrite IH, S_INR. lra.
Qed.

Lemma INR_len_pos (l : list R) : l <> [] -> 0 < INR (length l).
Proof. destruct l; [congruence|]. intros _. apply lt_0_INR. cbn; lia. Qed.

Lemma mean_scale v l : l <> [] -> mean (map (fun x => v * x) l) = v * mean l.
Proof. intros Hl. apply INR_len_pos in Hl. unfold mean. rewrite rsum_map_scale, map_length. field. lra. Qed.
Lemma mean_off v l : l <> [] -> mean (map (fun x => v + x) l) = v + mean l.
Proof. intros Hl. apply INR_len_pos in Hl. unfold mean. rewrite rsum_map_off, map_length. field. lra. Qed.
Lemma var_scale v l : l <> [] -> var (map (fun x => v * x) l) = v ^ 2 * var l.
Proof.
  intros Hl. unfold var. rewrite mean_scale, map_length, map_map by auto.
  rewrite (map_ext _ (fun x => v ^ 2 * ((x - mean l) ^ 2))) by (intros; ring).
  rewrite <- (map_map (fun x => (x - mean l) ^ 2) (fun y => v ^ 2 * y)), rsum_map_scale.
  apply INR_len_pos in Hl. field. lra.
Qed.
Lemma var_off v l : l <> [] -> var (map (fun x => v + x) l) = var l.
Proof.
  intros Hl. unfold var. rewrite mean_off, map_length, map_map by auto. do 2 f_equal.
  apply map_ext. intros; f_equal; ring.
Qed.

Lemma export_spread (o : lvar R) target x o' t v mu sg xs :
  cbi_export o target = (Ok x, o') -> lv_type o = Some t -> lv_deter o = Some v -> v <> 0 ->
  rv_dist (lv_dev o) = DNormal mu sg -> 0 <= sg ->
  xs <> [] -> mean xs = mu -> var xs = sg ^ 2 ->
  exists m s, (cbi_dev x = InPymc (rv_name (lv_dev o)) (MNormal m s) \/
               cbi_dev x = InPyro (rv_name (lv_dev o)) (YNormal m s)) /\
    m = mean (map (combine t v) xs) /\
    (s ^ 2 = var (map (combine t v) xs) <-> (t = Offset \/ Rabs v = 1 \/ sg = 0)).
Proof.
  intros E Ht Hv Hv0 Hd Hsg Hxs Hmu Hvar.
  destruct (export_dev o target x o' t E Ht) as (d' & Hd' & Hform).
  specialize (Hd' mu sg Hd). rewrite Hv in Hd'.
  replace (neqb v n0) with false in Hd'.
  2:{ symmetry. cbn. apply Req_bool_false. rewrite q2r0. exact Hv0. }
  subst d'. exists (combine t v mu), sg. split.
  { destruct Hform as [[_ (p & Hp & Hx)]|[_ (p & Hp & Hx)]]; cbn in Hp; inversion Hp; subst p; auto. }
  destruct t; cbn [combine nmul nadd ROps].
  - split; [rewrite mean_scale by auto; now rewrite Hmu|]. rewrite var_scale by auto. rewrite Hvar.
    split.
    + intros E1. assert (E2 : sg ^ 2 * (v ^ 2 - 1) = 0) by lra.
      apply Rmult_integral in E2 as [E2|E2].
      * right. right. nra.
      * right. left. assert (E3 : Rabs v ^ 2 = 1) by (rewrite pow2_abs; lra).
        pose proof (Rabs_pos v). nra.
    + intros [E1|[E1|E1]]; [discriminate| |subst; ring].
      rewrite <- (pow2_abs v), E1. ring.
  - split; [rewrite mean_off by auto; now rewrite Hmu|]. rewrite var_off by auto. split; auto.
Qed.
