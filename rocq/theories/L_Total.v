(** Lemmas: a well-posed experiment runs to the end. *)
From Coq Require Import Arith.
From Verif Require Import M_Base M_Num M_Nd M_RandVar M_Latent M_Time M_TestSpec M_Minimize M_Device M_Report M_Env M_Sim
  S_TestSpec S_Device S_Latent S_Env S_Sim S_Report S_Shape S_Total
  L_Base L_Nd L_Latent L_TestSpec L_Device L_Device2 L_Device3 L_Env L_Env2 L_Env3 L_Sim L_Sim2 L_Sim3 L_Report L_Shape L_Shape2 S_CookEnv L_CookEnv.
Open Scope nat_scope.

(** [m] returns in every world, with a result that satisfies [P]. *)
Definition runs {A} (m : M A) (P : A -> Prop) : Prop := forall w, exists a w', m w = (Ok a, w') /\ P a.

Lemma runs_ret {A} (a : A) (P : A -> Prop) : P a -> runs (ret a) P.
Proof. intros H w. exists a, w. split; auto. Qed.
Lemma runs_lift {A} (r : res A) (P : A -> Prop) a : r = Ok a -> P a -> runs (lift r) P.
Proof. intros -> H w. exists a, w. split; auto. Qed.
Lemma runs_bind {A B} (m : M A) (f : A -> M B) (P : A -> Prop) (Q : B -> Prop) :
  runs m P -> (forall a, P a -> runs (f a) Q) -> runs (bind m f) Q.
Proof.
  intros Hm Hf w. destruct (Hm w) as (a & w1 & E & Ha). destruct (Hf a Ha w1) as (b & w2 & E2 & Hb).
  exists b, w2. split; auto. rewrite (bind_eval _ _ _ _ _ E). exact E2.
Qed.
Lemma runs_bind_lift {A B} (r : res A) (f : A -> M B) (Q : B -> Prop) a : r = Ok a -> runs (f a) Q -> runs (bind (lift r) f) Q.
Proof. intros -> Hf w. destruct (Hf w) as (b & w2 & E2 & Hb). exists b, w2. auto. Qed.
Lemma runs_get {A B} (d : dict A) k (f : A -> M B) (Q : B -> Prop) a : dget d k = Some a -> runs (f a) Q -> runs (bind (lift (dgetE d k)) f) Q.
Proof. intros E. apply runs_bind_lift. now apply dgetE_ok. Qed.
Lemma runs_fold {A S} (P : list A -> S -> Prop) (f : S -> A -> M S) l : forall s done,
  P done s -> (forall done x s, In x l -> P done s -> runs (f s x) (P (done ++ [x]))) -> runs (foldM f l s) (P (done ++ l)).
Proof.
  induction l as [|x l IH]; intros s done H0 H1; cbn [foldM].
  - rewrite app_nil_r. now apply runs_ret.
  - eapply runs_bind; [apply H1; [now left|exact H0]|]. intros s' Hs.
    replace (done ++ x :: l) with ((done ++ [x]) ++ l) by (rewrite <- app_assoc; reflexivity).
    apply IH; auto. intros dn y s2 Hin. apply H1. now right.
Qed.
Lemma runs_impl {A} (m : M A) (P Q : A -> Prop) : (forall a, P a -> Q a) -> runs m P -> runs m Q.
Proof. intros H Hm w. destruct (Hm w) as (a & w' & E & Ha). eauto. Qed.
Lemma runs_know {A} (m : M A) (P Q : A -> Prop) : runs m P -> (forall w a w', m w = (Ok a, w') -> P a -> Q a) -> runs m Q.
Proof. intros Hm H w. destruct (Hm w) as (a & w' & E & Ha). eauto. Qed.
(** a loop that fills a dictionary *)
Lemma runs_dset {A B} (g : string * A -> M B) (P : string -> B -> Prop) l : NoDup (map fst l) ->
  (forall kv, In kv l -> runs (g kv) (P (fst kv))) ->
  runs (foldM (fun acc kv => (x <- g kv ;; ret (dset acc (fst kv) x))%m) l [])
       (fun r => dkeys r = map fst l /\ forall k, In k (map fst l) -> exists v, dget r k = Some v /\ P k v).
Proof.
  intros W Hg.
  assert (G : forall l done acc, NoDup (map fst (done ++ l)) -> (forall kv, In kv l -> runs (g kv) (P (fst kv))) ->
    dkeys acc = map fst done -> (forall k, In k (map fst done) -> exists v, dget acc k = Some v /\ P k v) ->
    runs (foldM (fun acc kv => (x <- g kv ;; ret (dset acc (fst kv) x))%m) l acc)
      (fun r => dkeys r = map fst (done ++ l) /\ forall k, In k (map fst (done ++ l)) -> exists v, dget r k = Some v /\ P k v)).
  { clear l W Hg. induction l as [|[k a] l IH]; intros done acc W Hg K D; cbn [foldM].
    - rewrite app_nil_r. apply runs_ret. split; auto.
    - eapply runs_bind with (P := fun acc' => dkeys acc' = map fst (done ++ [(k, a)]) /\
         (forall x, In x (map fst (done ++ [(k, a)])) -> exists v, dget acc' x = Some v /\ P x v)).
      + eapply runs_bind; [apply Hg; now left|]. intros v Hv. cbn [fst] in *. apply runs_ret.
        assert (N : ~ In k (map fst done)).
        { rewrite map_app in W. cbn [map fst] in W. apply NoDup_remove_2 in W. intros I. apply W. apply in_or_app. now left. }
        rewrite dset_app_new by (rewrite K; exact N). split.
        * unfold dkeys in *. rewrite !map_app, K. reflexivity.
        * intros x Hx. rewrite map_app in Hx. apply in_app_or in Hx.
          rewrite <- dset_app_new by (rewrite K; exact N). rewrite dget_dset.
          destruct (String.eqb_spec k x) as [<-|Hne]; [eauto|]. destruct Hx as [Hx|[Hx|[]]]; [auto|contradiction].
      + intros acc' [K' D']. replace (done ++ (k, a) :: l) with ((done ++ [(k, a)]) ++ l) in * by (rewrite <- app_assoc; reflexivity).
        apply IH; auto. intros kv Hin. apply Hg. now right. }
  apply (G l [] []); auto. intros k [].
Qed.

Section L.
Context {V : Type} `{NumOps V} `{Rng V} `{HashOrd}.

(** ** Sampling *)
Lemma sample_runs (r : rv V) n : drawable r -> runs (sample r n) (fun xs => length xs = n).
Proof.
  intros D w. assert (G : exists xs w', sample r n w = (Ok xs, w')).
  { unfold sample, drawable in *. destruct (rv_dist r) as [v|mu s|a b|a b]; cbn [params_numpy].
    - eexists _, _. reflexivity.
    - rewrite D. destruct (draws _ n _). eauto.
    - destruct D as [-> ->]. destruct (draws _ n _). eauto.
    - rewrite D. destruct (draws _ n _). eauto. }
  destruct G as (xs & w' & E). exists xs, w'. split; auto. eapply sample_length; eauto.
Qed.

Lemma gen_latent_runs (o : lvar V) D C L : latent_ok o -> runs (gen_latent o D C L) (fun a => shaped L C D (PArr a)).
Proof.
  intros (Op & Dd & Dc & Dl). unfold gen_latent.
  eapply runs_know with (P := fun _ => True); [|intros w a w' E _; eapply gen_latent_shape; exact E].
  eapply runs_bind; [apply sample_runs, Dl|]. intros lots Hl.
  eapply runs_bind; [apply sample_runs, Dc|]. intros chps Hc.
  eapply runs_bind; [apply sample_runs, Dd|]. intros devs Hd.
  rewrite (nreshape_ok [L; 1; 1]) by (rewrite Hl; cbn; ring).
  rewrite (nreshape_ok [L; C; 1]) by (rewrite Hc; cbn; ring).
  rewrite (nreshape_ok [L; C; D]) by (rewrite Hd; cbn; ring). cbn [rbind].
  destruct (lv_op o) as [t|]; [|congruence].
  destruct (lv_deter o) as [v|].
  - rewrite (bmap2_shape3 (op_of t) (nfull [L; C; D] v) (Nd [L; C; D] devs) L C D L C D) by auto. cbn [rbind].
    erewrite bmap2_shape3 with (L := L) (C := C) (D := D) (L' := L) (C' := C) (D' := 1) by (try reflexivity; auto). cbn [rbind].
    erewrite bmap2_shape3 with (L := L) (C := C) (D := D) (L' := L) (C' := 1) (D' := 1) by (try reflexivity; auto).
    eapply runs_lift; eauto.
  - cbn [rbind].
    erewrite bmap2_shape3 with (L := L) (C := C) (D := D) (L' := L) (C' := C) (D' := 1) by (try reflexivity; auto). cbn [rbind].
    erewrite bmap2_shape3 with (L := L) (C := C) (D := D) (L' := L) (C' := 1) (D' := 1) by (try reflexivity; auto).
    eapply runs_lift; eauto.
Qed.

Definition lat_vals (m : lmdl V) L C D (l : dict (pyval V)) : Prop :=
  dwf l /\ (forall x, In x (dkeys l) <-> In x (dkeys (lm_vars m))) /\ (forall x v, In (x, v) l -> shaped L C D v).

Lemma gen_latents_runs (m : lmdl V) D C L : latents_ok m -> runs (gen_latents m D C L) (lat_vals m L C D).
Proof.
  intros Ok_. unfold gen_latents.
  eapply runs_know with (P := fun l => forall x, In x (dkeys l) <-> In x (dkeys (lm_vars m))).
  - eapply runs_impl; [|eapply runs_fold with (P := fun done (l : dict (pyval V)) => forall x, In x (dkeys l) <-> In x (map fst done)) (done := [])].
    + intros a Ha. exact Ha.
    + intros x. cbn. tauto.
    + intros done [k o] acc Hin Hacc. eapply runs_bind; [apply gen_latent_runs; eapply Ok_; eauto|]. intros a _. apply runs_ret.
      intros x. cbn [fst]. rewrite map_app, in_app_iff. cbn [map fst In]. rewrite <- Hacc. rewrite <- !dmem_keys, dmem_dset, Bool.orb_true_iff, String.eqb_eq. tauto.
  - intros w l w' E K. destruct (gen_latents_shape _ _ _ _ _ _ _ E) as (S1 & W & _). repeat split; auto; apply K.
Qed.

Definition deg_lats (p : degprm V) L C D (ls : dict (pyval V)) : Prop :=
  lats_fit p L C D ls /\
  (exists l, dget ls "cond" = Some (PDict l) /\ lat_vals (dp_cond p) L C D l) /\
  (forall nm m, dget (dp_mechs p) nm = Some m -> exists l, dget ls nm = Some (PDict l) /\ lat_vals (mc_mdl m) L C D l) /\
  (forall x, In x (dkeys (lm_vars (dp_own p))) -> In x (dkeys ls)).

Lemma dkeys_dupdate {A} (e : dict A) x : forall d, In x (dkeys (dupdate d e)) <-> In x (dkeys d) \/ In x (dkeys e).
Proof.
  unfold dupdate. induction e as [|[k a] e IH]; intros d; cbn [fold_left fst snd]; [cbn; tauto|].
  rewrite IH. rewrite <- (dmem_keys (dset d k a)), dmem_dset, Bool.orb_true_iff, String.eqb_eq, dmem_keys. cbn [dkeys map fst In]. tauto.
Qed.

Lemma prm_latents_runs (p : degprm V) l name D C L : dwf (dp_mechs p) -> deg_ok l name p ->
  runs (prm_latents p D C L) (deg_lats p L C D).
Proof.
  intros W O. destruct (do_lats _ _ _ O) as (_ & Lc & Lo & Lm). destruct (do_names _ _ _ O) as (Nm & No).
  eapply runs_know with (P := fun ls : dict (pyval V) => (exists l, dget ls "cond" = Some (PDict l) /\ lat_vals (dp_cond p) L C D l) /\
  (forall nm m, dget (dp_mechs p) nm = Some m -> exists l, dget ls nm = Some (PDict l) /\ lat_vals (mc_mdl m) L C D l) /\
  (forall x, In x (dkeys (lm_vars (dp_own p))) -> In x (dkeys ls)));
    [|intros w ls w' E Hls; split; [eapply prm_latents_shape; exact E|exact Hls]].
  unfold prm_latents. eapply runs_bind; [apply gen_latents_runs, Lc|]. intros c Hc.
  eapply runs_bind.
  { eapply runs_fold with (done := []) (P := fun done (acc : dict (pyval V)) => incl done (dp_mechs p) /\ dget acc "cond" = Some (PDict c) /\
      forall nm m, In (nm, m) done -> exists l, dget acc nm = Some (PDict l) /\ lat_vals (mc_mdl m) L C D l).
    - split; [intros x []|]. split; [reflexivity|]. intros nm m [].
    - intros done [k m] acc Hin (I & Hcd & Hm). eapply runs_bind; [apply gen_latents_runs; eapply Lm; apply dget_wf_In; eauto|].
      intros x Hx. apply runs_ret. cbn [fst snd] in *. split; [|split].
      + intros y Hy. apply in_app_or in Hy as [Hy|[<-|[]]]; auto.
      + rewrite dget_dset_neq; auto. intros ->. apply (in_map fst) in Hin. apply Nm in Hin. tauto.
      + intros nm m' Hy. rewrite dget_dset. destruct (String.eqb_spec k nm) as [<-|Hne].
        * assert (In (k, m') (dp_mechs p)) as I2 by (apply in_app_or in Hy as [Hy|[Hy|[]]]; [auto|congruence]).
          apply dget_wf_In in I2; auto. apply dget_wf_In in Hin; auto. rewrite Hin in I2. injection I2 as <-. eauto.
        * apply in_app_or in Hy as [Hy|[Hy|[]]]; [eauto|congruence]. }
  intros ls (_ & Hcd & Hm). cbn [app] in Hm.
  eapply runs_bind; [apply gen_latents_runs, Lo|]. intros own (Wo & Ko & _). apply runs_ret.
  assert (K : forall x, In x (dkeys own) -> x <> "cond"%string /\ ~ In x (dkeys (dp_mechs p))) by (intros x Hx; apply No, Ko, Hx).
  split; [|split].
  - exists c. split; auto. rewrite dget_dupdate_other; auto. intros I. apply K in I. tauto.
  - intros nm m Hnm. rewrite dget_dupdate_other; [apply Hm; now apply dget_In|]. intros I. apply K in I as [_ I]. apply I.
    apply dget_In in Hnm. now apply (in_map fst) in Hnm.
  - intros x Hx. apply dkeys_dupdate. right. now apply Ko.
Qed.

Lemma accepts_same (f : eqn V) n1 n2 : (forall x, In x n1 <-> In x n2) -> accepts f n1 -> accepts f n2.
Proof. intros K [A B]. split; [intros x Hx; apply K; auto|intros E x Hx; apply B; auto; now apply K]. Qed.

Lemma init_vals_runs (m : lmdl V) D C L : latents_ok m -> lm_vars m <> [] -> accepts (lm_eqn m) (dkeys (lm_vars m)) -> computes (lm_eqn m) ->
  runs (gen_init_vals m D C L) (fun _ => True).
Proof.
  intros Lm Ne A Cm. unfold gen_init_vals. eapply runs_bind; [apply gen_latents_runs, Lm|]. intros l (W & K & S1) w.
  destruct (Cm L C D l w W) as (v & w' & E).
  - intros x p Hx. right. eauto.
  - eapply accepts_same; [|exact A]. intros x. symmetry. apply K.
  - eauto.
Qed.

Lemma runs_at {A} (m : M A) (P : A -> Prop) w a w' : runs m P -> m w = (Ok a, w') -> P a.
Proof. intros Hm E. destruct (Hm w) as (b & w2 & E2 & Hb). rewrite E2 in E. injection E as <- <-. exact Hb. Qed.

(** ** Initial state *)
Lemma dev_init_runs d l counts C L : device_ok d l L C -> (forall x, In x (dkeys d) -> dmem counts x = true) ->
  runs (dev_init_state d counts C L) (fun r => snd r = counts).
Proof.
  intros O K. destruct (dk_wf _ _ _ _ O) as [W Wm]. unfold dev_init_state.
  eapply runs_bind.
  { eapply runs_fold with (done := []) (P := fun _ (g : gstate V) => g_counts g = counts); [reflexivity|].
    intros _ [name q] g Hin Hg. unfold gen_prm_state. cbn [fst snd].
    assert (Hm : dmem counts name = true) by (apply K; apply (in_map fst) in Hin; exact Hin).
    destruct (dmem_Some _ _ Hm) as [n Hn]. rewrite Hg, Hm. pose proof (dget_wf_In _ _ _ W Hin) as Hq.
    eapply runs_get; [exact Hn|]. destruct q as [p|c].
    - pose proof (dk_deg _ _ _ _ O _ _ Hq) as Od.
      eapply runs_bind; [eapply prm_latents_runs; eauto|]. intros lats _.
      eapply runs_bind_lift; [reflexivity|].
      destruct (do_init _ _ _ Od) as (I1 & I2 & I3). destruct (do_lats _ _ _ Od) as (I4 & _).
      eapply runs_bind with (P := fun _ => True).
      + eapply runs_get; [exact Hn|]. eapply runs_bind; [eapply init_vals_runs; eauto|]. intros v _. now apply runs_ret.
      + intros prms _. now apply runs_ret.
    - pose proof (dk_circ _ _ _ _ O _ _ Hq) as Od.
      eapply runs_bind; [eapply gen_latents_runs; apply (co_lats _ _ _ _ Od)|]. intros lats _.
      eapply runs_bind_lift; [reflexivity|].
      eapply runs_bind with (P := fun _ => True); [now apply runs_ret|]. intros prms _. now apply runs_ret. }
  intros g Hg. now apply runs_ret.
Qed.

(** What holds of the state all the time. *)
Definition inv (d : device V) L C (counts : dict nat) (st : simstate V) : Prop :=
  state_fits d L C counts st /\
  (forall name p n, dget d name = Some (PDeg p) -> dget counts name = Some n ->
     exists ls, dget (st_lat st) name = Some ls /\ deg_lats p L C n ls) /\
  (forall name p, dget d name = Some (PDeg p) ->
     exists m0, dget (st_mech0 st) name = Some m0 /\ forall nm, In nm (dkeys (dp_mechs p)) -> exists v, dget m0 nm = Some v) /\
  (forall name c n, dget d name = Some (PCirc c) -> dget counts name = Some n ->
     exists ls, dget (st_lat st) name = Some ls /\ lat_vals c L C n ls) /\
  (forall name, (forall p, dget d name <> Some (PDeg p)) -> dget (st_prm st) name = None) /\
  exists x, st_elapsed st = TD x.

Lemma dev_init_inv d l counts C L w st cnt w' : device_ok d l L C -> (forall q n, dget counts q = Some n -> needs d l q n) ->
  dev_init_state d counts C L w = (Ok (st, cnt), w') -> inv d L C counts st.
Proof.
  intros O Hns E. pose proof (dk_wf _ _ _ _ O) as W. pose proof (dev_init_shape _ _ _ _ _ _ _ _ _ W (dk_regular _ _ _ _ O) Hns E) as F.
  apply dev_init_ok in E as (-> & T & P0 & M0 & _ & Hd & Hc & Hn); [|apply W]. destruct W as [W Wm].
  split; [exact F|]. split; [|split; [|split; [|split]]].
  - intros name p n Hp Hcn. destruct (Hd name p Hp) as (n' & lats & v & wa & wb & wc & A & B & G & _).
    rewrite A in Hcn. injection Hcn as <-. exists lats. split; auto. eapply runs_at; [|exact G].
    eapply prm_latents_runs; [eapply Wm; eauto|eapply dk_deg; eauto].
  - intros name p Hp. destruct (Hd name p Hp) as (n' & lats & v & wa & wb & wc & A & B & G & M & _).
    exists (prm_init_mech p n' C L). rewrite M0. split; auto. intros nm Hnm. apply dmem_keys in Hnm. apply dmem_Some in Hnm as [m Hm].
    exists (mech_init_vals m n' C L). apply init_mech_get; eauto.
  - intros name c n Hp Hcn. destruct (Hc name c Hp) as (n' & lats & wa & wb & A & B & G & _).
    rewrite A in Hcn. injection Hcn as <-. exists lats. split; auto. eapply runs_at; [|exact G].
    apply gen_latents_runs. apply (co_lats _ _ _ _ (dk_circ _ _ _ _ O _ _ Hp)).
  - intros name N. destruct (dget d name) as [[p|c]|] eqn:Q.
    + exfalso. eapply N; eauto.
    + destruct (Hc name c Q) as (n' & lats & wa & wb & _ & _ & _ & A & _). exact A.
    + now apply Hn.
  - eauto.
Qed.

(** ** The environment *)
Lemma vrtn_ok_mdl (e : env V) l x : env_ok e l -> exists m, vrtn_mdl e x = Ok m /\ vrtn_ok m.
Proof.
  intros (Hv & _). unfold vrtn_mdl. destruct (dget e (x ++ "_var")) as [a|] eqn:E.
  - destruct (Hv _ _ E) as (m & -> & Hm). eauto.
  - exists (still_mdl (V := V)). split; [reflexivity|]. split; [discriminate|]. repeat split.
Qed.

Lemma gen_batch_runs (o : emdl V) v : vrtn_ok o -> runs (gen_batch o v) (fun b => exists y, b = Nd [1] [y]).
Proof.
  intros (Op & Db & _). eapply runs_know with (P := fun _ => True).
  - unfold gen_batch. eapply runs_bind; [apply sample_runs, Db|]. intros xs Hx. unfold em_opE. destruct (em_op o) as [t|]; [|congruence]. cbn [rbind].
    rewrite bmap2_scalar_l. eapply runs_lift; [reflexivity|trivial].
  - intros w b w' E _. apply gen_batch_ok in E as (t & xb & _ & _ & ->). eauto.
Qed.
Lemma gen_chp_runs (o : emdl V) y C L : vrtn_ok o -> runs (gen_chp o (Nd [1] [y]) C L) (fun c => exists cs, c = Nd [L; C] cs /\ length cs = L * C).
Proof.
  intros (Op & _ & Dc & _). eapply runs_know with (P := fun _ => True).
  - unfold gen_chp. eapply runs_bind_lift; [apply nfull_arr1|]. unfold em_opE. destruct (em_op o) as [t|]; [|congruence].
    eapply runs_bind_lift; [reflexivity|]. eapply runs_bind; [apply sample_runs, Dc|]. intros xs Hx.
    rewrite (nreshape_ok [L; C]) by (rewrite Hx; cbn; ring). cbn [rbind]. rewrite bmap2_same by reflexivity. eapply runs_lift; [reflexivity|trivial].
  - intros w b w' E _. apply gen_chp_ok in E as (t & xs & _ & _ & -> & Ls). eexists. split; [reflexivity|]. now rewrite map_length.
Qed.
Lemma gen_dev_runs (o : emdl V) cs L C D : vrtn_ok o -> length cs = L * C -> runs (gen_dev o (Nd [L; C] cs) D) (fun a => shaped L C D (PArr a)).
Proof.
  intros (Op & _ & _ & Dd) Ls w. destruct (em_op o) as [t|] eqn:T; [|congruence].
  assert (E' : gen_dev (fab o t) (Nd [L; C] cs) D w = gen_dev o (Nd [L; C] cs) D w).
  { unfold gen_dev, em_opE. cbn [fab em_op em_dev]. now rewrite T. }
  pose proof (gen_dev_eq _ _ cs L C D w (fab_rep o t) Ls) as G. cbn [fab em_dev fabs et_type] in G.
  destruct (sample_runs (em_dev o) (D * (L * C)) Dd w) as (xs & w1 & Es & _). rewrite Es in G.
  destruct G as (a & G & S1 & S2 & _). rewrite E' in G. exists a, w1. split; auto. exists a. auto.
Qed.

Lemma conds_runs e l base prms info dev stress nc nl : env_ok e l -> dwf base -> answerable base prms info dev ->
  runs (gen_env_cond_vals e base prms info dev stress nc nl) (fun _ => True).
Proof.
  intros Oe W [Hi Ha]. unfold gen_env_cond_vals.
  set (C := match info with Some i => ti_chps i | None => nc end). set (L := match info with Some i => ti_lots i | None => nl end).
  eapply runs_bind with (P := fun bc : dict (nd V) * dict (nd V) => forall k, In k (dkeys base) ->
     exists y cs, dget (fst bc) k = Some (Nd [1] [y]) /\ dget (snd bc) k = Some (Nd [L; C] cs) /\ length cs = L * C).
  { unfold gen_chip_conds. eapply runs_impl; [|eapply runs_fold with (done := []) (P := fun done (bc : dict (nd V) * dict (nd V)) => forall k, In k (map fst done) ->
     exists y cs, dget (fst bc) k = Some (Nd [1] [y]) /\ dget (snd bc) k = Some (Nd [L; C] cs) /\ length cs = L * C)].
    - intros a Hb. exact Hb.
    - intros k [].
    - intros done [k v] bc Hin Hbc. destruct (vrtn_ok_mdl e l k Oe) as (m & Em & Om). cbn [fst snd]. eapply runs_bind_lift; [exact Em|].
      eapply runs_bind; [apply gen_batch_runs, Om|]. intros b (y & ->). eapply runs_bind; [apply gen_chp_runs, Om|]. intros c (cs & -> & Lc).
      apply runs_ret. intros k' Hk. cbn [fst snd]. rewrite !dget_dset. destruct (String.eqb_spec k k') as [<-|Hne]; [eauto|].
      rewrite map_app in Hk. apply in_app_or in Hk as [Hk|[Hk|[]]]; [auto|contradiction]. }
  intros bc K. eapply runs_bind with (P := fun pc => fst pc = request prms /\ forall x, dget (snd pc) x = request_count prms info x).
  { destruct prms as [pl|d]; [|apply runs_ret; auto]. destruct info as [i|]; [|congruence]. apply runs_ret. auto. }
  intros [names counts] [Hn Hc]. cbn [fst snd] in *. subst names.
  eapply runs_fold with (done := []) (P := fun _ (_ : dict (dict (pyval V))) => True); auto.
  intros _ x acc Hx _. destruct (Ha x Hx) as [[n Hn] Hd]. unfold dev_prm in Hd. rewrite <- Hc in Hn.
  eapply runs_bind with (P := fun _ => True); [|intros; now apply runs_ret].
  destruct (match dev with Some d => dget d x | None => None end) as [q|].
  - unfold gen_prm_conds. eapply runs_fold with (done := []) (P := fun _ (_ : dict (pyval V)) => True); auto.
    intros _ c acc' Hin _. apply depends_In in Hin as [Hin _]. destruct (K c Hin) as (y & cs & _ & E & Ls).
    destruct (vrtn_ok_mdl e l c Oe) as (m & Em & Om). eapply runs_bind_lift; [exact Em|].
    eapply runs_get; [exact E|]. eapply runs_get; [exact Hn|]. eapply runs_bind; [apply gen_dev_runs; eauto|]. intros a _. now apply runs_ret.
  - destruct (K x (Hd eq_refl)) as (y & cs & E & _). unfold gen_sensor_conds.
    destruct (vrtn_ok_mdl e l x Oe) as (m & Em & Om). eapply runs_bind_lift; [exact Em|].
    eapply runs_get; [exact E|]. eapply runs_get; [exact Hn|]. eapply runs_bind; [apply gen_chp_runs, Om|]. intros c (cs' & -> & Lc).
    eapply runs_bind; [apply gen_dev_runs; eauto|]. intros a _. now apply runs_ret.
Qed.

(** ** Calls *)
Lemma first_of_some (src : list (dict (pyval V))) x : (exists d, In d src /\ In x (dkeys d)) -> exists v, first_of src x = Some v.
Proof.
  induction src as [|d src IH]; intros (d' & Hin & Hx); [destruct Hin|]. cbn [first_of]. destruct (dget d x) as [v|] eqn:E; [eauto|].
  destruct Hin as [<-|Hin]; [apply dget_None_keys in E; contradiction|]. apply IH. eauto.
Qed.

Lemma gather_accepts (f : eqn V) (src : list (dict (pyval V))) acc :
  (forall x, In x (e_req f) -> In x (dkeys acc) \/ exists d, In d src /\ In x (dkeys d)) ->
  (e_kw f = None -> forall x, In x (dkeys acc) -> In x (e_req f) \/ In x (e_opt f)) ->
  accepts f (dkeys (gather (compute_args f) src acc)).
Proof.
  intros R K. split.
  - intros x Hx. apply dmem_keys. unfold dmem. rewrite gather_get.
    assert (smem x (compute_args f) = true) as -> by (apply smem_In; unfold compute_args; apply in_or_app; now left).
    destruct (R x Hx) as [Ha|Hs].
    + destruct (first_of src x); auto. apply dmem_keys in Ha. exact Ha.
    + destruct (first_of_some src x Hs) as [v ->]. reflexivity.
  - intros Ek x Hx. apply dmem_keys in Hx. unfold dmem in Hx. rewrite gather_get in Hx.
    destruct (smem x (compute_args f)) eqn:Sx.
    + apply smem_In in Sx. unfold compute_args in Sx. rewrite Ek, app_nil_r in Sx. now apply in_app_or in Sx.
    + apply K; auto. apply dmem_keys. exact Hx.
Qed.

Definition mech_given (L C n : nat) (m : mech V) (l cs : dict (pyval V)) : Prop :=
  takes_time (lm_eqn (mc_mdl m)) /\ computes_somehow (lm_eqn (mc_mdl m)) /\ numeric_at L C n (lm_eqn (mc_mdl m)) /\
  forall x, In x (e_req (lm_eqn (mc_mdl m))) -> x = "time"%string \/ In x (dkeys l) \/ In x (dkeys cs).

Lemma mech_accepts L C n m (t : pyval V) cs l : mech_given L C n m l cs -> accepts (lm_eqn (mc_mdl m)) (dkeys (mech_args m t cs l)).
Proof.
  intros (T & _ & _ & R). apply gather_accepts.
  - intros x Hx. destruct (R x Hx) as [->|[K|K]]; [left; now left|right; exists l; split; [now left|auto]|right; exists cs; split; [right; now left|auto]].
  - intros Ek x [<-|[]]. destruct T as [T|[T|T]]; auto. contradiction.
Qed.

Lemma mech_args_wf m (t : pyval V) cs l : dwf (mech_args m t cs l).
Proof. apply gather_wf. repeat constructor. intros []. Qed.

Lemma mech_call m (t : pyval V) cs l L C n : mech_given L C n m l cs -> operand L C n t -> operands L C n cs -> operands L C n l ->
  runs (call_or_loop (lm_eqn (mc_mdl m)) (mech_args m t cs l) L C n) (operand L C n).
Proof.
  intros G Ot Oc Ol. pose proof (mech_accepts L C n m t cs l G) as A. destruct G as (_ & Cs & Nm & _).
  pose proof (mech_args_wf m t cs l) as W. pose proof (mech_args_operands m t cs l L C n Ot Oc Ol) as Oa. intros w.
  destruct (Cs L C n _ w W Oa A) as (v & w' & E). exists v, w'. split; auto. eapply numeric_call; eauto.
Qed.

Lemma pmap2_runs f L C n (x y : pyval V) : operand L C n x -> operand L C n y -> exists z, pmap2 f x y = Ok z /\
  operand L C n z /\ (shaped L C n x \/ shaped L C n y -> shaped L C n z).
Proof.
  intros Hx Hy. assert (G : exists z, pmap2 f x y = Ok z).
  { unfold pmap2. destruct Hx as [[u ->]|(a & -> & A1 & A2)], Hy as [[v ->]|(b & -> & B1 & B2)]; cbn [to_nd rbind].
    - eexists; reflexivity.
    - rewrite bmap2_scalar_l. eexists; reflexivity.
    - rewrite bmap2_scalar_r. eexists; reflexivity.
    - rewrite bmap2_same by congruence. eexists; reflexivity. }
  destruct G as [z E]. exists z. split; auto. eapply pmap2_shape; eauto.
Qed.

(** ** Equivalent stress times *)
Lemma evalF_runs lg (F : list V -> M (list V)) n xs : length xs = n -> (forall ys, length ys = n -> runs (F ys) (fun fs => length fs = n)) ->
  runs (evalF lg F xs) (fun fs => length fs = n).
Proof.
  intros Lx HF. unfold evalF. eapply runs_bind; [apply HF; now rewrite map_length|]. intros fs Lf.
  rewrite Lf, Lx, Nat.eqb_refl. now apply runs_ret.
Qed.

Lemma mloop_runs rt at_ lg (F : list V -> M (list V)) n fuel : (forall ys, length ys = n -> runs (F ys) (fun fs => length fs = n)) ->
  forall ss ev, length ss = n -> runs (mloop rt at_ lg F fuel ss ev) (fun _ => True).
Proof.
  intros HF. induction fuel as [|k IH]; intros ss ev Ls; cbn [mloop]; destruct (forallb _ ss); try now apply runs_ret.
  eapply runs_bind; [apply evalF_runs; [|exact HF]; now rewrite map_length|]. intros fus Lf. apply IH. rewrite zip_update_length; congruence.
Qed.

Lemma minimize_runs (F : list V -> M (list V)) n lo hi pr me k lg : (forall ys, length ys = n -> runs (F ys) (fun fs => length fs = n)) ->
  runs (minimize F n lo hi pr me k lg) (fun xs => length xs = n).
Proof.
  intros HF. eapply runs_know with (P := fun _ => True); [|intros w xs w' E _; eapply minimize_length; exact E].
  unfold minimize, minimize_run, mrun. eapply runs_bind; [|intros r _; now apply runs_ret].
  eapply runs_bind; [apply evalF_runs; [|exact HF]; apply repeat_length|]. intros f0 L0. eapply mloop_runs; [exact HF|]. now rewrite map_length.
Qed.

Lemma residue_runs m (v : pyval V) cs l L C n t : mech_given L C n m l cs -> shaped L C n v -> operand L C n t -> operands L C n cs -> operands L C n l ->
  runs (residue m v cs l L C n t) (shaped L C n).
Proof.
  intros G Sv Ot Oc Ol. pose proof (mech_call m t cs l L C n G Ot Oc Ol) as R. destruct G as (_ & _ & Nm & _).
  pose proof (mech_args_wf m t cs l) as W. pose proof (mech_args_operands m t cs l L C n Ot Oc Ol) as Oa. intros w.
  assert (Df : forall d, operand L C n d -> exists z, pmap2 (fun x y => nabs (nsub x y)) v d = Ok z /\ shaped L C n z).
  { intros d Hd. destruct (pmap2_runs (fun x y => nabs (nsub x y)) L C n v d (or_intror Sv) Hd) as (z & E & _ & S1). eauto. }
  destruct (R w) as (d & w' & E & Hd). unfold residue. apply try_ok in E as [E|(w1 & E1 & E2)].
  - destruct (Df d Hd) as (z & Ez & Sz). exists z, w'. split; auto. apply try_succ. rewrite (bind_eval _ _ _ _ _ E). unfold lift. now rewrite Ez.
  - apply loop_shape in E2 as Sd. destruct (Df d (or_intror Sd)) as (z & Ez & Sz). exists z, w'. split; auto.
    unfold try_value_error. rewrite (bind_eval_err _ _ _ _ _ E1). rewrite (bind_eval _ _ _ _ _ E2). unfold lift. now rewrite Ez.
Qed.

Lemma equiv_runs m (v : pyval V) cs l L C n : mech_given L C n m l cs -> shaped L C n v -> operands L C n cs -> operands L C n l ->
  runs (mech_equiv_time m v cs l L C n) (shaped L C n).
Proof.
  intros G Sv Oc Ol. eapply runs_know with (P := fun _ => True); [|intros w t w' E _; eapply equiv_shape; eauto].
  pose proof Sv as Sv'. destruct Sv' as (a & -> & A1 & A2). unfold mech_equiv_time. destruct (mc_kind m); [|now apply runs_ret].
  eapply runs_bind_lift; [reflexivity|]. eapply runs_bind; [apply minimize_runs|intros xs _; now apply runs_ret].
  intros ts Lt. unfold equiv_obj. eapply runs_bind.
  - apply residue_runs; eauto. right. rewrite of_nd_arr by (cbn [nshape]; rewrite A1; discriminate).
    eexists. split; [reflexivity|]. cbn [nshape ndata]. split; congruence.
  - intros r (b & -> & B1 & B2). eapply runs_bind_lift; [reflexivity|]. rewrite B1, A1.
    destruct (list_eq_dec Nat.eq_dec [L; C; n] [L; C; n]); [|contradiction]. apply runs_ret. congruence.
Qed.

(** ** Degradation *)
Lemma base_deg_runs m (t v : pyval V) cs l L C n : mech_given L C n m l cs -> shaped L C n t -> shaped L C n v -> operands L C n cs -> operands L C n l ->
  runs (base_deg_vals m t v cs l L C n) (shaped L C n).
Proof.
  intros G St Sv Oc Ol. pose proof (mech_call m t cs l L C n G (or_intror St) Oc Ol) as R.
  pose proof St as St'. destruct St' as (a & -> & A1 & A2), Sv as (b & -> & B1 & B2). unfold base_deg_vals.
  eapply runs_bind_lift; [reflexivity|]. eapply runs_bind_lift; [reflexivity|].
  assert (Bs : bshape (nshape a) (nshape b) = Some [L; C; n]).
  { rewrite A1, B1. unfold bshape. cbn [rev app bshape_rev]. now rewrite !Nat.eqb_refl. }
  rewrite Bs. eapply runs_bind; [exact R|]. intros d Hd. apply operand_nd in Hd as (e & Q & Se).
  eapply runs_bind_lift; [exact Q|]. destruct Se as [(_ & y & ->)|S1].
  - rewrite bmap3_scalar3 by congruence. eapply runs_bind_lift; [reflexivity|]. apply runs_ret. rewrite A1. apply shaped_build.
  - rewrite bmap3_same by congruence. eapply runs_bind_lift; [reflexivity|]. apply runs_ret. rewrite A1. apply shaped_build.
Qed.

Lemma deg_runs m (t v : pyval V) cs l L C n : mech_given L C n m l cs -> shaped L C n t -> shaped L C n v -> operands L C n cs -> operands L C n l ->
  runs (mech_deg_vals m t v cs l L C n) (shaped L C n).
Proof.
  intros G St Sv Oc Ol. pose proof (base_deg_runs m t v cs l L C n G St Sv Oc Ol) as R.
  unfold mech_deg_vals. destruct (mc_kind m); [exact R|]. destruct Sv as (b & -> & B1 & B2).
  eapply runs_bind_lift; [reflexivity|]. eapply runs_bind; [exact R|]. intros x (e & -> & E1 & E2).
  eapply runs_bind_lift; [reflexivity|]. rewrite bmap2_same by congruence. eapply runs_bind_lift; [reflexivity|]. apply runs_ret.
  rewrite B1. apply shaped_build.
Qed.

(** ** One degraded parameter under stress *)
Lemma lat_vals_operands (m : lmdl V) L C n l : lat_vals m L C n l -> operands L C n l.
Proof. intros (_ & _ & S1) x v Hin. right. eauto. Qed.

Lemma prm_equiv_runs (p : degprm V) mv cs m0 ls L C n : dwf (dp_mechs p) ->
  (forall nm m, dget (dp_mechs p) nm = Some m -> exists x, dget mv nm = Some x /\ shaped L C n x) ->
  (forall nm, In nm (dkeys (dp_mechs p)) -> exists v, dget m0 nm = Some v) ->
  (forall nm m, dget (dp_mechs p) nm = Some m -> exists l, dget ls nm = Some (PDict l) /\ operands L C n l /\ mech_given L C n m l cs) ->
  operands L C n cs ->
  runs (prm_equiv_times p mv cs m0 ls L C n) (fun eq => dkeys eq = dkeys (dp_mechs p) /\
    forall nm m, dget (dp_mechs p) nm = Some m -> exists t, dget eq nm = Some t /\ shaped L C n t).
Proof.
  intros W Hv Hm Hl Oc. eapply runs_know with (P := fun _ => True).
  - unfold prm_equiv_times. eapply runs_fold with (done := []) (P := fun _ (_ : dict (pyval V)) => True); auto.
    intros _ [k m] acc Hin _. cbn [fst snd]. pose proof Hin as Hk. apply (in_map fst) in Hk. apply dget_wf_In in Hin; auto.
    destruct (Hv _ _ Hin) as (x & Ex & Sx). destruct (Hm _ Hk) as (v0 & E0). destruct (Hl _ _ Hin) as (l & El & Ol & G).
    eapply runs_get; [exact Ex|]. eapply runs_get; [exact E0|].
    eapply runs_bind_lift; [unfold dgetE; rewrite El; reflexivity|]. eapply runs_bind; [apply equiv_runs; eauto|]. intros. now apply runs_ret.
  - intros w eq w' E _. apply equiv_get in E as (K & G); auto. split; auto. intros nm m Hnm.
    destruct (G _ _ Hnm) as (v & l & t & wa & wb & E1 & _ & E3 & E4). exists t. split; auto.
    destruct (Hv _ _ Hnm) as (x & Ex & Sx). assert (x = v) by congruence. subst x. eapply equiv_shape; eauto.
Qed.

Lemma add_durations_runs (p : degprm V) dur eq L C n : dwf (dp_mechs p) ->
  (forall nm m, dget (dp_mechs p) nm = Some m -> unit_map (mc_unit m) <> None) ->
  dkeys eq = dkeys (dp_mechs p) ->
  (forall nm m, dget (dp_mechs p) nm = Some m -> exists t, dget eq nm = Some t /\ shaped L C n t) ->
  exists times, add_durations p dur eq = Ok times /\
    forall nm m, dget (dp_mechs p) nm = Some m -> exists t, dget times nm = Some t /\ shaped L C n t.
Proof.
  intros W U K Ht. assert (We : dwf eq) by (unfold dwf; rewrite K; exact W).
  assert (G : exists times, add_durations p dur eq = Ok times).
  { unfold add_durations. assert (I : incl eq eq) by (intros x; auto). revert I. generalize eq at 1 3 as l. generalize eq at 2 as acc.
    intros acc l. revert acc. induction l as [|[k t] l IH]; intros acc I; cbn [fold_left fst snd]; [eauto|].
    pose proof (I _ (or_introl eq_refl)) as Hin. cbn [rbind].
    assert (Hk : In k (dkeys (dp_mechs p))) by (rewrite <- K; apply (in_map fst) in Hin; exact Hin).
    apply dmem_keys, dmem_Some in Hk as [m Hm]. unfold dgetE at 2. rewrite Hm. cbn [rbind].
    destruct (unit_map (mc_unit m)) as [u|] eqn:Eu; [|exfalso; eapply U; eauto].
    destruct (Ht _ _ Hm) as (t' & E' & St). apply dget_wf_In in Hin; auto. assert (t' = t) by congruence. subst t'.
    destruct (pmap2_runs nadd L C n t (PNum (td_num u dur)) (or_intror St) (or_introl (ex_intro _ _ eq_refl))) as (z & Ez & _).
    rewrite Ez. cbn [rbind]. apply IH. intros y Hy. apply I. now right. }
  destruct G as [times G]. exists times. split; auto. apply add_durations_get in G as (K' & G); auto. intros nm m Hnm.
  destruct (Ht _ _ Hnm) as (t & Et & St). destruct (G _ _ Et) as (mm & u & t' & _ & _ & E3 & E4). exists t'. split; auto.
  eapply pmap2_shape in E3 as [_ E3]; [apply E3; now left|now right|left; eauto].
Qed.

Lemma add_own_keys names (ls : dict (pyval V)) : forall acc x,
  In x (dkeys (add_own names ls acc)) <-> In x (dkeys acc) \/ In x names /\ In x (dkeys ls).
Proof.
  induction names as [|y r IH]; intros acc x; cbn [add_own]; [cbn; tauto|]. rewrite IH.
  destruct (dmem acc y) eqn:M.
  - apply dmem_keys in M. split; [cbn; tauto|]. intros [K|[[<-|K] K']]; auto.
  - destruct (dget ls y) as [v|] eqn:E.
    + rewrite <- (dmem_keys (dset acc y v)), dmem_dset, Bool.orb_true_iff, String.eqb_eq, dmem_keys.
      assert (In y (dkeys ls)) by (apply dmem_keys; unfold dmem; now rewrite E). cbn. split.
      * intros [[<-|K]|[K K']]; auto.
      * intros [K|[[<-|K] K']]; auto.
    + apply dget_None_keys in E. cbn. split; [tauto|]. intros [K|[[<-|K] K']]; auto. contradiction.
Qed.

Lemma own_accepts (p : degprm V) l name acc ls L C n : deg_ok l name p -> deg_lats p L C n ls ->
  (forall x, In x (dkeys acc) <-> x = "init"%string \/ x = "cond"%string \/ In x (dkeys (dp_mechs p))) ->
  accepts (lm_eqn (dp_own p)) (dkeys (add_own (compute_args (lm_eqn (dp_own p))) ls acc)).
Proof.
  intros O (_ & _ & _ & Ho) K. destruct (do_own _ _ _ O) as (R & Kw & _). split.
  - intros x Hx. apply add_own_keys. rewrite K. destruct (R x Hx) as [->|[->|[Hm|Hl]]]; auto. right. split; [unfold compute_args; apply in_or_app; now left|]. auto.
  - intros Ek x Hx. apply add_own_keys in Hx as [Hx|[Hx _]]; [apply Kw, K; auto|]. unfold compute_args in Hx. rewrite Ek, app_nil_r in Hx. now apply in_app_or.
Qed.

Lemma prm_deg_runs (p : degprm V) l name times cs i0 ls mv L C n : deg_ok l name p -> dwf (dp_mechs p) ->
  follows_at L C n (lm_eqn (dp_own p)) ->
  (forall nm m, dget (dp_mechs p) nm = Some m -> exists t, dget times nm = Some t /\ shaped L C n t) ->
  (forall nm m, dget (dp_mechs p) nm = Some m -> exists x, dget mv nm = Some x /\ shaped L C n x) ->
  (forall nm m, dget (dp_mechs p) nm = Some m -> exists l, dget ls nm = Some (PDict l) /\ operands L C n l /\ mech_given L C n m l cs) ->
  operands L C n cs -> deg_lats p L C n ls -> operand L C n i0 ->
  runs (prm_deg_vals p times cs i0 ls mv L C n) (fun _ => True).
Proof.
  intros O W Ro Ht Hv Hl Oc Dl Oi. unfold prm_deg_vals.
  eapply runs_bind with (P := fun st : dict (pyval V) * dict (pyval V) => operands L C n (fst st) /\ dwf (fst st) /\
    forall x, In x (dkeys (fst st)) <-> x = "init"%string \/ x = "cond"%string \/ In x (dkeys (dp_mechs p))).
  { eapply runs_impl; [|eapply runs_fold with (done := []) (P := fun done (st : dict (pyval V) * dict (pyval V)) => operands L C n (fst st) /\ dwf (fst st) /\
      forall x, In x (dkeys (fst st)) <-> x = "init"%string \/ x = "cond"%string \/ In x (map fst done))].
    - intros a Ha. exact Ha.
    - cbn [fst]. split; [|split].
      + intros k q [Q|[Q|[]]]; injection Q as <- <-; auto. left. eauto.
      + repeat constructor; cbn; intuition discriminate.
      + intros x. cbn. intuition.
    - intros done [k m] [a1 a2] Hin (Oa & Wa & Ka). cbn [fst snd] in *. apply dget_wf_In in Hin; auto.
      destruct (Ht _ _ Hin) as (t & Et & St). destruct (Hv _ _ Hin) as (x & Ex & Sx). destruct (Hl _ _ Hin) as (l' & El & Ol & G).
      eapply runs_get; [exact Et|]. eapply runs_get; [exact Ex|].
      eapply runs_bind_lift; [unfold dgetE; rewrite El; reflexivity|]. eapply runs_bind; [apply deg_runs; eauto|]. intros y Sy. apply runs_ret.
      cbn [fst]. split; [|split].
      + apply operands_dset; auto. now right.
      + now apply dwf_dset.
      + intros z. rewrite <- dmem_keys, dmem_dset, Bool.orb_true_iff, String.eqb_eq, dmem_keys, Ka, map_app, in_app_iff. cbn. tauto. }
  intros [a1 a2] (Oa & Wa & Ka). cbn [fst snd] in *.
  eapply runs_bind with (P := fun _ => True); [|intros; now apply runs_ret].
  intros w. destruct (do_own _ _ _ O) as (_ & _ & Cs).
  destruct (Cs L C n (add_own (compute_args (lm_eqn (dp_own p))) ls a1) w) as (v & w' & E); eauto using add_own_wf, own_accepts.
  - eapply add_own_operands; [apply Dl| |exact Oa]. intros k Hk. apply dmem_keys, Ka. tauto.
Qed.

Lemma stress_prm_runs d l conds rep dur st name (p : degprm V) n cs :
  device_ok d l (rp_lots rep) (rp_chps rep) -> needs d l name n -> dget d name = Some (PDeg p) -> dget (rp_counts rep) name = Some n -> dget conds name = Some cs ->
  operands (rp_lots rep) (rp_chps rep) n cs ->
  (forall nm m x, dget (dp_mechs p) nm = Some m -> In x (e_req (lm_eqn (mc_mdl m))) ->
      x = "time"%string \/ In x (dkeys (lm_vars (mc_mdl m))) \/ In x (dkeys cs)) ->
  inv d (rp_lots rep) (rp_chps rep) (rp_counts rep) st ->
  runs (stress_prm conds rep dur st (name, p)) (inv d (rp_lots rep) (rp_chps rep) (rp_counts rep)).
Proof.
  intros O Hns Hd Hn Hc Oc Hreq I. pose proof (dk_wf _ _ _ _ O) as W. destruct W as [W1 W2] eqn:EW. clear EW.
  pose proof (dk_deg _ _ _ _ O _ _ Hd) as Od. destruct (dk_regular _ _ _ _ O _ _ _ Hd Hns) as (_ & _ & Ro & Nm).
  assert (Wm : dwf (dp_mechs p)) by (eapply W2; eauto).
  eapply runs_know with (P := fun _ => True).
  - destruct I as (F & Hl & H0' & _). destruct (F _ _ Hd) as (n1 & mv & v & v0 & ls & B1 & B2 & B3 & B4 & B5 & B6 & B7 & B8 & B9).
    assert (n1 = n) by congruence. subst n1. destruct (Hl _ _ _ Hd Hn) as (ls' & E' & Dl). assert (ls' = ls) by congruence. subst ls'.
    destruct (H0' _ _ Hd) as (m0 & E0 & Hm0).
    assert (G : forall nm m, dget (dp_mechs p) nm = Some m ->
       exists l, dget ls nm = Some (PDict l) /\ operands (rp_lots rep) (rp_chps rep) n l /\ mech_given (rp_lots rep) (rp_chps rep) n m l cs).
    { intros nm m Hm. destruct Dl as (_ & _ & Dm & _). destruct (Dm _ _ Hm) as (l' & El & Hlv). exists l'. split; auto.
      split; [eapply lat_vals_operands; eauto|]. destruct (do_mech _ _ _ Od _ _ Hm) as (T & Cs & _). split; [exact T|]. split; [exact Cs|]. split; [eauto|].
      intros x Hx. destruct (Hreq _ _ _ Hm Hx) as [?|[K|?]]; auto. right. left. now apply Hlv. }
    unfold stress_prm. cbn [fst snd]. eapply runs_get; [exact Hn|]. eapply runs_get; [exact B2|]. eapply runs_get; [exact Hc|].
    eapply runs_get; [exact E0|]. eapply runs_get; [exact B8|]. eapply runs_bind; [apply prm_equiv_runs; eauto|]. intros eq [K Heq].
    destruct (add_durations_runs p dur eq (rp_lots rep) (rp_chps rep) n Wm) as (times & Et & Ht); auto.
    { intros nm m Hm. now destruct (do_mech _ _ _ Od _ _ Hm) as (_ & _ & U & _). }
    eapply runs_bind_lift; [exact Et|]. eapply runs_get; [exact B6|]. eapply runs_bind; [eapply prm_deg_runs; eauto; apply B7|]. intros r _. now apply runs_ret.
  - intros w st' w' E _. destruct I as (F & Hl & H0' & Hc' & Hnone & x & Ex).
    pose proof (stress_prm_shape _ _ _ _ _ _ _ _ _ _ _ _ _ (conj W1 W2) (dk_regular _ _ _ _ O) Hns Hd Hn Hc Oc F E) as F'.
    apply stress_prm_ok in E as (n' & mv & cs' & m0 & ls & eq & w1 & times & i0 & r & A1 & A2 & A3 & A4 & A5 & A6 & A7 & A8 & A9 & ->).
    split; [exact F'|]. cbn [st_lat st_mech0 st_prm st_elapsed]. repeat split; eauto.
    intros name' Hp. rewrite dget_dset_neq; [auto|]. intros <-. eapply Hp; eauto.
Qed.

(** ** Stress steps *)
Lemma stress_step_runs e d l i s st rep : env_ok e l -> device_ok d l (rp_lots rep) (rp_chps rep) -> (forall q n, dget (rp_counts rep) q = Some n -> needs d l q n) -> In (SStrs s) l -> dwf (ss_conds s) ->
  inv d (rp_lots rep) (rp_chps rep) (rp_counts rep) st ->
  runs (stress_step e d i s st rep) (fun sr => inv d (rp_lots rep) (rp_chps rep) (rp_counts rep) (fst sr) /\ same_info rep (snd sr)).
Proof.
  intros Oe O Hns Hs Wc I. pose proof (dk_wf _ _ _ _ O) as W. unfold stress_step.
  eapply runs_bind with (P := fun conds => exists w w', gen_env_cond_vals e (ss_conds s) (PList (map fst (deg_prms d))) (Some (info_of rep)) (Some d) true 1 1 w = (Ok conds, w')).
  { eapply runs_know; [apply conds_runs with (l := l); auto|]; [|intros w a w' E _; eauto]. split; [discriminate|]. intros x Hx.
    apply in_map_iff in Hx as ([name p] & <- & Hx). cbn [fst]. apply deg_prms_get in Hx; [|apply W]. destruct I as (F & _).
    destruct (F _ _ Hx) as (n & ? & ? & ? & ? & Hn & _). split; [exists n; exact Hn|]. cbn [dev_prm]. rewrite Hx. discriminate. }
  intros conds (wa & wb & Ec). pose proof (env_conds_ok _ _ _ _ _ _ _ _ _ _ _ Wc Ec) as X. cbn zeta in X. destruct X as (Kx & _ & Kv).
  eapply runs_bind with (P := inv d (rp_lots rep) (rp_chps rep) (rp_counts rep)).
  { eapply runs_impl; [|eapply runs_fold with (done := []) (P := fun _ => inv d (rp_lots rep) (rp_chps rep) (rp_counts rep))]; auto.
    intros _ [name p] st1 Hin I1. pose proof Hin as Hd. apply deg_prms_get in Hd; [|apply W].
    pose proof I1 as (F & _). destruct (F _ _ Hd) as (n & ? & ? & ? & ? & Hn & _).
    assert (Hr : dmem conds name = true) by (apply Kx; cbn [request]; apply (in_map fst) in Hin; exact Hin).
    apply dmem_Some in Hr as [cs Hc]. eapply stress_prm_runs; eauto.
    - exact (conds_operands _ _ _ _ _ _ _ _ _ _ _ _ _ _ _ Wc Ec Hd Hc Hn).
    - intros nm m z Hm Hx. destruct (do_mech _ _ _ (dk_deg _ _ _ _ O _ _ Hd) _ _ Hm) as (_ & _ & _ & R). destruct (R z Hx) as [?|[?|K]]; auto.
      right. right. specialize (Kv _ _ Hc). cbn [dev_prm] in Kv. rewrite Hd in Kv. apply dmem_keys, Kv. split; [eauto|].
      cbn [depends]. right. left. split; auto. exists nm, m. split; [now apply dget_In|]. unfold compute_args. apply in_or_app. now left. }
  intros st1 I1. pose proof I1 as (F & I2 & I3 & I4 & I5 & x & Ex). rewrite Ex. cbn [add_time_td].
  eapply runs_bind_lift; [reflexivity|]. cbn [sub_time_td]. eapply runs_bind_lift; [reflexivity|]. apply runs_ret. cbn [fst snd]. split; [|now repeat split].
  split; [exact F|]. cbn [set_elapsed st_lat st_mech0 st_prm st_elapsed]. repeat split; eauto.
Qed.

(** ** Measurements *)
Lemma map_res_total {A B} (f : A -> res B) l : (forall x, In x l -> exists y, f x = Ok y) -> exists l', map_res f l = Ok l'.
Proof.
  induction l as [|x l IH]; intros K; cbn [map_res]; [eauto|]. destruct (K x (or_introl eq_refl)) as [y ->]. cbn [rbind].
  destruct IH as [l' ->]; [intros; apply K; now right|]. cbn. eauto.
Qed.

Lemma measure_runs (i : instm V) vals : instm_ok i -> runs (measure i vals) (fun _ => True).
Proof.
  intros [He Hp]. unfold measure. eapply runs_bind with (P := fun _ => True).
  - destruct (in_err i) as [r|]; [|now apply runs_ret]. eapply runs_bind; [apply sample_runs; auto|]. intros. now apply runs_ret.
  - intros v1 _. assert (G : exists v2, (match in_prec i with Some p => if Z.eqb p 0 then Ok v1 else map_res (round_sig p) v1 | None => Ok v1 end) = Ok v2).
    { destruct Hp as [->|[->|Hd]]; [eauto|cbn; eauto|]. destruct (in_prec i) as [p|]; [|eauto]. destruct (Z.eqb p 0); [eauto|].
      apply map_res_total. intros x _. unfold round_sig. destruct (neqb x n0) eqn:E0; cbn [orb]; [eauto|]. destruct (nisinf x) eqn:E1; [eauto|].
      specialize (Hd x E0 E1). destruct (nflog10 x); [eauto|contradiction]. }
    destruct G as [v2 G]. eapply runs_bind_lift; [exact G|]. now apply runs_ret.
Qed.

Lemma measure_with_runs (e : env V) l prm vals : env_ok e l -> (exists k, requests l prm k) -> prm <> "meas"%string -> runs (measure_with e prm vals) (fun _ => True).
Proof.
  intros (_ & Hi & Hm) Hr Np. unfold measure_with, meas_instm. assert (dmem e "meas_instm" = false) as -> by (unfold dmem; now rewrite Hm).
  destruct (dget e (prm ++ "_instm")) as [a|] eqn:E.
  - destruct (Hi _ _ E) as (i & -> & Oi). eapply runs_bind_lift; [reflexivity|]. apply measure_runs, Oi, Hr.
  - rewrite instm_meas. destruct (String.eqb_spec prm "meas"); [contradiction|]. eapply runs_bind_lift; [reflexivity|]. apply measure_runs.
    split; [discriminate|]. now left.
Qed.

Lemma reduce_dims_total k (d : dict (pyval V)) : (forall x v, In (x, v) d -> exists u, reduce_val k v = Ok (Some u)) ->
  exists d', reduce_dims k d = Ok d' /\ dkeys d' = dkeys d /\
    forall x v, dget d x = Some v -> exists u, dget d' x = Some u /\ reduce_val k v = Ok (Some u).
Proof.
  induction d as [|[key v] r IH]; intros K; cbn [reduce_dims].
  - exists []. repeat split. intros x v' [=].
  - destruct (K key v (or_introl eq_refl)) as (u & Eu). destruct IH as (r' & Er & Kr & G); [intros; eapply K; right; eauto|].
    rewrite Eu, Er. cbn [rbind]. eexists. split; [reflexivity|]. cbn [dkeys map fst]. split; [f_equal; exact Kr|].
    intros x v'. cbn [dget]. destruct (String.eqb x key); [|apply G]. intros [= <-]. eauto.
Qed.

Lemma reduce_shaped k L C n (v : pyval V) : k <= n -> shaped L C n v -> exists u, reduce_val k v = Ok (Some u) /\ shaped L C k u.
Proof.
  intros Hk Sv. assert (G : exists o, reduce_val k v = Ok o).
  { destruct Sv as (a & -> & A1 & _). cbn [reduce_val]. unfold nslice_third. rewrite A1. cbn [rbind]. eauto. }
  destruct G as [o G]. destruct (reduce_val_shaped _ _ _ _ _ _ Hk Sv G) as (u & -> & Su). eauto.
Qed.

Lemma reduce_lat_vals k L C n (m : lmdl V) l : k <= n -> lat_vals m L C n l ->
  exists l', reduce_dims k l = Ok l' /\ lat_vals m L C k l'.
Proof.
  intros Hk (W & K & S1). destruct (reduce_dims_total k l) as (l' & E & K' & G).
  { intros x v Hin. destruct (reduce_shaped k L C n v Hk (S1 _ _ Hin)) as (u & Eu & _). eauto. }
  exists l'. split; auto. split; [unfold dwf; now rewrite K'|]. split; [now rewrite K'|].
  intros x v Hin. destruct (reduce_dims_In _ _ _ E _ _ Hin) as (v0 & Hv & Ev).
  destruct (reduce_val_shaped _ _ _ _ _ _ Hk (S1 _ _ Hv) Ev) as (u & Q & Su). injection Q as <-. exact Su.
Qed.

Lemma reduce_dict k (d d' : dict (pyval V)) : reduce_dims k d = Ok d' -> reduce_val k (PDict d) = Ok (Some (PDict d')).
Proof.
  intros E. cbn [reduce_val]. replace ((fix go (d : list (string * pyval V)) : res (list (string * pyval V)) := _) d) with (reduce_dims k d); [now rewrite E|].
  clear. induction d as [|[key v] r IH]; cbn [reduce_dims]; auto. destruct (reduce_val k v); cbn [rbind]; auto. now rewrite IH.
Qed.

Lemma reduce_deg_lats k L C n (p : degprm V) ls : k <= n -> deg_lats p L C n ls ->
  exists ls', reduce_dims k ls = Ok ls' /\ deg_lats p L C k ls'.
Proof.
  intros Hk (F & (lc & Ec & Hc) & Hm & Ho).
  destruct (reduce_dims_total k ls) as (ls' & E & K' & G).
  { intros x v Hin. destruct (F _ _ Hin) as [S1|(_ & l & -> & S1)].
    - destruct (reduce_shaped k L C n v Hk S1) as (u & Eu & _). eauto.
    - destruct (reduce_dims_total k l) as (l' & E & _).
      { intros y u Hy. destruct (reduce_shaped k L C n u Hk (S1 _ _ Hy)) as (u' & Eu & _). eauto. }
      exists (PDict l'). now apply reduce_dict. }
  exists ls'. split; auto. split; [eapply reduce_lats; eauto|]. split; [|split].
  - destruct (reduce_lat_vals k L C n _ _ Hk Hc) as (l' & El & Hl'). exists l'. split; auto.
    destruct (G _ _ Ec) as (u & Eu & Ev). rewrite (reduce_dict _ _ _ El) in Ev. congruence.
  - intros nm m Hnm. destruct (Hm _ _ Hnm) as (l & El & Hl). destruct (reduce_lat_vals k L C n _ _ Hk Hl) as (l' & El' & Hl'). exists l'. split; auto.
    destruct (G _ _ El) as (u & Eu & Ev). rewrite (reduce_dict _ _ _ El') in Ev. congruence.
  - intros x Hx. rewrite K'. auto.
Qed.

Lemma unitary_names k (l : dict (mech V)) : forall acc : dict (pyval V),
  In k (dkeys (fold_left (fun acc (nm : string * mech V) => dset acc (fst nm) (PNum (mc_unitary (snd nm)))) l acc)) <->
  In k (dkeys acc) \/ In k (dkeys l).
Proof.
  induction l as [|[x m] l IH]; intros acc; cbn [fold_left fst snd]; [cbn; tauto|]. rewrite IH.
  rewrite <- (dmem_keys (dset _ _ _)), dmem_dset, Bool.orb_true_iff, String.eqb_eq, dmem_keys. cbn [dkeys map fst In]. tauto.
Qed.

Lemma unitary_has k v (l : dict (mech V)) : forall acc : dict (pyval V), ~ In k (dkeys l) -> dget acc k = Some v ->
  dget (fold_left (fun acc (nm : string * mech V) => dset acc (fst nm) (PNum (mc_unitary (snd nm)))) l acc) k = Some v.
Proof.
  induction l as [|[x m] l IH]; intros acc N E; cbn [fold_left fst snd]; auto. cbn in N. apply IH; [tauto|]. rewrite dget_dset_neq; [auto|tauto].
Qed.

Lemma cond_shifted_runs (p : degprm V) l name cs deg ls L C n k : deg_ok l name p -> numeric_at L C k (lm_eqn (dp_cond p)) -> follows_at L C k (lm_eqn (dp_own p)) ->
  shaped L C n deg -> deg_lats p L C n ls -> operands L C k cs -> k <= n ->
  (forall x, In x (e_req (lm_eqn (dp_cond p))) -> In x (dkeys (lm_vars (dp_cond p))) \/ In x (dkeys cs)) ->
  runs (cond_shifted p cs deg ls L C k) (shaped L C k).
Proof.
  intros O Nc Ro Sd Dl Oc Hk Hreq. unfold cond_shifted.
  assert (E0 : third_dim deg = Ok n) by (destruct Sd as (a & -> & A1 & _); cbn [third_dim]; now rewrite A1).
  eapply runs_bind_lift; [exact E0|].
  assert (G : exists b ls1, shaped L C k (PArr b) /\ deg_lats p L C k ls1 /\
    (if k <? n then rbind (reduce_dims k [("init"%string, deg); ("cond"%string, PDict [])]) (fun a => rbind (reduce_dims k ls) (fun l => Ok (a, l)))
     else Ok ([("init"%string, deg); ("cond"%string, PDict [])], ls)) = Ok ([("init"%string, PArr b); ("cond"%string, PDict [])], ls1)).
  { destruct (Nat.ltb_spec k n).
    - destruct (reduce_shaped k L C n deg Hk Sd) as (u & Eu & Su). destruct (reduce_deg_lats k L C n p ls Hk Dl) as (ls1 & E1 & D1).
      destruct Su as (b & -> & B). exists b, ls1. split; [exists b; auto|]. split; auto.
      cbn [reduce_dims]. rewrite Eu, E1. reflexivity.
    - assert (k = n) by lia. subst k. destruct Sd as (b & -> & B). exists b, ls. split; [exists b; auto|]. split; auto. }
  destruct G as (b & ls1 & Sb & Dl1 & G). eapply runs_bind_lift; [exact G|]. cbn [fst snd]. clear G.
  pose proof Dl1 as (F1 & (lc & Ec & Hc) & _ & _). eapply runs_bind_lift; [unfold dgetE; rewrite Ec; reflexivity|].
  eapply runs_bind with (P := operand L C k).
  { unfold calc_cond_vals. destruct (do_cond _ _ _ O) as (Cs & _). intros w.
    destruct (Cs L C k (gather (compute_args (lm_eqn (dp_cond p))) [lc; cs] []) w) as (v & w' & E).
    - apply gather_wf. constructor.
    - apply gather_operands; auto using operands_nil. eapply lat_vals_operands; eauto.
    - apply gather_accepts; [|intros _ x []]. intros x Hx. right. destruct (Hreq x Hx) as [K|K]; [exists lc|exists cs]; (split; [cbn; tauto|]); auto. now apply Hc.
    - exists v, w'. split; auto. refine (numeric_call _ _ _ _ _ _ _ _ Nc _ _ E); [apply gather_wf; constructor|].
      apply gather_operands; auto using operands_nil. eapply lat_vals_operands; eauto. }
  intros cv Ocv. cbn [dset String.eqb Ascii.eqb Bool.eqb].
  set (a3 := fold_left _ (dp_mechs p) _).
  assert (K3 : forall x, In x (dkeys a3) <-> x = "init"%string \/ x = "cond"%string \/ In x (dkeys (dp_mechs p))).
  { intros x. unfold a3. rewrite unitary_names. cbn. intuition. }
  assert (W3 : dwf a3) by (apply unitary_wf; repeat constructor; cbn; intuition discriminate).
  assert (O3 : operands L C k a3).
  { apply unitary_operands. intros x q [Q|[Q|[]]]; injection Q as <- <-; auto. now right. }
  assert (Hin : In ("init"%string, PArr b) a3).
  { apply dget_In. unfold a3. apply unitary_has; [|reflexivity]. intros Hi. destruct (do_names _ _ _ O) as [Hn _]. apply Hn in Hi. tauto. }
  assert (O4 : operands L C k (add_own (compute_args (lm_eqn (dp_own p))) ls1 a3)).
  { eapply add_own_operands; [exact F1| |exact O3]. intros x Hx. apply dmem_keys, K3. tauto. }
  intros w. destruct (do_own _ _ _ O) as (_ & _ & Cs).
  destruct (Cs L C k (add_own (compute_args (lm_eqn (dp_own p))) ls1 a3) w) as (v & w' & E); eauto using add_own_wf, own_accepts.
  exists v, w'. split; auto. eapply follows_call in E as [_ E]; eauto using add_own_wf. apply E. exists b. now apply add_own_In.
Qed.

Lemma gather_operands3 L C n names (l c p : dict (pyval V)) : 
  (forall x v, In x names -> dget l x = Some v -> operand L C n v) ->
  (forall x v, In x names -> dget c x = Some v -> operand L C n v) ->
  (forall x v, In x names -> dget p x = Some v -> operand L C n v) ->
  forall acc, operands L C n acc -> operands L C n (gather names [l; c; p] acc).
Proof.
  induction names as [|x r IH]; intros Hl Hc Hp acc Ha; cbn [gather]; auto. apply IH.
  - intros y v Hy. apply Hl. now right.
  - intros y v Hy. apply Hc. now right.
  - intros y v Hy. apply Hp. now right.
  - destruct (dget l x) eqn:E1; [apply operands_dset; eauto; eapply Hl; eauto; now left|].
    destruct (dget c x) eqn:E2; [apply operands_dset; eauto; eapply Hc; eauto; now left|].
    destruct (dget p x) eqn:E3; [apply operands_dset; eauto; eapply Hp; eauto; now left|auto].
Qed.

Lemma circ_runs d l name c m k cs prms lats L C nc : circ_ok d l name c -> In (SMeas m) l -> In (name, k) (ms_counts m) ->
  greatest (needs d l name) nc -> lat_vals c L C nc lats ->
  operands L C k cs -> (forall x, In x (dkeys cs) -> In x (dkeys (ms_conds m))) ->
  (forall x, In x (compute_args (lm_eqn c)) -> In x (dkeys (ms_conds m)) -> exists a, dget cs x = Some (PArr a)) ->
  (forall x v, dget prms x = Some v -> exists p n, dget d x = Some (PDeg p) /\ greatest (needs d l x) n /\ shaped L C n v) ->
  (forall x p, dget d x = Some (PDeg p) -> exists v, dget prms x = Some v) ->
  runs (circ_vals c k cs prms lats) (fun v => exists a n, v = PArr a /\ nshape a = [Nat.min k L; C; n] /\ length (ndata a) = Nat.min k L * C * n /\
    circ_size d l m name k c n).
Proof.
  intros O Hm Hk Hnc Hl Oc Kc Hcs Hp Hd. destruct (co_eqn _ _ _ _ O) as [Cf Rf]. destruct (co_args _ _ _ _ O _ _ Hm Hk) as [Hreq (xa & Hxa & Hxo)].
  destruct (co_size _ _ _ _ O _ _ Hm Hk) as (n & Hn).
  assert (U : forall P a b, greatest P a -> greatest P b -> a = b) by (intros P a b [A1 A2] [B1 B2]; apply Nat.le_antisymm; auto).
  assert (Sl : forall x v, In x (compute_args (lm_eqn c)) -> dget lats x = Some v -> shaped L C n v).
  { intros x v Hx E. destruct Hl as (_ & Kl & Sl). assert (In x (dkeys (lm_vars c))) as Hv by (apply Kl, dmem_keys; unfold dmem; now rewrite E).
    destruct (Hn x Hx) as (N1 & _). rewrite (U _ _ _ (N1 Hv) Hnc). eapply Sl, dget_In; eauto. }
  assert (Sc : forall x v, In x (compute_args (lm_eqn c)) -> dget cs x = Some v -> operand L C n v).
  { intros x v Hx E. destruct (Hn x Hx) as (_ & N2 & _). rewrite <- N2; [eapply Oc, dget_In; eauto|].
    apply Kc, dmem_keys. unfold dmem. now rewrite E. }
  assert (Sp : forall x v, In x (compute_args (lm_eqn c)) -> dget prms x = Some v -> shaped L C n v).
  { intros x v Hx E. destruct (Hp _ _ E) as (p & n' & E1 & G & Sv). destruct (Hn x Hx) as (_ & _ & N3). rewrite (U _ _ _ (N3 _ E1) G). exact Sv. }
  set (args := gather (compute_args (lm_eqn c)) [lats; cs; prms] []).
  assert (Wa : dwf args) by (apply gather_wf; constructor).
  assert (Oa : operands L C n args).
  { apply gather_operands3; auto using operands_nil; intros x v Hx E; [right|right]; eauto. }
  assert (Has : forall x, on_hand d c m x -> In x (compute_args (lm_eqn c)) -> exists dd, In dd [lats; cs; prms] /\ In x (dkeys dd)).
  { intros x [Hx|[Hx|(p & Hx)]] Ha.
    - exists lats. split; [now left|]. now apply Hl.
    - exists cs. split; [right; now left|]. destruct (Hcs x Ha Hx) as (a & E). apply dmem_keys. unfold dmem. now rewrite E.
    - exists prms. split; [right; right; now left|]. destruct (Hd _ _ Hx) as (v & E). apply dmem_keys. unfold dmem. now rewrite E. }
  assert (Aa : accepts (lm_eqn c) (dkeys args)).
  { apply gather_accepts; [|intros _ x []]. intros x Hx. right. apply Has; [auto|]. unfold compute_args. apply in_or_app. now left. }
  assert (Xa : exists x a, In (x, PArr a) args).
  { destruct (first_of_some [lats; cs; prms] xa (Has _ Hxo Hxa)) as (v & Ev).
    assert (Ea : dget args xa = Some v).
    { unfold args. rewrite gather_get, Ev. assert (smem xa (compute_args (lm_eqn c)) = true) as -> by (now apply smem_In). reflexivity. }
    assert (exists a, v = PArr a) as [a ->]; [|exists xa, a; now apply dget_In].
    cbn [first_of] in Ev. destruct (dget lats xa) as [v1|] eqn:E1; [injection Ev as <-; destruct (Sl _ _ Hxa E1) as (a & -> & _); eauto|].
    destruct (dget cs xa) as [v2|] eqn:E2.
    - injection Ev as <-. destruct (Hcs xa Hxa) as (a & E); [|rewrite E in E2; injection E2 as <-; eauto]. apply Kc, dmem_keys. unfold dmem. now rewrite E2.
    - destruct (dget prms xa) as [v3|] eqn:E3; [injection Ev as <-; destruct (Sp _ _ Hxa E3) as (a & -> & _); eauto|discriminate]. }
  unfold circ_vals. fold args. eapply runs_bind with (P := shaped L C n).
  - intros w. destruct (Cf L C n args w Wa Oa Aa) as (v & w' & E). exists v, w'. split; auto. destruct (Rf _ _ _ _ _ _ _ Wa Oa E) as [_ R]. auto.
  - intros v (a & -> & A1 & A2). unfold nslice_first. rewrite A1. cbn [rbind]. eapply runs_lift; [reflexivity|]. eexists _, n. split; [reflexivity|]. cbn [nshape ndata].
    split; auto. split; [|exact Hn]. rewrite firstn_length, A2. cbn [prod fold_left Nat.mul]. unfold prod. cbn. nia.
Qed.

(** ** Measurement steps *)
Definition counted (d : device V) (l : list (step V)) (counts : dict nat) : Prop :=
  (forall q n, dget counts q = Some n -> greatest (needs d l q) n) /\ (forall q, In q (dkeys d) -> exists n, dget counts q = Some n).

Lemma circ_at e d l m st (rep : report V) prm k conds wa wb c cs : env_ok e l -> device_ok d l (rp_lots rep) (rp_chps rep) -> test_ok d l ->
  In (SMeas m) l -> In (prm, k) (ms_counts m) -> counted d l (rp_counts rep) ->
  inv d (rp_lots rep) (rp_chps rep) (rp_counts rep) st ->
  gen_env_cond_vals e (ms_conds m) (PCounts (ms_counts m)) (Some (info_of rep)) (Some d) false 1 1 wa = (Ok conds, wb) ->
  dget d prm = Some (PCirc c) -> dget conds prm = Some cs ->
  exists ls, dget (st_lat st) prm = Some ls /\
  runs (circ_vals c k cs (st_prm st) ls) (fun v => exists a n, v = PArr a /\ nshape a = [Nat.min k (rp_lots rep); rp_chps rep; n] /\
    length (ndata a) = Nat.min k (rp_lots rep) * rp_chps rep * n /\ circ_size d l m prm k c n).
Proof.
  intros Oe O Ot Hm Hk [Cg Ca] I Ec Hd Hc. destruct (to_wf _ _ Ot _ Hm) as [Wc Wn].
  pose proof (env_conds_ok _ _ _ _ _ _ _ _ _ _ _ Wc Ec) as X. cbn zeta in X. destruct X as (Kx & Kc & Kv).
  pose proof I as (F & I2 & I3 & I4 & I5 & x & Ex).
  pose proof Hk as Hk'. apply dget_wf_In in Hk'; auto.
  destruct (Ca prm) as [nc Hnc]; [apply dmem_keys; unfold dmem; now rewrite Hd|].
    destruct (I4 _ _ _ Hd Hnc) as (ls & El & Hl). exists ls. split; [exact El|].
    specialize (Kv _ _ Hc). cbn [dev_prm] in Kv. rewrite Hd in Kv.
    eapply circ_runs with (d := d) (l := l) (name := prm) (m := m) (nc := nc) (L := rp_lots rep) (C := rp_chps rep); eauto.
    + eapply dk_circ; eauto.
    + exact (conds_operands _ _ _ _ _ _ _ _ _ _ _ _ _ _ _ Wc Ec Hd Hc Hk').
    + intros y Hy. apply dmem_keys in Hy. now apply Kv in Hy.
    + intros y Hy1 Hy2. assert (dmem cs y = true) as Hy by (apply Kv; split; auto). apply dmem_Some in Hy as [u Eu].
      apply dmem_keys, dmem_Some in Hy2 as [v0 Hv0]. destruct (Kc _ _ Hv0) as (b & c' & _ & G). specialize (G _ _ Hc). cbn [dev_prm] in G. rewrite Hd in G.
      destruct (G _ Eu) as (? & ? & a & ? & ? & -> & _). eauto.
    + intros y v Ey. destruct (dget d y) as [[p|c']|] eqn:Hy.
      * destruct (F _ _ Hy) as (n & mv & v1 & v0 & ls1 & B1 & B2 & B3 & B4 & B5 & _). exists p, n. split; auto. split; [auto|].
        assert (v1 = v) by congruence. subst v1. apply B5. apply (do_init _ _ _ (dk_deg _ _ _ _ O _ _ Hy)).
      * rewrite I5 in Ey by (intros p Q; congruence). discriminate.
      * rewrite I5 in Ey by (intros p Q; congruence). discriminate.
    + intros y p Hy. destruct (F _ _ Hy) as (n & mv & v1 & v0 & ls1 & B1 & B2 & B3 & B4 & _). eauto.
Qed.

Lemma measure_prm_runs e d l i m st rep prm k conds wa wb : env_ok e l -> device_ok d l (rp_lots rep) (rp_chps rep) -> test_ok d l ->
  In (SMeas m) l -> In (prm, k) (ms_counts m) -> counted d l (rp_counts rep) ->
  inv d (rp_lots rep) (rp_chps rep) (rp_counts rep) st ->
  gen_env_cond_vals e (ms_conds m) (PCounts (ms_counts m)) (Some (info_of rep)) (Some d) false 1 1 wa = (Ok conds, wb) ->
  runs (measure_prm e d i conds (ms_conds m) st rep prm k) (fun _ => True).
Proof.
  intros Oe O Ot Hm Hk [Cg Ca] I Ec. destruct (to_wf _ _ Ot _ Hm) as [Wc Wn]. destruct (to_req _ _ Ot _ _ _ Hm Hk) as [Np Hreq].
  pose proof (env_conds_ok _ _ _ _ _ _ _ _ _ _ _ Wc Ec) as X. cbn zeta in X. destruct X as (Kx & Kc & Kv).
  pose proof I as (F & I2 & I3 & I4 & I5 & x & Ex).
  pose proof Hk as Hk'. apply dget_wf_In in Hk'; auto.
  assert (Hr : dmem conds prm = true) by (apply Kx; cbn [request]; apply (in_map fst) in Hk; exact Hk).
  apply dmem_Some in Hr as [cs Hc].
  unfold measure_prm. eapply runs_bind with (P := fun _ => True); [|intros rows _; eapply runs_bind; [apply measure_with_runs with (l := l); auto; exists k, m; auto|intros; now apply runs_ret]].
  destruct (dget d prm) as [[p|c]|] eqn:Hd.
  - destruct (F _ _ Hd) as (n & mv & v & v0 & ls & B1 & B2 & B3 & B4 & B5 & B6 & B7 & B8 & B9).
    destruct (I2 _ _ _ Hd B1) as (ls' & E' & Dl). assert (ls' = ls) by congruence. subst ls'.
    rewrite B4. eapply runs_get; [exact Hc|]. eapply runs_get; [exact B8|].
    destruct (dk_regular _ _ _ _ O _ _ k Hd (or_introl (ex_intro _ m (conj Hm Hk)))) as (_ & Nc & Ro & _). pose proof (dk_deg _ _ _ _ O _ _ Hd) as Od.
    eapply runs_bind; [eapply cond_shifted_runs with (n := n); eauto|].
    + apply B5. apply (do_init _ _ _ Od).
    + exact (conds_operands _ _ _ _ _ _ _ _ _ _ _ _ _ _ _ Wc Ec Hd Hc Hk').
    + apply (Cg _ _ B1). left. exists m. auto.
    + intros y Hy. destruct (do_cond _ _ _ Od) as [_ R]. destruct (R y Hy) as [?|K]; auto. right.
      specialize (Kv _ _ Hc). cbn [dev_prm] in Kv. rewrite Hd in Kv. apply dmem_keys, Kv. split; [eauto|]. cbn [depends].
      right. right. split; auto. unfold compute_args. apply in_or_app. now left.
    + intros y (a & -> & A1 & A2). destruct (format_param a prm (st_elapsed st) i (rp_lots rep) (rp_chps rep) k) as (rows & E & _).
      * rewrite A1. constructor.
      * exact A2.
      * eapply runs_lift; eauto.
  - rewrite I5 by (intros p Q; congruence).
    destruct (circ_at _ _ _ _ _ _ _ _ _ _ _ _ _ Oe O Ot Hm Hk (conj Cg Ca) I Ec Hd Hc) as (ls & El & Rc).
    eapply runs_get; [exact Hc|]. eapply runs_get; [exact El|]. eapply runs_bind; [exact Rc|].
    + intros v (a & n & -> & A1 & A2 & _). destruct (format_param a prm (st_elapsed st) i (Nat.min k (rp_lots rep)) (rp_chps rep) n) as (rows & E & _).
      * rewrite A1. constructor.
      * exact A2.
      * eapply runs_lift; eauto.
  - rewrite I5 by (intros p Q; congruence). destruct Hreq as [Hq|Hq]; [apply dmem_keys, dmem_Some in Hq as [q Hq]; congruence|].
    pose proof Hq as Hq'. apply dmem_keys in Hq. rewrite Hq. apply dmem_Some in Hq as [v0 Hv0]. eapply runs_get; [exact Hc|].
    destruct (env_conds_elements _ _ _ _ _ _ _ _ _ _ _ Wc Ec _ _ Hv0) as (mm & t & xb & chps & wb' & wc & wd & _ & _ & _ & _ & G).
    specialize (G _ _ Hc). cbn [dev_prm] in G. rewrite Hd in G. destruct (G eq_refl) as (n' & a & sens & devs & w2 & w3 & w4 & -> & G1 & G2 & G3 & _).
    cbn [request_count] in G1. rewrite Hk' in G1. injection G1 as <-.
    eapply runs_get; [cbn [dget]; rewrite String.eqb_refl; reflexivity|].
    rewrite (format_cond a prm (st_elapsed st) i 1 k 1); [|rewrite G2; constructor|lia]. eapply runs_lift; eauto.
Qed.

Lemma meas_step_runs e d l i m st rep : env_ok e l -> device_ok d l (rp_lots rep) (rp_chps rep) -> test_ok d l ->
  In (SMeas m) l -> counted d l (rp_counts rep) -> inv d (rp_lots rep) (rp_chps rep) (rp_counts rep) st ->
  runs (meas_step e d i m st rep) (fun sr => inv d (rp_lots rep) (rp_chps rep) (rp_counts rep) (fst sr) /\ same_info rep (snd sr)).
Proof.
  intros Oe O Ot Hm Hc I. destruct (to_wf _ _ Ot _ Hm) as [Wc Wn]. unfold meas_step.
  eapply runs_bind with (P := fun conds => exists w w', gen_env_cond_vals e (ms_conds m) (PCounts (ms_counts m)) (Some (info_of rep)) (Some d) false 1 1 w = (Ok conds, w')).
  { eapply runs_know; [apply conds_runs with (l := l); auto|intros w a w' E _; eauto]. split; auto. cbn [request request_count]. intros x Hx.
    apply dmem_keys, dmem_Some in Hx as [k Hk]. split; [eauto|]. cbn [dev_prm]. intros Hd. apply dget_In in Hk.
    destruct (to_req _ _ Ot _ _ _ Hm Hk) as [_ [Hq|Hq]]; auto. apply dmem_keys in Hq. unfold dmem in Hq. rewrite Hd in Hq. discriminate. }
  intros conds (wa & wb & Ec). eapply runs_bind with (P := fun _ => True).
  - eapply runs_fold with (done := []) (P := fun _ (_ : list (row V)) => True); auto. intros _ [prm k] acc Hin _. cbn [fst snd].
    eapply runs_bind; [eapply measure_prm_runs; eauto|]. intros. now apply runs_ret.
  - intros rows _. apply runs_ret. cbn [fst snd]. split; auto. now repeat split.
Qed.

(** ** Experiments *)
Lemma run_steps_runs e d l : env_ok e l -> test_ok d l -> forall l', incl l' l -> forall i st rep, device_ok d l (rp_lots rep) (rp_chps rep) ->
  counted d l (rp_counts rep) -> inv d (rp_lots rep) (rp_chps rep) (rp_counts rep) st ->
  runs (run_steps e d i l' st rep) (fun _ => True).
Proof.
  intros Oe Ot. induction l' as [|x l' IH]; intros Hi i st rep O Hc I; [now apply runs_ret|].
  intros w. rewrite run_cons. revert w. change (runs (bind (sim_step e d (st, rep) (i, x)) (fun sr => run_steps e d (S i) l' (fst sr) (snd sr))) (fun _ => True)).
  pose proof (Hi _ (or_introl eq_refl)) as Hx. assert (Hi' : incl l' l) by (intros y Hy; apply Hi; now right).
  eapply runs_bind with (P := fun sr => inv d (rp_lots rep) (rp_chps rep) (rp_counts rep) (fst sr) /\ same_info rep (snd sr)).
  - destruct x as [m|s|o]; cbn [sim_step fst snd].
    + eapply meas_step_runs; eauto.
    + eapply stress_step_runs; eauto; [|exact (to_wf _ _ Ot _ Hx)]. intros q n Hq. exact (proj1 (proj1 Hc _ _ Hq)).
    + apply runs_ret. cbn [fst snd]. split; auto. now repeat split.
  - intros [st1 rep1] (I1 & Q1 & Q2 & Q3). cbn [fst snd] in *. apply IH; auto; [now rewrite Q1, Q2|now rewrite Q3|rewrite Q1, Q2, Q3; exact I1].
Qed.

Lemma needs_counts (d : device V) l q n : circuits_plain d ->
  dget (fst (augment d (calc_samples_needed l, None) (dkeys (calc_samples_needed l)))) q = Some n <-> greatest (needs d l q) n.
Proof.
  intros Cp. rewrite augment_needed by auto.
  assert (A : forall k, needed d (calc_samples_needed l) q k -> needs d l q k).
  { intros k [E|(p & c & E & Q)]; apply calc_samples_max in E as [E _]; [now left|]. right. exists p, c. now split. }
  assert (B : forall k, needs d l q k -> exists k', k <= k' /\ needed d (calc_samples_needed l) q k').
  { destruct (calc_samples_bound l) as (_ & _ & Hub).
    intros k [E|(p & c & E & Q)]; destruct (Hub _ _ E) as (y & Hy & Hle); exists y; (split; [auto|]); [now left|]. right. exists p, c. now split. }
  split; intros [G1 G2]; split.
  - auto.
  - intros k Hk. destruct (B _ Hk) as (k' & Hle & Hn). apply G2 in Hn. lia.
  - destruct (B _ G1) as (k' & Hle & Hn). pose proof (G2 _ (A _ Hn)). assert (k' = n) by lia. now subst.
  - intros k Hk. apply G2. auto.
Qed.

Lemma counts_counted (d : device V) l : circuits_plain d -> test_ok d l ->
  counted d l (fst (augment d (calc_samples_needed l, None) (dkeys (calc_samples_needed l)))).
Proof.
  intros Cp Ot. split; [intros q n E; now apply needs_counts|]. intros q Hq. destruct (to_need _ _ Ot _ Hq) as (n & Hn).
  destruct (calc_samples_bound l) as (_ & _ & Hub).
  assert (exists k, needed d (calc_samples_needed l) q k) as [k Hk].
  { destruct Hn as [E|(p & c & E & Q)]; destruct (Hub _ _ E) as (y & Hy & _); exists y; [now left|]. right. exists p, c. now split. }
  apply needed_some with (rc := None) in Hk. exact Hk.
Qed.

Lemma simulate_total e d l C L : env_ok e l -> device_ok d l L C -> test_ok d l -> runs (simulate e d l C L None) (fun _ => True).
Proof.
  intros Oe O Ot. pose proof (counts_counted d l (dk_plain _ _ _ _ O) Ot) as Hc.
  unfold simulate, gen_init_state, report_init. cbn [rp_counts rp_chps rp_lots].
  set (counts := fst (augment _ _ _)) in *.
  eapply runs_bind with (P := fun r => exists rep, ir_report r = Some rep /\ rp_chps rep = C /\ rp_lots rep = L /\ rp_counts rep = counts /\
     inv d L C counts (ir_state r)).
  - eapply runs_bind with (P := fun sc => snd sc = counts /\ inv d L C counts (fst sc)).
    + eapply runs_know; [eapply dev_init_runs with (counts := counts); eauto|].
      * intros x Hx. destruct Hc as [_ Hc]. destruct (Hc x Hx) as [n Hn]. unfold dmem. now rewrite Hn.
      * intros w [st cnt] w' E Hs. cbn [fst snd] in *. subst cnt. split; auto. eapply dev_init_inv; eauto. intros q n Hq. exact (proj1 (proj1 Hc _ _ Hq)).
    + intros [st cnt] [Q I]. cbn [fst snd] in *. subst cnt. apply runs_ret. eexists. split; [reflexivity|].
      cbn [set_counts rp_chps rp_lots rp_counts ir_state override_elapsed]. split; auto. split; auto. split; auto.
      destruct I as (F & I2 & I3 & I4 & I5 & x & Ex). split; [exact F|]. cbn [set_elapsed st_lat st_mech0 st_prm st_elapsed]. repeat split; eauto.
  - intros r (rep & -> & Q1 & Q2 & Q3 & I). eapply run_steps_runs; eauto; [intros y; auto|now rewrite Q1, Q2|now rewrite Q3|now rewrite Q1, Q2, Q3].
Qed.
End L.
