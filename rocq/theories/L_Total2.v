(** Lemmas: what makes an experiment well-posed. *)
From Coq Require Import Arith.
From Verif Require Import M_Base M_Num M_Nd M_RandVar M_Latent M_Time M_TestSpec M_Device M_Report M_Env M_Sim
  S_TestSpec S_Device S_Latent S_Env S_Sim S_Shape S_Total
  L_Base L_Nd L_Latent L_Device L_Env L_Env2 L_Shape L_Shape2 L_Total.
Open Scope nat_scope.

Section L.
Context {V : Type} `{NumOps V}.

(** ** Equations *)
Lemma computes_now (f : eqn V) : computes f -> computes_somehow f.
Proof.
  intros K L C n args w W O A. destruct (K L C n args w W O A) as (v & w' & E). exists v, w'. now apply try_succ.
Qed.

Lemma pmap_runs f L C n (x : pyval V) : operand L C n x -> exists z, pmap f x = Ok z /\
  operand L C n z /\ (shaped L C n x -> shaped L C n z).
Proof.
  intros [[u ->]|(a & -> & A1 & A2)]; unfold pmap; cbn [to_nd rbind].
  - eexists. split; [reflexivity|]. split; [left; eexists; reflexivity|]. intros (b & [=] & _).
  - eexists. split; [reflexivity|]. assert (S1 : shaped L C n (of_nd (amap f a))).
    { rewrite of_nd_arr by (cbn [amap nshape]; rewrite A1; discriminate). eexists. split; [reflexivity|]. cbn [amap nshape ndata]. now rewrite map_length. }
    split; auto. now right.
Qed.

Lemma fvalue_runs (e : formula V) L C n args : operands L C n args -> (forall x, In x (fnames e) -> In x (dkeys args)) ->
  exists z, fvalue e args = Ok z /\ operand L C n z /\
    ((exists x a, In x (fnames e) /\ dget args x = Some (PArr a)) -> shaped L C n z).
Proof.
  intros O. induction e as [v|x|f e IH|f e1 IH1 e2 IH2]; intros K; cbn [fvalue fnames] in *.
  - eexists. split; [reflexivity|]. split; [left; eauto|]. intros (x & a & [] & _).
  - assert (Hx : In x (dkeys args)) by (apply K; now left). apply dmem_keys, dmem_Some in Hx as [v Hv].
    exists v. split; [now apply dgetE_ok|]. pose proof (O _ _ (dget_In _ _ _ Hv)) as Ov. split; auto.
    intros (y & a & [<-|[]] & Ha). rewrite Hv in Ha. injection Ha as ->. destruct Ov as [[u [=]]|S1]; auto.
  - destruct (IH K) as (z & E & Oz & Sz). rewrite E. cbn [rbind]. destruct (pmap_runs f L C n z Oz) as (y & Ey & Oy & Sy). exists y. auto.
  - destruct IH1 as (z1 & E1 & O1 & S1); [intros; apply K, in_or_app; now left|]. destruct IH2 as (z2 & E2 & O2 & S2); [intros; apply K, in_or_app; now right|].
    rewrite E1, E2. cbn [rbind]. destruct (pmap2_runs f L C n z1 z2 O1 O2) as (y & Ey & Oy & Sy). exists y. split; auto. split; auto.
    intros (x & a & Hx & Ha). apply Sy. apply in_app_or in Hx as [Hx|Hx]; [left|right]; eauto.
Qed.

Lemma formula_computes (f : eqn V) e : given_by f e -> computes f.
Proof.
  intros (Eo & Ek & Kn & Eb) L C n args w W O A. pose proof (proj1 (call_accepts f args) A w) as Ec. rewrite Eb in Ec.
  destruct (fvalue_runs e L C n args O) as (z & Ez & _); [intros x Hx; apply A, Kn, Hx|]. rewrite Ez in Ec. eauto.
Qed.

Lemma formula_respects (f : eqn V) e : given_by f e -> respects f.
Proof.
  intros (Eo & Ek & Kn & Eb) L C n args w v w' W O E. pose proof E as E'. apply call_body in E' as [E' Kk]. rewrite Eb in E'. injection E' as E' _.
  assert (Hr : forall x, In x (e_req f) -> In x (dkeys args)).
  { intros x Hx. unfold call in E. destruct (forallb (dmem args) (e_req f)) eqn:F; cbn [andb] in E; [|discriminate].
    rewrite forallb_forall in F. apply dmem_keys. auto. }
  destruct (fvalue_runs e L C n args O) as (z & Ez & Oz & Sz); [intros x Hx; apply Hr, Kn, Hx|]. rewrite Ez in E'. injection E' as <-.
  split; auto. intros (x & a & Hin). apply Sz. exists x, a. split; [|now apply dget_wf_In].
  apply Kn. specialize (Kk Ek _ _ Hin). rewrite Eo, app_nil_r in Kk. exact Kk.
Qed.

Lemma const_computes (v : V) : computes (eqn_const v).
Proof. intros L C n args w W O A. rewrite (proj1 (call_accepts _ args) A). do 2 eexists. reflexivity. Qed.

Lemma basic_computes : computes (V := V) eqn_basic.
Proof. apply formula_computes with (e := FArg "init_val"). repeat split; auto. Qed.

Lemma psum_runs L C n (l : list (pyval V)) : forall acc, operand L C n acc -> (forall x, In x l -> operand L C n x) ->
  exists z, psum acc l = Ok z /\ operand L C n z.
Proof.
  induction l as [|x l IH]; intros acc Oa Ol; cbn [psum]; [eauto|].
  destruct (pmap2_runs nadd L C n acc x Oa) as (y & Ey & Oy & _); [apply Ol; now left|]. rewrite Ey. cbn [rbind]. apply IH; auto. intros; apply Ol; now right.
Qed.

Lemma basic_sum_computes : computes (V := V) eqn_basic_sum.
Proof.
  intros L C n args w W O A. rewrite (proj1 (call_accepts _ args) A). cbn [eqn_basic_sum e_body].
  destruct A as [A _]. cbn [eqn_basic_sum e_req] in A.
  assert (Hi : In "init"%string (dkeys args)) by (apply A; cbn; auto). assert (Hc : In "cond"%string (dkeys args)) by (apply A; cbn; auto).
  apply dmem_keys, dmem_Some in Hi as [i Hi]. apply dmem_keys, dmem_Some in Hc as [c Hc]. unfold dgetE. rewrite Hi, Hc. cbn [rbind].
  destruct (pmap2_runs nadd L C n i c (O _ _ (dget_In _ _ _ Hi)) (O _ _ (dget_In _ _ _ Hc))) as (ic & E1 & O1 & _). rewrite E1. cbn [rbind].
  destruct (psum_runs L C n (map snd (filter (fun kv => negb (String.eqb (fst kv) "init" || String.eqb (fst kv) "cond")) args)) (PNum n0)) as (s & E2 & O2).
  { left. eauto. }
  { intros x Hx. apply in_map_iff in Hx as ([k v] & <- & Hx). apply filter_In in Hx as [Hx _]. exact (O _ _ Hx). }
  rewrite E2. cbn [rbind]. destruct (pmap2_runs nadd L C n ic s O1 O2) as (z & E3 & _). rewrite E3. do 2 eexists. reflexivity.
Qed.

(** ** Equations for single samples *)
Lemma nsub1_runs (a : nd V) i n r : nshape a = n :: r -> length (ndata a) = prod (n :: r) -> i < n ->
  exists b, nsub1 a i = Ok b /\ nshape b = r /\ length (ndata b) = prod r.
Proof.
  intros Sa La Hi. unfold nsub1. rewrite Sa. destruct (Nat.ltb_spec i n); [|lia]. eexists. split; [reflexivity|]. cbn [nshape ndata]. split; auto.
  rewrite firstn_length, skipn_length, La. change (prod (n :: r)) with (n * prod r). nia.
Qed.

Lemma single_shaped L C n (v : pyval V) i j k : shaped L C n v -> i < L -> j < C -> k < n -> exists y, single_val i j k v = Ok (Some (PNum y)).
Proof.
  intros (a & -> & A1 & A2) Hi Hj Hk. cbn [single_val].
  destruct (nsub1_runs a i L [C; n] A1) as (b & -> & B1 & B2); [cbn; lia|auto|]. cbn [rbind].
  destruct (nsub1_runs b j C [n] B1) as (c & -> & C1 & C2); auto. cbn [rbind].
  destruct (nsub1_runs c k n [] C1) as (e & -> & E1 & E2); auto. cbn [rbind]. unfold of_nd. rewrite E1. cbn in E2.
  destruct (ndata e) as [|y [|]]; try discriminate. eauto.
Qed.

Lemma single_index_runs L C n i j k (args : dict (pyval V)) : operands L C n args -> i < L -> j < C -> k < n ->
  exists a, single_index i j k args = Ok a /\ dkeys a = dkeys args /\ forall x v, In (x, v) a -> exists y, v = PNum y.
Proof.
  intros O Hi Hj Hk. induction args as [|[key v] r IH]; cbn [single_index].
  - exists []. repeat split. intros x v [].
  - destruct IH as (a & Ea & Ka & Na); [intros x p Hin; eapply O; right; eauto|].
    assert (G : exists y, single_val i j k v = Ok (Some (PNum y))).
    { destruct (O key v (or_introl eq_refl)) as [[y ->]|S1]; [exists y; reflexivity|eapply single_shaped; eauto]. }
    destruct G as [y G]. rewrite G, Ea. cbn [rbind]. eexists. split; [reflexivity|]. cbn [dkeys map fst]. split; [f_equal; exact Ka|].
    intros x u [Q|Hin]; [injection Q as <- <-; eauto|eauto].
Qed.

Lemma indices3 L C D idx : In idx (indices [L; C; D]) -> exists i j k, idx = [i; j; k] /\ i < L /\ j < C /\ k < D.
Proof.
  cbn [indices]. intros Hin. apply in_flat_map in Hin as (i & Hi & Hin). apply in_seq in Hi. apply in_map_iff in Hin as (t & <- & Hin).
  apply in_flat_map in Hin as (j & Hj & Hin). apply in_seq in Hj. apply in_map_iff in Hin as (t' & <- & Hin).
  apply in_flat_map in Hin as (k & Hk & Hin). apply in_seq in Hk. destruct Hin as [<-|[]]. exists i, j, k. repeat split; lia.
Qed.

Lemma runs_mapM {A B} (f : A -> M B) l : (forall x, In x l -> runs (f x) (fun _ => True)) -> runs (mapM f l) (fun _ => True).
Proof.
  induction l as [|x l IH]; intros K; cbn [mapM]; [now apply runs_ret|].
  eapply runs_bind; [apply K; now left|]. intros y _. eapply runs_bind; [apply IH; intros; apply K; now right|]. intros ys _. now apply runs_ret.
Qed.

Lemma per_sample_computes (f : eqn V) : per_sample f -> computes_somehow f.
Proof.
  intros [P1 P2] L C n args w W O A. destruct (P2 L C n args w W O A) as (r & w1 & E & [->|(v & ->)]).
  - unfold call_or_loop, try_value_error. rewrite E.
    assert (G : runs (loop_compute f args L C n) (fun _ => True)).
    { unfold loop_compute. eapply runs_bind; [|intros; now apply runs_ret]. apply runs_mapM. intros idx Hin. apply indices3 in Hin as (i & j & k & -> & Hi & Hj & Hk).
      cbn [loop_elem]. destruct (single_index_runs L C n i j k args O Hi Hj Hk) as (a & Ea & Ka & Na). eapply runs_bind_lift; [exact Ea|].
      eapply runs_bind with (P := fun v => exists y, v = PNum y).
      - intros w2. destruct (P1 a w2) as (y & w3 & E3); [unfold dwf; now rewrite Ka|exact Na|now rewrite Ka|]. eauto.
      - intros v (y & ->). eapply runs_lift; [reflexivity|auto]. }
    destruct (G w1) as (v & w2 & E2 & _). eauto.
  - exists v, w1. now apply try_succ.
Qed.

(** ** Objects built by the constructors *)
Context `{Rng V}.

Definition part_ok (r : option (rv V)) : Prop := forall x, r = Some x -> drawable x.

Lemma stored_drawable t r f g : stored t r f g -> part_ok g -> drawable r.
Proof.
  unfold stored, drawable. destruct g as [x|].
  - intros (_ & _ & ->) K. exact (K x eq_refl).
  - intros (_ & ->) _. exact I.
Qed.

Lemma lvar_init_latent_ok dev chp lot deter name vt o : lvar_init dev chp lot deter name vt = Ok o ->
  part_ok dev -> part_ok chp -> part_ok lot -> latent_ok o.
Proof.
  intros E D1 D2 D3. apply lvar_init_rep in E as (t & _ & _ & (_ & Eo & _ & _ & S1 & S2 & S3)). cbn [t_type t_dev t_chp t_lot] in *.
  split; [rewrite Eo; discriminate|]. repeat split; eapply stored_drawable; eauto.
Qed.

Lemma emdl_init_vrtn_ok dev chp bat vt name o : emdl_init dev chp bat vt name = Ok o ->
  part_ok dev -> part_ok chp -> part_ok bat -> vrtn_ok o.
Proof.
  intros E D1 D2 D3. pose proof (emdl_init_rep dev chp bat vt name) as R. destruct (vtype_of vt) as [t|]; [|congruence].
  destruct R as (o' & E' & (_ & Eo & _ & S1 & S2 & S3)). assert (o' = o) by congruence. subst o'. cbn [et_type et_dev et_chp et_bat] in *.
  split; [rewrite Eo; discriminate|]. repeat split; eapply stored_drawable; eauto.
Qed.

Lemma env_init_ok eobjs vr iobjs ir (e : env V) l : reg_plain vr -> reg_plain ir -> env_init eobjs vr iobjs ir = Ok e ->
  (forall n m, given em_name eobjs vr n = Some m -> vrtn_ok m) ->
  (forall n i, given in_name iobjs ir n = Some i -> n <> "meas"%string /\ ((exists k, requests l n k) -> instm_ok i)) -> env_ok e l.
Proof.
  intros R1 R2 E Hv Hi. pose proof (env_init_get _ _ _ _ _ R1 R2 E) as G. split; [|split].
  - intros n a Ea. rewrite (proj1 (G n)) in Ea. destruct (given em_name eobjs vr n) as [m|] eqn:Em; [|discriminate]. injection Ea as <-.
    eexists. split; [reflexivity|]. apply Hv in Em. destruct vr; exact Em.
  - intros n a Ea. rewrite (proj2 (G n)) in Ea. destruct (given in_name iobjs ir n) as [i|] eqn:Ei; [|discriminate]. injection Ea as <-.
    eexists. split; [reflexivity|]. apply Hi in Ei as [_ Ei]. destruct ir; exact Ei.
  - change "meas_instm"%string with ("meas" ++ "_instm")%string. rewrite (proj2 (G "meas"%string)).
    destruct (given in_name iobjs ir "meas") as [i|] eqn:Ei; auto. apply Hi in Ei as [Ei _]. contradiction.
Qed.
End L.
