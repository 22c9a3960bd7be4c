(** Property C70: a well-posed experiment runs to the end. *)
From Coq Require Import QArith Lia.
From Verif Require Import M_Base M_Num M_NumR M_Nd M_RandVar M_Latent M_Time M_TestSpec M_Device M_Report M_Env M_Sim M_Toy
  S_TestSpec S_Device S_Env S_Sim S_Shape S_Total L_Base L_Shape L_Shape2 L_Total L_Total2 T_Sim T_Shape.
Open Scope nat_scope.

(** No exception is raised, whatever the random numbers drawn, the iteration order of
    sets and the numbers of chips and lots. *)
Theorem C70_runs_to_the_end :
  forall V (O : NumOps V) (R : Rng V) (Ho : HashOrd) (e : env V) (d : device V) l chps lots w,
  env_ok e l -> device_ok d l lots chps -> test_ok d l ->
  exists st rep w', simulate e d l chps lots None w = (Ok (st, rep), w').
Proof.
  intros V O R Ho e d l chps lots w He Hd Hl. destruct (simulate_total e d l chps lots He Hd Hl w) as ([st rep] & w' & E & _). eauto.
Qed.
Print Assumptions C70_runs_to_the_end.

(** ** What the constructors give *)

(** Environments: every variation model given can be drawn from, every instrument
    for what is measured works and none is called 'meas'. *)
Theorem C70_environments :
  forall V (O : NumOps V) (R : Rng V) eobjs vr iobjs ir (e : env V) l,
  reg_plain vr -> reg_plain ir -> env_init eobjs vr iobjs ir = Ok e ->
  (forall n m, given em_name eobjs vr n = Some m -> vrtn_ok m) ->
  (forall n i, given in_name iobjs ir n = Some i -> n <> "meas"%string /\ ((exists k, requests l n k) -> instm_ok i)) ->
  env_ok e l.
Proof. intros V O R. exact env_init_ok. Qed.
Print Assumptions C70_environments.

(** Latent variables and variation models: every distribution given is valid. *)
Theorem C70_latent_variables :
  forall V (O : NumOps V) (R : Rng V),
  (forall dev chp lot deter name vt (o : lvar V), lvar_init dev chp lot deter name vt = Ok o ->
     (forall r, In (Some r) [dev; chp; lot] -> drawable r) -> latent_ok o) /\
  (forall dev chp bat vt name (o : emdl V), emdl_init dev chp bat vt name = Ok o ->
     (forall r, In (Some r) [dev; chp; bat] -> drawable r) -> vrtn_ok o).
Proof.
  intros V O R. split.
  - intros dev chp lot deter name vt o E K. eapply lvar_init_latent_ok; eauto; intros x ->; apply K; cbn; auto.
  - intros dev chp bat vt name o E K. eapply emdl_init_vrtn_ok; eauto; intros x ->; apply K; cbn; auto.
Qed.
Print Assumptions C70_latent_variables.

(** Equations: the default ones, and all that are given by formulas in their
    parameters, compute and respect shapes; equations for single samples compute one
    sample at a time. *)
Theorem C70_equations :
  forall V (O : NumOps V),
  (forall v : V, computes (eqn_const v)) /\ computes (V := V) eqn_basic /\ computes (V := V) eqn_basic_sum /\
  (forall (f : eqn V) e, given_by f e -> computes f /\ respects f) /\
  (forall f : eqn V, computes f -> computes_somehow f) /\
  (forall f : eqn V, per_sample f -> computes_somehow f).
Proof.
  intros V O. split; [exact const_computes|]. split; [exact basic_computes|]. split; [exact basic_sum_computes|].
  split; [|split; [exact computes_now|exact per_sample_computes]].
  intros f e G. split; [exact (formula_computes f e G)|exact (formula_respects f e G)].
Qed.
Print Assumptions C70_equations.

(** Exact numbers always have a leading digit. *)
Lemma digits_Q : has_digits Q.
Proof.
  intros x E _. cbn [neqb QOps n0 nofQ] in E. cbn [nflog10 QOps]. unfold q_flog10. cbv zeta.
  destruct x as [[|a|a] b]; [discriminate E| |]; cbn; discriminate.
Qed.

(** ** The running example *)
#[local] Existing Instance hord_id.
Lemma ex_env_ok : env_ok ex_env ex_steps.
Proof.
  split; [|split]; [| |reflexivity].
  - intros n a Ea. apply dget_In in Ea. destruct Ea as [Q|[Q|[]]]; injection Q as Q1 <-.
    + exists ex_temp. split; auto. split; [discriminate|]. repeat split.
    + exfalso. eapply (L_Env.var_instm n "vth"). symmetry. exact Q1.
  - intros n a Ea. apply dget_In in Ea. destruct Ea as [Q|[Q|[]]]; injection Q as Q1 <-.
    + exfalso. eapply (L_Env.var_instm "temp" n). exact Q1.
    + eexists. split; [reflexivity|]. intros _. split; [discriminate|]. right. right. exact digits_Q.
Qed.

Lemma ex_fail_given : given_by ex_fail_eqn
  (FMap2 (fun t c => if q_ltb 2 t then Qred (1 + c / 400) else 0%Q) (FArg "time") (FArg "temp")).
Proof.
  repeat split; cbn; auto.
Qed.
Lemma ex_freq_given : given_by (lm_eqn ex_freq) (FMap2 nadd (FArg "vth") (FArg "vth")).
Proof.
  repeat split; cbn; try tauto. intros args w. unfold lift. f_equal. destruct (dgetE args "vth"); reflexivity.
Qed.

Lemma ex_needs_vth : needs ex_dev ex_steps "vth" 2.
Proof. left. exists ex_meas1. cbn. auto. Qed.
Lemma ex_needs_freq : needs ex_dev ex_steps "freq" 1.
Proof. left. exists ex_meas1. cbn. auto. Qed.
Lemma ex_needs_most x n : needs ex_dev ex_steps x n -> n <= 3 /\ (x = "vth"%string -> n <= 2).
Proof.
  assert (K : forall x n, requests ex_steps x n -> n <= 3 /\ (x = "vth"%string -> n <= 2) /\ (x = "freq"%string -> n <= 1)).
  { intros y k (m & Hm & Hk). cbn in Hm.
    destruct Hm as [Q|[Q|[Q|[Q|[Q|[Q|[]]]]]]]; try discriminate Q; injection Q as <-; cbn in Hk;
    repeat (destruct Hk as [Hk|Hk]; [injection Hk as <- <-; repeat split; try discriminate; lia|]); destruct Hk. }
  intros [R|(p & c & R & Ec & _ & _)]; [apply K in R; tauto|]. apply K in R. destruct (dget_In _ _ _ Ec) as [Q|[Q|[]]]; [discriminate Q|injection Q as <- _].
  split; [lia|]. intros _. destruct R as (_ & _ & R). specialize (R eq_refl). lia.
Qed.

Lemma ex_device_ok L C : device_ok ex_dev ex_steps L C.
Proof.
  constructor; [exact ex_wf|exact (regular_all _ _ _ _ ex_regular)|exact ex_plain| |].
  - intros name p Hp. apply dget_In in Hp. destruct Hp as [Q|[Q|[]]]; [|discriminate Q]. injection Q as <- <-.
    destruct (C70_equations Q _) as (Cc & Cb & Cs & Cf & Cn & _). constructor.
    + split; [|split; [|split]].
      * intros x o [Q|[]]. injection Q as <- <-. split; [discriminate|]. repeat split.
      * intros x o [].
      * intros x o [].
      * intros nm m Em. apply dget_In in Em. destruct Em as [Q|[]]. injection Q as <- <-. intros x o [].
    + split; [discriminate|]. split; [|exact Cb]. split; [intros x Hx; exact Hx|intros _ x Hx; left; exact Hx].
    + split; [|intros x []]. intros x [<-|[]]. split; discriminate.
    + split; [intros x [<-|[<-|[]]]; auto|]. split; [discriminate|]. apply Cn, Cs.
    + intros nm m Em. apply dget_In in Em. destruct Em as [Q|[]]. injection Q as <- <-.
      split; [left; cbn; auto|]. split; [apply Cn; exact (proj1 (Cf _ _ ex_fail_given))|]. split; [discriminate|].
      intros x [<-|[<-|[]]]; [auto|right; right]. intros s Hs. cbn in Hs.
      destruct Hs as [Q|[Q|[Q|[Q|[Q|[Q|[]]]]]]]; try discriminate Q; injection Q as <-; cbn; auto.
    + split; [apply Cn, Cc|]. intros x [].
  - intros name c Hc. apply dget_In in Hc. destruct Hc as [Q|[Q|[]]]; [discriminate Q|]. injection Q as <- <-.
    destruct (C70_equations Q _) as (_ & _ & _ & Cf & _). constructor.
    + intros x o [].
    + apply (Cf _ _ ex_freq_given).
    + intros m k Hm Hk. split.
      * intros x [<-|[]]. right. right. eexists. reflexivity.
      * exists "vth"%string. split; [cbn; auto|]. right. right. eexists. reflexivity.
    + intros m k Hm Hk. exists 2. intros x [<-|[]]. split; [intros []|]. split.
      * intros Hx. exfalso. cbn in Hm. destruct Hm as [Q|[Q|[Q|[Q|[Q|[Q|[]]]]]]]; try discriminate Q; injection Q as <-;
        destruct Hx as [Hx|[]]; discriminate Hx.
      * intros p _. split; [exact ex_needs_vth|]. intros n Hn. apply (ex_needs_most _ _ Hn). reflexivity.
Qed.

Lemma ex_test_ok : test_ok ex_dev ex_steps.
Proof.
  constructor; [exact ex_steps_wf| |].
  - intros m x k Hm Hk. cbn in Hm. destruct Hm as [Q|[Q|[Q|[Q|[Q|[Q|[]]]]]]]; try discriminate Q; injection Q as <-; cbn in Hk;
    repeat (destruct Hk as [Hk|Hk]; [injection Hk as <- <-; split; [discriminate|cbn; auto]|]); destruct Hk.
  - intros x [<-|[<-|[]]]; eexists; [exact ex_needs_vth|exact ex_needs_freq].
Qed.

(** Whatever the random numbers and the numbers of chips and lots. *)
Example C70_witness :
  (forall chps lots w, exists st rep w', simulate ex_env ex_dev ex_steps chps lots None w = (Ok (st, rep), w')) /\
  (* without the request of [vth] and [freq] the parameters are superfluous ... *)
  (exists w', simulate ex_env ex_dev [SStrs (ex_str 3 "s1")] 2 1 None ex_w = (Err KeyError, w')).
Proof.
  split; [intros chps lots w; exact (C70_runs_to_the_end _ _ _ _ _ _ _ chps lots w ex_env_ok (ex_device_ok _ _) ex_test_ok)|].
  vm_compute. eexists. reflexivity.
Qed.
