(** Properties of means and correlations of generated states and of first readings: C102. *)
From Coq Require Import Reals List Lia Lra String.
From Verif Require Import M_Base M_Num M_NumR M_Nd M_RandVar M_Latent M_Time M_TestSpec M_Device M_Report M_Env M_Sim
  S_TestSpec S_Latent S_Device S_Sim S_Shape S_Total S_Moments S_Moments2
  L_Base L_Latent L_Sim L_Sim2 L_Sim3 L_Shape2 L_Total L_Const L_Moments L_Moments2 L_Moments4 L_Moments6 L_Moments7 T_Sim T_Total T_Moments.
Import ListNotations.
Open Scope R_scope.

(** Every value that a generated state holds has the mean of the layers of its own
    latent variable; two values of one variable are correlated as its layers say, and
    values of different variables, of one or of different parameters, are not. *)
Theorem C102_states : forall (G : Rng R) (Om : Type) (E : (Om -> R) -> R) (d : device R) counts C L (w : Om -> world),
  expectation E -> sampled_device d counts ->
  let plan := drawings_plan (drawings d counts) C L in
  distributed E plan w -> independent E plan w ->
  (forall om, exists r w', dev_init_state d counts C L (w om) = (Ok r, w')) ->
  let value := fun x i om => state_sample C (fst (dev_init_state d counts C L (w om))) x i in
  (forall x om, In x (drawings d counts) -> in_state d (dr_place x) ->
     exists st cnt w' a, dev_init_state d counts C L (w om) = (Ok (st, cnt), w') /\ found st (dr_place x) = Some a /\
       nshape a = [L; C; dr_count x] /\ length (ndata a) = (L * C * dr_count x)%nat) /\
  forall x y i j, In x (drawings d counts) -> In y (drawings d counts) -> in_state d (dr_place x) -> in_state d (dr_place y) ->
  inside (dr_count x) C L i -> inside (dr_count y) C L j ->
  E (value x i) = var_mean (dr_var x) /\
  cov E (value x i) (value y j) = if place_eqb (dr_place x) (dr_place y) then var_cov (dr_var x) i j else 0.
Proof.
  intros G Om E d counts C L w HE Sd plan Ds Ki Runs value. split.
  - intros x om. exact (sample_shape d counts C L w Sd Runs x om).
  - exact (state_moments E HE d counts C L w Sd Ds Ki Runs).
Qed.
Print Assumptions C102_states.

(** The first readings of a test that begins with a measurement: the population that
    the latent variables describe is the population that is measured. *)
Theorem C102_first_readings : forall (G : Rng R) (Ho : HashOrd) (Om : Type) (E : (Om -> R) -> R) (e : env R) (d : device R) m l2 counts C L (w : Om -> world),
  expectation E -> sampled_device d counts -> regular d -> (forall s, In s (SMeas m :: l2) -> step_wf s) ->
  (forall q p, dget d q = Some (PDeg p) -> ~ In "init"%string (dkeys (dp_mechs p)) /\ ~ In "cond"%string (dkeys (dp_mechs p))) ->
  (forall om, exists st rep w', simulate e d (SMeas m :: l2) C L None (w om) = (Ok (st, rep), w') /\ rp_counts rep = counts) ->
  let plan := drawings_plan (drawings d counts) C L in
  distributed E plan w -> independent E plan w ->
  let reading := fun name i om => sim_reading (fst (simulate e d (SMeas m :: l2) C L None (w om))) name i in
  forall name k p o name' k' p' o' i j, In (name, k) (ms_counts m) -> In (name', k') (ms_counts m) ->
  plainly_read e d name p o -> plainly_read e d name' p' o' -> inside k C L i -> inside k' C L j ->
  E (reading name i) = var_mean o /\
  cov E (reading name i) (reading name' j) = if String.eqb name name' then var_cov o i j else 0.
Proof. intros G Ho Om E e d m l2 counts C L w HE. exact (first_reading_moments E HE e d m l2 counts C L w). Qed.
Print Assumptions C102_first_readings.

(** ** Two parameters, one with a lot and a device layer, one with a device layer *)
#[local] Existing Instance coin_rng.
#[local] Existing Instance hord_id.
Local Open Scope string_scope.
Definition spread : lvar R := LVar None (Some Offset) (Some 10) 0 (Some Offset) narrow true (Rv 0 (DDeter 0) None) false wide true.
Definition spread2 : lvar R := LVar None (Some Offset) (Some 2) 0 (Some Offset) narrow true (Rv 0 (DDeter 0) None) false (Rv 0 (DDeter 0) None) false.
Definition only (o : lvar R) : degprm R := DegPrm (LMdl eqn_basic [("init_val", o)]) (LMdl (eqn_const 0) []) 0 [] (LMdl eqn_basic_sum []).
Definition pair_dev : device R := [("a", PDeg (only spread)); ("b", PDeg (only spread2))].
Definition pair_meas : meas_spec R := MeasSpec [("b", 1%nat); ("a", 1%nat)] [] "m".
Definition pair_rest : list (step R) := [SStrs (StrsSpec [("temp", 300)] 3600000000 "s"); SMeas pair_meas].
Definition pair_counts : dict nat := [("b", 1%nat); ("a", 1%nat)].

Lemma only_distinct o : distinct_names (PDeg (only o)).
Proof. repeat split; try apply NoDup_nil; try (repeat constructor; intros []); cbn; tauto. Qed.
Lemma pair_sampled : sampled_device pair_dev pair_counts.
Proof.
  split.
  - repeat constructor; cbn; intros K; repeat (destruct K as [K|K]; [discriminate|]); exact K.
  - intros name q [K|[K|[]]]; injection K as _ <-; apply only_distinct.
  - intros name p [K|[K|[]]]; injection K as _ <-; intros a w; cbn; unfold lift; reflexivity.
  - intros x [<-|[<-|[]]]; (split; [discriminate|]);
    (split; [|split]); intros r K; injection K as <-; (split; [discriminate|]); intros p K; try discriminate K; injection K as <-; reflexivity.
Qed.
Lemma pair_regular : regular pair_dev.
Proof.
  intros name p Hp. apply dget_In in Hp. destruct Hp as [K|[K|[]]]; injection K as _ <-;
    (split; [apply basic_respects|]); (split; [apply respects_numeric, const_respects|]); (split; [apply respects_follows, basic_sum_respects|]);
    intros nm m K; discriminate K.
Qed.
Lemma pair_steps_wf : forall s, In s (SMeas pair_meas :: pair_rest) -> step_wf s.
Proof. intros s [<-|[<-|[<-|[]]]]; repeat split; repeat constructor; cbn; intros K; repeat (destruct K as [K|K]; [discriminate|]); exact K. Qed.
Lemma pair_runs : forall om : nat, exists st rep w', simulate [] pair_dev (SMeas pair_meas :: pair_rest) 1 1 None (fun _ => om) = (Ok (st, rep), w') /\
  rp_counts rep = pair_counts.
Proof.
  intros om. assert (W : device_wf pair_dev) by exact (dwf_device _ _ pair_sampled).
  destruct (C70_runs_to_the_end _ _ _ _ [] pair_dev (SMeas pair_meas :: pair_rest) 1%nat 1%nat (fun _ => om)) as (st & rep & w' & E).
  - split; [|split]; [| |reflexivity]; intros n a K; discriminate K.
  - constructor; [exact W|exact (regular_all _ _ _ _ pair_regular)| | |].
    + intros name c q Hc. apply dget_In in Hc. destruct Hc as [K|[K|[]]]; discriminate K.
    + destruct (C70_equations R _) as (Cc & Cb & Cs & _ & Cn & _).
      assert (Ok : forall o name, latent_ok o -> deg_ok (SMeas pair_meas :: pair_rest) name (only o)).
      { intros o name Lo. constructor.
        - split; [|split; [|split]]; [intros x y [K|[]]; injection K as _ <-; exact Lo|intros x y []|intros x y []|intros nm m K; discriminate K].
        - split; [discriminate|]. split; [|exact Cb]. split; [intros x Hx; exact Hx|intros _ x Hx; left; exact Hx].
        - split; intros x [].
        - split; [intros x [<-|[<-|[]]]; auto|]. split; [discriminate|]. apply Cn, Cs.
        - intros nm m K; discriminate K.
        - split; [apply Cn, Cc|]. intros x []. }
      intros name p Hp. apply dget_In in Hp. destruct Hp as [K|[K|[]]]; injection K as _ <-; apply Ok; (split; [discriminate|]); repeat split.
    + intros name c Hc. apply dget_In in Hc. destruct Hc as [K|[K|[]]]; discriminate K.
  - constructor; [exact pair_steps_wf| |].
    + intros m x k [K|[K|[K|[]]]] Hk; try discriminate K; injection K as <-; cbn in Hk;
        repeat (destruct Hk as [Hk|Hk]; [injection Hk as <- <-; split; [discriminate|cbn; auto]|]); destruct Hk.
    + intros x [<-|[<-|[]]]; exists 1%nat; left; exists pair_meas; cbn; auto.
  - exists st, rep, w'. split; [exact E|].
    apply simulate_run in E as (sa & ra & wx & Er & _ & _ & _ & _ & _ & _ & _ & _ & sb & _ & _ & Q); [|exact W].
    pose proof (run_same _ _ _ _ _ _ _ _ _ _ Er) as (_ & _ & _ & S1 & _). rewrite S1, Q. reflexivity.
Qed.
Lemma pair_read name p o : dget pair_dev name = Some (PDeg p) -> p = only o -> plainly_read [] pair_dev name p o.
Proof. intros K ->. split; auto; try reflexivity. intros nm m []. Qed.

(** The readings of [a] have mean 10 + 1 + 5 and variance 4 + 9, those of [b] mean 2 + 5
    and variance 9, and they are not correlated. *)
Example C102_readings_example :
  let reading := fun name om => sim_reading (fst (simulate [] pair_dev (SMeas pair_meas :: pair_rest) 1 1 None (fun _ => om))) name (0, 0, 0)%nat in
  ave (reading "a") = 16 /\ var ave (reading "a") = 13 /\ ave (reading "b") = 7 /\ var ave (reading "b") = 9 /\ cov ave (reading "a") (reading "b") = 0.
Proof.
  intros reading. destruct (coins_independent 0 1 5 5 2 3 3) as [Ki Kd].
  assert (I0 : inside 1 1 1 (0, 0, 0)%nat) by (repeat split; cbn; lia).
  assert (M : forall name k p o name' k' p' o' i j, In (name, k) (ms_counts pair_meas) -> In (name', k') (ms_counts pair_meas) ->
    plainly_read [] pair_dev name p o -> plainly_read [] pair_dev name' p' o' -> inside k 1 1 i -> inside k' 1 1 j -> _)
  by exact (C102_first_readings _ _ nat ave [] pair_dev pair_meas pair_rest pair_counts 1%nat 1%nat (fun om _ => om) ave_expectation pair_sampled
    pair_regular pair_steps_wf ltac:(intros q p Hq; apply dget_In in Hq; destruct Hq as [K|[K|[]]]; injection K as _ <-; split; intros []) pair_runs Kd Ki).
  assert (Ra : plainly_read [] pair_dev "a" (only spread) spread) by (apply pair_read; reflexivity).
  assert (Rb : plainly_read [] pair_dev "b" (only spread2) spread2) by (apply pair_read; reflexivity).
  assert (Ia : In ("a", 1%nat) (ms_counts pair_meas)) by (cbn; auto). assert (Ib : In ("b", 1%nat) (ms_counts pair_meas)) by (cbn; auto).
  destruct (M _ _ _ _ _ _ _ _ _ _ Ia Ia Ra Ra I0 I0) as [A1 A2]. destruct (M _ _ _ _ _ _ _ _ _ _ Ib Ib Rb Rb I0 I0) as [B1 B2].
  destruct (M _ _ _ _ _ _ _ _ _ _ Ia Ib Ra Rb I0 I0) as [_ AB]. repeat split.
  - etransitivity; [exact A1|]. cbn. lra.
  - etransitivity; [exact A2|]. cbn. lra.
  - etransitivity; [exact B1|]. cbn. lra.
  - etransitivity; [exact B2|]. cbn. lra.
  - exact AB.
Qed.

(** The values of both parameters in the state itself. *)
Example C102_states_example :
  let value := fun x om => state_sample 1 (fst (dev_init_state pair_dev pair_counts 1 1 (fun _ => om))) x (0, 0, 0)%nat in
  let a := Drawing (Place "a" Init "init_val") 1 spread in let b := Drawing (Place "b" Init "init_val") 1 spread2 in
  ave (value a) = 16 /\ var ave (value a) = 13 /\ cov ave (value a) (value b) = 0.
Proof.
  intros value a b. destruct (coins_independent 0 1 5 5 2 3 3) as [Ki Kd].
  assert (I0 : inside 1 1 1 (0, 0, 0)%nat) by (repeat split; cbn; lia).
  destruct (C102_states _ nat ave pair_dev pair_counts 1%nat 1%nat (fun om _ => om) ave_expectation pair_sampled Kd Ki) as [_ M].
  { intros om. destruct (pair_runs om) as (st & rep & w' & E & <-).
    apply simulate_run in E as (sa & ra & wx & Er & _ & _ & _ & _ & _ & _ & _ & _ & sb & Ei & _ & Q); [|exact (dwf_device _ _ pair_sampled)].
    pose proof (run_same _ _ _ _ _ _ _ _ _ _ Er) as (_ & _ & _ & S1 & _). rewrite S1. eauto. }
  assert (Sa : In a (drawings pair_dev pair_counts)) by (cbn; auto). assert (Sb : In b (drawings pair_dev pair_counts)) by (cbn; auto).
  assert (Fa : in_state pair_dev (dr_place a)) by (intros _; exists (only spread); split; reflexivity).
  assert (Fb : in_state pair_dev (dr_place b)) by (intros _; exists (only spread2); split; reflexivity).
  destruct (M a a _ _ Sa Sa Fa Fa I0 I0) as [A1 A2]. destruct (M a b _ _ Sa Sb Fa Fb I0 I0) as [_ A3]. repeat split.
  - etransitivity; [exact A1|]. cbn. lra.
  - etransitivity; [exact A2|]. cbn. lra.
  - exact A3.
Qed.
