(** Properties of populations that degrade without chance: C104. *)
From Coq Require Import Reals List Lia Lra String.
From Verif Require Import M_Base M_Num M_NumR M_Nd M_RandVar M_Latent M_Time M_TestSpec M_Device M_Report M_Env M_CookEnv M_Sim
  S_TestSpec S_Latent S_Device S_Sim S_Shape S_Total S_Const S_Moments S_Moments2 S_Rigid S_Series
  L_Base L_Latent L_Sim L_Sim2 L_Sim3 L_Shape2 L_Total L_Const L_Series L_Moments L_Moments2 L_Moments4 L_Moments6 L_Moments7 L_Rigid L_Rigid2
  L_Total2 L_Demo T_Sim T_Total T_History T_Const T_Moments.
Import ListNotations.
Open Scope R_scope.

(** What degradation adds to the initial value is the same in every run of a test,
    whatever the random numbers, and for all devices. *)
Theorem C104_no_chance : forall (G : Rng R) (Ho : HashOrd) (e : env R) (d : device R) l C L w1 w2 st1 st2 rep1 rep2 w1' w2' name p o i j s m k,
  ideal_env = Ok e -> device_wf d -> regular d -> (forall s, In s l -> step_wf s) ->
  (forall q p, dget d q = Some (PDeg p) -> ~ In "init"%string (dkeys (dp_mechs p)) /\ ~ In "cond"%string (dkeys (dp_mechs p))) ->
  simulate e d l C L None w1 = (Ok (st1, rep1), w1') -> simulate e d l C L None w2 = (Ok (st2, rep2), w2') -> rp_counts rep1 = rp_counts rep2 ->
  rigid d name p o -> nth_error l s = Some (SMeas m) -> In (name, k) (ms_counts m) -> inside k C L i -> inside k C L j ->
  step_reading (Ok (st1, rep1)) s name i - initial_value (Ok (st1, rep1)) name i =
  step_reading (Ok (st2, rep2)) s name j - initial_value (Ok (st2, rep2)) name j.
Proof. intros G Ho e d l C L w1 w2 st1 st2 rep1 rep2 w1' w2' name p o i j s m k. apply two_shifts. Qed.
Print Assumptions C104_no_chance.

(** Hence degradation moves the mean of the readings and leaves variances and
    correlations, also those between readings at different times, as they were. *)
Theorem C104_moments : forall (G : Rng R) (Ho : HashOrd) (Om : Type) (E : (Om -> R) -> R) (e : env R) (d : device R) l counts C L (w : Om -> world),
  expectation E -> ideal_env = Ok e -> sampled_device d counts -> regular d -> (forall s, In s l -> step_wf s) ->
  (forall q p, dget d q = Some (PDeg p) -> ~ In "init"%string (dkeys (dp_mechs p)) /\ ~ In "cond"%string (dkeys (dp_mechs p))) ->
  (forall om, exists st rep w', simulate e d l C L None (w om) = (Ok (st, rep), w') /\ rp_counts rep = counts) ->
  let plan := drawings_plan (drawings d counts) C L in distributed E plan w -> independent E plan w ->
  let run := fun om => fst (simulate e d l C L None (w om)) in
  exists shift : nat -> string -> R,
  forall s m name k p o i, nth_error l s = Some (SMeas m) -> In (name, k) (ms_counts m) -> rigid d name p o -> inside k C L i ->
    (forall om, step_reading (run om) s name i = initial_value (run om) name i + shift s name) /\
    E (fun om => step_reading (run om) s name i) = var_mean o + shift s name /\
    forall s' m' name' k' p' o' j, nth_error l s' = Some (SMeas m') -> In (name', k') (ms_counts m') -> rigid d name' p' o' -> inside k' C L j ->
      cov E (fun om => step_reading (run om) s name i) (fun om => step_reading (run om) s' name' j) = if String.eqb name name' then var_cov o i j else 0.
Proof. intros G Ho Om E e d l counts C L w HE. exact (rigid_moments_level E HE e d l counts C L w). Qed.
Print Assumptions C104_moments.

(** ** One device, measured before and after five hours of stress *)
#[local] Existing Instance coin_rng.
#[local] Existing Instance hord_id.
Local Open Scope string_scope.
Definition three : lvar R := LVar None (Some Offset) (Some 10) 0 (Some Offset) narrow true narrow true wide true.
Definition three_counts : dict nat := [("p", 1%nat)].
Lemma three_sampled : sampled_device (T_History.r_dev three) three_counts.
Proof.
  split.
  - repeat constructor; cbn; intros [].
  - intros name q [K|[]]. injection K as <- <-. split; [repeat constructor; intros []|]. split; [intros [K|[]]; discriminate|].
    split; [apply NoDup_nil|]. split; [apply NoDup_nil|]. split; [repeat constructor; intros []|].
    split; [intros nm m [K|[]]; injection K as _ <-; apply NoDup_nil|intros v []].
  - intros name p [K|[]]. injection K as _ <-. intros a w; cbn; unfold lift; reflexivity.
  - intros x [<-|[]]. split; [discriminate|].
    (split; [|split]); intros r K; injection K as <-; (split; [discriminate|]); intros p K; injection K as <-; reflexivity.
Qed.
Lemma three_runs : forall om : nat, exists st rep w', simulate [] (T_History.r_dev three) r_steps2 1 1 None (fun _ => om) = (Ok (st, rep), w') /\
  rp_counts rep = three_counts.
Proof.
  intros om. destruct (r_runs2 _ three (fun _ => om)) as (st & rep & w' & E & K); [split; [discriminate|]; repeat split|].
  exists st, rep, w'. split; [exact E|].
  apply simulate_run in E as (sa & ra & wx & Er & _ & _ & _ & _ & _ & _ & _ & _ & sb & _ & _ & Q); [|exact (r_wf three)].
  pose proof (run_same _ _ _ _ _ _ _ _ _ _ Er) as (_ & _ & _ & S1 & _). rewrite S1, Q. reflexivity.
Qed.
Lemma three_rigid : rigid (T_History.r_dev three) "p" (r_prm three) three.
Proof.
  split; try reflexivity.
  - exists (fun _ => r_form), (fun _ => UHours). exact (r_additive three).
  - intros nm m Hm. apply dget_In in Hm. destruct Hm as [K|[]]. injection K as _ <-. reflexivity.
Qed.
Lemma three_plain : forall q p, dget (T_History.r_dev three) q = Some (PDeg p) -> ~ In "init" (dkeys (dp_mechs p)) /\ ~ In "cond" (dkeys (dp_mechs p)).
Proof. intros q p Hp. apply dget_In in Hp. destruct Hp as [Q|[]]. injection Q as <- <-. split; intros [Q|[]]; discriminate. Qed.

(** The stress adds 15 to the mean 10 + 1 + 5 + 5; the variance 4 + 9 + 9 stays, and it
    is also the covariance of the two readings. *)
Example C104_example :
  let reading := fun s om => step_reading (fst (simulate [] (T_History.r_dev three) r_steps2 1 1 None (fun _ => om))) s "p" (0, 0, 0)%nat in
  ave (reading 2%nat) = 36 /\ var ave (reading 2%nat) = 22 /\ cov ave (reading 0%nat) (reading 2%nat) = 22.
Proof.
  intros reading. destruct (coins_independent 0 1 5 5 2 3 3) as [Ki Kd].
  assert (I0 : inside 1 1 1 (0, 0, 0)%nat) by (repeat split; cbn; lia).
  destruct (C104_moments _ _ nat ave [] (T_History.r_dev three) r_steps2 three_counts 1%nat 1%nat (fun om _ => om) ave_expectation eq_refl three_sampled
    (r_regular three) r_steps2_wf three_plain three_runs Kd Ki) as (shift & M).
  destruct (M 2%nat _ "p" 1%nat _ three (0, 0, 0)%nat eq_refl (or_introl eq_refl) three_rigid I0) as (A & B & Cv).
  destruct (M 0%nat _ "p" 1%nat _ three (0, 0, 0)%nat eq_refl (or_introl eq_refl) three_rigid I0) as (_ & _ & Cv0).
  assert (Sh : shift 2%nat "p" = 15).
  { specialize (A 0%nat). destruct (three_runs 0%nat) as (st & rep & w' & Es & Ec). cbv beta in A. rewrite Es in A. cbn [fst] in A.
    assert (K : dget (rp_counts rep) "p" = Some 1%nat) by (rewrite Ec; reflexivity).
    destruct (r_reads _ three _ _ _ _ Es K) as (init & pre & g & post & r & R1 & R2 & R3 & R4 & R5 & R6 & R7 & R8 & R9).
    rewrite (found_row [] (T_History.r_dev three) r_steps2 1 1 _ st rep w' "p" (r_prm three) (0, 0, 0)%nat 2%nat r (length pre) (r_wf three) (r_regular three) r_steps2_wf Es eq_refl) in A; auto.
    - unfold initial_value in A. cbn [fst snd] in A. rewrite R1, R5 in A. lra.
    - rewrite R2, nth_error_app2, Nat.sub_diag by lia. rewrite nth_error_app1; [exact R3|]. destruct g; [discriminate|cbn; lia].
    - unfold is_row. rewrite R6, R7, R8, R9. reflexivity. }
  repeat split.
  - etransitivity; [exact B|]. rewrite Sh. cbn. lra.
  - etransitivity; [exact (Cv 2%nat _ "p" 1%nat _ three (0, 0, 0)%nat eq_refl (or_introl eq_refl) three_rigid I0)|]. cbn. lra.
  - etransitivity; [exact (Cv0 2%nat _ "p" 1%nat _ three (0, 0, 0)%nat eq_refl (or_introl eq_refl) three_rigid I0)|]. cbn. lra.
Qed.

(** Two lots: each run gives both the same shift, and another run again the same. *)
Lemma two_lots_run w : exists st rep w', simulate [] (T_History.r_dev three) r_steps2 1 2 None w = (Ok (st, rep), w') /\ rp_counts rep = three_counts.
Proof.
  destruct (one_experiment [] "p"%string (r_prm three) r_steps2 r_meas 1 1 2 w) as (st & rep & w' & E & _ & _ & K); eauto.
  - split; [now left|]. intros m' [Q|[Q|[Q|[]]]]; now inversion Q.
  - discriminate.
  - apply basic_empty.
  - apply (prm_of_deg [("age"%string, r_mech)] three (LMdl eqn_basic_sum []) None None); auto.
    + split; [discriminate|]; repeat split.
    + intros x o [].
    + intros x [<-|[]]. split; discriminate.
    + intros x [<-|[<-|[]]]; auto.
    + discriminate.
    + apply computes_now, basic_sum_computes.
    + intros nm m [Q|[]]. injection Q as <- <-. split; [intros x o []|]. split; [left; now left|].
      split; [exact (formula_somehow _ _ r_given)|]. split; [discriminate|].
      intros x [<-|[<-|[]]]; [now left|]. right; right. intros s [Q|[Q|[Q|[]]]]; try discriminate Q. injection Q as <-. now left.
  - destruct (r_regular three "p"%string (r_prm three) eq_refl) as (A & B & D & G). split; [apply A|]. split; [apply B|]. split; [apply D|]. intros nm m Hm. exact (G nm m Hm 2 1 1)%nat.
  - repeat constructor; intros [].
  - intros s [<-|[<-|[<-|[]]]]; (split; [repeat split; repeat constructor; cbn; intuition discriminate|split; [cbn; intuition (subst; discriminate)|discriminate]]).
  - exists st, rep, w'. split; [exact E|].
    apply simulate_run in E as (sa & ra & wx & Er & _ & _ & _ & _ & _ & _ & _ & _ & sb & _ & _ & Q); [|exact (r_wf three)].
    pose proof (run_same _ _ _ _ _ _ _ _ _ _ Er) as (_ & _ & _ & S1 & _). rewrite S1, Q. reflexivity.
Qed.
Example C104_two_lots : forall w1 w2, exists st1 rep1 w1' st2 rep2 w2',
  simulate [] (T_History.r_dev three) r_steps2 1 2 None w1 = (Ok (st1, rep1), w1') /\ simulate [] (T_History.r_dev three) r_steps2 1 2 None w2 = (Ok (st2, rep2), w2') /\
  step_reading (Ok (st1, rep1)) 2 "p" (0, 0, 0)%nat - initial_value (Ok (st1, rep1)) "p" (0, 0, 0)%nat =
  step_reading (Ok (st2, rep2)) 2 "p" (1, 0, 0)%nat - initial_value (Ok (st2, rep2)) "p" (1, 0, 0)%nat.
Proof.
  intros w1 w2. destruct (two_lots_run w1) as (st1 & rep1 & w1' & E1 & C1). destruct (two_lots_run w2) as (st2 & rep2 & w2' & E2 & C2).
  exists st1, rep1, w1', st2, rep2, w2'. split; [exact E1|]. split; [exact E2|].
  apply (C104_no_chance _ _ [] (T_History.r_dev three) r_steps2 1%nat 2%nat w1 w2 st1 st2 rep1 rep2 w1' w2' "p" (r_prm three) three _ _ 2%nat r_meas 1%nat); auto.
  - exact (r_wf three).
  - exact (r_regular three).
  - exact r_steps2_wf.
  - exact three_plain.
  - congruence.
  - exact three_rigid.
  - now left.
  - repeat split; cbn; lia.
  - repeat split; cbn; lia.
Qed.
