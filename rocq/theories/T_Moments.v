(** Properties of means, variances and correlations of generated samples: C101. *)
From Coq Require Import Reals List Lia Lra String.
From Verif Require Import M_Base M_Num M_NumR M_Nd M_RandVar M_Latent M_Env S_Latent S_Moments L_Latent L_Moments L_Moments2 L_Moments3.
Import ListNotations.
Open Scope R_scope.

(** Latent variables, after any sequence of assignments: with offset layers the means
    and the variances of the layers add up, and two samples share the variance of the
    layers they have in common. *)
Theorem C101_latent_offset : forall (G : Rng R) dev chp lot deter name vt (o : lvar R) l,
  lvar_init dev chp lot deter name vt = Ok o ->
  exists t s, vt = type_name t /\ tells_all tells (Told t deter dev chp lot) l (fst (run_assigns lvar_assign o l)) s /\
  let o' := snd (run_assigns lvar_assign o l) in
  (t_type s = Offset -> acceptable (t_dev s) -> acceptable (t_chp s) -> acceptable (t_lot s) ->
   forall (Om : Type) (E : (Om -> R) -> R) (w : Om -> world) D C L, expectation E ->
   distributed E (latent_plan s D C L) w -> uncorrelated E (latent_plan s D C L) w ->
   let call := fun om => fst (gen_latent o' D C L (w om)) in
   let sample := fun i om => at3 C D (call om) i in
   gives_array call D C L /\
   forall i j, inside D C L i -> inside D C L j ->
   E (sample i) = match t_deter s with Some v => v | None => 0 end +
                  mean (layer_dist Offset (t_lot s)) + mean (layer_dist Offset (t_chp s)) + mean (layer_dist Offset (t_dev s)) /\
   cov E (sample i) (sample j) =
     when (same_lot i j) (variance (layer_dist Offset (t_lot s))) + when (same_chip i j) (variance (layer_dist Offset (t_chp s))) +
     when (same_device i j) (variance (layer_dist Offset (t_dev s)))).
Proof.
  intros G dev chp lot deter name vt o l H. destruct (lvar_init_rep _ _ _ _ _ _ _ H) as (t & Ht & _ & K).
  destruct (assigns_run _ _ l K) as (s & T & K'). exists t, s. split; [exact Ht|]. split; [exact T|].
  intros o' Ty Hd Hc Hl Om E w D C L HE Ds Un call sample. split.
  - exact (latent_array w o' s D C L K' Hd Hc Hl).
  - intros i j Hi Hj. exact (latent_offset E HE w o' s D C L K' Hd Hc Hl Ty Ds Un i j Hi Hj).
Qed.
Print Assumptions C101_latent_offset.

(** With scaling layers the means multiply, and so do the expected products of the
    layers: the second moment where two samples share the value of a layer, the squared
    mean where they do not. *)
Theorem C101_latent_scaling : forall (G : Rng R) dev chp lot deter name vt (o : lvar R) l,
  lvar_init dev chp lot deter name vt = Ok o ->
  exists t s, vt = type_name t /\ tells_all tells (Told t deter dev chp lot) l (fst (run_assigns lvar_assign o l)) s /\
  let o' := snd (run_assigns lvar_assign o l) in
  (t_type s = Scaling -> acceptable (t_dev s) -> acceptable (t_chp s) -> acceptable (t_lot s) ->
   forall (Om : Type) (E : (Om -> R) -> R) (w : Om -> world) D C L, expectation E ->
   distributed E (latent_plan s D C L) w -> independent E (latent_plan s D C L) w ->
   let call := fun om => fst (gen_latent o' D C L (w om)) in
   let sample := fun i om => at3 C D (call om) i in
   let c := match t_deter s with Some v => v | None => 1 end in
   gives_array call D C L /\
   forall i j, inside D C L i -> inside D C L j ->
   E (sample i) = c * mean (layer_dist Scaling (t_lot s)) * mean (layer_dist Scaling (t_chp s)) * mean (layer_dist Scaling (t_dev s)) /\
   E (fun om => sample i om * sample j om) =
     c ^ 2 * pair_moment (same_lot i j) (layer_dist Scaling (t_lot s)) * pair_moment (same_chip i j) (layer_dist Scaling (t_chp s)) *
     pair_moment (same_device i j) (layer_dist Scaling (t_dev s))).
Proof.
  intros G dev chp lot deter name vt o l H. destruct (lvar_init_rep _ _ _ _ _ _ _ H) as (t & Ht & _ & K).
  destruct (assigns_run _ _ l K) as (s & T & K'). exists t, s. split; [exact Ht|]. split; [exact T|].
  intros o' Ty Hd Hc Hl Om E w D C L HE Ds Un call sample c. split.
  - exact (latent_array w o' s D C L K' Hd Hc Hl).
  - intros i j Hi Hj. exact (latent_scaling E HE w o' s D C L K' Hd Hc Hl Ty Ds Un i j Hi Hj).
Qed.
Print Assumptions C101_latent_scaling.

(** Conditions that devices see: the same, except that all devices share the value of
    the batch layer. *)
Theorem C101_condition_offset : forall (G : Rng R) dev chp bat vt name (o : emdl R) l,
  emdl_init dev chp bat vt name = Ok o ->
  exists t s, vt = type_name t /\ tells_all etells (ETold t dev chp bat) l (fst (run_assigns emdl_assign o l)) s /\
  let o' := snd (run_assigns emdl_assign o l) in
  (et_type s = Offset -> acceptable (et_dev s) -> acceptable (et_chp s) -> acceptable (et_bat s) ->
   forall (Om : Type) (E : (Om -> R) -> R) (w : Om -> world) base D C L, expectation E ->
   distributed E (env_plan s D C L) w -> uncorrelated E (env_plan s D C L) w ->
   let call := fun om => fst (gen_env o' base D C L (w om)) in
   let sample := fun i om => at3 C D (call om) i in
   gives_array call D C L /\
   forall i j, inside D C L i -> inside D C L j ->
   E (sample i) = base + mean (layer_dist Offset (et_bat s)) + mean (layer_dist Offset (et_chp s)) + mean (layer_dist Offset (et_dev s)) /\
   cov E (sample i) (sample j) =
     variance (layer_dist Offset (et_bat s)) + when (same_chip i j) (variance (layer_dist Offset (et_chp s))) +
     when (same_device i j) (variance (layer_dist Offset (et_dev s)))).
Proof.
  intros G dev chp bat vt name o l H. pose proof (emdl_init_rep dev chp bat vt name) as K.
  destruct (vtype_of vt) as [t|] eqn:Hv; [|congruence].
  destruct K as (o0 & K0 & K). assert (o0 = o) by congruence. subst o0.
  destruct (eassigns_run _ _ l K) as (s & T & K'). exists t, s. split; [exact (vtype_of_Some _ _ Hv)|]. split; [exact T|].
  intros o' Ty Hd Hc Hl Om E w base D C L HE Ds Un call sample. split.
  - exact (cond_array w o' s base D C L K' Hd Hc Hl).
  - intros i j Hi Hj. exact (cond_offset E HE w o' s base D C L K' Hd Hc Hl Ty Ds Un i j Hi Hj).
Qed.
Print Assumptions C101_condition_offset.

Theorem C101_condition_scaling : forall (G : Rng R) dev chp bat vt name (o : emdl R) l,
  emdl_init dev chp bat vt name = Ok o ->
  exists t s, vt = type_name t /\ tells_all etells (ETold t dev chp bat) l (fst (run_assigns emdl_assign o l)) s /\
  let o' := snd (run_assigns emdl_assign o l) in
  (et_type s = Scaling -> acceptable (et_dev s) -> acceptable (et_chp s) -> acceptable (et_bat s) ->
   forall (Om : Type) (E : (Om -> R) -> R) (w : Om -> world) base D C L, expectation E ->
   distributed E (env_plan s D C L) w -> independent E (env_plan s D C L) w ->
   let call := fun om => fst (gen_env o' base D C L (w om)) in
   let sample := fun i om => at3 C D (call om) i in
   gives_array call D C L /\
   forall i j, inside D C L i -> inside D C L j ->
   E (sample i) = base * mean (layer_dist Scaling (et_bat s)) * mean (layer_dist Scaling (et_chp s)) * mean (layer_dist Scaling (et_dev s)) /\
   E (fun om => sample i om * sample j om) =
     base ^ 2 * second (layer_dist Scaling (et_bat s)) * pair_moment (same_chip i j) (layer_dist Scaling (et_chp s)) *
     pair_moment (same_device i j) (layer_dist Scaling (et_dev s))).
Proof.
  intros G dev chp bat vt name o l H. pose proof (emdl_init_rep dev chp bat vt name) as K.
  destruct (vtype_of vt) as [t|] eqn:Hv; [|congruence].
  destruct K as (o0 & K0 & K). assert (o0 = o) by congruence. subst o0.
  destruct (eassigns_run _ _ l K) as (s & T & K'). exists t, s. split; [exact (vtype_of_Some _ _ Hv)|]. split; [exact T|].
  intros o' Ty Hd Hc Hl Om E w base D C L HE Ds Un call sample. split.
  - exact (cond_array w o' s base D C L K' Hd Hc Hl).
  - intros i j Hi Hj. exact (cond_scaling E HE w o' s base D C L K' Hd Hc Hl Ty Ds Un i j Hi Hj).
Qed.
Print Assumptions C101_condition_scaling.

(** An instrument with an error distribution: its mean is added to every reading, its
    variance to the variance of every reading, and it adds no correlation. *)
Theorem C101_readings : forall (G : Rng R) (Om : Type) (E : (Om -> R) -> R) (w : Om -> world) nm r n (vals : Om -> list R),
  expectation E -> acceptable (Some r) -> (forall om, length (vals om) = n) ->
  let plan := layer_plan Offset (Some r) n in
  let call := fun om => fst (measure (Instm nm None (Some r) None) (vals om) (w om)) in
  let reading := fun i om => match call om with Ok ys => nth i ys 0 | Err _ => 0 end in
  let truth := fun i om => nth i (vals om) 0 in
  distributed E plan w -> uncorrelated E plan w ->
  (forall i k, (i < n)%nat -> (k < length plan)%nat -> cov E (truth i) (draw plan w k) = 0) ->
  (forall om, exists ys, call om = Ok ys /\ length ys = n) /\
  forall i j, (i < n)%nat -> (j < n)%nat ->
  E (reading i) = E (truth i) + mean (rv_dist r) /\
  cov E (reading i) (reading j) = cov E (truth i) (truth j) + when (Nat.eqb i j) (variance (rv_dist r)).
Proof. intros G Om E w nm r n vals HE Ar Hn plan call reading truth. exact (reading_moments E HE w nm r n vals Ar Hn). Qed.
Print Assumptions C101_readings.

(** Independent draws are uncorrelated, so that the theorems about offsets hold of
    them too. *)
Theorem C101_independent_are_uncorrelated : forall (G : Rng R) (Om : Type) (E : (Om -> R) -> R) plan (w : Om -> world),
  expectation E -> independent E plan w -> uncorrelated E plan w.
Proof. intros G Om E plan w HE. exact (independent_uncorrelated E HE plan w). Qed.
Print Assumptions C101_independent_are_uncorrelated.

(** A toy generator: the state is a number whose bits are coins, and a normal
    distribution is mean plus or minus standard deviation. *)
Definition coin_rng : Rng R := {|
  rdraw p s := (match p with
                | NNormal mu sigma => if Nat.even s then mu + sigma else mu - sigma
                | NGamma _ _ | NUniform _ _ => 0
                end, Nat.div2 s);
  rvalid p := match p with NNormal _ _ => true | _ => false end |}.
#[local] Existing Instance coin_rng.
(** Eight initial states, all equally likely. *)
Definition ave (f : nat -> R) : R := (f 0%nat + f 1%nat + f 2%nat + f 3%nat + f 4%nat + f 5%nat + f 6%nat + f 7%nat) / 8.
Example ave_expectation : expectation ave.
Proof.
  split.
  - unfold ave. lra.
  - intros a f g. unfold ave. lra.
  - intros f H. unfold ave. pose proof (H 0%nat). pose proof (H 1%nat). pose proof (H 2%nat). pose proof (H 3%nat).
    pose proof (H 4%nat). pose proof (H 5%nat). pose proof (H 6%nat). pose proof (H 7%nat). lra.
  - intros f g H. unfold ave. now rewrite !H.
Qed.
(** One generator for three normal draws. *)
Example coins_independent : forall g a b c a' b' c', let plan := [(g, NNormal a a'); (g, NNormal b b'); (g, NNormal c c')] in
  independent ave plan (fun om _ => om) /\ distributed ave plan (fun om _ => om).
Proof.
  intros g a b c a' b' c' plan. subst plan. split.
  - intros f. unfold ave, draw. cbn [length product tape nth fst snd rdraw coin_rng]. rewrite !Nat.eqb_refl.
    cbn [Nat.even Nat.div2]. field.
  - intros i g' p H. destruct i as [|[|[|i]]]; cbn [nth_error] in H; try discriminate; try (destruct i; discriminate);
      inversion H; subst; unfold var, cov, ave, draw; cbn [tape nth fst snd rdraw coin_rng np_mean np_var];
      rewrite ?Nat.eqb_refl; cbn [Nat.even Nat.div2]; split; field.
Qed.

Local Open Scope string_scope.
Definition wide : rv R := Rv 0 (DNormal 1 2) None.
Definition narrow : rv R := Rv 0 (DNormal 5 3) None.
Example acceptable_normal : forall g mu sigma nm, acceptable (Some (Rv g (DNormal mu sigma) nm)).
Proof.
  intros g mu sigma nm r H. inversion H; subst. cbn [rv_dist request]. split; [discriminate|].
  intros p Hp. inversion Hp. reflexivity.
Qed.
Lemma acceptable_none : acceptable None.
Proof. intros r H. discriminate. Qed.

(** Two devices of one lot: mean 10 + 1 + 5, variance 4 + 9, covariance 4. *)
Example C101_offset_example : exists o, lvar_init (Some narrow) None (Some wide) (Some 10) None "offset" = Ok o /\
  let sample := fun d om => at3 1 2 (fst (gen_latent o 2 1 1 (fun _ => om))) (0, 0, d)%nat in
  ave (sample 0%nat) = 16 /\ var ave (sample 0%nat) = 13 /\ cov ave (sample 0%nat) (sample 1%nat) = 4.
Proof.
  destruct (lvar_init_ok (Some narrow) None (Some wide) (Some 10) None Offset) as (o & Ho); [left; discriminate|].
  change (type_name Offset) with "offset" in Ho. exists o. split; [exact Ho|]. intros sample.
  destruct (C101_latent_offset _ _ _ _ _ _ _ _ [] Ho) as (t & s & Ht & Hs & K).
  destruct t; [discriminate Ht|]. inversion Hs; subst s.
  destruct (coins_independent 0 1 5 5 2 3 3) as [Ki Kd].
  destruct (K eq_refl (acceptable_normal _ _ _ _) acceptable_none (acceptable_normal _ _ _ _) nat ave (fun om _ => om) 2%nat 1%nat 1%nat
              ave_expectation Kd (independent_uncorrelated ave ave_expectation _ _ Ki)) as (_ & M).
  assert (I0 : inside 2 1 1 (0, 0, 0)%nat) by (repeat split; cbn; lia).
  assert (I1 : inside 2 1 1 (0, 0, 1)%nat) by (repeat split; cbn; lia).
  destruct (M _ _ I0 I0) as (M1 & M2). destruct (M _ _ I0 I1) as (_ & M3). repeat split.
  - etransitivity; [exact M1|]. cbn [t_deter t_lot t_chp t_dev layer_dist rv_dist wide narrow mean]. lra.
  - etransitivity; [exact M2|]. cbn [t_deter t_lot t_chp t_dev layer_dist rv_dist wide narrow variance same_lot same_chip same_device fst snd Nat.eqb andb when]. lra.
  - etransitivity; [exact M3|]. cbn [t_deter t_lot t_chp t_dev layer_dist rv_dist wide narrow variance same_lot same_chip same_device fst snd Nat.eqb andb when]. lra.
Qed.

(** With scaling layers: mean 10 * 1 * 5; the lot has second moment 5, a device 34, so
    the expected square is 100 * 5 * 34 and the expected product 100 * 5 * 25. *)
Example C101_scaling_example : exists o, lvar_init (Some narrow) None (Some wide) (Some 10) None "scaling" = Ok o /\
  let sample := fun d om => at3 1 2 (fst (gen_latent o 2 1 1 (fun _ => om))) (0, 0, d)%nat in
  ave (sample 0%nat) = 50 /\ ave (fun om => sample 0%nat om * sample 0%nat om) = 17000 /\
  ave (fun om => sample 0%nat om * sample 1%nat om) = 12500.
Proof.
  destruct (lvar_init_ok (Some narrow) None (Some wide) (Some 10) None Scaling) as (o & Ho); [left; discriminate|].
  change (type_name Scaling) with "scaling" in Ho. exists o. split; [exact Ho|]. intros sample.
  destruct (C101_latent_scaling _ _ _ _ _ _ _ _ [] Ho) as (t & s & Ht & Hs & K).
  destruct t; [|discriminate Ht]. inversion Hs; subst s.
  destruct (coins_independent 0 1 5 5 2 3 3) as [Ki Kd].
  destruct (K eq_refl (acceptable_normal _ _ _ _) acceptable_none (acceptable_normal _ _ _ _) nat ave (fun om _ => om) 2%nat 1%nat 1%nat
              ave_expectation Kd Ki) as (_ & M).
  assert (I0 : inside 2 1 1 (0, 0, 0)%nat) by (repeat split; cbn; lia).
  assert (I1 : inside 2 1 1 (0, 0, 1)%nat) by (repeat split; cbn; lia).
  destruct (M _ _ I0 I0) as (M1 & M2). destruct (M _ _ I0 I1) as (_ & M3). repeat split.
  - etransitivity; [exact M1|]. cbn [t_deter t_lot t_chp t_dev layer_dist rv_dist wide narrow mean]. lra.
  - etransitivity; [exact M2|]. cbn. unfold second. cbn. field.
  - etransitivity; [exact M3|]. cbn. unfold second. cbn. field.
Qed.

(** Three readings of true values that do not vary: variance 9, no correlation. *)
Example C101_readings_example :
  let reading := fun i om => match fst (measure (Instm None None (Some narrow) None) [20; 30; 40] (fun _ => om)) with Ok ys => nth i ys 0 | Err _ => 0 end in
  ave (reading 1%nat) = 35 /\ var ave (reading 1%nat) = 9 /\ cov ave (reading 1%nat) (reading 2%nat) = 0.
Proof.
  intros reading. destruct (coins_independent 0 5 5 5 3 3 3) as [Ki Kd].
  destruct (C101_readings _ nat ave (fun om _ => om) None narrow 3%nat (fun _ => [20; 30; 40]) ave_expectation (acceptable_normal _ _ _ _)
    (fun _ => eq_refl) Kd (independent_uncorrelated ave ave_expectation _ _ Ki)) as (_ & M).
  { intros i k _ _. unfold cov, ave. field. }
  destruct (M 1%nat 1%nat) as (M1 & M2); [lia|lia|]. destruct (M 1%nat 2%nat) as (_ & M3); [lia|lia|]. repeat split.
  - etransitivity; [exact M1|]. unfold ave. cbn [nth rv_dist narrow mean]. lra.
  - etransitivity; [exact M2|]. unfold cov, ave. cbn [nth rv_dist narrow variance Nat.eqb when]. lra.
  - etransitivity; [exact M3|]. unfold cov, ave. cbn [nth rv_dist narrow variance Nat.eqb when]. lra.
Qed.

(** Conditions of two devices: both share the batch value. *)
Example C101_condition_example : exists o, emdl_init (Some narrow) None (Some wide) "offset" None = Ok o /\
  let sample := fun d om => at3 1 2 (fst (gen_env o 300 2 1 1 (fun _ => om))) (0, 0, d)%nat in
  ave (sample 0%nat) = 306 /\ var ave (sample 0%nat) = 13 /\ cov ave (sample 0%nat) (sample 1%nat) = 4.
Proof.
  pose proof (emdl_init_rep (Some narrow) None (Some wide) "offset" None) as Ho.
  change (vtype_of "offset") with (Some Offset) in Ho. destruct Ho as (o & Ho & _).
  exists o. split; [exact Ho|]. intros sample.
  destruct (C101_condition_offset _ _ _ _ _ _ _ [] Ho) as (t & s & Ht & Hs & K).
  destruct t; [discriminate Ht|]. inversion Hs; subst s.
  destruct (coins_independent 0 1 5 5 2 3 3) as [Ki Kd].
  destruct (K eq_refl (acceptable_normal _ _ _ _) acceptable_none (acceptable_normal _ _ _ _) nat ave (fun om _ => om) 300 2%nat 1%nat 1%nat
              ave_expectation Kd (independent_uncorrelated ave ave_expectation _ _ Ki)) as (_ & M).
  assert (I0 : inside 2 1 1 (0, 0, 0)%nat) by (repeat split; cbn; lia).
  assert (I1 : inside 2 1 1 (0, 0, 1)%nat) by (repeat split; cbn; lia).
  destruct (M _ _ I0 I0) as (M1 & M2). destruct (M _ _ I0 I1) as (_ & M3). repeat split.
  - etransitivity; [exact M1|]. cbn [et_bat et_chp et_dev layer_dist rv_dist wide narrow mean]. lra.
  - etransitivity; [exact M2|]. cbn [et_bat et_chp et_dev layer_dist rv_dist wide narrow variance same_lot same_chip same_device fst snd Nat.eqb andb when]. lra.
  - etransitivity; [exact M3|]. cbn [et_bat et_chp et_dev layer_dist rv_dist wide narrow variance same_lot same_chip same_device fst snd Nat.eqb andb when]. lra.
Qed.

(** Two generators with the same seed (test_seed given twice): the draws of each are
    independent and have the right mean and variance, but the variances of the layers
    do not add up, because the layers draw the same numbers. *)
Theorem C101_same_seed_refuted : exists (G : Rng R) (E : (nat -> R) -> R) (lot dev : rv R) (o : lvar R),
  expectation E /\ rv_gen lot <> rv_gen dev /\
  lvar_init (Some dev) None (Some lot) None None "offset" = Ok o /\ acceptable (Some lot) /\ acceptable (Some dev) /\
  let w := fun (om : nat) (_ : nat) => om in
  independent E (layer_plan Offset (Some lot) 1) w /\ independent E (layer_plan Offset (Some dev) 1) w /\
  distributed E (layer_plan Offset (Some lot) 1 ++ layer_plan Offset (Some dev) 1) w /\
  let sample := fun om => at3 1 1 (fst (gen_latent o 1 1 1 (w om))) (0, 0, 0)%nat in
  var E sample = 25 /\ variance (rv_dist lot) + variance (rv_dist dev) = 13.
Proof.
  exists coin_rng, ave, (Rv 0 (DNormal 1 2) None), (Rv 1 (DNormal 5 3) None).
  destruct (lvar_init_ok (Some (Rv 1 (DNormal 5 3) None)) None (Some (Rv 0 (DNormal 1 2) None)) None None Offset) as (o & Ho); [left; discriminate|].
  exists o. split; [exact ave_expectation|]. split; [discriminate|]. split; [exact Ho|].
  split; [apply acceptable_normal|]. split; [apply acceptable_normal|]. intros w. repeat split.
  - intros f. unfold ave, draw. cbn. field.
  - intros f. unfold ave, draw. cbn. field.
  - destruct i as [|[|i]]; cbn in H; try discriminate; try (destruct i; discriminate); inversion H; subst; unfold ave, draw; cbn; field.
  - destruct i as [|[|i]]; cbn in H; try discriminate; try (destruct i; discriminate); inversion H; subst; unfold var, cov, ave, draw; cbn; field.
  - destruct (lvar_init_rep _ _ _ _ _ _ _ Ho) as (t & Ht & _ & K). destruct t; [discriminate Ht|].
    set (sample := fun om => _).
    assert (V : forall om, sample om = 0 + fst (rdraw (NNormal 5 3) om) + fst (rdraw (NNormal 1 2) om)).
    { intros om. unfold sample.
      destruct (gen_latent_values w o _ 1 1 1 K (acceptable_normal _ _ _ _) acceptable_none (acceptable_normal _ _ _ _) om)
        as (a & Ea & _ & _ & Ka).
      rewrite Ea. specialize (Ka (0, 0, 0)%nat ltac:(repeat split; cbn; lia)). etransitivity; [exact Ka|].
      cbn. unfold w. ring. }
    unfold var, cov, ave. rewrite !V. cbn. field.
  - cbn. lra.
Qed.
Print Assumptions C101_same_seed_refuted.
