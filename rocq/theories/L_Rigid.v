(** Lemmas about degradation without latent variables under ideal conditions. *)
From Coq Require Import Reals List Lia Lra String Bool Classical.
From Verif Require Import M_Base M_Num M_NumR M_Nd M_RandVar M_Latent M_Time M_TestSpec M_Device M_Report M_Env M_CookEnv M_Minimize M_Sim
  S_TestSpec S_Latent S_Device S_DeviceR S_Env S_Sim S_Shape S_Total S_Reading S_History S_Sum S_Const S_Moments S_Moments2 S_Rigid S_Series
  L_Base L_Nd L_Latent L_Device L_Env L_CookEnv L_Sim L_Sim2 L_Sim3 L_Shape2 L_Total L_Reading L_History L_HistoryR L_Const L_Series
  L_Moments L_Moments2 L_Moments4 L_Moments6 L_Moments7.
Import ListNotations.
Open Scope nat_scope.

(** The outcome does not depend on random numbers. *)
Definition fixed {A} (m : M A) : Prop := forall w1 w2, fst (m w1) = fst (m w2).
Lemma fixed_ret {A} (a : A) : fixed (ret a). Proof. intros w1 w2. reflexivity. Qed.
Lemma fixed_lift {A} (a : res A) : fixed (lift a). Proof. intros w1 w2. reflexivity. Qed.
Lemma fixed_raise {A} e : fixed (raise (A := A) e). Proof. intros w1 w2. reflexivity. Qed.
Lemma fixed_bind' {A B} (m : M A) (f : A -> M B) : fixed m -> (forall a w w', m w = (Ok a, w') -> fixed (f a)) -> fixed (bind m f).
Proof.
  intros Fm Ff w1 w2. unfold bind. specialize (Fm w1 w2). destruct (m w1) as [[a|e] wa] eqn:E1, (m w2) as [[b|e'] wb] eqn:E2; cbn in Fm; try discriminate Fm; injection Fm as ->.
  - exact (Ff _ _ _ E1 wa wb).
  - reflexivity.
Qed.
Lemma fixed_bind {A B} (m : M A) (f : A -> M B) : fixed m -> (forall a, fixed (f a)) -> fixed (bind m f).
Proof. intros Fm Ff. apply fixed_bind'; auto. Qed.
Lemma fixed_foldM {A S} (f : S -> A -> M S) l : (forall s x, fixed (f s x)) -> forall s, fixed (foldM f l s).
Proof. intros F. induction l as [|x l IH]; intros s; cbn [foldM]; [apply fixed_ret|]. apply fixed_bind; auto. Qed.
Lemma fixed_mapM {A B} (f : A -> M B) l : (forall x, fixed (f x)) -> fixed (mapM f l).
Proof. intros F. induction l as [|x l IH]; cbn [mapM]; [apply fixed_ret|]. apply fixed_bind; auto. intros. apply fixed_bind; auto. intros. apply fixed_ret. Qed.
Lemma fixed_try {A} (m k : M A) : fixed m -> fixed k -> fixed (try_value_error m k).
Proof.
  intros Fm Fk w1 w2. unfold try_value_error. specialize (Fm w1 w2). destruct (m w1) as [[a|e] wa], (m w2) as [[b|e'] wb]; cbn in Fm; try discriminate Fm; injection Fm as ->; [reflexivity|].
  destruct e'; try reflexivity. apply Fk.
Qed.

Ltac fstep := first
  [ apply fixed_ret | apply fixed_lift | apply fixed_raise | assumption | match goal with X : forall _, fixed _ |- _ => apply X end | match goal with X : forall _ _, fixed _ |- _ => apply X end | match goal with X : forall _ _ _, fixed _ |- _ => apply X end
  | apply fixed_bind; [|intros] | apply fixed_foldM; intros | apply fixed_mapM; intros | apply fixed_try
  | match goal with |- fixed (match ?x with _ => _ end) => destruct x end
  | match goal with |- fixed (if ?x then _ else _) => destruct x end ].
Ltac fcases := repeat fstep.

Section L.
Context {V : Type} `{NumOps V} `{Rng V} `{HashOrd}.

Lemma fixed_call (f : eqn V) g a : given_by f g -> fixed (call f a).
Proof.
  intros (_ & _ & _ & B). unfold call. destruct (_ && _); [|apply fixed_raise]. intros w1 w2. now rewrite !B.
Qed.
Lemma fixed_loop (f : eqn V) g a L C D : given_by f g -> fixed (loop_compute f a L C D).
Proof.
  intros B. unfold loop_compute, loop_elem. apply fixed_bind; [|intros; apply fixed_ret]. apply fixed_mapM. intros x.
  destruct x as [|i [|j [|k [|]]]]; try apply fixed_raise. apply fixed_bind; [apply fixed_lift|]. intros.
  apply fixed_bind; [eapply fixed_call; eauto|]. intros. apply fixed_lift.
Qed.
Lemma fixed_minimize (F : list V -> M (list V)) n lo hi p eps it lg : (forall x, fixed (F x)) -> fixed (minimize F n lo hi p eps it lg).
Proof.
  intros N. unfold minimize, minimize_run, mrun. apply fixed_bind; [|intros; apply fixed_ret].
  assert (Ev : forall xs, fixed (evalF lg F xs)) by (intros; unfold evalF; apply fixed_bind; [apply N|intros; destruct (_ =? _); [apply fixed_ret|apply fixed_raise]]).
  apply fixed_bind; [apply Ev|]. intros f0.
  match goal with |- fixed (mloop _ _ _ _ _ ?a ?b) => generalize a, b end.
  induction it as [|it IH]; intros ss ev; cbn [mloop]; destruct (forallb _ ss); try apply fixed_ret. apply fixed_bind; [apply Ev|]. intros. apply IH.
Qed.
Lemma fixed_equiv (m : mech V) g v c l L C D : given_by (lm_eqn (mc_mdl m)) g -> fixed (mech_equiv_time m v c l L C D).
Proof.
  intros N. unfold mech_equiv_time. destruct (mc_kind m); [|fcases]. apply fixed_bind; [apply fixed_lift|intros a]. apply fixed_bind; [|intros; apply fixed_ret].
  apply fixed_minimize. intros x. unfold equiv_obj, residue. pose proof (fun a => fixed_call _ _ a N). pose proof (fun a => fixed_loop _ _ a L C D N). fcases.
Qed.
Lemma fixed_env base prms info dev stress nc nl : fixed (gen_env_cond_vals [] base prms info dev stress nc nl : M (dict (dict (pyval V)))).
Proof.
  assert (Sm : forall n, fixed (sample (Rv (V := V) 0 (DDeter n0) None) n)) by (intros; apply fixed_ret).
  assert (Gb : forall v, fixed (gen_batch (V := V) still_mdl v)) by (intros; unfold gen_batch, still_mdl; cbn [em_bat em_chp em_dev]; fcases).
  assert (Gc : forall b C L, fixed (gen_chp (V := V) still_mdl b C L)) by (intros; unfold gen_chp, still_mdl; cbn [em_bat em_chp em_dev]; fcases).
  assert (Gd : forall b D, fixed (gen_dev (V := V) still_mdl b D)) by (intros; unfold gen_dev, still_mdl; cbn [em_bat em_chp em_dev]; fcases).
  assert (St : forall k B (f : emdl V -> M B), fixed (f still_mdl) -> fixed (bind (lift (vrtn_mdl [] k)) f)).
  { intros k B f Ff. rewrite ideal_vrtn. exact Ff. }
  unfold gen_env_cond_vals, gen_chip_conds, gen_prm_conds, gen_sensor_conds. apply fixed_bind; [|intros].
  { apply fixed_foldM. intros. apply St. fcases. }
  apply fixed_bind; [fcases|intros]. apply fixed_foldM. intros. apply fixed_bind; [|intros; apply fixed_ret].
  destruct (match dev with Some d => dget d x | None => None end).
  - apply fixed_foldM. intros. apply St. fcases.
  - apply St. fcases.
Qed.
End L.

Open Scope R_scope.
Section R.
Context {G : Rng R} {Ho : HashOrd}.

Lemma full_ext (s : scene R) a b : full s a -> full s b -> everywhere s (fun i => aget a i = aget b i) -> a = b.
Proof.
  intros (Sa & La) (Sb & Lb) K. apply nd_ext.
  - unfold awf. rewrite Sa, La. cbn. lia.
  - unfold awf. rewrite Sb, Lb. cbn. lia.
  - congruence.
  - rewrite Sa. intros idx Hv. inversion Hv as [|x y ? ? Hx Hv1]; subst. inversion Hv1 as [|x1 y1 ? ? Hx1 Hv2]; subst. inversion Hv2 as [|x2 y2 ? ? Hx2 Hv3]; subst.
    inversion Hv3; subst. apply K; assumption.
Qed.

(** With the same latent values and ideal conditions a mechanism has one history. *)
Lemma history_unique (s : scene R) f u l v fd x : sc_env s = [] -> mc_kind (sc_mech s) = KDeg -> unit_map (mc_unit (sc_mech s)) = Some u ->
  given_by (lm_eqn (mc_mdl (sc_mech s))) f -> history s l v fd x -> forall fd' x', history s l v fd' x' -> x = x'.
Proof.
  intros En Kd Un Gb Hh. induction Hh as [v F|m l v fd x Hh IH|o l v fd x Hh IH|k l v t v1 cs fd x Pr Ad Hh IH]; intros fd' x' Hh'.
  - inversion Hh'; subst. reflexivity.
  - inversion Hh'; subst. eauto.
  - inversion Hh'; subst. eauto.
  - inversion Hh' as [| | |k' l' v' t' v1' cs' fd2 y Pr' Ad' Hi' Q1 Q2 Q3 Q4]; subst.
    assert (cs' = cs) as ->.
    { destruct Pr as (all & w1 & w2 & E1 & G1). destruct Pr' as (all' & w1' & w2' & E1' & G1'). rewrite En in E1, E1'.
      pose proof (fixed_env (ss_conds k) (PList (map fst (deg_prms (sc_dev s)))) (Some (TInfo (sc_chps s) (sc_lots s) (sc_counts s))) (Some (sc_dev s)) true 1 1 w1 w1') as Q.
      rewrite E1, E1' in Q. cbn [fst] in Q. congruence. }
    assert (t' = t) as ->.
    { destruct Ad as (_ & _ & _ & E1 & _). destruct Ad' as (_ & _ & _ & E1' & _). rewrite Kd in E1, E1'. destruct E1 as (w1 & w2 & E1). destruct E1' as (w1' & w2' & E1').
      pose proof (fixed_equiv (sc_mech s) f (PArr v) cs (sc_lats s) (sc_lots s) (sc_chps s) (sc_num s) Gb w1 w1') as Q. rewrite E1, E1' in Q. cbn [fst] in Q. congruence. }
    assert (v1' = v1) as ->; [|eauto].
    pose proof (advanced_law_in s f u cs _ v t v1 Kd Un Gb Ad) as A1. pose proof (advanced_law_in s f u cs _ v t v1' Kd Un Gb Ad') as A2.
    destruct Ad as (_ & _ & F1 & _). destruct Ad' as (_ & _ & F2 & _). apply (full_ext s); auto.
    intros a b c Ha Hb Hc. destruct (A1 a b c Ha Hb Hc) as (_ & X1 & X2). destruct (A2 a b c Ha Hb Hc) as (_ & Y1 & Y2).
    destruct (Rle_dec (aget t [a; b; c] + td_num u (ss_dur k)) 9000000000) as [Q|Q].
    + now rewrite X1, Y1.
    + rewrite X2, Y2; auto; lra.
Qed.

Lemma started_empty d chps lots counts w name p laws units st0 w0 n ls init nm m : device_wf d -> dget d name = Some (PDeg p) -> additive p laws units ->
  started d chps lots counts w name p st0 w0 n ls init -> dget (dp_mechs p) nm = Some m -> lm_vars (mc_mdl m) = [] -> dget ls nm = Some (PDict []).
Proof.
  intros Wd Hp Ad (Ei & _ & G1 & G2 & _) Hm Hv. destruct (ad_own _ _ _ Ad) as [_ Vo].
  apply dev_init_ok in Ei as (_ & _ & _ & _ & _ & Gp & _); [|apply Wd].
  destruct (Gp _ _ Hp) as (n' & ls' & v & wa & wb & wc & G1' & G2' & E & _). rewrite G2 in G2'. injection G2' as <-.
  unfold prm_latents in E. apply bind_ok in E as (c & w1 & E1 & E). apply bind_ok in E as (ml & w2 & E2 & E).
  apply bind_ok in E as (own & w3 & E3 & E). apply ret_ok in E as [-> ->].
  unfold gen_latents in E3. rewrite Vo in E3. cbn [foldM] in E3. apply ret_ok in E3 as [-> ->]. cbn [dupdate fold_left] in *.
  apply dget_In in Hm. assert (Wm : dwf (dp_mechs p)) by (destruct Wd as [_ Wd]; eauto).
  eapply mech_latents_get in E2 as (x & wd & we & Ex & E2); eauto. unfold gen_latents in Ex. rewrite Hv in Ex. cbn [foldM] in Ex. apply ret_ok in Ex as [-> _]. exact E2.
Qed.

(** The row of a device that a measurement wrote. *)
Lemma find_only {A} (f : A -> bool) l i r : nth_error l i = Some r -> f r = true ->
  (forall a b x y, (a < b)%nat -> nth_error l a = Some x -> nth_error l b = Some y -> f x = true -> f y = true -> False) -> find f l = Some r.
Proof.
  revert i. induction l as [|z l IH]; intros i Hi Hf Hu; [destruct i; discriminate|]. cbn [find]. destruct (f z) eqn:Ez.
  - destruct i as [|i]; [cbn in Hi; congruence|]. exfalso. apply (Hu 0%nat (S i) z r); auto. lia.
  - destruct i as [|i]; [cbn in Hi; congruence|]. apply (IH i); auto. intros a b x y Hab Hx Hy. apply (Hu (S a) (S b)); auto. lia.
Qed.
Lemma is_row_belongs name i (r : row R) : is_row name i r = belongs name (fst (fst i)) (snd (fst i)) (snd i) r.
Proof.
  unfold is_row, belongs, is_no. destruct (String.eqb _ _); [|reflexivity]. cbn [andb]. destruct (r_lot r), (r_chp r), (r_dev r); try reflexivity;
  rewrite ?andb_false_r; reflexivity.
Qed.
Lemma found_row e d l C L w st rep w' name p i s r j : device_wf d -> regular d -> (forall s, In s l -> step_wf s) ->
  simulate e d l C L None w = (Ok (st, rep), w') -> dget d name = Some (PDeg p) -> (fst (fst i) < L)%nat -> (snd (fst i) < C)%nat ->
  nth_error (rp_meas rep) j = Some r -> is_row name i r = true -> r_step r = s ->
  step_reading (Ok (st, rep)) s name i = r_val r.
Proof.
  intros Wd Rg Ws E Hp Hl Hc Hj Hr Hs. unfold step_reading. cbn [snd].
  rewrite (find_only _ _ _ _ Hj); [reflexivity|rewrite Hr, Hs, Nat.eqb_refl; reflexivity|].
  intros a b x y Hab Hx Hy Fx Fy. apply andb_true_iff in Fx as [Fx Sx]. apply andb_true_iff in Fy as [Fy Sy]. apply Nat.eqb_eq in Sx, Sy.
  rewrite is_row_belongs in Fx, Fy.
  assert (F := simulate_series e d l C L w st rep w' name p _ _ (snd i) Wd Rg Ws E Hp Hl Hc).
  assert (Hlt : (r_step x < r_step y)%nat); [|lia]. revert Hab Hx Hy Fx Fy. apply sorted_steps. rewrite (at_steps _ _ F). apply asked_sorted.
Qed.

(** One run: the reading is the initial value plus the results of the histories. *)
Lemma one_run e d l C L w st rep w' name p o i s m k :
  ideal_env = Ok e -> device_wf d -> regular d -> (forall s, In s l -> step_wf s) ->
  (forall q p, dget d q = Some (PDeg p) -> ~ In "init"%string (dkeys (dp_mechs p)) /\ ~ In "cond"%string (dkeys (dp_mechs p))) ->
  simulate e d l C L None w = (Ok (st, rep), w') -> rigid d name p o -> nth_error l s = Some (SMeas m) -> In (name, k) (ms_counts m) -> inside k C L i ->
  exists n (x : string -> nd R) st0 w0, dget (rp_counts rep) name = Some n /\ (k <= n)%nat /\
    (forall nm mm, dget (dp_mechs p) nm = Some mm -> exists fd, history (Scene e d L C (rp_counts rep) name n mm []) (firstn s l) (nfull [L; C; n] 0) fd (x nm)) /\
    step_reading (Ok (st, rep)) s name i = initial_value (Ok (st, rep)) name i +
      S_DeviceR.total (map (fun nm => aget (x nm) [fst (fst i); snd (fst i); snd i]) (dkeys (dp_mechs p))) /\
    dev_init_state d (rp_counts rep) C L w = (Ok (st0, rp_counts rep), w0) /\
    initial_value (Ok (st, rep)) name i = state_sample C (Ok (st0, rp_counts rep)) (Drawing (Place name Init "init_val") n o) i.
Proof.
  intros En Wd Rg Ws Pn E Ri Hs Hin Hi. pose proof Ri as [Hp [laws [units Ad]] Hv Hini Hvar].
  assert (e = []) as -> by (cbn in En; congruence).
  destruct (simulate_started [] d l C L w st rep w' name p laws units Wd Rg Hp Ad E) as (st0 & w0 & n & ls & init & Sd & Ls & I0 & Hub).
  pose proof (nth_error_split l s Hs) as (l1 & l2 & -> & Len).
  destruct (additive_reading [] d l1 m l2 C L w st rep w' name p laws units st0 w0 n ls init k eq_refl Wd Rg Ws Pn Hp Ad Sd Hub E Hin)
    as (sa & ra & w1 & pre & g & post & fd & x & _ & _ & Rm & Lb & Sg & Hx & Rd).
  pose proof Sd as (Ei & Fi & G1 & G2 & G3 & G4 & _ & _ & Si & _).
  assert (Hkn : (k <= n)%nat). { apply (Hub name k n); auto. exists m. split; auto. apply in_or_app. right. now left. }
  exists n, x, st0, w0. split; [exact G1|]. split; [exact Hkn|]. split.
  { intros nm mm Hm. exists (fd nm). destruct (Hx nm) as [_ Hh]. { apply dget_In in Hm. apply (in_map fst) in Hm. exact Hm. }
    unfold scene_of in Hh. rewrite Hm, (started_empty _ _ _ _ _ _ _ _ _ _ _ _ _ _ nm mm Wd Hp Ad Sd Hm (Hv _ _ Hm)) in Hh.
    rewrite <- Len, firstn_app, firstn_all, Nat.sub_diag. cbn [firstn]. rewrite app_nil_r. exact Hh. }
  destruct i as [[a b] c]. destruct Hi as (Ha & Hb & Hc). cbn [fst snd] in *. destruct (Rd a b c Ha Hb Hc) as (r & Nr & R1 & R2 & R3 & Vr).
  split; [|split].
  - rewrite (found_row [] d _ C L w st rep w' name p (a, b, c) s r (length pre + ((a * C + b) * k + c))%nat Wd Rg Ws E Hp); auto.
    + unfold initial_value. cbn [fst snd]. rewrite I0. exact Vr.
    + rewrite Rm, nth_error_app2 by lia. replace (length pre + ((a * C + b) * k + c) - length pre)%nat with ((a * C + b) * k + c)%nat by lia.
      rewrite nth_error_app1; [exact Nr|]. apply nth_error_Some. congruence.
    + apply nth_error_In in Nr. destruct (Sg r Nr) as (P1 & _ & _). rewrite is_row_belongs. apply belongs_iff. cbn [fst snd] in *. auto.
    + apply nth_error_In in Nr. destruct (Sg r Nr) as (_ & P2 & _). congruence.
  - exact Ei.
  - unfold initial_value, state_sample, found. cbn [fst snd dr_place dr_count pl_prm pl_part]. rewrite I0, G2, G4. cbn [arr at3].
    symmetry. apply nth_error_nth. cbn [fst snd]. apply (flat_get init L C n); auto; [|lia].
    destruct (Fi _ _ Hp) as (n' & mv & v' & v0 & ls' & F1 & F2 & F3 & F4 & F5 & _). rewrite G1 in F1. injection F1 as <-. rewrite G4 in F4. injection F4 as <-.
    destruct F5 as [_ F5]. destruct (F5 (ad_init _ _ _ Ad)) as (a' & Q & _ & La). injection Q as <-. exact La.
Qed.

(** Two runs: the same shift. *)
Lemma two_runs e d l C L w1 w2 st1 st2 rep1 rep2 w1' w2' name p o i s m k :
  ideal_env = Ok e -> device_wf d -> regular d -> (forall s, In s l -> step_wf s) ->
  (forall q p, dget d q = Some (PDeg p) -> ~ In "init"%string (dkeys (dp_mechs p)) /\ ~ In "cond"%string (dkeys (dp_mechs p))) ->
  simulate e d l C L None w1 = (Ok (st1, rep1), w1') -> simulate e d l C L None w2 = (Ok (st2, rep2), w2') -> rp_counts rep1 = rp_counts rep2 ->
  rigid d name p o -> nth_error l s = Some (SMeas m) -> In (name, k) (ms_counts m) -> inside k C L i ->
  step_reading (Ok (st1, rep1)) s name i - initial_value (Ok (st1, rep1)) name i = step_reading (Ok (st2, rep2)) s name i - initial_value (Ok (st2, rep2)) name i.
Proof.
  intros En Wd Rg Ws Pn E1 E2 Cn Ri Hs Hin Hi.
  destruct (one_run e d l C L w1 st1 rep1 w1' name p o i s m k En Wd Rg Ws Pn E1 Ri Hs Hin Hi) as (n & x & _ & _ & N1 & _ & H1 & V1 & _).
  destruct (one_run e d l C L w2 st2 rep2 w2' name p o i s m k En Wd Rg Ws Pn E2 Ri Hs Hin Hi) as (n' & x' & _ & _ & N2 & _ & H2 & V2 & _).
  rewrite Cn, N2 in N1. injection N1 as ->. rewrite V1, V2.
  assert (Q : map (fun nm => aget (x nm) [fst (fst i); snd (fst i); snd i]) (dkeys (dp_mechs p)) = map (fun nm => aget (x' nm) [fst (fst i); snd (fst i); snd i]) (dkeys (dp_mechs p))); [|rewrite Q; lra].
  apply map_ext_in. intros nm Hnm. destruct (dget (dp_mechs p) nm) as [mm|] eqn:Hm; [|now apply dget_None_keys in Hm].
  destruct (H1 _ _ Hm) as [fd Hh]. destruct (H2 _ _ Hm) as [fd' Hh']. rewrite Cn in Hh. destruct (ri_sum _ _ _ _ Ri) as (laws & units & Ad).
  destruct (ad_mech _ _ _ Ad _ _ Hm) as (Kd & _ & Gb & Un). assert (e = []) as -> by (cbn in En; congruence).
  now rewrite (history_unique (Scene [] d L C (rp_counts rep2) name n mm []) (laws nm) (units nm) _ _ _ _ eq_refl Kd Un Gb Hh _ _ Hh').
Qed.

Lemma rigid_moments {Om} (E : (Om -> R) -> R) (HE : expectation E) e d l counts C L (w : Om -> world) :
  ideal_env = Ok e -> sampled_device d counts -> regular d -> (forall s, In s l -> step_wf s) ->
  (forall q p, dget d q = Some (PDeg p) -> ~ In "init"%string (dkeys (dp_mechs p)) /\ ~ In "cond"%string (dkeys (dp_mechs p))) ->
  (forall om, exists st rep w', simulate e d l C L None (w om) = (Ok (st, rep), w') /\ rp_counts rep = counts) ->
  let plan := drawings_plan (drawings d counts) C L in distributed E plan w -> independent E plan w ->
  let run := fun om => fst (simulate e d l C L None (w om)) in
  exists shift : nat -> string -> nat * nat * nat -> R,
  forall s m name k p o i, nth_error l s = Some (SMeas m) -> In (name, k) (ms_counts m) -> rigid d name p o -> inside k C L i ->
    (forall om, step_reading (run om) s name i = initial_value (run om) name i + shift s name i) /\
    E (fun om => step_reading (run om) s name i) = var_mean o + shift s name i /\
    forall s' m' name' k' p' o' j, nth_error l s' = Some (SMeas m') -> In (name', k') (ms_counts m') -> rigid d name' p' o' -> inside k' C L j ->
      cov E (fun om => step_reading (run om) s name i) (fun om => step_reading (run om) s' name' j) = if String.eqb name name' then var_cov o i j else 0.
Proof.
  intros En Sd Rg Ws Pn Runs plan Ds Ki run. pose proof (dwf_device d _ Sd) as Wd.
  assert (inhabited Om) as [om0].
  { destruct (classic (inhabited Om)) as [K|K]; [exact K|]. exfalso.
    assert (Z : 1 = 0); [|lra]. rewrite <- (ex_one E HE). rewrite (ex_ext E HE (fun _ => 1) (fun _ => 0)) by (intros o0; exfalso; apply K; constructor; exact o0).
    apply (E_zero E HE). }
  set (shift := fun s name i => step_reading (run om0) s name i - initial_value (run om0) name i). exists shift.
  assert (Pt : forall s m name k p o i, nth_error l s = Some (SMeas m) -> In (name, k) (ms_counts m) -> rigid d name p o -> inside k C L i ->
    forall om, step_reading (run om) s name i = initial_value (run om) name i + shift s name i).
  { intros s m name k p o i Hs Hin Ri Hi om. destruct (Runs om) as (st1 & rep1 & w1 & E1 & C1). destruct (Runs om0) as (st2 & rep2 & w2 & E2 & C2).
    assert (Q := two_runs e d l C L _ _ _ _ _ _ _ _ name p o i s m k En Wd Rg Ws Pn E1 E2 (eq_trans C1 (eq_sym C2)) Ri Hs Hin Hi).
    unfold shift, run. rewrite E1, E2. cbn [fst]. lra. }
  assert (Sm : forall s m name k p o i, nth_error l s = Some (SMeas m) -> In (name, k) (ms_counts m) -> rigid d name p o -> inside k C L i ->
    exists n, inside n C L i /\ In (Drawing (Place name Init "init_val") n o) (drawings d counts) /\
    forall om, initial_value (run om) name i = state_sample C (fst (dev_init_state d counts C L (w om))) (Drawing (Place name Init "init_val") n o) i).
  { intros s m name k p o i Hs Hin Ri Hi. destruct (Runs om0) as (st2 & rep2 & w2 & E2 & C2).
    destruct (one_run e d l C L _ _ _ _ name p o i s m k En Wd Rg Ws Pn E2 Ri Hs Hin Hi) as (n & _ & _ & _ & N1 & Hk & _). rewrite C2 in N1. exists n.
    split. { destruct Hi as (Hl & Hc & Hd). repeat split; try assumption; lia. } split.
    { unfold drawings. apply in_flat_map. exists (name, PDeg p). split; [apply dget_In; apply (ri_prm _ _ _ _ Ri)|].
      apply in_flat_map. exists (Init, lm_vars (dp_init p)). split; [right; apply in_or_app; right; right; left; reflexivity|].
      apply in_map_iff. exists ("init_val"%string, o). cbn [fst snd]. rewrite N1. split; [reflexivity|]. apply dget_In. apply (ri_var _ _ _ _ Ri). }
    intros om. destruct (Runs om) as (st1 & rep1 & w1 & E1 & C1).
    destruct (one_run e d l C L _ _ _ _ name p o i s m k En Wd Rg Ws Pn E1 Ri Hs Hin Hi) as (n' & _ & st0 & w0 & N2 & _ & _ & _ & Ei & V).
    rewrite C1, N1 in N2. injection N2 as <-. unfold run. rewrite E1. cbn [fst]. rewrite V. rewrite C1 in *. rewrite Ei. reflexivity. }
  assert (Runs' : (exists s m name k p o i, nth_error l s = Some (SMeas m) /\ In (name, k) (ms_counts m) /\ rigid d name p o /\ inside k C L i) ->
    forall om, exists r w', dev_init_state d counts C L (w om) = (Ok r, w')).
  { intros (s & m & name & k & p & o & i & Hs & Hin & Ri & Hi) om. destruct (Runs om) as (st1 & rep1 & w1 & E1 & C1).
    destruct (one_run e d l C L _ _ _ _ name p o i s m k En Wd Rg Ws Pn E1 Ri Hs Hin Hi) as (n' & _ & st0 & w0 & _ & _ & _ & _ & Ei & _).
    rewrite C1 in Ei. eauto. }
  assert (Fs : forall name p o n, rigid d name p o -> in_state d (dr_place (Drawing (Place name Init "init_val") n o))).
  { intros name p o n Ri _. exists p. split; [apply (ri_prm _ _ _ _ Ri)|apply (ri_init _ _ _ _ Ri)]. }
  intros s m name k p o i Hs Hin Ri Hi.
  assert (Rn := Runs' (ex_intro _ s (ex_intro _ m (ex_intro _ name (ex_intro _ k (ex_intro _ p (ex_intro _ o (ex_intro _ i (conj Hs (conj Hin (conj Ri Hi))))))))))).
  destruct (Sm _ _ _ _ _ _ _ Hs Hin Ri Hi) as (n & I1 & D1 & V1).
  assert (P1 := Pt _ _ _ _ _ _ _ Hs Hin Ri Hi).
  split; [exact P1|]. split.
  - rewrite (E_ext E HE _ _ P1), (E_plus E HE), (E_const E HE), (E_ext E HE _ _ V1). f_equal.
    exact (proj1 (state_moments E HE d counts C L w Sd Ds Ki Rn _ _ i i D1 D1 (Fs _ _ _ _ Ri) (Fs _ _ _ _ Ri) I1 I1)).
  - intros s' m' name' k' p' o' j Hs' Hin' Ri' Hj. destruct (Sm _ _ _ _ _ _ _ Hs' Hin' Ri' Hj) as (n' & I2 & D2 & V2).
    assert (P2 := Pt _ _ _ _ _ _ _ Hs' Hin' Ri' Hj).
    rewrite (cov_ext E HE _ _ _ _ P1 P2), (cov_plus_l E HE), !(cov_plus_r E HE), !(cov_const_l E HE), !(cov_const_r E HE), (cov_ext E HE _ _ _ _ V1 V2).
    rewrite !Rplus_0_r. etransitivity; [exact (proj2 (state_moments E HE d counts C L w Sd Ds Ki Rn _ _ i j D1 D2 (Fs _ _ _ _ Ri) (Fs _ _ _ _ Ri') I1 I2))|].
    cbn [dr_place dr_var]. unfold place_eqb. cbn [pl_prm pl_part pl_var part_eqb]. rewrite String.eqb_refl, !andb_true_r. reflexivity.
Qed.
End R.
