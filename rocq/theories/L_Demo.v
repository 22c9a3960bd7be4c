(** Lemmas about the demonstration scripts. *)
From Coq Require Import QArith Lia.
From Verif Require Import M_Base M_Num M_Nd M_RandVar M_Latent M_Time M_TestSpec M_Device M_Report M_Env M_Sim M_Demo
  S_Latent S_TestSpec S_Device S_Env S_Sim S_Shape S_Total S_Rows S_Demo L_Base L_TestSpec L_Sim L_Shape L_Shape2 L_Total L_Total2 L_Rows.
Open Scope nat_scope.

Section L.
Context {V : Type} `{NumOps V} `{Rng V} `{HashOrd}.

(** ** Objects *)
Lemma normal_ok gen i mu s : numpy_accepts V -> (0 <= s)%Q -> part_ok (normal gen i mu s).
Proof. intros A Hs x Q. injection Q as <-. cbn. now apply A. Qed.
Lemma none_ok : part_ok (V := V) None.
Proof. intros x Q. discriminate Q. Qed.
Lemma gamma_ok gen i : numpy_accepts V -> part_ok (gamma gen i 2 1).
Proof. intros A x Q. injection Q as <-. cbn. apply A. Qed.

Lemma latent_total (dev chp lot : option (rv V)) : part_ok dev -> part_ok chp -> part_ok lot -> dev <> None ->
  exists o, latent dev chp lot = Ok o /\ latent_ok o.
Proof.
  intros Pd Pc Pl N. destruct dev as [r|]; [|contradiction].
  assert (E : exists o, latent (Some r) chp lot = Ok o) by (destruct chp, lot; eexists; reflexivity).
  destruct E as [o E]. exists o. split; auto. unfold latent in E. eapply lvar_init_latent_ok; eauto.
Qed.
Lemma deter_total (q : Q) : exists o, deter (V := V) q = Ok o /\ latent_ok o.
Proof.
  assert (E : exists o, deter (V := V) q = Ok o) by (eexists; reflexivity).
  destruct E as [o E]. exists o. split; auto. eapply lvar_init_latent_ok; eauto using none_ok.
Qed.
Lemma vrtn_total (dev chp bat : option (rv V)) : part_ok dev -> part_ok chp -> part_ok bat ->
  exists o, vrtn dev chp bat = Ok o /\ vrtn_ok o.
Proof.
  intros Pd Pc Pl. assert (E : exists o, vrtn dev chp bat = Ok o) by (destruct dev, chp, bat; eexists; reflexivity).
  destruct E as [o E]. exists o. split; auto. eapply emdl_init_vrtn_ok; eauto.
Qed.

(** ** Parameters *)
Definition mech_fine (l : list (step V)) (u : option string) (m : mech V) : Prop :=
  latents_ok (mc_mdl m) /\ takes_time (lm_eqn (mc_mdl m)) /\ computes_somehow (lm_eqn (mc_mdl m)) /\
  unit_map (set_time_unit (mc_unit m) u) <> None /\
  forall x, In x (e_req (lm_eqn (mc_mdl m))) ->
    x = "time"%string \/ In x (dkeys (lm_vars (mc_mdl m))) \/ forall s, In (SStrs s) l -> In x (dkeys (ss_conds s)).

Definition with_units (u : option string) (mechs : dict (mech V)) : dict (mech V) :=
  map (fun nm : string * mech V => (fst nm, Mech (mc_kind (snd nm)) (mc_mdl (snd nm)) (mc_unitary (snd nm)) (set_time_unit (mc_unit (snd nm)) u))) mechs.
Lemma with_units_keys u mechs : dkeys (with_units u mechs) = dkeys mechs.
Proof. unfold dkeys, with_units. rewrite map_map. reflexivity. Qed.
Lemma with_units_get u mechs nm m : dget (with_units u mechs) nm = Some m ->
  exists m', In (nm, m') mechs /\ mc_mdl m = mc_mdl m' /\ mc_unit m = set_time_unit (mc_unit m') u.
Proof.
  intros E. apply dget_In in E. apply in_map_iff in E as ([x m'] & Q & Hin). injection Q as <- <-. exists m'. auto.
Qed.

Lemma prm_of_deg mechs i own pu du l name : latent_ok i -> latents_ok own ->
  (forall x, In x (dkeys mechs) -> x <> "init" /\ x <> "cond")%string ->
  (forall x, In x (dkeys (lm_vars own)) -> x <> "cond"%string /\ ~ In x (dkeys mechs)) ->
  (forall x, In x (e_req (lm_eqn own)) ->
     x = "init"%string \/ x = "cond"%string \/ In x (dkeys mechs) \/ In x (dkeys (lm_vars own))) ->
  (e_kw (lm_eqn own) = None -> forall x, x = "init"%string \/ x = "cond"%string \/ In x (dkeys mechs) ->
     In x (e_req (lm_eqn own)) \/ In x (e_opt (lm_eqn own))) ->
  computes_somehow (lm_eqn own) ->
  (forall nm m, In (nm, m) mechs -> mech_fine l (or_unit pu du) m) ->
  deg_ok l name (DegPrm (init_of i) no_cond n0 (with_units (or_unit pu du) mechs) own).
Proof.
  intros Oi Oo N1 N2 R1 R2 Cs M. constructor; cbn [dp_init dp_cond dp_own dp_mechs lm_vars lm_eqn init_of no_cond]; rewrite ?with_units_keys; auto.
  - split; [|split; [|split]]; auto.
    + intros x o [Q|[]]. injection Q as <- <-. exact Oi.
    + intros x o [].
    + intros nm m Hm. apply with_units_get in Hm as (m' & Hin & -> & _). apply (M _ _ Hin).
  - split; [discriminate|]. split; [|exact basic_computes]. split; [intros x Hx; exact Hx|intros _ x Hx; now left].
  - intros nm m Hm. apply with_units_get in Hm as (m' & Hin & -> & ->). destruct (M _ _ Hin) as (_ & A & B & C & D). auto.
  - split; [apply computes_now, const_computes|]. intros x [].
Qed.

Definition prm_fine (L C n : nat) (p : degprm V) : Prop :=
  respects_at L C n (lm_eqn (dp_init p)) /\ numeric_at L C n (lm_eqn (dp_cond p)) /\ follows_at L C n (lm_eqn (dp_own p)) /\
  forall nm m, dget (dp_mechs p) nm = Some m -> numeric_at L C n (lm_eqn (mc_mdl m)).
Lemma prm_of_fine L C n mechs i own u : follows_at L C n (lm_eqn own) ->
  (forall nm m, In (nm, m) mechs -> numeric_at L C n (lm_eqn (mc_mdl m))) ->
  prm_fine L C n (DegPrm (init_of i) no_cond n0 (with_units u mechs) own).
Proof.
  intros F M. split; [apply basic_respects|]. split; [apply respects_numeric, const_respects|]. split; [exact F|].
  cbn [dp_mechs]. intros nm m Hm. apply with_units_get in Hm as (m' & Hin & -> & _). eauto.
Qed.

Lemma formula_numeric (f : eqn V) e : given_by f e -> numeric f.
Proof. intros G. apply respects_numeric. eapply formula_respects; eauto. Qed.
Lemma formula_somehow (f : eqn V) e : given_by f e -> computes_somehow f.
Proof. intros G. apply computes_now. eapply formula_computes; eauto. Qed.

(** ** Tests *)
Lemma cycles_In n (l : list (step V)) s : In s (cycles n l) -> In s l.
Proof. induction n as [|n IH]; cbn; [intros []|]. rewrite in_app_iff. tauto. Qed.

Lemma looped_steps f fuel (old l l' : list (step V)) h : append_steps f old (Many l) (Some (TN h)) (Some "h"%string) = Some (l', Ok tt) ->
  f <= fuel -> looped fuel old l h = Ok l'.
Proof. intros E Hf. unfold looped. now rewrite (append_steps_mono_le _ _ _ _ _ _ _ Hf E). Qed.

(** The only measurement of the test. *)
Definition measures (l : list (step V)) (m : meas_spec V) : Prop := In (SMeas m) l /\ forall m', In (SMeas m') l -> m' = m.
Lemma measures_requests l m x k : measures l m -> requests l x k <-> In (x, k) (ms_counts m).
Proof.
  intros [A B]. split; [|intros Hx; exists m; auto]. intros (m' & Hm & Hx). apply B in Hm. now subst.
Qed.

(** ** Experiments *)
Lemma summary_at (l : list (step V)) rows n s : summary_exact l 0 0 rows -> nth_error l n = Some s ->
  exists r, nth_error rows n = Some r /\ summary_says s n (stress_time (firstn n l)) r.
Proof.
  intros [_ K] Hn. apply nth_error_split in Hn as (l1 & l2 & E & <-). destruct (K _ _ _ E) as (r & N & S). exists r. split; auto.
  rewrite E, firstn_app, Nat.sub_diag, firstn_all, firstn_O, app_nil_r. exact S.
Qed.

Lemma lift_eval {A B} (r : res A) (f : A -> M B) a w : r = Ok a -> bind (lift r) f w = f a w.
Proof. intros ->. reflexivity. Qed.

Lemma experiment_ends e d l C L w : env_ok e l -> device_ok d l L C -> test_ok d l -> plain_names l -> only_steps l ->
  exists st rep w', simulate e d l C L None w = (Ok (st, rep), w') /\
    table_of (fun i t kv g => stamped i t kv g /\ rows_exact d l L C kv g) 0 (TD 0) l (rp_meas rep) /\ summary_exact l 0 0 (rp_sum rep) /\
    forall q n, dget (rp_counts rep) q = Some n <-> greatest (needs d l q) n.
Proof.
  intros Oe Od Ot Pn Os. destruct (simulate_total e d l C L Oe Od Ot w) as ([st rep] & w' & E & _).
  exists st, rep, w'. split; auto. destruct (simulate_rows_stamped _ _ _ _ _ _ _ _ _ Oe Od Ot E) as (T & _ & _ & K).
  split; auto. split; auto. eapply simulate_summary_exact; eauto; [apply Od|apply Ot].
Qed.

(** A device with one parameter, measured in every measurement. *)
Lemma one_needs name (p : degprm V) l m k x n : measures l m -> ms_counts m = [(name, k)] ->
  needs [(name, PDeg p)] l x n -> x = name /\ n = k.
Proof.
  intros M Hm [R|(q & c & R & Hc & _)]; [|].
  - apply (measures_requests _ _ _ _ M) in R. rewrite Hm in R. destruct R as [Q|[]]. injection Q as <- <-. auto.
  - cbn [dget] in Hc. destruct (String.eqb q name); discriminate Hc.
Qed.
Lemma one_greatest name (p : degprm V) l m k : measures l m -> ms_counts m = [(name, k)] -> greatest (needs [(name, PDeg p)] l name) k.
Proof.
  intros M Hm. split.
  - left. apply (measures_requests _ _ _ _ M). rewrite Hm. now left.
  - intros n Hn. apply (one_needs _ _ _ _ _ _ _ M Hm) in Hn as [_ ->]. auto.
Qed.
Lemma one_device name (p : degprm V) l m k L C : measures l m -> ms_counts m = [(name, k)] ->
  deg_ok l name p -> prm_fine L C k p -> dwf (dp_mechs p) -> device_ok [(name, PDeg p)] l L C.
Proof.
  intros M Hm Od F W.
  assert (G : forall x q, dget [(name, PDeg p)] x = Some q -> x = name /\ q = PDeg p).
  { intros x q E. cbn [dget] in E. destruct (String.eqb x name) eqn:Ex; [|discriminate]. apply String.eqb_eq in Ex. injection E as <-. auto. }
  constructor.
  - split; [repeat constructor; intros []|]. intros x q E. apply G in E as [-> Q]. injection Q as ->. exact W.
  - intros x q n E Hn. apply G in E as [-> Q]. injection Q as ->. apply (one_needs _ _ _ _ _ _ _ M Hm) in Hn as [_ ->]. exact F.
  - intros x c q E. apply G in E as [_ Q]. discriminate Q.
  - intros x q E. apply G in E as [-> Q]. injection Q as ->. exact Od.
  - intros x c E. apply G in E as [_ Q]. discriminate Q.
Qed.
Lemma one_test name (p : degprm V) l m k : measures l m -> ms_counts m = [(name, k)] -> name <> "meas"%string ->
  (forall s, In s l -> step_wf s) -> test_ok [(name, PDeg p)] l.
Proof.
  intros M Hm Nn Ws. constructor; auto.
  - intros m' x n Hm' Hx. apply M in Hm'. subst m'. rewrite Hm in Hx. destruct Hx as [Q|[]]. injection Q as <- <-. split; auto. left. now left.
  - intros x [<-|[]]. exists k. apply (one_greatest _ p _ _ _ M Hm).
Qed.
Lemma one_rows name (p : degprm V) l m k L C i t rows : measures l m -> ms_counts m = [(name, k)] ->
  table_of (fun _ _ => rows_exact [(name, PDeg p)] l L C) i t l rows -> length rows = row_count (fun _ => L * C * k) l.
Proof.
  intros M Hm T. eapply table_length; [|exact T]. intros m' kv g Hm' Hkv R. apply M in Hm'. subst m'. rewrite Hm in Hkv. destruct Hkv as [<-|[]].
  unfold rows_exact in R. cbn [fst snd dget] in R. rewrite String.eqb_refl in R. apply R.
Qed.

Definition step_fine (s : step V) : Prop :=
  step_wf s /\ (forall c, In c (step_conds s) -> ~ In c columns) /\ forall o, s <> SOther o.
Ltac fine_step := split; [repeat split; repeat constructor; cbn; intuition discriminate|split; [cbn; intuition (subst; discriminate)|discriminate]].
(** What is known of the report of an experiment that measures one parameter. *)
Definition reported (l : list (step V)) (C L : nat) (name q : string) (k : nat) (w : world) (rep : report V) (w' : world) : Prop :=
  exists e d st, device_wf d /\ (forall s, In s l -> step_fine s) /\ simulate e d l C L None w = (Ok (st, rep), w') /\
    (forall m, In (SMeas m) l -> ms_counts m = [(name, k)]) /\
    length (rp_meas rep) = row_count (fun _ => L * C * k) l /\ summary_exact l 0 0 (rp_sum rep) /\ dget (rp_counts rep) q = Some k /\
    table_of (fun i t kv g => stamped i t kv g /\ labelled L C (snd kv) g) 0 (TD 0) l (rp_meas rep).

Lemma one_reported e name (p : degprm V) l m k C L w : measures l m -> ms_counts m = [(name, k)] -> name <> "meas"%string ->
  env_ok e l -> deg_ok l name p -> prm_fine L C k p -> dwf (dp_mechs p) -> (forall s, In s l -> step_fine s) ->
  exists st rep w', simulate e [(name, PDeg p)] l C L None w = (Ok (st, rep), w') /\ reported l C L name name k w rep w'.
Proof.
  intros M Hm Nn Oe Od F W Fs. assert (Ok : device_ok [(name, PDeg p)] l L C) by (eapply one_device; eauto).
  destruct (experiment_ends e [(name, PDeg p)] l C L w) as (st & rep & w' & E & T & Sm & K); auto.
  - eapply one_test; eauto. intros s Hs. apply (Fs s Hs).
  - intros s c Hs. apply (Fs s Hs).
  - intros o Ho. now apply (Fs _ Ho) with (o := o).
  - assert (T' : table_of (fun _ _ => rows_exact [(name, PDeg p)] l L C) 0 (TD 0) l (rp_meas rep)) by (eapply table_mono; [|exact T]; intros i t kv g m' _ _ (_ & X); exact X).
    exists st, rep, w'. split; auto. exists e, [(name, PDeg p)], st. split; [exact (dk_wf _ _ _ _ Ok)|]. do 2 (split; auto). split; [intros m' Hm'; now apply M in Hm' as ->|].
    split; [eapply one_rows; eauto|]. split; auto. split; [apply K; eapply one_greatest; eauto|].
    eapply table_mono; [|exact T]. intros i t kv g m' Hm' Hkv (St & X). split; auto. apply M in Hm'. subst m'. rewrite Hm in Hkv. destruct Hkv as [<-|[]].
    unfold rows_exact in X. cbn [fst snd dget] in X. now rewrite String.eqb_refl in X.
Qed.

Lemma one_experiment e name (p : degprm V) l m k C L w : measures l m -> ms_counts m = [(name, k)] -> name <> "meas"%string ->
  env_ok e l -> deg_ok l name p -> prm_fine L C k p -> dwf (dp_mechs p) -> (forall s, In s l -> step_fine s) ->
  exists st rep w', simulate e [(name, PDeg p)] l C L None w = (Ok (st, rep), w') /\
    length (rp_meas rep) = row_count (fun _ => L * C * k) l /\ summary_exact l 0 0 (rp_sum rep) /\
    dget (rp_counts rep) name = Some k.
Proof.
  intros M Hm Nn Oe Od F W Fs. destruct (one_reported e name p l m k C L w M Hm Nn Oe Od F W Fs) as (st & rep & w' & E & (_ & _ & _ & _ & _ & _ & _ & R1 & R2 & R3 & _)).
  exists st, rep, w'. auto.
Qed.

(** ** demos/basic_use.py *)
Variables (gen : nat -> nat).
Hypotheses (Hnp : numpy_accepts V) (Hli : literals V).

Lemma basic_given : given_by (V := V) basic_eqn (FMap2 nmul (FMap2 nmul (FArg "time") (FMap nneg (FArg "a"))) (FArg "temp")).
Proof. split; [reflexivity|]. split; [reflexivity|]. split; [intros x; cbn; tauto|reflexivity]. Qed.
Lemma basic_empty l : env_ok (V := V) [] l.
Proof. split; [|split]; [intros n a Q; discriminate Q..|reflexivity]. Qed.

Lemma at_says (r : report V) i x row c : nth_error (rp_sum r) i = Some row -> dget row x = Some c -> at_ r i x = Ok c.
Proof. intros A B. unfold at_, dgetE. now rewrite A, B. Qed.
Lemma count_says (r : report V) x n : dget (rp_counts r) x = Some n -> count_is r x n = Ok true.
Proof. intros A. unfold count_is, dgetE. rewrite A. cbn. now rewrite Nat.eqb_refl. Qed.
Lemma rows_says (r : report V) n : length (rp_meas r) = n -> rows_are r n = Ok true.
Proof. intros A. unfold rows_are. now rewrite A, Nat.eqb_refl. Qed.

Definition basic_steps : list (step V) := [basic_meas; SStrs (StrsSpec [("temp"%string, kelvin 125)] 360000000000 "unspecified"); basic_meas].
Lemma basic_runs w : exists rep w', basic_run gen w = (Ok rep, w') /\ reported basic_steps 1 1 "example_prm" "example_prm" 5 w rep w'.
Proof.
  unfold basic_run.
  assert (El : basic_test = Ok basic_steps) by reflexivity. set (l := basic_steps) in *. rewrite El.
  destruct (latent_total (normal gen 0 (1 # 1000) (2 # 10000)) None None) as (a & Ea & Oa); auto using none_ok; [apply normal_ok; [auto|discriminate]|discriminate|].
  destruct (deter_total 0) as (i & Ei & Oi).
  unfold basic_device. rewrite Ea, Ei. cbn [rbind].
  set (p := DegPrm (init_of i) no_cond n0 (with_units None [("linear"%string, mech_of KDeg basic_eqn [("a"%string, a)] (Some "h"%string))]) (LMdl eqn_basic_sum [])).
  assert (M : measures l (MeasSpec [("example_prm"%string, 5)] [("temp"%string, kelvin 25)] "unspecified")).
  { split; [now left|]. intros m' [Q|[Q|[Q|[]]]]; try discriminate Q; now injection Q as <-. }
  destruct (one_reported [] "example_prm" p l _ 5 1 1 w M eq_refl) as (st & rep & w' & E & Rp).
  - discriminate.
  - apply basic_empty.
  - apply (prm_of_deg [("linear"%string, mech_of KDeg basic_eqn [("a"%string, a)] (Some "h"%string))] i (LMdl eqn_basic_sum []) None None); auto.
      * intros x o [].
      * intros x [<-|[]]. split; discriminate.
      * intros x [<-|[<-|[]]]; auto.
      * discriminate.
      * apply computes_now, basic_sum_computes.
      * intros nm m [Q|[]]. injection Q as <- <-. split; [|split; [|split; [|split]]].
        -- intros x o [Q|[]]. injection Q as <- <-. exact Oa.
        -- left. now left.
        -- eapply formula_somehow, basic_given.
        -- discriminate.
        -- intros x [<-|[<-|[<-|[]]]]; auto; [right; right|right; left; now left]. intros s [Q|[Q|[Q|[]]]]; try discriminate Q. injection Q as <-. now left.
  - apply prm_of_fine; [apply respects_follows, basic_sum_respects|].
    intros nm m [Q|[]]. injection Q as <- <-. eapply formula_numeric, basic_given.
  - repeat constructor. intros [].
  - intros s [<-|[<-|[<-|[]]]]; fine_step.
  - exists rep, w'. split; [|exact Rp].
    rewrite (lift_eval _ _ l w eq_refl), (lift_eval (env_init [] RNone [] RNone) _ [] w eq_refl).
    rewrite (lift_eval _ _ [("example_prm"%string, PDeg p)] w eq_refl), (bind_eval _ _ _ _ _ E). reflexivity.
Qed.
Theorem basic_passes w : exists w', basic_entry gen w = (Ok 0%Z, w').
Proof.
  destruct (basic_runs w) as (rep & w' & E & (_ & _ & _ & _ & _ & _ & _ & T & Sm & G & _)). exists w'. unfold basic_entry. rewrite (bind_eval _ _ _ _ _ E).
    destruct (summary_at _ _ 2 _ Sm eq_refl) as (r2 & N2 & _ & S2). destruct (summary_at _ _ 1 _ Sm eq_refl) as (r1 & N1 & S1 & _).
    unfold lift. f_equal. rewrite (rows_says rep 10 T), (count_says rep _ _ G).
    rewrite (at_says _ _ "temp" _ _ N2 (S2 "temp"%string _ eq_refl)).
    destruct S1 as (_ & _ & _ & _ & _ & S1). rewrite (at_says _ _ "end time" _ _ N1 S1).
    cbn [rbind is_num is_hours]. unfold kelvin, lit. rewrite (li_temp Hli).
    assert (Hh := li_hours Hli 100 (or_introl eq_refl)). cbn [ss_dur]. change (stress_time (firstn 1 basic_steps) + 360000000000)%Z with (100 * 3600 * 1000000)%Z.
    rewrite Hh. reflexivity.
Qed.
End L.
