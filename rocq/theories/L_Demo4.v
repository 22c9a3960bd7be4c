(** The pre-silicon variability demonstration script. *)
From Coq Require Import QArith Lia.
From Verif Require Import M_Base M_Num M_Nd M_RandVar M_Latent M_Time M_TestSpec M_Device M_Report M_Env M_Sim M_Demo
  S_Latent S_TestSpec S_Device S_Env S_Sim S_Shape S_Total S_Rows S_Demo L_Base L_TestSpec L_Env L_Sim L_Shape L_Shape2 L_Total L_Total2 L_Rows L_Demo L_Demo2.
Open Scope nat_scope.

Section L.
Context {V : Type} `{NumOps V} `{Rng V} `{HashOrd}.

(** ** A circuit parameter and the degraded parameter it depends on *)
Section Pair.
Variables (q g : string) (p : degprm V) (c : lmdl V) (l : list (step V)) (m : meas_spec V) (k : nat).
Let d : device V := [(q, PDeg p); (g, PCirc c)].
Hypotheses (M : measures l m) (Hm : ms_counts m = [(g, k)]) (Nqg : q <> g)
  (Uq : In q (compute_args (lm_eqn c))) (Ug : ~ In g (compute_args (lm_eqn c))).

Lemma pair_get x : dget d x = if String.eqb x q then Some (PDeg p) else if String.eqb x g then Some (PCirc c) else None.
Proof. reflexivity. Qed.
Lemma pair_q : dget d q = Some (PDeg p).
Proof. now rewrite pair_get, String.eqb_refl. Qed.
Lemma pair_g : dget d g = Some (PCirc c).
Proof. rewrite pair_get, String.eqb_refl. destruct (String.eqb_spec g q); congruence. Qed.
Lemma pair_deg x y : dget d x = Some (PDeg y) -> x = q /\ y = p.
Proof. rewrite pair_get. destruct (String.eqb_spec x q); [intros Q; injection Q as <-; auto|]. destruct (String.eqb x g); discriminate. Qed.
Lemma pair_circ x y : dget d x = Some (PCirc y) -> x = g /\ y = c.
Proof. rewrite pair_get. destruct (String.eqb_spec x q); [discriminate|]. destruct (String.eqb_spec x g); [intros Q; injection Q as <-; auto|discriminate]. Qed.
Lemma pair_requests x n : requests l x n <-> x = g /\ n = k.
Proof.
  rewrite (measures_requests _ _ _ _ M), Hm. split; [intros [Q|[]]; injection Q as <- <-; auto|intros [-> ->]; now left].
Qed.
Lemma pair_needs x n : needs d l x n -> (x = g \/ x = q) /\ n = k.
Proof.
  intros [R|(y & cc & R & _ & Hx & _)]; apply pair_requests in R as [-> ->]; auto. destruct Hx as [<-|[<-|[]]]; auto.
Qed.
Lemma pair_needed x : x = g \/ x = q -> greatest (needs d l x) k.
Proof.
  intros Hx. split; [|intros n Hn; now apply pair_needs in Hn as [_ ->]].
  destruct Hx as [->| ->]; [left; now apply pair_requests|]. right. exists g, c. rewrite pair_g. repeat split; auto; [now apply pair_requests|now left].
Qed.

Variables (L C : nat).
Hypotheses (Od : deg_ok l q p) (F : prm_fine L C k p) (W : dwf (dp_mechs p))
  (Lc : latents_ok c) (Cc : computes (lm_eqn c)) (Rc : respects (lm_eqn c))
  (Ac : forall x, In x (e_req (lm_eqn c)) -> on_hand d c m x)
  (Vc : exists x, In x (dkeys (lm_vars c)) /\ In x (compute_args (lm_eqn c))).

Lemma pair_size m' k' : In (SMeas m') l -> In (g, k') (ms_counts m') -> circ_size d l m' g k' c k.
Proof.
  intros Hm' Hk. apply M in Hm'. subst m'. rewrite Hm in Hk. destruct Hk as [Q|[]]. injection Q as <-.
  intros x Hx. split; [|split]; auto.
  - intros _. apply pair_needed. auto.
  - intros y E. apply pair_deg in E as [-> _]. apply pair_needed. auto.
Qed.

Lemma pair_device : device_ok d l L C.
Proof.
  constructor.
  - split; [repeat constructor; cbn; intuition congruence|]. intros x y E. apply pair_deg in E as [-> ->]. exact W.
  - intros x y n E Hn. apply pair_deg in E as [-> ->]. apply pair_needs in Hn as [_ ->]. exact F.
  - intros x y z E Hz Hu. apply pair_circ in E as [-> ->]. destruct Hz as [<-|[<-|[]]]; [eauto using pair_q|contradiction].
  - intros x y E. apply pair_deg in E as [-> ->]. exact Od.
  - intros x y E. apply pair_circ in E as [-> ->]. constructor; auto.
    + intros m' k' Hm' _. apply M in Hm'. subst m'. split; auto. destruct Vc as (x & V1 & V2). exists x. split; auto. now left.
    + intros m' k' Hm' Hk. exists k. now apply pair_size.
Qed.

Lemma pair_experiment e w : env_ok e l -> g <> "meas"%string -> (forall s, In s l -> step_fine s) -> L <= k ->
  exists st rep w', simulate e d l C L None w = (Ok (st, rep), w') /\ reported l C L g q k w rep w'.
Proof.
  intros Oe Ng Fs Hle. destruct (experiment_ends e d l C L w) as (st & rep & w' & E & T & Sm & K); auto.
  - apply pair_device.
  - constructor.
    + intros s Hs. apply (Fs s Hs).
    + intros m' x n Hm' Hx. apply M in Hm'. subst m'. rewrite Hm in Hx. destruct Hx as [Q|[]]. injection Q as <- <-. split; auto. left. cbn. auto.
    + intros x [<-|[<-|[]]]; exists k; apply pair_needed; auto.
  - intros s x Hs. apply (Fs s Hs).
  - intros o Ho. now apply (Fs _ Ho) with (o := o).
  - assert (T' : table_of (fun i t kv g => stamped i t kv g /\ labelled L C (snd kv) g) 0 (TD 0) l (rp_meas rep)).
    { eapply table_mono; [|exact T]. intros i t kv gr m' Hm' Hkv (St & R). split; auto. apply M in Hm'. subst m'. rewrite Hm in Hkv. destruct Hkv as [<-|[]].
      unfold rows_exact in R. cbn [fst snd] in R |- *. rewrite pair_g in R. destruct R as (m' & n & Hm' & Hk & Sz & R).
      destruct Vc as (x & V1 & V2). destruct (Sz x V2) as (G & _). destruct (G V1) as [N _]. apply pair_needs in N as [_ ->]. now rewrite Nat.min_r in R. }
    exists st, rep, w'. split; auto. exists e, d, st. split; [exact (dk_wf _ _ _ _ pair_device)|]. do 2 (split; auto). split; [intros m' Hm'; now apply M in Hm' as ->|].
    split; [|split; auto; split; auto; apply K; apply pair_needed; auto].
    eapply (table_length (fun kv g => labelled L C (snd kv) g)); [|eapply table_mono; [|exact T']; intros i t kv gr m' _ _ (_ & X); exact X].
    intros m' kv gr Hm' Hkv R. apply M in Hm'. subst m'. rewrite Hm in Hkv. destruct Hkv as [<-|[]]. apply R.
Qed.
End Pair.

(** ** The script *)
Variables (gen : nat -> nat) (pexp : V -> V) (ppow : V -> V -> V).
Hypotheses (Hnp : numpy_accepts V) (Hli : literals V).

Definition bti_formula : formula V :=
  FMap2 nmul (FMap2 nmul (FMap2 nmul (FArg "a_0") (FMap pexp (FMap2 ndiv (FArg "e_aa") (FMap2 nmul (FNum (lit (8617 # 100000000))) (FArg "temp")))))
                         (FMap2 ppow (FArg "vdd") (FArg "alpha")))
             (FMap2 ppow (FArg "time") (FArg "n")).
Lemma bti_given : given_by (bti_eqn pexp ppow) bti_formula.
Proof. split; [reflexivity|]. split; [reflexivity|]. split; [intros x; cbn; tauto|reflexivity]. Qed.
Definition hci_formula : formula V :=
  FMap2 nmul (FMap2 nmul (FMap2 nmul (FArg "a_0") (FMap pexp (FMap2 ndiv (FMap nneg (FArg "alpha")) (FArg "vdd"))))
                         (FMap2 nmul (FArg "t_0") (FMap2 ppow (FArg "temp") (FMap nneg (FArg "beta")))))
             (FMap2 ppow (FArg "time") (FArg "n")).
Lemma hci_given : given_by (hci_eqn pexp ppow) hci_formula.
Proof. split; [reflexivity|]. split; [reflexivity|]. split; [intros x; cbn; tauto|reflexivity]. Qed.
Lemma vth_given : given_by (V := V) vth_own (FMap2 nadd (FMap2 nadd (FMap2 nadd (FArg "init") (FArg "bti")) (FArg "hci")) (FArg "cond")).
Proof. split; [reflexivity|]. split; [reflexivity|]. split; [intros x; cbn; tauto|reflexivity]. Qed.
Definition gain_formula : formula V :=
  let v_gs_1 := FMap2 nmul (FNum (lit (54 # 100))) (FArg "vdd") in
  let v_gs_2 := FMap2 nmul (FNum (lit (69 # 100))) (FArg "vdd") in
  let size := FMap2 nmul (FMap2 nmul (FArg "u_n") (FArg "c_ox")) (FMap2 ndiv (FArg "w") (FArg "l")) in
  let i_d_1 := FMap2 nmul (FMap2 nmul (FNum (lit (5 # 10))) size) (FMap2 ppow (FMap2 nsub v_gs_1 (FArg "v_th")) (FNum (lit 2))) in
  let i_d_2 := FMap2 nmul (FMap2 nmul (FNum (lit (5 # 10))) size) (FMap2 ppow (FMap2 nsub v_gs_2 (FArg "v_th")) (FNum (lit 2))) in
  let g_m := FMap2 ndiv (FMap2 nmul (FNum (lit 2)) i_d_1) (FMap2 nsub v_gs_1 (FArg "v_th")) in
  let r_o := FMap2 ndiv (FMap2 nmul (FArg "v_e") (FArg "l")) i_d_2 in
  FMap2 nmul g_m r_o.
Lemma gain_given : given_by (gain_eqn ppow) gain_formula.
Proof. split; [reflexivity|]. split; [reflexivity|]. split; [intros x; cbn; tauto|reflexivity]. Qed.

(** The steps of all three tests: the same measurement, and stresses with temperature
    and voltage. *)
Definition silicon_test (l : list (step V)) : Prop :=
  In full_meas l /\ forall s, In s l -> s = full_meas \/ exists t v us nm, s = SStrs (StrsSpec (tv t v) us nm).
Definition meas_all : meas_spec V := MeasSpec [("amp_gain"%string, 5)] (tv (kelvin 30) (lit (86 # 100))) "Measure All".

Lemma silicon_measures l : silicon_test l -> measures l meas_all.
Proof.
  intros [A B]. split; [exact A|]. intros m' Hm'. destruct (B _ Hm') as [Q|(t & v & us & nm & Q)]; [now injection Q as ->|discriminate Q].
Qed.
Lemma silicon_fine l : silicon_test l -> forall s, In s l -> step_fine s.
Proof. intros [_ B] s Hs. destruct (B _ Hs) as [->|(t & v & us & nm & ->)]; fine_step. Qed.
Lemma silicon_conds l s : silicon_test l -> In (SStrs s) l -> dkeys (ss_conds s) = ["temp"; "vdd"]%string.
Proof. intros [_ B] Hs. destruct (B _ Hs) as [Q|(t & v & us & nm & Q)]; [discriminate Q|]. now injection Q as ->. Qed.

Lemma silicon_env_total : exists e, silicon_env gen = Ok e /\ forall l, env_ok e l.
Proof.
  unfold silicon_env.
  destruct (vrtn_total (normal gen 0 0 (5 # 100)) (normal gen 1 0 (2 # 10)) None) as (t & -> & Ot); try part. cbn [rbind].
  destruct (vrtn_total (normal gen 2 0 (3 # 10000)) (normal gen 3 0 (5 # 10000)) None) as (v & -> & Ov); try part. cbn [rbind].
  assert (E : exists e, env_init [t; v] (RDict [("temp", 0); ("vdd", 1)]%string) [] RNone = Ok e) by (eexists; reflexivity).
  destruct E as [e E]. exists e. split; auto. intros l. eapply env_init_ok; [| |exact E| |].
  - split; repeat constructor; cbn; intuition discriminate.
  - exact I.
  - intros n m Gm. cbn [given dget] in Gm. destruct (String.eqb n "temp"); [injection Gm as <-; exact Ot|].
    destruct (String.eqb n "vdd"); [|discriminate]. injection Gm as <-. exact Ov.
  - intros n i Gi. discriminate Gi.
Qed.

(** Latent variables that are reassigned stay usable. *)
Lemma assigned_chp (o : lvar V) i mu s : latent_ok o -> (0 <= s)%Q -> latent_ok (snd (lvar_assign o (LChp (normal gen i mu s)))).
Proof. intros (A & B & _ & D) Hs. repeat split; auto. cbn. now apply Hnp. Qed.
Lemma assigned_lot (o : lvar V) i mu s : latent_ok o -> (0 <= s)%Q -> latent_ok (snd (lvar_assign o (LLot (normal gen i mu s)))).
Proof. intros (A & B & D & _) Hs. repeat split; auto. cbn. now apply Hnp. Qed.
Lemma vth_init_total : exists o, vth_init gen = Ok o /\ latent_ok o.
Proof.
  assert (E : exists o, vth_init gen = Ok o) by (eexists; reflexivity). destruct E as [o E]. exists o. split; auto.
  unfold vth_init in E. eapply lvar_init_latent_ok; [exact E|..]; part.
Qed.

Lemma silicon_device_total ba ha i : latent_ok ba -> latent_ok ha -> latent_ok i ->
  exists d, silicon_device gen pexp ppow ba ha i = Ok d /\ forall e l w, env_ok e l -> silicon_test l ->
    exists st rep w', simulate e d l 5 5 None w = (Ok (st, rep), w') /\ reported l 5 5 "amp_gain" "v_th" 5 w rep w'.
Proof.
  intros Oba Oha Oi.
  destruct (latent_total (normal gen 11 (6 # 1000) (5 # 10000)) None None) as (b_a0 & E1 & O1); try part.
  destruct (latent_total (normal gen 12 (-5 # 100) (2 # 10000)) (normal gen 13 1 (3 # 10000)) (normal gen 14 1 (1 # 10000))) as (b_e & E2 & O2); try part.
  destruct (latent_total (normal gen 15 (4 # 10) (5 # 10000)) None None) as (b_n & E3 & O3); try part.
  destruct (latent_total (normal gen 16 (1 # 10) (4 # 1000)) None None) as (h_a0 & E4 & O4); try part.
  destruct (latent_total (normal gen 17 (62 # 100) (3 # 1000)) None None) as (h_n & E5 & O5); try part.
  destruct (latent_total (normal gen 18 (11 # 10) (2 # 1000)) (normal gen 19 1 (1 # 1000)) (normal gen 20 1 (1 # 100))) as (h_beta & E6 & O6); try part.
  destruct (latent_total (normal gen 21 500 (1 # 1000)) None None) as (h_t0 & E7 & O7); try part.
  destruct (deter_total (V := V) 1) as (u_n & E8 & O8). destruct (deter_total (V := V) 8) as (wd & E9 & O9).
  destruct (deter_total (V := V) 2) as (l_ & E10 & O10). destruct (deter_total (V := V) 5) as (v_e & E11 & O11).
  set (mechs := [("bti"%string, mech_of KDeg (bti_eqn pexp ppow) [("a_0", b_a0); ("e_aa", b_e); ("alpha", ba); ("n", b_n)]%string None);
                 ("hci"%string, mech_of KDeg (hci_eqn pexp ppow) [("a_0", h_a0); ("n", h_n); ("alpha", ha); ("beta", h_beta); ("t_0", h_t0)]%string None)]).
  set (p := DegPrm (init_of i) no_cond n0 (with_units (Some "hours"%string) mechs) (LMdl vth_own [])).
  set (c := LMdl (gain_eqn ppow) [("u_n", u_n); ("c_ox", u_n); ("w", wd); ("l", l_); ("v_e", v_e)]%string).
  exists [("v_th"%string, PDeg p); ("amp_gain"%string, PCirc c)]. split.
  { unfold silicon_device. rewrite E1, E2, E3, E4, E5, E6, E7, E8, E9, E10, E11. reflexivity. }
  intros e l w Oe T.
  assert (Fl : forall s, In (SStrs s) l -> In "temp"%string (dkeys (ss_conds s)) /\ In "vdd"%string (dkeys (ss_conds s))).
  { intros s Hs. rewrite (silicon_conds l s T Hs). cbn. auto. }
  apply (pair_experiment "v_th" "amp_gain" p c l meas_all 5 (silicon_measures l T) eq_refl); auto.
  - discriminate.
  - cbn. auto.
  - cbn. intuition discriminate.
  - apply (prm_of_deg mechs i (LMdl vth_own []) None (Some "hours"%string)); auto.
    + intros x o [].
    + intros x [<-|[<-|[]]]; split; discriminate.
    + intros x [<-|[<-|[<-|[<-|[]]]]]; cbn; auto 8.
    + intros _ x [->|[->|[<-|[<-|[]]]]]; left; cbn; auto 8.
    + eapply formula_somehow, vth_given.
    + intros nm m [Q|[Q|[]]]; injection Q as <- <-; (split; [|split; [|split; [|split]]]).
      * intros x o [Q|[Q|[Q|[Q|[]]]]]; injection Q as <- <-; auto.
      * left. cbn. auto 8.
      * eapply formula_somehow, bti_given.
      * discriminate.
      * intros x [<-|[<-|[<-|[<-|[<-|[<-|[<-|[]]]]]]]]; [right; left; cbn; now auto|right; left; cbn; now auto|right; right; intros s Hs; apply (Fl s Hs)|
          right; right; intros s Hs; apply (Fl s Hs)|right; left; cbn; now auto|now left|right; left; cbn; now auto].
      * intros x o [Q|[Q|[Q|[Q|[Q|[]]]]]]; injection Q as <- <-; auto.
      * left. cbn. auto 8.
      * eapply formula_somehow, hci_given.
      * discriminate.
      * intros x [<-|[<-|[<-|[<-|[<-|[<-|[<-|[<-|[]]]]]]]]]; [now left|right; right; intros s Hs; apply (Fl s Hs)|right; right; intros s Hs; apply (Fl s Hs)|
          right; left; cbn; auto 8..].
  - apply prm_of_fine; [apply respects_follows; eapply formula_respects, vth_given|].
    intros nm m [Q|[Q|[]]]; injection Q as <- <-; [eapply formula_numeric, bti_given|eapply formula_numeric, hci_given].
  - cbn. repeat constructor; cbn; intuition discriminate.
  - intros x o [Q|[Q|[Q|[Q|[Q|[]]]]]]; injection Q as <- <-; auto.
  - eapply formula_computes, gain_given.
  - eapply formula_respects, gain_given.
  - intros x [<-|[<-|[<-|[<-|[<-|[<-|[<-|[]]]]]]]]; [right; right; exists p; reflexivity|left; cbn; now auto 6..|right; left; cbn; auto].
  - exists "u_n"%string. cbn. auto.
  - discriminate.
  - apply (silicon_fine l T).
Qed.

Definition hot (i : nat) : step V :=
  SStrs (StrsSpec (tv (kelvin (100 + 10 * inject_Z (Z.of_nat i))) (nadd (lit (88 # 100)) (nmul (lit (2 # 100)) (lit (inject_Z (Z.of_nat i)))))) 324000000000 ("Ramp Cycle Stress " ++ digits i)).
Definition relax : step V := SStrs (StrsSpec (tv (kelvin 30) (lit (86 # 100))) 36000000000 "Ramp Cycle Relax").
Definition ramp_steps : list (step V) := full_meas :: flat_map (fun i => [hot i; full_meas; relax; full_meas]) (seq 0 10).
Lemma ramp_test_steps : ramp_test (V := V) = Ok ramp_steps.
Proof. reflexivity. Qed.
Lemma ramp_silicon : silicon_test ramp_steps.
Proof.
  split; [now left|]. intros s [<-|Hs]; [now left|]. apply in_flat_map in Hs as (i & _ & [<-|[<-|[<-|[<-|[]]]]]); auto; right; unfold hot, relax; eauto.
Qed.
Definition long (t : Q) (name : string) : step V := SStrs (StrsSpec (tv (kelvin t) (lit (92 # 100))) 180000000000 name).
Definition long_steps (t : Q) (name : string) : list (step V) := full_meas :: cycles 20 [long t name; full_meas].
Lemma htol_test_steps fuel : 20 <= fuel -> htol_test (V := V) fuel = Ok (long_steps 125 "HTOL Stress").
Proof. intros Hf. unfold htol_test. change (stress _ 50 "HTOL Stress") with (Ok (long 125 "HTOL Stress")). cbn [rbind]. apply (looped_steps 20); [reflexivity|exact Hf]. Qed.
Lemma ltol_test_steps fuel : 20 <= fuel -> ltol_test (V := V) fuel = Ok (long_steps (-10) "Low Temperature Stress").
Proof. intros Hf. unfold ltol_test. change (stress _ 50 "Low Temperature Stress") with (Ok (long (-10) "Low Temperature Stress")). cbn [rbind]. apply (looped_steps 20); [reflexivity|exact Hf]. Qed.
Lemma long_silicon t name : silicon_test (long_steps t name).
Proof. split; [now left|]. intros s [<-|Hs]; [now left|]. apply cycles_In in Hs as [<-|[<-|[]]]; auto. right. unfold long. eauto. Qed.

Definition silicon_report (l : list (step V)) (rep : report V) : Prop := exists w w', reported l 5 5 "amp_gain" "v_th" 5 w rep w'.
Lemma silicon_runs fuel w : 20 <= fuel -> exists r0 r1 r2 r3 r4 r5 w', silicon_run gen pexp ppow fuel w =
  (Ok [("Current Process: Ramped Cycling", r0); ("Current Process: HTOL", r1); ("Current Process: LTOL", r2);
       ("New Process: Ramped Cycling", r3); ("New Process: HTOL", r4); ("New Process: LTOL", r5)]%string, w') /\
  silicon_report ramp_steps r0 /\ silicon_report (long_steps 125 "HTOL Stress") r1 /\ silicon_report (long_steps (-10) "Low Temperature Stress") r2 /\
  silicon_report ramp_steps r3 /\ silicon_report (long_steps 125 "HTOL Stress") r4 /\ silicon_report (long_steps (-10) "Low Temperature Stress") r5.
Proof.
  intros Hf. destruct silicon_env_total as (e & Ee & Oe).
  destruct (latent_total (normal gen 4 (95 # 10) (2 # 1000)) (normal gen 5 1 (5 # 1000)) None) as (ba & Eba & Oba); try part.
  destruct (latent_total (normal gen 6 (72 # 10) (3 # 100)) (normal gen 7 1 (4 # 100)) None) as (ha & Eha & Oha); try part.
  destruct vth_init_total as (i & Ei & Oi).
  destruct (silicon_device_total ba ha i Oba Oha Oi) as (d & Ed & X).
  destruct (silicon_device_total _ _ _ (assigned_chp ba 22 1 (1 # 100) Oba ltac:(discriminate)) (assigned_chp ha 23 1 (8 # 100) Oha ltac:(discriminate))
    (assigned_lot i 24 0 (6 # 10000) Oi ltac:(discriminate))) as (d' & Ed' & X').
  destruct (X e _ w (Oe _) (long_silicon 125 "HTOL Stress")) as (st1 & r1 & w1 & S1 & R1).
  destruct (X e _ w1 (Oe _) (long_silicon (-10) "Low Temperature Stress")) as (st2 & r2 & w2 & S2 & R2).
  destruct (X e _ w2 (Oe _) ramp_silicon) as (st0 & r0 & w3 & S0 & R0).
  destruct (X' e _ w3 (Oe _) (long_silicon 125 "HTOL Stress")) as (st4 & r4 & w4 & S4 & R4).
  destruct (X' e _ w4 (Oe _) (long_silicon (-10) "Low Temperature Stress")) as (st5 & r5 & w5 & S5 & R5).
  destruct (X' e _ w5 (Oe _) ramp_silicon) as (st3 & r3 & w6 & S3 & R3).
  exists r0, r1, r2, r3, r4, r5, w6. split; [|repeat split; eexists; eexists; eassumption].
       unfold silicon_run. rewrite (lift_eval _ _ _ w (htol_test_steps fuel Hf)), (lift_eval _ _ _ w (ltol_test_steps fuel Hf)), (lift_eval _ _ _ w ramp_test_steps),
         (lift_eval _ _ _ w Ee), (lift_eval (bti_alpha gen) _ _ w Eba), (lift_eval (hci_alpha gen) _ _ w Eha), (lift_eval _ _ _ w Ei), (lift_eval _ _ _ w Ed).
       rewrite (bind_eval _ _ _ _ _ S1), (bind_eval _ _ _ _ _ S2), (bind_eval _ _ _ _ _ S0), (lift_eval _ _ _ w3 Ed'),
         (bind_eval _ _ _ _ _ S4), (bind_eval _ _ _ _ _ S5), (bind_eval _ _ _ _ _ S3). reflexivity.
Qed.
Lemma silicon_facts l rep : silicon_report l rep -> length (rp_meas rep) = row_count (fun _ => 125) l /\ summary_exact l 0 0 (rp_sum rep) /\ dget (rp_counts rep) "v_th" = Some 5.
Proof. intros (w & w' & (_ & _ & _ & _ & _ & _ & _ & T & Sm & G & _)). auto. Qed.
Theorem silicon_passes fuel w : 20 <= fuel -> exists w', silicon_entry gen pexp ppow fuel w = (Ok 0%Z, w').
Proof.
  intros Hf. destruct (silicon_runs fuel w Hf) as (r0 & r1 & r2 & r3 & r4 & r5 & w6 & E & _ & R1 & R2 & R3 & _ & R5).
  apply silicon_facts in R1 as (_ & B1 & _), R2 as (A2 & _ & _), R3 as (_ & B3 & _), R5 as (_ & _ & C5).
  exists w6. unfold silicon_entry. rewrite (bind_eval _ _ _ _ _ E).
  destruct (summary_at _ _ 29 _ B3 eq_refl) as (q3 & N3 & _ & T3). destruct (summary_at _ _ 13 _ B1 eq_refl) as (q1 & N1 & T1 & _).
  unfold lift. f_equal. cbn [snd dgetE dget String.eqb Ascii.eqb Bool.eqb rbind].
  rewrite (rows_says r2 2625 A2), (count_says r5 _ _ C5), (at_says _ _ "vdd" _ _ N3 (T3 "vdd"%string _ eq_refl)).
  destruct T1 as (_ & _ & _ & _ & T1 & _). rewrite (at_says _ _ "start time" _ _ N1 T1).
  cbn [rbind is_num is_hours]. unfold lit. change (inject_Z (Z.of_nat 7)) with (7 # 1)%Q. rewrite (li_vdd Hli).
  assert (Hh := li_hours Hli 300 (or_intror (or_introl eq_refl))). change (stress_time (firstn 13 (long_steps 125 "HTOL Stress"))) with (300 * 3600 * 1000000)%Z.
  rewrite Hh. reflexivity.
Qed.
End L.
