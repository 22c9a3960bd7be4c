(** The current value of a degraded parameter (C71). *)
From Coq Require Import Lia.
From Verif Require Import M_Base M_Num M_Nd M_RandVar M_Latent M_Time M_TestSpec M_Device M_Report M_Env M_Sim
  S_TestSpec S_Device S_Sim S_Sum S_Shape S_Value L_Base L_Nd L_Latent L_Device L_Device3 L_Sim L_Sim2 L_Sim3 L_Sum L_Shape L_Shape2.
Open Scope nat_scope.

Section L.
Context {V : Type} `{NumOps V} `{Rng V} `{HashOrd}.

Lemma add_own_get names (ls : dict (pyval V)) x : forall acc, dget (add_own names ls acc) x =
  match dget acc x with Some v => Some v | None => if smem x names then dget ls x else None end.
Proof.
  induction names as [|y names IH]; intros acc; cbn [add_own].
  - unfold smem. cbn [existsb]. destruct (dget acc x); reflexivity.
  - rewrite IH. change (smem x (y :: names)) with (String.eqb x y || smem x names)%bool.
    destruct (dmem acc y) eqn:E.
    + destruct (dget acc x) eqn:Ex; auto. destruct (String.eqb_spec x y) as [->|Ny]; auto. unfold dmem in E. now rewrite Ex in E.
    + destruct (dget ls y) as [v|] eqn:Ey.
      * rewrite dget_dset. destruct (String.eqb_spec y x) as [->|Ny].
        -- unfold dmem in E. destruct (dget acc x); [discriminate|]. rewrite String.eqb_refl. cbn [orb]. now rewrite Ey.
        -- destruct (dget acc x); auto. destruct (String.eqb_spec x y); [congruence|reflexivity].
      * destruct (dget acc x); auto. destruct (String.eqb_spec x y) as [->|Ny]; auto. cbn [orb]. rewrite Ey. now destruct (smem y names).
Qed.

Lemma deg_fold times cs (ls : dict (pyval V)) mv L C n : forall (l : dict (mech V)) acc w a w',
  foldM (fun (acc : dict (pyval V) * dict (pyval V)) (nm : string * mech V) =>
           (t <- lift (dgetE times (fst nm)) ;;
            v <- lift (dgetE mv (fst nm)) ;;
            l <- lift (rbind (dgetE ls (fst nm)) as_dict) ;;
            x <- mech_deg_vals (snd nm) t v cs l L C n ;;
            ret (dset (fst acc) (fst nm) x, dset (snd acc) (fst nm) x))%m) l acc w = (Ok a, w') ->
  (dwf (fst acc) -> dwf (fst a)) /\
  (forall k, In k (map fst l) -> dmem (snd a) k = true /\ dget (fst a) k = dget (snd a) k) /\
  (forall k, ~ In k (map fst l) -> dget (fst a) k = dget (fst acc) k) /\
  (forall k, dmem (snd acc) k = true -> dget (fst acc) k = dget (snd acc) k -> dmem (snd a) k = true /\ dget (fst a) k = dget (snd a) k).
Proof.
  induction l as [|[k m] l IH]; intros acc w a w' E; cbn [foldM] in E.
  - apply ret_ok in E as [-> ->]. split; [auto|]. split; [intros k []|]. split; auto.
  - apply bind_ok in E as (acc1 & w1 & E0 & E). cbn [fst snd] in E0.
    apply bind_lift_ok in E0 as (t & _ & E0). apply bind_lift_ok in E0 as (v & _ & E0). apply bind_lift_ok in E0 as (l' & _ & E0).
    apply bind_ok in E0 as (x & w2 & _ & E0). apply ret_ok in E0 as [-> ->].
    apply IH in E as (A & B & D & F). cbn [fst snd] in *.
    assert (Kx : dmem (snd a) k = true /\ dget (fst a) k = dget (snd a) k).
    { apply F; [rewrite dmem_dset, String.eqb_refl; reflexivity|now rewrite !dget_dset_eq]. }
    split; [intros Wa; apply A; now apply dwf_dset|]. split.
    + intros k' [<-|Hk]; auto.
    + split.
      * intros k' Hk. rewrite D by (intros Q; apply Hk; now right). rewrite dget_dset. destruct (String.eqb_spec k k') as [->|]; auto. destruct Hk. now left.
      * intros k' K1 K2. apply F; [rewrite dmem_dset, K1; apply Bool.orb_true_r|]. rewrite !dget_dset. now destruct (String.eqb k k').
Qed.

Lemma prm_composed (p : degprm V) times cs init ls mv L C n w r w' :
  ~ In "init"%string (dkeys (dp_mechs p)) -> ~ In "cond"%string (dkeys (dp_mechs p)) ->
  prm_deg_vals p times cs init ls mv L C n w = (Ok r, w') ->
  exists args w1, current_args p init (snd r) ls args /\ call_or_loop (lm_eqn (dp_own p)) args L C n w1 = (Ok (fst r), w').
Proof.
  intros Ni Nc E. unfold prm_deg_vals in E. apply bind_ok in E as (a & w1 & E1 & E). apply bind_ok in E as (x & w2 & E2 & E).
  apply ret_ok in E as [-> ->]. cbn [fst snd]. apply deg_fold in E1 as (A & B & D & _). cbn [fst snd] in *.
  exists (add_own (compute_args (lm_eqn (dp_own p))) ls (fst a)), w1. split; [|exact E2]. constructor.
  - apply add_own_wf, A. repeat constructor; cbn; intuition discriminate.
  - rewrite add_own_get, D by exact Ni. reflexivity.
  - rewrite add_own_get, D by exact Nc. reflexivity.
  - intros nm Hn. destruct (B nm Hn) as [B1 B2]. split; auto. rewrite add_own_get, B2. unfold dmem in B1. destruct (dget (snd a) nm); [reflexivity|discriminate].
  - intros y Y1 Y2 Y3. rewrite add_own_get, D by exact Y3. cbn [dget].
    destruct (String.eqb_spec y "init"); [contradiction|]. destruct (String.eqb_spec y "cond"); [contradiction|]. reflexivity.
Qed.

(** ** One stress step *)
Lemma stress_step_composed e d i (s : strs_spec V) st rep w st' rep' w' name (p : degprm V) : device_wf d -> dget d name = Some (PDeg p) ->
  ~ In "init"%string (dkeys (dp_mechs p)) -> ~ In "cond"%string (dkeys (dp_mechs p)) ->
  stress_step e d i s st rep w = (Ok (st', rep'), w') ->
  exists n, dget (rp_counts rep) name = Some n /\ composed (rp_lots rep) (rp_chps rep) n p name st'.
Proof.
  intros W Hd Ni Nc E. apply stress_step_ok in E as (conds & st1 & w1 & x & _ & E & _ & -> & _).
  destruct (stress_fold_same _ _ _ _ _ _ _ _ E) as ((S1 & S2 & S3) & _).
  eapply stress_fold_get with (name := name) (p := p) in E as (s1 & w2 & s2 & w3 & (T1 & T2 & T3) & _ & _ & _ & E & G1 & G2);
    [|apply deg_prms_nodup; apply W|apply deg_prms_get; [apply W|exact Hd]].
  apply stress_prm_ok in E as (n & mv & cs & m0 & ls & eq & w4 & times & i0 & r & N1 & N2 & N3 & N4 & N5 & N6 & N7 & N8 & N9 & ->).
  cbn [st_mech st_prm] in G1, G2. rewrite dget_dset_eq in G1. rewrite dget_dset_eq in G2. symmetry in G1, G2.
  destruct (prm_composed _ _ _ _ _ _ _ _ _ _ _ _ Ni Nc N9) as (args & w5 & A1 & A2).
  exists n. split; auto. exists (fst r), i0, (snd r), ls, args, w5, w3.
  cbn [set_elapsed st_prm st_prm0 st_mech st_lat]. rewrite S1, S2, <- T1, <- T2. repeat (split; [assumption|]). assumption.
Qed.

Lemma stress_step_summed e d i (s : strs_spec V) st rep w st' rep' w' name (p : degprm V) : device_wf d -> regular d -> step_wf (SStrs s) ->
  dget d name = Some (PDeg p) -> lm_eqn (dp_own p) = eqn_basic_sum -> plain_names (dp_mechs p) -> lm_vars (dp_init p) <> [] ->
  (forall ls, dget (st_lat st) name = Some ls -> In "mechs"%string (dkeys (dp_mechs p)) \/ dget ls "mechs" = None) ->
  state_fits d (rp_lots rep) (rp_chps rep) (rp_counts rep) st ->
  stress_step e d i s st rep w = (Ok (st', rep'), w') ->
  exists n, dget (rp_counts rep) name = Some n /\ summed (rp_lots rep) (rp_chps rep) n p name st'.
Proof.
  intros W Rg Ws Hd Eo P Hi Hm F E.
  assert (F' : state_fits d (rp_lots rep) (rp_chps rep) (rp_counts rep) st') by (eapply stress_step_shape with (ns := any); unfold any; eauto using regular_all).
  apply stress_step_ok in E as (conds & st1 & w1 & x & _ & E & _ & -> & _).
  destruct (stress_fold_same _ _ _ _ _ _ _ _ E) as ((S1 & S2 & S3) & _).
  eapply stress_fold_get with (name := name) (p := p) in E as (s1 & w2 & s2 & w3 & (T1 & T2 & T3) & _ & _ & _ & E & G1 & G2);
    [|apply deg_prms_nodup; apply W|apply deg_prms_get; [apply W|exact Hd]].
  apply stress_prm_ok in E as (n & mv & cs & m0 & ls & eq & w4 & times & i0 & r & N1 & N2 & N3 & N4 & N5 & N6 & N7 & N8 & N9 & ->).
  cbn [st_mech st_prm] in G1, G2. rewrite dget_dset_eq in G1. rewrite dget_dset_eq in G2. symmetry in G1, G2.
  destruct (F' _ _ Hd) as (n' & mv' & v & v0 & ls' & Q1 & Q2 & Q3 & Q4 & (_ & Q5) & Q6 & (_ & Q7) & Q8 & _).
  cbn [set_elapsed st_prm st_prm0 st_mech st_lat] in *. rewrite S2, <- T2 in Q6. rewrite T1 in N5. specialize (Hm _ N5).
  assert (n' = n) by congruence. assert (mv' = snd r) by congruence. assert (v = fst r) by congruence. assert (v0 = i0) by congruence. subst n' mv' v v0.
  destruct (Q5 Hi) as (b & Eb & B1 & B2). destruct (Q7 Hi) as (a & Ea & A1 & A2). rewrite Ea in *. destruct r as [rv rm]. cbn [fst snd] in *. subst rv.
  destruct (deg_value_sum _ _ _ _ _ _ _ _ _ _ _ _ _ Eo P N9) as (K & wz & _ & G).
  assert (Ar : exists arrs, map snd rm = map PArr arrs /\ Forall (fun c => nshape c = [rp_lots rep; rp_chps rep; n]) arrs).
  { assert (Nd0 : NoDup (dkeys rm)) by (rewrite K; apply P).
    assert (Q : forall k z, In (k, z) rm -> shaped (rp_lots rep) (rp_chps rep) n z).
    { intros k z Hz. assert (In k (dkeys (dp_mechs p))) as Hk by (rewrite <- K; apply (in_map fst) in Hz; exact Hz).
      apply dmem_keys, dmem_Some in Hk as [m Hk]. destruct (Q3 _ _ Hk) as (z' & Z1 & Z2). apply dget_wf_In in Hz; [|exact Nd0]. congruence. }
    clear - Q. induction rm as [|[k z] rm IH]; [exists []; auto|]. destruct IH as (arrs & I1 & I2); [intros; eapply Q; right; eauto|].
    destruct (Q k z ltac:(now left)) as (c & -> & C1 & _). exists (c :: arrs). cbn [map snd]. rewrite I1. auto. }
  destruct Ar as (arrs & R1 & R2).
  destruct (G arrs) as (_ & b' & B3 & B4 & _ & B5); [| |rewrite A1; discriminate|unfold awf; rewrite A1, A2; cbn; lia|].
  { rewrite map_app, R1. unfold extra. destruct (smem "mechs" (dkeys (dp_mechs p))) eqn:Es; [now rewrite app_nil_r|].
    apply smem_false in Es. destruct Hm as [Hm| ->]; [contradiction|now rewrite app_nil_r]. }
  { rewrite A1. exact R2. }
  injection B3 as <-. exists n. split; [auto|]. exists b, a, rm, arrs.
  split; [exact G2|]. split; [cbn [set_elapsed st_prm0]; now rewrite S2, <- T2|]. split; [exact G1|].
  split; [rewrite <- K, <- R1; clear; induction rm as [|[k z] rm IH]; [reflexivity|cbn [dkeys map fst snd List.combine]; f_equal; exact IH]|].
  split; [rewrite <- (map_length PArr), <- R1, map_length; rewrite <- (map_length fst rm); fold (dkeys rm); rewrite K; apply map_length|].
  split; [auto|]. split; [auto|]. split; [auto|].
  intros i' j k Hi' Hj Hk. apply B5. rewrite A1. apply valid3. auto.
Qed.

(** ** Sequences of steps *)
Lemma run_establishes e d (I P : simstate V -> Prop) rep0 (ok : step V -> Prop) l :
  (forall i s st rep w st' rep' w', ok (SStrs s) -> same_info rep0 rep -> I st -> stress_step e d i s st rep w = (Ok (st', rep'), w') ->
     I st' /\ P st' /\ same_info rep0 rep') ->
  (forall s, In s l -> ok s) ->
  forall i st rep w st' rep' w', same_info rep0 rep -> I st -> run_steps e d i l st rep w = (Ok (st', rep'), w') ->
  I st' /\ same_info rep0 rep' /\ ((exists s, In (SStrs s) l) \/ P st -> P st').
Proof.
  intros Hs. induction l as [|x l IH]; intros Ho i st rep w st' rep' w' Si Hi E.
  - apply ret_ok in E as [E ->]. injection E as -> ->. split; auto. split; auto. intros [[s []]|Hp]; auto.
  - rewrite run_cons in E. apply bind_ok in E as ([st1 rep1] & w1 & E1 & E). cbn [fst snd] in E. unfold sim_step in E1. cbn [fst snd] in E1.
    assert (Ho' : forall s, In s l -> ok s) by (intros; apply Ho; now right).
    destruct x as [m|s|o].
    + destruct (meas_step_ok _ _ _ _ _ _ _ _ _ _ E1) as (conds & rows & w2 & _ & _ & -> & ->).
      apply IH in E as (I1 & S1 & P1); auto. split; auto. split; auto. intros [[s [Q|Hin]]|Hp]; [discriminate|apply P1; eauto|apply P1; auto].
    + destruct (Hs _ _ _ _ _ _ _ _ (Ho _ (or_introl eq_refl)) Si Hi E1) as (I1 & P1 & S1).
      apply IH in E as (I2 & S2 & P2); auto.
    + apply ret_ok in E1 as [E1 ->]. injection E1 as -> ->. apply IH in E as (I1 & S1 & P1); auto. split; auto. split; auto.
      intros [[s [Q|Hin]]|Hp]; [discriminate|apply P1; eauto|apply P1; auto].
Qed.

Lemma run_composed e d l name (p : degprm V) i st rep w st' rep' w' : device_wf d -> dget d name = Some (PDeg p) ->
  ~ In "init"%string (dkeys (dp_mechs p)) -> ~ In "cond"%string (dkeys (dp_mechs p)) ->
  run_steps e d i l st rep w = (Ok (st', rep'), w') -> (exists s, In (SStrs s) l) ->
  exists n, dget (rp_counts rep') name = Some n /\ composed (rp_lots rep') (rp_chps rep') n p name st'.
Proof.
  intros W Hd Ni Nc E Hs.
  eapply run_establishes with (I := fun _ => True) (rep0 := rep) (ok := fun _ => True)
    (P := fun st => exists n, dget (rp_counts rep) name = Some n /\ composed (rp_lots rep) (rp_chps rep) n p name st) in E; auto; [| |now repeat split].
  - destruct E as (_ & (S1 & S2 & S3) & E). rewrite S1, S2, S3. apply E. now left.
  - intros j s s1 r1 w1 s2 r2 w2 _ (S1 & S2 & S3) _ Es. split; auto.
    pose proof (stress_step_composed _ _ _ _ _ _ _ _ _ _ _ _ W Hd Ni Nc Es) as G. rewrite S1, S2, S3 in G. split; auto.
    apply stress_step_ok in Es as (? & ? & ? & ? & _ & _ & _ & _ & ->). repeat split; auto.
Qed.

Lemma run_summed e d l name (p : degprm V) i st rep w st' rep' w' : device_wf d -> regular d -> (forall s, In s l -> step_wf s) ->
  dget d name = Some (PDeg p) -> lm_eqn (dp_own p) = eqn_basic_sum -> plain_names (dp_mechs p) -> lm_vars (dp_init p) <> [] ->
  (forall ls, dget (st_lat st) name = Some ls -> In "mechs"%string (dkeys (dp_mechs p)) \/ dget ls "mechs" = None) ->
  state_fits d (rp_lots rep) (rp_chps rep) (rp_counts rep) st ->
  run_steps e d i l st rep w = (Ok (st', rep'), w') -> (exists s, In (SStrs s) l) ->
  exists n, dget (rp_counts rep') name = Some n /\ summed (rp_lots rep') (rp_chps rep') n p name st'.
Proof.
  intros W Rg Ws Hd Eo P Hi Hm F E Hs.
  eapply run_establishes with (I := fun s => state_fits d (rp_lots rep) (rp_chps rep) (rp_counts rep) s /\ st_lat s = st_lat st) (rep0 := rep) (ok := step_wf)
    (P := fun st => exists n, dget (rp_counts rep) name = Some n /\ summed (rp_lots rep) (rp_chps rep) n p name st) in E; auto; [| |now repeat split].
  - destruct E as (_ & (S1 & S2 & S3) & E). rewrite S1, S2, S3. apply E. now left.
  - intros j s s1 r1 w1 s2 r2 w2 Wf (S1 & S2 & S3) (Ff & El) Es.
    assert (G : exists n, dget (rp_counts r1) name = Some n /\ summed (rp_lots r1) (rp_chps r1) n p name s2).
    { eapply stress_step_summed with (s := s) (st := s1); eauto; [rewrite El; exact Hm|now rewrite S1, S2, S3]. }
    rewrite S1, S2, S3 in G.
    assert (F' : state_fits d (rp_lots r1) (rp_chps r1) (rp_counts r1) s2) by (eapply stress_step_shape with (ns := any); unfold any; eauto using regular_all; now rewrite S1, S2, S3).
    rewrite S1, S2, S3 in F'.
    apply stress_step_ok in Es as (? & ? & ? & ? & _ & Es & _ & -> & ->). apply stress_fold_same in Es as ((L1 & _) & _).
    split; [split; auto; cbn [set_elapsed st_lat]; now rewrite L1|]. split; auto. repeat split; auto.
Qed.

(** ** Simulations *)
Lemma In_dkeys_dset {A} (d : dict A) k a x : In x (dkeys (dset d k a)) -> x = k \/ In x (dkeys d).
Proof. rewrite dkeys_dset. destruct (dmem d k); auto. intros Q. apply in_app_or in Q as [Q|[<-|[]]]; auto. Qed.
Lemma gen_latents_keys (m : lmdl V) D C L w l w' : gen_latents m D C L w = (Ok l, w') -> forall x, In x (dkeys l) -> In x (dkeys (lm_vars m)).
Proof.
  unfold gen_latents. intros E. eapply foldM_inv with (P := fun acc : dict (pyval V) => forall x, In x (dkeys acc) -> In x (dkeys (lm_vars m))) in E;
  [exact E| |intros ? []].
  intros acc [k o] w1 acc' w2 Hin HI E1. apply bind_ok in E1 as (a & w3 & _ & E1). apply ret_ok in E1 as [-> ->]. cbn [fst].
  intros x Hx. apply In_dkeys_dset in Hx as [->|Hx]; auto. apply (in_map fst) in Hin. exact Hin.
Qed.

Lemma prm_latents_keys (p : degprm V) D C L w l w' : prm_latents p D C L w = (Ok l, w') ->
  forall x, In x (dkeys l) -> x = "cond"%string \/ In x (dkeys (dp_mechs p)) \/ In x (dkeys (lm_vars (dp_own p))).
Proof.
  unfold prm_latents. intros E x. apply bind_ok in E as (c & w1 & E1 & E). apply bind_ok in E as (ml & w2 & E2 & E).
  apply bind_ok in E as (own & w3 & E3 & E). apply ret_ok in E as [-> ->]. intros Hx.
  assert (K : In x (dkeys ml) \/ In x (dkeys own)).
  { clear - Hx. revert ml Hx. induction own as [|[k v] own IH]; intros ml Hx; [now left|]. cbn [dupdate fold_left fst snd] in Hx.
    apply IH in Hx as [Hx|Hx]; [apply In_dkeys_dset in Hx as [->|Hx]|]; cbn [dkeys map fst]; auto; right; [now left|now right]. }
  destruct K as [K|K]; [|right; right; eapply gen_latents_keys; eauto].
  eapply foldM_inv with (P := fun acc : dict (pyval V) => forall x, In x (dkeys acc) -> x = "cond"%string \/ In x (dkeys (dp_mechs p))) in E2;
    [apply E2 in K; tauto| |].
  - intros acc [nm m] w4 acc' w5 Hin HI E0. apply bind_ok in E0 as (y & w6 & _ & E0). apply ret_ok in E0 as [-> ->]. cbn [fst].
    intros z Hz. apply In_dkeys_dset in Hz as [->|Hz]; auto. right. apply (in_map fst) in Hin. exact Hin.
  - intros z [<-|[]]. now left.
Qed.

Lemma simulate_composed e d l C L init w name (p : degprm V) st' rep' w' : device_wf d -> dget d name = Some (PDeg p) ->
  ~ In "init"%string (dkeys (dp_mechs p)) -> ~ In "cond"%string (dkeys (dp_mechs p)) ->
  simulate e d l C L init w = (Ok (st', rep'), w') -> (exists s, In (SStrs s) l) ->
  exists n, dget (rp_counts rep') name = Some n /\ composed L C n p name st'.
Proof.
  intros W Hd Ni Nc E Hs. apply simulate_run in E as (st0 & rep0 & w0 & E & _ & _ & C0 & L0 & _); auto.
  pose proof (run_same _ _ _ _ _ _ _ _ _ _ E) as (_ & _ & _ & _ & S2 & S3).
  eapply run_composed in E; eauto. rewrite S2, S3, C0, L0 in E. exact E.
Qed.

Lemma simulate_summed e d l C L w name (p : degprm V) st' rep' w' : device_wf d -> regular d -> (forall s, In s l -> step_wf s) ->
  dget d name = Some (PDeg p) -> lm_eqn (dp_own p) = eqn_basic_sum -> plain_names (dp_mechs p) -> lm_vars (dp_init p) <> [] ->
  ~ In "mechs"%string (dkeys (lm_vars (dp_own p))) ->
  simulate e d l C L None w = (Ok (st', rep'), w') -> (exists s, In (SStrs s) l) ->
  exists n, dget (rp_counts rep') name = Some n /\ summed L C n p name st'.
Proof.
  intros W Rg Ws Hd Eo P Hi Hm E Hs. apply simulate_run in E as (st0 & rep0 & w0 & E & M0 & _ & C0 & L0 & T0 & _ & _ & _ & st1 & Ei & -> & Q); auto.
  pose proof (run_same _ _ _ _ _ _ _ _ _ _ E) as (_ & _ & _ & _ & S2 & S3).
  pose proof (dev_init_shape _ _ _ _ _ _ _ _ _ W (regular_all _ _ _ any Rg) (fun _ _ _ => I) Ei) as Fi.
  eapply run_summed in E; eauto.
  - rewrite S2, S3, C0, L0 in E. exact E.
  - cbn [set_elapsed st_lat]. intros ls El. apply dev_init_ok in Ei as (_ & _ & _ & _ & _ & G & _); [|apply W].
    destruct (G _ _ Hd) as (n & lats & v & wa & wb & wc & _ & G2 & G3 & _). assert (lats = ls) by congruence. subst lats.
    destruct (in_dec string_dec "mechs"%string (dkeys (dp_mechs p))) as [I|I]; [now left|right]. apply dget_None_keys. intros K.
    eapply prm_latents_keys in G3; eauto. destruct G3 as [G3|[G3|G3]]; [discriminate|contradiction|contradiction].
  - rewrite C0, L0. exact Fi.
Qed.

Lemma run_unstressed e d l : (forall s, ~ In (SStrs s) l) -> forall i (st : simstate V) rep w st' rep' w',
  run_steps e d i l st rep w = (Ok (st', rep'), w') -> st' = st.
Proof.
  induction l as [|x l IH]; intros Hl i st rep w st' rep' w' E.
  - apply ret_ok in E as [E ->]. now injection E as -> ->.
  - rewrite run_cons in E. apply bind_ok in E as ([st1 rep1] & w1 & E1 & E). cbn [fst snd] in E. unfold sim_step in E1. cbn [fst snd] in E1.
    apply IH in E; [|intros s Q; apply (Hl s); now right]. subst st1. destruct x as [m|s|o].
    + now destruct (meas_step_ok _ _ _ _ _ _ _ _ _ _ E1) as (conds & rows & w2 & _ & _ & -> & _).
    + destruct (Hl s). now left.
    + apply ret_ok in E1 as [E1 ->]. now injection E1 as -> ->.
Qed.
Lemma simulate_unstressed e d l C L w (st' : simstate V) rep' w' name : device_wf d -> (forall s, ~ In (SStrs s) l) ->
  simulate e d l C L None w = (Ok (st', rep'), w') -> dget (st_prm st') name = dget (st_prm0 st') name.
Proof.
  intros W Hl E. apply simulate_run in E as (st0 & rep0 & w0 & E & M0 & _ & C0 & L0 & T0 & _ & _ & _ & st1 & Ei & -> & Q); auto.
  apply run_unstressed in E; auto. subst st'. apply dev_init_ok in Ei as (_ & _ & G & _); [|apply W]. cbn [set_elapsed st_prm st_prm0]. now rewrite G.
Qed.
End L.
