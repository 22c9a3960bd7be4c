(** Lemmas: readings of tests with constant stress. *)
From Coq Require Import Reals Lra Lia.
From Flocq Require Import Core.
From Verif Require Import M_Base M_Num M_NumR M_Nd M_RandVar M_Latent M_Time M_TestSpec M_Device M_Report M_Env M_Sim M_CookEnv
  S_TestSpec S_Device S_DeviceR S_Latent S_Env S_Sim S_Shape S_Sum S_Value S_Total S_Reading S_History S_HistoryR S_Const
  L_Base L_TestSpec L_Nd L_Latent L_Device L_Sim L_Sim2 L_Sim3 L_Shape L_Shape2 L_Value L_Reading L_History L_HistoryR.
Open Scope R_scope.

Lemma n0_R : n0 = 0 :> R.
Proof. unfold n0; cbn; unfold Q2R; cbn; lra. Qed.

Lemma fold_left_plus l : forall a, fold_left Rplus l a = a + total l.
Proof. induction l as [|x l IH]; intros a; cbn [fold_left total fold_right]; [lra|]. rewrite IH. unfold total. lra. Qed.

Lemma combine_get (keys : list string) (arrs : list (nd R)) : forall (F : string -> R) idx, NoDup keys -> length arrs = length keys ->
  (forall nm a, dget (List.combine keys (map PArr arrs)) nm = Some (PArr a) -> aget a idx = F nm) ->
  map (fun a => aget a idx) arrs = map F keys.
Proof.
  revert keys. induction arrs as [|a arrs IH]; intros [|k keys] F idx N L G; try discriminate; cbn [map]; auto.
  inversion N as [|? ? N1 N2]; subst. f_equal.
  - apply G. cbn [map List.combine dget]. now rewrite String.eqb_refl.
  - apply IH; auto. intros nm b E. apply G. cbn [map List.combine dget]. destruct (String.eqb_spec nm k) as [->|]; auto.
    exfalso. apply N1. apply dget_In in E. now apply in_combine_l in E.
Qed.

Lemma choose_keys {B} (P : string -> B -> Prop) (b0 : B) (keys : list string) :
  (forall nm, In nm keys -> exists y, P nm y) -> exists f, forall nm, In nm keys -> P nm (f nm).
Proof.
  induction keys as [|k keys IH]; intros Hk; [exists (fun _ => b0); intros nm []|].
  destruct IH as [f Hf]; [intros nm Hn; apply Hk; now right|]. destruct (Hk k (or_introl eq_refl)) as [y Hy].
  exists (fun nm => if String.eqb nm k then y else f nm). intros nm Hn. destruct (String.eqb_spec nm k) as [->|N]; auto.
  destruct Hn as [<-|Hn]; [now destruct N|auto].
Qed.

Lemma group_of {A B} (P : A -> B -> Prop) (Q : list A) : forall gs a, Forall2 P Q gs -> In a Q -> exists gs1 g gs2, gs = gs1 ++ g :: gs2 /\ P a g.
Proof.
  intros gs a Hf. induction Hf as [|x y Q gs Hxy Hf IH]; intros [].
  - subst x. exists [], y, gs. auto.
  - destruct IH as (g1 & g & g2 & -> & Hg); auto. exists (y :: g1), g, g2. auto.
Qed.

Lemma total_zero (F : string -> R) keys : (forall nm, In nm keys -> F nm = 0) -> total (map F keys) = 0.
Proof.
  induction keys as [|k keys IH]; intros Hz; cbn [map total fold_right]; auto. unfold total in IH. rewrite (Hz k), IH; [lra| |now left].
  intros; apply Hz; now right.
Qed.

Section L.
Context `{Rng R} `{HashOrd}.

Lemma prm_latents_at (p : degprm R) D C L w ls w' nm m : dwf (dp_mechs p) -> lm_vars (dp_own p) = [] ->
  prm_latents p D C L w = (Ok ls, w') -> dget (dp_mechs p) nm = Some m -> exists lats, dget ls nm = Some (PDict lats).
Proof.
  intros W Ho E Hm. unfold prm_latents in E. apply bind_ok in E as (c & w1 & E1 & E). apply bind_ok in E as (ml & w2 & E2 & E).
  apply bind_ok in E as (own & w3 & E3 & E). apply ret_ok in E as [-> ->].
  unfold gen_latents in E3. rewrite Ho in E3. cbn [foldM] in E3. apply ret_ok in E3 as [-> ->].
  apply dget_In in Hm. eapply mech_latents_get in E2 as (x & wa & wb & _ & E2); eauto.
Qed.

(** What holds of a parameter at the beginning of a simulation. *)
Definition started (d : device R) chps lots (counts : dict nat) (w : world) name (p : degprm R) st0 w0 n ls (init : nd R) : Prop :=
  dev_init_state d counts chps lots w = (Ok (st0, counts), w0) /\ state_fits d lots chps counts st0 /\
  dget counts name = Some n /\ dget (st_lat st0) name = Some ls /\ dget (st_prm0 st0) name = Some (PArr init) /\ dget (st_prm st0) name = Some (PArr init) /\
  dget (st_mech st0) name = Some (prm_init_mech p n chps lots) /\ dget ls "mechs" = None /\ nshape init = [lots; chps; n] /\
  (forall nm m, dget (dp_mechs p) nm = Some m -> exists lats, dget ls nm = Some (PDict lats)).

Definition scene_of (e : env R) (d : device R) lots chps counts name n (p : degprm R) (ls : dict (pyval R)) (nm : string) : scene R :=
  Scene e d lots chps counts name n
    (match dget (dp_mechs p) nm with Some m => m | None => Mech KDeg (LMdl (eqn_const 0) []) 0 None end)
    (match dget ls nm with Some (PDict lats) => lats | _ => [] end).

Notation plain_device d := (forall q p, dget d q = Some (PDeg p) -> ~ In "init"%string (dkeys (dp_mechs p)) /\ ~ In "cond"%string (dkeys (dp_mechs p))).

Lemma simulate_started e d l chps lots w st rep w' name p laws units : device_wf d -> regular d -> dget d name = Some (PDeg p) -> additive p laws units ->
  simulate e d l chps lots None w = (Ok (st, rep), w') ->
  exists st0 w0 n ls init, started d chps lots (rp_counts rep) w name p st0 w0 n ls init /\
    dget (st_lat st) name = Some ls /\ dget (st_prm0 st) name = Some (PArr init) /\
    forall y k j, requests l y k -> dget (rp_counts rep) y = Some j -> (k <= j)%nat.
Proof.
  intros Wd Rg Hp Ad E. destruct (ad_own _ _ _ Ad) as [Eo Vo]. destruct (ad_names _ _ _ Ad) as [Pl Nm].
  assert (Wm : dwf (dp_mechs p)) by (destruct Wd as [_ Wd]; eauto).
  apply simulate_run in E as (st0 & rep0 & w0 & Er & M0 & N0 & C0 & L0 & T0 & _ & _ & _ & st1 & Ei & -> & Q); auto.
  pose proof (run_same _ _ _ _ _ _ _ _ _ _ Er) as ((K1 & K2 & K3) & _ & _ & S1 & S2 & S3).
  pose proof (dev_init_shape _ _ _ _ _ _ _ _ _ Wd (regular_all _ _ _ any Rg) (fun _ _ _ => I) Ei) as Fi.
  pose proof Ei as Ei'. apply dev_init_ok in Ei' as (_ & _ & P0 & _ & _ & G & _); [|apply Wd].
  destruct (G _ _ Hp) as (n & ls & v & wa & wb & wc & G1 & G2 & G3 & G4 & G5 & G6).
  assert (Lk : dget ls "mechs" = None).
  { apply dget_None_keys. intros Hx. apply (prm_latents_keys _ _ _ _ _ _ _ G3) in Hx as [Hx|[Hx|Hx]]; [discriminate|auto|]. rewrite Vo in Hx. destruct Hx. }
  assert (exists init, v = PArr init /\ nshape init = [lots; chps; n]) as (init & -> & Si).
  { destruct (Fi _ _ Hp) as (n' & mv & v' & v0 & ls' & F1 & F2 & F3 & F4 & F5 & _). rewrite G1 in F1. injection F1 as <-. rewrite G6 in F4. injection F4 as <-.
    destruct F5 as [_ F5]. destruct (F5 (ad_init _ _ _ Ad)) as (a & -> & Sa & _). eauto. }
  exists st1, w0, n, ls, init. cbn [set_elapsed st_lat st_prm0] in K1, K2, K3. rewrite S1. split; [|split; [congruence|split; [congruence|]]].
  - unfold started. rewrite P0. repeat (split; [assumption|]). intros; eapply prm_latents_at; eauto.
  - intros q k j Hr Hj. destruct (calc_samples_bound l) as (_ & _ & Hub). destruct (Hub q k) as (y & Hy & Hle); [exact Hr|].
    destruct (augment_mono d (dkeys (calc_samples_needed l)) (calc_samples_needed l, None) q y Hy) as (z & Hz & Hle').
    rewrite Q, Hz in Hj. injection Hj as <-. lia.
Qed.

(** Every measurement of an additive parameter in the ideal environment shows the
    initial values plus the values that the mechanisms have then. *)
Lemma additive_reading e d l1 m l2 chps lots w st rep w' name p laws units st0 w0 n ls init k :
  dget e (name ++ "_instm")%string = None -> device_wf d -> regular d -> (forall s, In s (l1 ++ SMeas m :: l2) -> step_wf s) -> plain_device d ->
  dget d name = Some (PDeg p) -> additive p laws units -> started d chps lots (rp_counts rep) w name p st0 w0 n ls init ->
  (forall y k j, requests (l1 ++ SMeas m :: l2) y k -> dget (rp_counts rep) y = Some j -> (k <= j)%nat) ->
  simulate e d (l1 ++ SMeas m :: l2) chps lots None w = (Ok (st, rep), w') -> In (name, k) (ms_counts m) ->
  exists sa ra w1 pre g post (found : string -> list (nd R * nd R)) (x : string -> nd R),
    run_steps e d 0 l1 (set_elapsed st0 (TD 0)) (Report chps lots (rp_counts rep) [] []) w0 = (Ok (sa, ra), w1) /\
    state_fits d lots chps (rp_counts rep) sa /\
    rp_meas rep = pre ++ g ++ post /\ labelled lots chps k g /\ stamped (length l1) (TD (stress_time l1)) (name, k) g /\
    (forall nm, In nm (dkeys (dp_mechs p)) -> mech_val sa name nm (PArr (x nm)) /\
       history (scene_of e d lots chps (rp_counts rep) name n p ls nm) l1 (nfull [lots; chps; n] 0) (found nm) (x nm)) /\
    forall a b c, (a < lots)%nat -> (b < chps)%nat -> (c < k)%nat -> exists r,
      nth_error g ((a * chps + b) * k + c) = Some r /\ r_lot r = Some a /\ r_chp r = Some b /\ r_dev r = Some c /\
      r_val r = aget init [a; b; c]%nat + total (map (fun nm => aget (x nm) [a; b; c]%nat) (dkeys (dp_mechs p))).
Proof.
  intros Ni Wd Rg Ws Pn Hp Ad (Ei & Fi & G1 & G2 & G5 & G6 & G4 & Lk & Si & Hl) Hub E Hin. assert (Hkn : (k <= n)%nat).
  { apply (Hub name k n); auto. exists m. split; auto. apply in_or_app. right. now left. }
  destruct (ad_own _ _ _ Ad) as [Eo Vo]. destruct (ad_cond _ _ _ Ad) as [Ec Uc]. destruct (ad_names _ _ _ Ad) as [Pl Nm].
  assert (Wm : dwf (dp_mechs p)) by (destruct Wd as [_ Wd]; eauto).
  destruct (simulate_measured _ _ _ _ _ _ _ _ _ _ _ Wd Rg Ws Pn E)
    as (st0' & rep0 & w0' & sa & ra & w1 & conds & w2 & groups & rest & B1 & B2 & B3 & B4 & B5 & B6 & B7 & _ & B9 & B10).
  rewrite Ei in B1. injection B1 as <- <-.
  assert (rep0 = Report chps lots (rp_counts rep) [] []) as ->.
  { destruct rep0 as [c0 l0 k0 m0 s0]. cbn [rp_meas rp_sum rp_chps rp_lots rp_counts] in *. congruence. }
  destruct (group_of _ _ _ _ B10 Hin) as (gs1 & g & gs2 & -> & Mg & Sg).
  assert (Ws1 : forall s, In s l1 -> step_wf s) by (intros; apply Ws, in_or_app; now left).
  pose proof (run_same _ _ _ _ _ _ _ _ _ _ B7) as ((J1 & J2 & J3) & _). cbn [set_elapsed st_lat st_prm0] in J1, J2, J3.
  set (sc := scene_of e d lots chps (rp_counts rep) name n p ls) in *.
  assert (Hh : forall nm, In nm (dkeys (dp_mechs p)) -> exists fx : list (nd R * nd R) * nd R,
    mech_val sa name nm (PArr (snd fx)) /\ history (sc nm) l1 (nfull [lots; chps; n] 0) (fst fx) (snd fx)).
  { intros nm Hnm. destruct (dget (dp_mechs p) nm) as [mm|] eqn:Hm; [|now apply dget_None_keys in Hm].
    destruct (Hl _ _ Hm) as [lats El]. destruct (ad_mech _ _ _ Ad _ _ Hm) as (_ & Um & _).
    assert (Mv : mech_val (set_elapsed st0 (TD 0)) name nm (PArr (nfull [lots; chps; n] 0))).
    { exists (prm_init_mech p n chps lots). split; auto. rewrite (init_mech_get p n chps lots nm mm); auto. unfold mech_init_vals. now rewrite Um. }
    destruct (run_history e d l1 name nm mm any n ls lats Wd (ex_intro _ p (conj Hp Hm)) Ws1 _ _ _ _ _ _ _ _
      (regular_all _ _ _ any Rg) (fun _ _ _ => I) (Fi : state_fits d (rp_lots (Report chps lots (rp_counts rep) [] [])) (rp_chps (Report chps lots (rp_counts rep) [] [])) (rp_counts (Report chps lots (rp_counts rep) [] [])) (set_elapsed st0 (TD 0))) G1 G2 El Mv B7) as (found & x & X1 & X2).
    exists (found, x). cbn [fst snd]. split; auto. cbn [rp_lots rp_chps rp_counts] in X2. unfold sc, scene_of. now rewrite Hm, El. }
  apply (choose_keys _ ([], init)) in Hh as [fx Hfx].
  exists sa, ra, w1, (rp_meas ra ++ concat gs1), g, (concat gs2 ++ rest), (fun nm => fst (fx nm)), (fun nm => snd (fx nm)).
  split; [exact B7|]. split.
  { apply run_shapes in B7 as (_ & F & _); auto. intros y q j _ (m0 & I0 & R0) _. apply Hub. exists m0. split; auto. apply in_or_app. now left. }
  split. { rewrite B9, concat_app. cbn [concat]. now rewrite <- !app_assoc. }
  split. { destruct Mg as (cs & _ & Mg). cbn [fst snd] in Mg. rewrite Hp in Mg. now destruct Mg as (tr & _ & _ & Mg). }
  split; [exact Sg|]. split; [exact Hfx|].
  intros a b c Ha Hb Hc.
  assert (Uz : forall nm mm, In (nm, mm) (dp_mechs p) -> mc_unitary mm = n0).
  { intros nm mm Hm. rewrite n0_R. apply (ad_mech _ _ _ Ad nm mm). now apply dget_wf_In. }
  assert (Lz : forall ls', dget (st_lat sa) name = Some ls' -> dget ls' "mechs" = None).
  { intros ls' El'. rewrite J1, G2 in El'. injection El' as <-. exact Lk. }
  destruct (Pn _ _ Hp) as [Pn1 Pn2].
  assert (Z0 : nadd n0 n0 = n0 :> R) by (rewrite n0_R; cbn; lra).
  assert (Ec' : lm_eqn (dp_cond p) = eqn_const n0) by now rewrite n0_R.
  destruct (measured_exact e d lots chps sa conds name k g p Z0 Wd Hp Pn1 Pn2 Ni Eo Ec' Uz Lz Mg) as (cur & Cu & Rw).
  destruct (Rw a b c Ha Hb Hc) as (r & R1 & R2 & R3 & R4 & R5).
  exists r. do 4 (split; [assumption|]). rewrite R5 by (rewrite n0_R; cbn; lra).
  destruct (existsb (fun s : step R => match s with SStrs _ => true | _ => false end) l1) eqn:Ex.
  - apply existsb_exists in Ex as ([?|s|?] & Hs & Hs'); try discriminate.
    pose proof B7 as B7'. eapply run_summed with (name := name) (p := p) in B7 as (n' & N1 & (v & init' & mechs & arrs & V1 & V2 & V3 & V4 & V5 & V6 & V7 & V8 & V9)); eauto.
    + destruct (run_same _ _ _ _ _ _ _ _ _ _ B7') as (_ & _ & _ & U1 & U2 & U3). cbn [rp_counts rp_chps rp_lots] in U1, U2, U3.
      rewrite U1, G1 in N1. injection N1 as <-. rewrite U2, U3 in V9.
      rewrite Cu in V1. injection V1 as ->. rewrite J2, G5 in V2. injection V2 as <-. cbn [elem].
      rewrite V9 by lia. rewrite Uc. unfold sum_at. rewrite n0_R. cbn [nadd ROps]. rewrite fold_left_plus.
      rewrite (combine_get (dkeys (dp_mechs p)) arrs (fun nm => aget (snd (fx nm)) [a; b; c]%nat)); [lra|apply Wm|unfold dkeys; rewrite map_length; exact V5|].
      intros nm x Hx. assert (Hnm : In nm (dkeys (dp_mechs p))) by (apply dget_In in Hx; now apply in_combine_l in Hx).
      destruct (Hfx nm Hnm) as [(mv & X1 & X1') _]. rewrite V3 in X1. injection X1 as <-. rewrite V4, Hx in X1'. now injection X1' as ->.
    + apply (ad_init _ _ _ Ad).
    + intros ls' El'. right. cbn in El'. rewrite G2 in El'. injection El' as <-. exact Lk.
  - assert (sa = set_elapsed st0 (TD 0)) as ->.
    { eapply run_unstressed; eauto. intros s Hs. assert (existsb (fun s : step R => match s with SStrs _ => true | _ => false end) l1 = true) by (apply existsb_exists; eexists; split; eauto). congruence. }
    cbn [set_elapsed st_prm] in Cu. rewrite G6 in Cu. injection Cu as <-. cbn [elem]. rewrite total_zero; [lra|].
    intros nm Hnm. destruct (Hfx nm Hnm) as [(mv & X1 & X1') _]. cbn [set_elapsed st_mech] in X1. rewrite G4 in X1. injection X1 as <-.
    destruct (dget (dp_mechs p) nm) as [mm|] eqn:Hm; [|now apply dget_None_keys in Hm]. destruct (ad_mech _ _ _ Ad _ _ Hm) as (_ & Um & _).
    rewrite (init_mech_get p n chps lots nm mm) in X1'; auto. injection X1' as X1'. rewrite <- X1', Um. unfold nfull. apply aget_build3; auto; lia.
Qed.

(** ** Constant stress *)
Lemma constant_stress e d l chps lots w st rep w' name p laws units base :
  ideal_env = Ok e -> device_wf d -> regular d -> (forall s, In s l -> step_wf s) ->
  (forall q p, dget d q = Some (PDeg p) -> ~ In "init"%string (dkeys (dp_mechs p)) /\ ~ In "cond"%string (dkeys (dp_mechs p))) ->
  dget d name = Some (PDeg p) -> additive p laws units -> dwf base -> dget base "time" = None ->
  (forall k, In (SStrs k) l -> ss_conds k = base /\ (0 <= ss_dur k)%Z) ->
  simulate e d l chps lots None w = (Ok (st, rep), w') ->
  exists n ls (init : nd R) (sc : string -> scene R),
    dget (rp_counts rep) name = Some n /\ dget (st_lat st) name = Some ls /\ dget (st_prm0 st) name = Some (PArr init) /\
    nshape init = [lots; chps; n] /\
    (forall nm m, dget (dp_mechs p) nm = Some m -> exists lats, dget ls nm = Some (PDict lats) /\
       sc nm = Scene e d lots chps (rp_counts rep) name n m lats) /\
    forall l1 m l2 k, l = l1 ++ SMeas m :: l2 -> In (name, k) (ms_counts m) ->
    exists pre g post (found : string -> list (nd R * nd R)),
      rp_meas rep = pre ++ g ++ post /\ labelled lots chps k g /\ stamped (length l1) (TD (stress_time l1)) (name, k) g /\
      (forall nm, In nm (dkeys (dp_mechs p)) -> exists x, history (sc nm) l1 (nfull [lots; chps; n] 0) (found nm) x) /\
      forall eps del (T : string -> list nat -> R), 0 <= eps <= 1 -> 0 <= del ->
        (forall nm, In nm (dkeys (dp_mechs p)) ->
           accurate (laws nm) (sc nm) base eps del (found nm) /\
           everywhere (sc nm) (fun i => device_law (laws nm) (sc nm) base i (T nm i) = 0 /\ 0 <= T nm i /\
             (1 + eps) ^ length (found nm) * (T nm i + total (stress_times (units nm) l1) + INR (length (found nm)) * del) <= 9000000000)) ->
        forall a b c, (a < lots)%nat -> (b < chps)%nat -> (c < k)%nat -> exists r (tau : string -> R),
          nth_error g ((a * chps + b) * k + c) = Some r /\ r_lot r = Some a /\ r_chp r = Some b /\ r_dev r = Some c /\
          r_val r = aget init [a; b; c]%nat + total (map (fun nm => device_law (laws nm) (sc nm) base [a; b; c]%nat (tau nm)) (dkeys (dp_mechs p))) /\
          forall nm, In nm (dkeys (dp_mechs p)) ->
            within eps del (length (found nm)) (T nm [a; b; c]%nat + total (stress_times (units nm) l1)) (tau nm).
Proof.
  intros Ee Wd Rg Ws Pn Hp Ad Wb Nb Hk E. injection Ee as <-.
  destruct (simulate_started _ _ _ _ _ _ _ _ _ _ _ _ _ Wd Rg Hp Ad E) as (st0 & w0 & n & ls & init & Sd & Fl & F0 & Hkn).
  exists n, ls, init, (scene_of [] d lots chps (rp_counts rep) name n p ls). pose proof Sd as (Ei & Fi & G1 & G2 & G5 & G6 & G4 & Lk & Si & Hl).
  do 4 (split; [assumption|]). split. { intros nm m Hm. destruct (Hl _ _ Hm) as [lats El]. exists lats. split; auto. unfold scene_of. now rewrite Hm, El. }
  intros l1 m l2 k -> Hin. assert (Hle : (k <= n)%nat).
  { apply (Hkn name k n); auto. exists m. split; auto. apply in_or_app. right. now left. }
  destruct (additive_reading [] _ _ _ _ _ _ _ _ _ _ _ _ _ _ _ _ _ _ _ _ eq_refl Wd Rg Ws Pn Hp Ad Sd Hkn E Hin)
    as (sa & ra & w1 & pre & g & post & found & x & B1 & _ & B2 & B3 & B4 & B5 & B6).
  set (sc := scene_of [] d lots chps (rp_counts rep) name n p ls) in *.
  exists pre, g, post, found. do 3 (split; [assumption|]). split. { intros nm Hnm. exists (x nm). now apply B5. }
  intros eps del T He Hd HT a b c Ha Hb Hc. destruct (B6 a b c Ha Hb Hc) as (r & R1 & R2 & R3 & R4 & R5).
  assert (exists tau : string -> R, forall nm, In nm (dkeys (dp_mechs p)) ->
    aget (x nm) [a; b; c]%nat = device_law (laws nm) (sc nm) base [a; b; c]%nat (tau nm) /\
    within eps del (length (found nm)) (T nm [a; b; c]%nat + total (stress_times (units nm) l1)) (tau nm)) as [tau Ht].
  { apply (choose_keys (fun nm t => aget (x nm) [a; b; c]%nat = device_law (laws nm) (sc nm) base [a; b; c]%nat t /\
      within eps del (length (found nm)) (T nm [a; b; c]%nat + total (stress_times (units nm) l1)) t) 0).
    intros nm Hnm. destruct (HT nm Hnm) as [Ac Hev]. destruct (B5 nm Hnm) as [X1 X2].
    destruct (dget (dp_mechs p) nm) as [mm|] eqn:Hm; [|now apply dget_None_keys in Hm]. destruct (ad_mech _ _ _ Ad _ _ Hm) as (Kd & Um & Gb & Hu).
    assert (Es : sc_mech (sc nm) = mm) by (unfold sc, scene_of; cbn; now rewrite Hm).
    eapply (history_total (sc nm) base (laws nm) (units nm)) with (q := PDeg p) (T := T nm) (eps := eps) (del := del) in X2; auto; try (now rewrite Es).
    - apply (X2 a b c); cbn; auto; lia.
    - intros k0 Hk0. apply Hk. apply in_or_app. now left.
    - intros y1 y2 y3 Hx Hy Hz. destruct (Hev y1 y2 y3 Hx Hy Hz) as (V1 & V2 & V3). split; [|now split]. rewrite V1. unfold nfull. now apply aget_build3. }
  exists r, tau. do 4 (split; [assumption|]). split; [|intros nm Hnm; now apply Ht].
  rewrite R5. f_equal. f_equal. apply map_ext_in. intros nm Hnm. now apply Ht.
Qed.

(** ** One direction *)
Lemma total_ordered up (F G : string -> R) keys : (forall nm, In nm keys -> ordered up (F nm) (G nm)) -> ordered up (total (map F keys)) (total (map G keys)).
Proof.
  induction keys as [|k keys IH]; intros Hk; cbn [map total fold_right]; [unfold ordered; destruct up; lra|].
  pose proof (Hk k (or_introl eq_refl)) as A. assert (B := IH (fun nm Hn => Hk nm (or_intror Hn))). unfold total in *. unfold ordered in *. destruct up; lra.
Qed.

Lemma history_ordered up (s : scene R) f u q l v found x : sc_env s = [] -> mc_kind (sc_mech s) = KDeg -> unit_map (mc_unit (sc_mech s)) = Some u ->
  given_by (lm_eqn (mc_mdl (sc_mech s))) f -> dget (sc_counts s) (sc_name s) = Some (sc_num s) -> dget (sc_dev s) (sc_name s) = Some q ->
  (forall k, In (SStrs k) l -> dwf (ss_conds k) /\ dget (ss_conds k) "time" = None) ->
  history s l v found x -> Forall2 (goes_on up f u s) (stresses l) found ->
  everywhere s (fun i => ordered up (aget v i) (aget x i)).
Proof.
  intros Ee K U F Hn Hq Hk Hi. induction Hi as [v Fv|m l v found x Hi IH|o l v found x Hi IH|k l v t v1 cs found x Pr Ad Hi IH]; intros Fa.
  - intros a b c _ _ _. unfold ordered. destruct up; lra.
  - apply IH; auto. intros k Hin. apply Hk. now right.
  - apply IH; auto. intros k Hin. apply Hk. now right.
  - cbn [stresses flat_map app] in Fa. inversion Fa as [|? ? ? ? G Fb]; subst.
    destruct (Hk k (or_introl eq_refl)) as [Wk Nk].
    pose proof (advanced_law s (ss_conds k) f u Ee K U F Nk Wk _ _ _ _ _ _ Hn Hq Pr Ad) as Al.
    intros a b c Ha Hb Hc. assert (I2 := IH (fun k Hin => Hk k (or_intror Hin)) Fb a b c Ha Hb Hc). cbn beta in I2.
    destruct (Al a b c Ha Hb Hc) as (A1 & A2 & A3). destruct (G a b c Ha Hb Hc) as (Mo & tau & Ht & Ev). cbn [fst snd] in Ht, Ev.
    assert (ordered up (aget v [a; b; c]%nat) (aget v1 [a; b; c]%nat)).
    { destruct (Rle_or_lt (aget t [a; b; c]%nat + td_num u (ss_dur k)) 9000000000) as [Q|Q].
      - rewrite (A2 Q), Ev. apply Mo. exact Ht.
      - rewrite (A3 Q). unfold ordered. destruct up; lra. }
    unfold ordered in *. destruct up; lra.
Qed.


(** ** Any environment *)
Lemma history_travelled (s : scene R) l v found x : history s l v found x -> exists fd, travelled s l v fd x /\ found = map snd fd.
Proof.
  induction 1 as [v Fv|m l v found x Hi (fd & IH & ->)|o l v found x Hi (fd & IH & ->)|k l v t v1 cs found x Pr Ad Hi (fd & IH & ->)].
  - exists []. split; auto. now constructor.
  - exists fd. split; auto. now constructor.
  - exists fd. split; auto. now constructor.
  - exists ((cs, (v, t)) :: fd). split; auto. econstructor; eauto.
Qed.

Lemma law_value_in (s : scene R) f cs t args y w w' : given_by (lm_eqn (mc_mdl (sc_mech s))) f ->
  law_args s cs t args -> operands (sc_lots s) (sc_chps s) (sc_num s) args ->
  call_or_loop (lm_eqn (mc_mdl (sc_mech s))) args (sc_lots s) (sc_chps s) (sc_num s) w = (Ok y, w') ->
  everywhere s (fun i => elem y i = law_in f s cs i (aget t i)).
Proof.
  intros F (Wa & La) Oa Ey l c d Hl Hc Hd.
  pose proof (formula_elem _ _ _ _ _ _ _ _ _ l c d F Wa Oa Hl Hc Hd Ey) as Ef. rewrite Ef. unfold law_in. apply feval_ext.
  intros z Hz. unfold at_idx. assert (Rq : forall z, In z (fnames f) -> In z (e_req (lm_eqn (mc_mdl (sc_mech s))))) by (intros; now apply F).
  rewrite La. assert (Sm : smem z (compute_args (lm_eqn (mc_mdl (sc_mech s)))) = true) by (apply smem_In, in_or_app; left; now apply Rq).
  rewrite Sm. cbn [first_of]. destruct (dget (sc_lats s) z) as [p|]; [reflexivity|]. destruct (dget cs z) as [p|] eqn:Ez; [reflexivity|].
  now destruct (String.eqb z "time").
Qed.

Lemma advanced_law_in (s : scene R) f u cs dur v t x : mc_kind (sc_mech s) = KDeg -> unit_map (mc_unit (sc_mech s)) = Some u ->
  given_by (lm_eqn (mc_mdl (sc_mech s))) f -> advanced s cs dur v t x ->
  everywhere s (fun i => 0 < aget t i /\
    (aget t i + td_num u dur <= 9000000000 -> aget x i = law_in f s cs i (aget t i + td_num u dur)) /\
    (9000000000 < aget t i + td_num u dur -> aget x i = aget v i)).
Proof.
  intros K U F ((V1 & V2) & (T1 & T2) & (X1 & X2) & Ht & (u' & t' & args & y & w & w' & Eu & (T'1 & T'2) & Et' & (Wa & La) & Ey & Oa & Ex)) l c d Hl Hc Hd.
  rewrite K in Ht. destruct Ht as (w1 & w1' & Ht). rewrite U in Eu. injection Eu as <-. specialize (Et' l c d Hl Hc Hd). specialize (Ex l c d Hl Hc Hd).
  cbv zeta in Ex. rewrite K in Ex. cbv beta in Et'. cbn [nadd ROps] in Et'.
  split; [eapply equiv_positive; [exact K| |exact Ht|eapply In_aget; eauto]; rewrite V1; discriminate|].
  cbn [nltb nofQ nposinf ROps negb andb] in Ex. replace (Q2R 9000000000) with 9000000000 in Ex by (unfold Q2R; cbn; lra).
  rewrite Et' in Ex. cbn [negb] in Ex. rewrite Bool.andb_true_r in Ex. split; intros Lim.
  - rewrite Rlt_bool_false in Ex by lra. rewrite Ex.
    rewrite <- Et'. exact (law_value_in s f cs t' args y w w' F (conj Wa La) Oa Ey l c d Hl Hc Hd).
  - rewrite Rlt_bool_true in Ex by lra. exact Ex.
Qed.

Lemma travelled_ordered up (s : scene R) f u l v found x : mc_kind (sc_mech s) = KDeg -> unit_map (mc_unit (sc_mech s)) = Some u ->
  given_by (lm_eqn (mc_mdl (sc_mech s))) f ->
  travelled s l v found x -> Forall2 (goes_on_in up f u s) (stresses l) found ->
  everywhere s (fun i => ordered up (aget v i) (aget x i)).
Proof.
  intros K U F Hi. induction Hi as [v Fv|m l v found x Hi IH|o l v found x Hi IH|k l v t v1 cs found x Pr Ad Hi IH]; intros Fa.
  - intros a b c _ _ _. unfold ordered. destruct up; lra.
  - now apply IH.
  - now apply IH.
  - cbn [stresses flat_map app] in Fa. inversion Fa as [|? ? ? ? G Fb]; subst.
    pose proof (advanced_law_in s f u _ _ _ _ _ K U F Ad) as Al.
    intros a b c Ha Hb Hc. assert (I2 := IH Fb a b c Ha Hb Hc). cbn beta in I2.
    destruct (Al a b c Ha Hb Hc) as (A1 & A2 & A3). destruct (G a b c Ha Hb Hc) as (Mo & tau & Ht & Ev). cbn [fst snd] in Ht, Ev.
    assert (ordered up (aget v [a; b; c]%nat) (aget v1 [a; b; c]%nat)).
    { destruct (Rle_or_lt (aget t [a; b; c]%nat + td_num u (ss_dur k)) 9000000000) as [Q|Q].
      - rewrite (A2 Q), Ev. apply Mo. exact Ht.
      - rewrite (A3 Q). unfold ordered. destruct up; lra. }
    unfold ordered in *. destruct up; lra.
Qed.

Lemma readings_ordered e d l1 m1 l2 m2 l3 chps lots w st rep w' name p laws units k1 k2 :
  ideal_env = Ok e -> device_wf d -> regular d -> (forall s, In s (l1 ++ SMeas m1 :: l2 ++ SMeas m2 :: l3) -> step_wf s) -> plain_device d ->
  dget d name = Some (PDeg p) -> additive p laws units ->
  (forall k, In (SStrs k) l2 -> dget (ss_conds k) "time" = None) ->
  simulate e d (l1 ++ SMeas m1 :: l2 ++ SMeas m2 :: l3) chps lots None w = (Ok (st, rep), w') ->
  In (name, k1) (ms_counts m1) -> In (name, k2) (ms_counts m2) ->
  exists n ls (sc : string -> scene R) pre1 g1 post1 pre2 g2 post2 (before found : string -> list (nd R * nd R)) (x1 x2 : string -> nd R),
    dget (rp_counts rep) name = Some n /\ dget (st_lat st) name = Some ls /\
    (forall nm m, dget (dp_mechs p) nm = Some m -> exists lats, dget ls nm = Some (PDict lats) /\
       sc nm = Scene e d lots chps (rp_counts rep) name n m lats) /\
    rp_meas rep = pre1 ++ g1 ++ post1 /\ labelled lots chps k1 g1 /\ stamped (length l1) (TD (stress_time l1)) (name, k1) g1 /\
    rp_meas rep = pre2 ++ g2 ++ post2 /\ labelled lots chps k2 g2 /\
    stamped (length (l1 ++ SMeas m1 :: l2)) (TD (stress_time (l1 ++ SMeas m1 :: l2))) (name, k2) g2 /\
    (forall nm, In nm (dkeys (dp_mechs p)) -> history (sc nm) l1 (nfull [lots; chps; n] 0) (before nm) (x1 nm) /\ history (sc nm) l2 (x1 nm) (found nm) (x2 nm)) /\
    forall up, (forall nm, In nm (dkeys (dp_mechs p)) -> Forall2 (goes_on up (laws nm) (units nm) (sc nm)) (stresses l2) (found nm)) ->
    forall a b c, (a < lots)%nat -> (b < chps)%nat -> (c < k1)%nat -> (c < k2)%nat -> exists r1 r2,
      nth_error g1 ((a * chps + b) * k1 + c) = Some r1 /\ r_lot r1 = Some a /\ r_chp r1 = Some b /\ r_dev r1 = Some c /\
      nth_error g2 ((a * chps + b) * k2 + c) = Some r2 /\ r_lot r2 = Some a /\ r_chp r2 = Some b /\ r_dev r2 = Some c /\
      ordered up (r_val r1) (r_val r2).
Proof.
  intros Ee Wd Rg Ws Pn Hp Ad Nt E Hin1 Hin2. injection Ee as <-.
  assert (Wm : dwf (dp_mechs p)) by (destruct Wd as [_ Wd]; eauto).
  destruct (simulate_started _ _ _ _ _ _ _ _ _ _ _ _ _ Wd Rg Hp Ad E) as (st0 & w0 & n & ls & init & Sd & Fl & F0 & Hkn).
  pose proof Sd as (Ei & Fi & G1 & G2 & G5 & G6 & G4 & Lk & Si & Hl).
  destruct (additive_reading [] _ _ _ _ _ _ _ _ _ _ _ _ _ _ _ _ _ _ _ _ eq_refl Wd Rg Ws Pn Hp Ad Sd Hkn E Hin1)
    as (sa & ra & w1 & pre1 & g1 & post1 & before & x1 & B1 & Fa & B2 & B3 & B4 & B5 & B6).
  assert (El : l1 ++ SMeas m1 :: l2 ++ SMeas m2 :: l3 = (l1 ++ SMeas m1 :: l2) ++ SMeas m2 :: l3) by now rewrite <- app_assoc.
  rewrite El in E, Ws, Hkn.
  destruct (additive_reading [] _ _ _ _ _ _ _ _ _ _ _ _ _ _ _ _ _ _ _ _ eq_refl Wd Rg Ws Pn Hp Ad Sd Hkn E Hin2)
    as (sb & rb & w2 & pre2 & g2 & post2 & found2 & x2 & D1 & _ & D2 & D3 & D4 & D5 & D6).
  rewrite run_app, (bind_eval _ _ _ _ _ B1) in D1. cbn [fst snd] in D1. rewrite run_cons in D1.
  apply bind_ok in D1 as ([sc' rc'] & wc & Em & D1). cbn [fst snd] in D1. unfold sim_step in Em. cbn [fst snd] in Em.
  pose proof (run_same _ _ _ _ _ _ _ _ _ _ B1) as ((J1 & J2 & J3) & _ & _ & U1 & U2 & U3). cbn [set_elapsed st_lat st_prm0 rp_counts rp_chps rp_lots] in *.
  apply meas_step_ok in Em as (conds & rows & w4 & _ & _ & -> & ->).
  set (sc := scene_of [] d lots chps (rp_counts rep) name n p ls) in *.
  assert (Ws2 : forall s, In s l2 -> step_wf s) by (intros s Hs; apply Ws, in_or_app; left; apply in_or_app; right; now right).
  assert (Hh : forall nm, In nm (dkeys (dp_mechs p)) -> exists fd, history (sc nm) l2 (x1 nm) fd (x2 nm)).
  { intros nm Hnm. destruct (dget (dp_mechs p) nm) as [mm|] eqn:Hm; [|now apply dget_None_keys in Hm].
    destruct (Hl _ _ Hm) as [lats El']. destruct (B5 nm Hnm) as [Mv _]. destruct (D5 nm Hnm) as [Mv2 _].
    match type of D1 with run_steps _ _ ?i _ _ ?r ?w = _ =>
      assert (X := run_history [] d l2 name nm mm any n ls lats Wd (ex_intro _ p (conj Hp Hm)) Ws2 i sa r w sb rb w2 (x1 nm)
        (regular_all _ _ _ any Rg) (fun _ _ _ => I)) end.
    cbn [add_summary add_measurements rp_counts rp_lots rp_chps] in X. rewrite U1, U2, U3 in X.
    destruct X as (fd & x & X1 & X2); auto; [congruence|].
    exists fd. assert (x = x2 nm) as <-. { destruct X1 as (mv & Y1 & Y2), Mv2 as (mv' & Y3 & Y4). congruence. }
    unfold sc, scene_of. now rewrite Hm, El'. }
  apply (choose_keys _ []) in Hh as [found Hfd].
  exists n, ls, sc, pre1, g1, post1, pre2, g2, post2, before, found, x1, x2.
  do 2 (split; [assumption|]). split. { intros nm m Hm. destruct (Hl _ _ Hm) as [lats El']. exists lats. split; auto. unfold sc, scene_of. now rewrite Hm, El'. }
  do 6 (split; [assumption|]). split. { intros nm Hnm. split; [now apply B5|now apply Hfd]. }
  intros up Hup a b c Ha Hb Hc1 Hc2.
  destruct (B6 a b c Ha Hb Hc1) as (r1 & A1 & A2 & A3 & A4 & A5). destruct (D6 a b c Ha Hb Hc2) as (r2 & C1 & C2 & C3 & C4 & C5).
  exists r1, r2. do 8 (split; [assumption|]). rewrite A5, C5.
  assert (Hc : (c < n)%nat). { apply Nat.lt_le_trans with k1; auto. apply (Hkn name k1 n); auto. exists m1. split; auto. apply in_or_app. left. apply in_or_app. right. now left. }
  assert (T := total_ordered up (fun nm => aget (x1 nm) [a; b; c]%nat) (fun nm => aget (x2 nm) [a; b; c]%nat) (dkeys (dp_mechs p))).
  cbn beta in T. assert (T' : ordered up (total (map (fun nm => aget (x1 nm) [a; b; c]%nat) (dkeys (dp_mechs p)))) (total (map (fun nm => aget (x2 nm) [a; b; c]%nat) (dkeys (dp_mechs p))))).
  { apply T. intros nm Hnm. destruct (dget (dp_mechs p) nm) as [mm|] eqn:Hm; [|now apply dget_None_keys in Hm].
    destruct (ad_mech _ _ _ Ad _ _ Hm) as (Kd & Um & Gb & Hu). assert (Es : sc_mech (sc nm) = mm) by (unfold sc, scene_of; cbn; now rewrite Hm).
    eapply (history_ordered up (sc nm) (laws nm) (units nm) (PDeg p)) with (l := l2) (found := found nm) (v := x1 nm) (x := x2 nm); eauto; try (now rewrite Es).
    intros k Hk. split; [apply (Ws2 _ Hk)|now apply Nt]. }
  clear T. unfold ordered in *. destruct up; lra.
Qed.

Lemma readings_travelled e d l1 m1 l2 m2 l3 chps lots w st rep w' name p laws units k1 k2 :
  dget e (name ++ "_instm")%string = None -> device_wf d -> regular d -> (forall s, In s (l1 ++ SMeas m1 :: l2 ++ SMeas m2 :: l3) -> step_wf s) -> plain_device d ->
  dget d name = Some (PDeg p) -> additive p laws units ->
  simulate e d (l1 ++ SMeas m1 :: l2 ++ SMeas m2 :: l3) chps lots None w = (Ok (st, rep), w') ->
  In (name, k1) (ms_counts m1) -> In (name, k2) (ms_counts m2) ->
  exists n ls (sc : string -> scene R) pre1 g1 post1 pre2 g2 post2 (before found : string -> list (dict (pyval R) * (nd R * nd R))) (x1 x2 : string -> nd R),
    dget (rp_counts rep) name = Some n /\ dget (st_lat st) name = Some ls /\
    (forall nm m, dget (dp_mechs p) nm = Some m -> exists lats, dget ls nm = Some (PDict lats) /\
       sc nm = Scene e d lots chps (rp_counts rep) name n m lats) /\
    rp_meas rep = pre1 ++ g1 ++ post1 /\ labelled lots chps k1 g1 /\ stamped (length l1) (TD (stress_time l1)) (name, k1) g1 /\
    rp_meas rep = pre2 ++ g2 ++ post2 /\ labelled lots chps k2 g2 /\
    stamped (length (l1 ++ SMeas m1 :: l2)) (TD (stress_time (l1 ++ SMeas m1 :: l2))) (name, k2) g2 /\
    (forall nm, In nm (dkeys (dp_mechs p)) -> travelled (sc nm) l1 (nfull [lots; chps; n] 0) (before nm) (x1 nm) /\ travelled (sc nm) l2 (x1 nm) (found nm) (x2 nm)) /\
    forall up, (forall nm, In nm (dkeys (dp_mechs p)) -> Forall2 (goes_on_in up (laws nm) (units nm) (sc nm)) (stresses l2) (found nm)) ->
    forall a b c, (a < lots)%nat -> (b < chps)%nat -> (c < k1)%nat -> (c < k2)%nat -> exists r1 r2,
      nth_error g1 ((a * chps + b) * k1 + c) = Some r1 /\ r_lot r1 = Some a /\ r_chp r1 = Some b /\ r_dev r1 = Some c /\
      nth_error g2 ((a * chps + b) * k2 + c) = Some r2 /\ r_lot r2 = Some a /\ r_chp r2 = Some b /\ r_dev r2 = Some c /\
      ordered up (r_val r1) (r_val r2).
Proof.
  intros Ni Wd Rg Ws Pn Hp Ad E Hin1 Hin2.
  assert (Wm : dwf (dp_mechs p)) by (destruct Wd as [_ Wd]; eauto).
  destruct (simulate_started _ _ _ _ _ _ _ _ _ _ _ _ _ Wd Rg Hp Ad E) as (st0 & w0 & n & ls & init & Sd & Fl & F0 & Hkn).
  pose proof Sd as (Ei & Fi & G1 & G2 & G5 & G6 & G4 & Lk & Si & Hl).
  destruct (additive_reading _ _ _ _ _ _ _ _ _ _ _ _ _ _ _ _ _ _ _ _ _ Ni Wd Rg Ws Pn Hp Ad Sd Hkn E Hin1)
    as (sa & ra & w1 & pre1 & g1 & post1 & before & x1 & B1 & Fa & B2 & B3 & B4 & B5 & B6).
  assert (El : l1 ++ SMeas m1 :: l2 ++ SMeas m2 :: l3 = (l1 ++ SMeas m1 :: l2) ++ SMeas m2 :: l3) by now rewrite <- app_assoc.
  rewrite El in E, Ws, Hkn.
  destruct (additive_reading _ _ _ _ _ _ _ _ _ _ _ _ _ _ _ _ _ _ _ _ _ Ni Wd Rg Ws Pn Hp Ad Sd Hkn E Hin2)
    as (sb & rb & w2 & pre2 & g2 & post2 & found2 & x2 & D1 & _ & D2 & D3 & D4 & D5 & D6).
  rewrite run_app, (bind_eval _ _ _ _ _ B1) in D1. cbn [fst snd] in D1. rewrite run_cons in D1.
  apply bind_ok in D1 as ([sc' rc'] & wc & Em & D1). cbn [fst snd] in D1. unfold sim_step in Em. cbn [fst snd] in Em.
  pose proof (run_same _ _ _ _ _ _ _ _ _ _ B1) as ((J1 & J2 & J3) & _ & _ & U1 & U2 & U3). cbn [set_elapsed st_lat st_prm0 rp_counts rp_chps rp_lots] in *.
  apply meas_step_ok in Em as (conds & rows & w4 & _ & _ & -> & ->).
  set (sc := scene_of e d lots chps (rp_counts rep) name n p ls) in *.
  assert (Ws2 : forall s, In s l2 -> step_wf s) by (intros s Hs; apply Ws, in_or_app; left; apply in_or_app; right; now right).
  assert (Hh : forall nm, In nm (dkeys (dp_mechs p)) -> exists fd, travelled (sc nm) l2 (x1 nm) fd (x2 nm)).
  { intros nm Hnm. destruct (dget (dp_mechs p) nm) as [mm|] eqn:Hm; [|now apply dget_None_keys in Hm].
    destruct (Hl _ _ Hm) as [lats El']. destruct (B5 nm Hnm) as [Mv _]. destruct (D5 nm Hnm) as [Mv2 _].
    match type of D1 with run_steps _ _ ?i _ _ ?r ?w = _ =>
      assert (X := run_history e d l2 name nm mm any n ls lats Wd (ex_intro _ p (conj Hp Hm)) Ws2 i sa r w sb rb w2 (x1 nm)
        (regular_all _ _ _ any Rg) (fun _ _ _ => I)) end.
    cbn [add_summary add_measurements rp_counts rp_lots rp_chps] in X. rewrite U1, U2, U3 in X.
    destruct X as (fd & x & X1 & X2); auto; [congruence|].
    apply history_travelled in X2 as (fd' & X2 & _). exists fd'. assert (x = x2 nm) as <-. { destruct X1 as (mv & Y1 & Y2), Mv2 as (mv' & Y3 & Y4). congruence. }
    unfold sc, scene_of. now rewrite Hm, El'. }
  apply (choose_keys _ []) in Hh as [found Hfd].
  assert (Hb : forall nm, In nm (dkeys (dp_mechs p)) -> exists fd, travelled (sc nm) l1 (nfull [lots; chps; n] 0) fd (x1 nm)).
  { intros nm Hnm. destruct (B5 nm Hnm) as [_ X]. apply history_travelled in X as (fd & X & _). eauto. }
  apply (choose_keys _ []) in Hb as [before' Hbf].
  exists n, ls, sc, pre1, g1, post1, pre2, g2, post2, before', found, x1, x2.
  do 2 (split; [assumption|]). split. { intros nm m Hm. destruct (Hl _ _ Hm) as [lats El']. exists lats. split; auto. unfold sc, scene_of. now rewrite Hm, El'. }
  do 6 (split; [assumption|]). split. { intros nm Hnm. split; [now apply Hbf|now apply Hfd]. }
  intros up Hup a b c Ha Hb Hc1 Hc2.
  destruct (B6 a b c Ha Hb Hc1) as (r1 & A1 & A2 & A3 & A4 & A5). destruct (D6 a b c Ha Hb Hc2) as (r2 & C1 & C2 & C3 & C4 & C5).
  exists r1, r2. do 8 (split; [assumption|]). rewrite A5, C5.
  assert (Hc : (c < n)%nat). { apply Nat.lt_le_trans with k1; auto. apply (Hkn name k1 n); auto. exists m1. split; auto. apply in_or_app. left. apply in_or_app. right. now left. }
  assert (T := total_ordered up (fun nm => aget (x1 nm) [a; b; c]%nat) (fun nm => aget (x2 nm) [a; b; c]%nat) (dkeys (dp_mechs p))).
  cbn beta in T. assert (T' : ordered up (total (map (fun nm => aget (x1 nm) [a; b; c]%nat) (dkeys (dp_mechs p)))) (total (map (fun nm => aget (x2 nm) [a; b; c]%nat) (dkeys (dp_mechs p))))).
  { apply T. intros nm Hnm. destruct (dget (dp_mechs p) nm) as [mm|] eqn:Hm; [|now apply dget_None_keys in Hm].
    destruct (ad_mech _ _ _ Ad _ _ Hm) as (Kd & Um & Gb & Hu). assert (Es : sc_mech (sc nm) = mm) by (unfold sc, scene_of; cbn; now rewrite Hm).
    eapply (travelled_ordered up (sc nm) (laws nm) (units nm)) with (l := l2) (found := found nm) (v := x1 nm) (x := x2 nm); eauto; try (now rewrite Es).
    }
  clear T. unfold ordered in *. destruct up; lra.
Qed.
End L.
