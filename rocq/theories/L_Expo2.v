(** Readings of tests under changing conditions (C91). *)
From Coq Require Import Reals QArith Qreals Lra Lia.
From Verif Require Import M_Base M_Num M_NumR M_Nd M_RandVar M_Latent M_Time M_TestSpec M_Minimize M_Device M_Report M_Env M_Sim M_CookEnv M_CookMech
  S_Latent S_TestSpec S_Minimize S_Device S_DeviceR S_Env S_Sim S_Shape S_Sum S_Total S_Reading S_CookEnv S_CookMech S_History S_HistoryR S_Const S_Search S_Expo
  L_Base L_Nd L_Latent L_Device L_DeviceR L_Shape L_Total L_Reading L_History L_HistoryR L_Const L_CookMech L_Search L_Search2 L_Mixed L_Expo.
From Verif Require L_Sim L_Sim3.
Open Scope R_scope.

Section L.
Context `{Rng R} `{HashOrd}.

Lemma law_in_exact (s : scene R) f base cs dur v t x q : sc_env s = [] -> given_by (lm_eqn (mc_mdl (sc_mech s))) f -> dget base "time" = None -> dwf base ->
  dget (sc_counts s) (sc_name s) = Some (sc_num s) -> dget (sc_dev s) (sc_name s) = Some q -> produced s base cs -> advanced s cs dur v t x ->
  everywhere s (fun i => forall tau, law_in f s cs i tau = device_law f s base i tau).
Proof.
  intros Env F Nb W Hn Hq Pr (_ & _ & _ & _ & (u' & t' & args & y & w & w' & _ & _ & _ & (Wa & La) & Ey & Oa & _)) a b c Ha Hb Hc tau.
  pose proof (produced_exact s base Env W cs q Hn Hq Pr) as Ec. apply feval_ext. intros z Hz.
  assert (Rq : In z (e_req (lm_eqn (mc_mdl (sc_mech s))))) by now apply F.
  assert (Dm := called_with _ _ _ _ _ _ _ _ Ey z Rq). unfold dmem in Dm. rewrite La in Dm.
  assert (Sm : smem z (compute_args (lm_eqn (mc_mdl (sc_mech s)))) = true) by (apply smem_In, in_or_app; now left).
  rewrite Sm in Dm. cbn [first_of] in Dm. destruct (dget (sc_lats s) z) as [p|]; [reflexivity|]. destruct (dget cs z) as [p|] eqn:Ez.
  - destruct (Ec _ _ Ez) as (c0 & -> & E0). apply E0; auto.
  - destruct (String.eqb_spec z "time") as [->|Nz]; [rewrite Nb; reflexivity|].
    destruct (dget base z) as [c0|] eqn:Eb; [|reflexivity]. discriminate Dm.
Qed.

Lemma travelled_onto (s : scene R) f g (rate : dict R -> list nat -> R) q l v found x : sc_env s = [] -> given_by (lm_eqn (mc_mdl (sc_mech s))) f ->
  dget (sc_counts s) (sc_name s) = Some (sc_num s) -> dget (sc_dev s) (sc_name s) = Some q -> travelled s l v found x ->
  (forall k, In (SStrs k) l -> dget (ss_conds k) "time" = None /\ dwf (ss_conds k) /\ follows_curve_at f s g (rate (ss_conds k)) (ss_conds k)) ->
  Forall2 (fun rt (c : dict (pyval R) * (nd R * nd R)) => follows_curve f s g rt (fst c)) (map (fun k => rate (ss_conds k)) (stresses l)) found.
Proof.
  intros Env F Hn Hq Tr. induction Tr as [v Fv|m l v found x Tr IH|o l v found x Tr IH|k l v t v1 cs found x Pr Ad Tr IH]; intros Hk.
  - constructor.
  - apply IH. intros; apply Hk; now right.
  - apply IH. intros; apply Hk; now right.
  - change (stresses (SStrs k :: l)) with (k :: stresses l). cbn [map]. constructor; [|apply IH; intros; apply Hk; now right].
    destruct (Hk k (or_introl eq_refl)) as (Nb & W & Fc). cbn [fst]. intros a b c Ha Hb Hc. destruct (Fc a b c Ha Hb Hc) as [P Law]. split; [exact P|].
    intros tau Ht. rewrite (law_in_exact s f (ss_conds k) cs (ss_dur k) v t v1 q Env F Nb W Hn Hq Pr Ad a b c Ha Hb Hc). now apply Law.
Qed.

Notation plain_device d := (forall q p, dget d q = Some (PDeg p) -> ~ In "init"%string (dkeys (dp_mechs p)) /\ ~ In "cond"%string (dkeys (dp_mechs p))).

Lemma exposed_reading d l1 m l2 chps lots w st rep w' name p laws units st0 w0 n ls init k :
  device_wf d -> regular d -> (forall s, In s (l1 ++ SMeas m :: l2) -> step_wf s) -> plain_device d ->
  dget d name = Some (PDeg p) -> additive p laws units -> started d chps lots (rp_counts rep) w name p st0 w0 n ls init ->
  (forall y k j, requests (l1 ++ SMeas m :: l2) y k -> dget (rp_counts rep) y = Some j -> (k <= j)%nat) ->
  (forall k, In (SStrs k) (l1 ++ SMeas m :: l2) -> dget (ss_conds k) "time" = None /\ (0 <= ss_dur k)%Z) ->
  simulate [] d (l1 ++ SMeas m :: l2) chps lots None w = (Ok (st, rep), w') -> In (name, k) (ms_counts m) ->
  let sc := scene_of [] d lots chps (rp_counts rep) name n p ls in
  exists pre g post (found : string -> list (dict (pyval R) * (nd R * nd R))),
    rp_meas rep = pre ++ g ++ post /\ labelled lots chps k g /\ stamped (length l1) (TD (stress_time l1)) (name, k) g /\
    (forall nm, In nm (dkeys (dp_mechs p)) -> exists x, travelled (sc nm) l1 (nfull [lots; chps; n] 0) (found nm) x) /\
    forall (gs : string -> list nat -> R -> R) (rate : string -> dict R -> list nat -> R),
      (forall nm, In nm (dkeys (dp_mechs p)) ->
         curves (sc nm) (gs nm) /\ everywhere (sc nm) (fun i => gs nm i 0 = 0) /\
         (forall k0, In (SStrs k0) l1 -> follows_curve_at (laws nm) (sc nm) (gs nm) (rate nm (ss_conds k0)) (ss_conds k0)) /\
         (forall cs v t, In (cs, (v, t)) (found nm) -> settles_in (sc nm) cs v) /\
         everywhere (sc nm) (fun i => evaluated rel_error abs_error (rates_of (rate nm) l1 i) (exposure (rates_of (rate nm) l1 i) (stress_times (units nm) l1)))) ->
      forall a b c, (a < lots)%nat -> (b < chps)%nat -> (c < k)%nat -> exists r (X : string -> R),
        nth_error g ((a * chps + b) * k + c) = Some r /\ r_lot r = Some a /\ r_chp r = Some b /\ r_dev r = Some c /\
        r_val r = aget init [a; b; c]%nat + total (map (fun nm => gs nm [a; b; c]%nat (X nm)) (dkeys (dp_mechs p))) /\
        forall nm, In nm (dkeys (dp_mechs p)) -> 0 <= X nm /\
          exposed rel_error abs_error (rates_of (rate nm) l1 [a; b; c]%nat) (exposure (rates_of (rate nm) l1 [a; b; c]%nat) (stress_times (units nm) l1)) (X nm).
Proof.
  intros Wd Rg Ws Pn Hp Ad Sd Hkn Hk E Hin sc. pose proof errors_small as [Pe1 Pe2].
  pose proof Sd as (Ei & Fi & G1 & G2 & G5 & G6 & G4 & Lk & Si & Hl).
  assert (Hle : (k <= n)%nat) by (apply (Hkn name k n); auto; exists m; split; auto; apply in_or_app; right; now left).
  destruct (additive_reading [] _ _ _ _ _ _ _ _ _ _ _ _ _ _ _ _ _ _ _ _ eq_refl Wd Rg Ws Pn Hp Ad Sd Hkn E Hin)
    as (sa & ra & w1 & pre & g & post & found & x & B1 & _ & B2 & B3 & B4 & B5 & B6).
  destruct (choose_keys (fun nm fd => travelled (sc nm) l1 (nfull [lots; chps; n] 0) fd (x nm)) [] (dkeys (dp_mechs p))) as [fd Hfd].
  { intros nm Hnm. destruct (B5 nm Hnm) as [_ Hi]. destruct (history_travelled _ _ _ _ _ Hi) as (fd & T & _). eauto. }
  exists pre, g, post, fd. do 3 (split; [assumption|]). split. { intros nm Hnm. exists (x nm). now apply Hfd. }
  intros gs rate HX a b c Ha Hb Hc. destruct (B6 a b c Ha Hb Hc) as (r & R1 & R2 & R3 & R4 & R5).
  destruct (choose_keys (fun nm Y => aget (x nm) [a; b; c]%nat = gs nm [a; b; c]%nat Y /\ 0 <= Y /\
    exposed rel_error abs_error (rates_of (rate nm) l1 [a; b; c]%nat) (exposure (rates_of (rate nm) l1 [a; b; c]%nat) (stress_times (units nm) l1)) Y) 0 (dkeys (dp_mechs p))) as [X HY].
  { intros nm Hnm. destruct (HX nm Hnm) as (M1 & M2 & M3 & M4 & M5). pose proof (Hfd nm Hnm) as Tr.
    destruct (dget (dp_mechs p) nm) as [mm|] eqn:Hm; [|now apply dget_None_keys in Hm]. destruct (ad_mech _ _ _ Ad _ _ Hm) as (Kd & Um & Gb & Hu).
    assert (Es : sc_mech (sc nm) = mm) by (unfold sc, scene_of; cbn; now rewrite Hm).
    assert (Hk1 : forall k0, In (SStrs k0) l1 -> (0 <= ss_dur k0)%Z) by (intros k0 Q; apply (Hk k0); apply in_or_app; now left).
    assert (On : Forall2 (fun rt (c : dict (pyval R) * (nd R * nd R)) => follows_curve (laws nm) (sc nm) (gs nm) rt (fst c)) (map (fun k => rate nm (ss_conds k)) (stresses l1)) (fd nm)).
    { apply (travelled_onto (sc nm) (laws nm) (gs nm) (rate nm) (PDeg p) l1 (nfull [lots; chps; n] 0) (fd nm) (x nm)); auto; try (now rewrite Es).
      intros k0 Hk0. assert (Hi : In (SStrs k0) (l1 ++ SMeas m :: l2)) by (apply in_or_app; now left).
      split; [now apply Hk|]. split; [exact (Ws _ Hi)|now apply M3]. }
    assert (Rm : forall i, map (fun rt : list nat -> R => rt i) (map (fun k => rate nm (ss_conds k)) (stresses l1)) = rates_of (rate nm) l1 i)
      by (intros i; unfold rates_of; now rewrite map_map).
    assert (HX0 : everywhere (sc nm) (fun i => aget (nfull [lots; chps; n] 0) i = gs nm i ((fun _ => 0) i) /\ 0 <= (fun _ : list nat => 0) i /\
      evaluated rel_error abs_error (map (fun rt : list nat -> R => rt i) (map (fun k => rate nm (ss_conds k)) (stresses l1)))
        ((fun _ => 0) i + exposure (map (fun rt : list nat -> R => rt i) (map (fun k => rate nm (ss_conds k)) (stresses l1))) (stress_times (units nm) l1)))).
    { intros y1 y2 y3 Hy1 Hy2 Hy3. rewrite Rm, Rplus_0_l. split; [|split; [lra|now apply M5]]. rewrite M2 by auto. unfold nfull. now apply aget_build3. }
    pose proof (travelled_accurate (sc nm) (laws nm) (units nm) ltac:(now rewrite Es) ltac:(now rewrite Es) ltac:(now rewrite Es) (gs nm) _ l1 _ (fd nm) (x nm) Hk1 Tr On M1 M4 _ HX0) as Ac.
    destruct (travelled_exposed (sc nm) (laws nm) (units nm) ltac:(now rewrite Es) ltac:(now rewrite Es) ltac:(now rewrite Es) (gs nm) rel_error abs_error _ l1 _ (fd nm) (x nm)
      ltac:(lra) ltac:(lra) Hk1 Tr On Ac _ HX0 a b c) as (Y & Y1 & Y2 & Y3); cbn; auto; [lia|].
    exists Y. rewrite Rm, Rplus_0_l in Y3. auto. }
  exists r, X. do 4 (split; [assumption|]). split; [|intros nm Hnm; now apply HY].
  rewrite R5. f_equal. f_equal. apply map_ext_in. intros nm Hnm. now apply HY.
Qed.

Lemma readings_exposed e d l chps lots w st rep w' name p laws units :
  ideal_env = Ok e -> device_wf d -> regular d -> (forall s, In s l -> step_wf s) -> plain_device d ->
  dget d name = Some (PDeg p) -> additive p laws units ->
  (forall k, In (SStrs k) l -> dget (ss_conds k) "time" = None /\ (0 <= ss_dur k)%Z) ->
  simulate e d l chps lots None w = (Ok (st, rep), w') ->
  exists n ls (init : nd R) (sc : string -> scene R),
    dget (rp_counts rep) name = Some n /\ dget (st_lat st) name = Some ls /\ dget (st_prm0 st) name = Some (PArr init) /\
    nshape init = [lots; chps; n] /\
    (forall nm m, dget (dp_mechs p) nm = Some m -> exists lats, dget ls nm = Some (PDict lats) /\
       sc nm = Scene e d lots chps (rp_counts rep) name n m lats) /\
    forall l1 m l2 k, l = l1 ++ SMeas m :: l2 -> In (name, k) (ms_counts m) ->
    exists pre g post (found : string -> list (dict (pyval R) * (nd R * nd R))),
    rp_meas rep = pre ++ g ++ post /\ labelled lots chps k g /\ stamped (length l1) (TD (stress_time l1)) (name, k) g /\
    (forall nm, In nm (dkeys (dp_mechs p)) -> exists x, travelled (sc nm) l1 (nfull [lots; chps; n] 0) (found nm) x) /\
    forall (gs : string -> list nat -> R -> R) (rate : string -> dict R -> list nat -> R),
      (forall nm, In nm (dkeys (dp_mechs p)) ->
         curves (sc nm) (gs nm) /\ everywhere (sc nm) (fun i => gs nm i 0 = 0) /\
         (forall k0, In (SStrs k0) l1 -> follows_curve_at (laws nm) (sc nm) (gs nm) (rate nm (ss_conds k0)) (ss_conds k0)) /\
         (forall cs v t, In (cs, (v, t)) (found nm) -> settles_in (sc nm) cs v) /\
         everywhere (sc nm) (fun i => evaluated rel_error abs_error (rates_of (rate nm) l1 i) (exposure (rates_of (rate nm) l1 i) (stress_times (units nm) l1)))) ->
      forall a b c, (a < lots)%nat -> (b < chps)%nat -> (c < k)%nat -> exists r (X : string -> R),
        nth_error g ((a * chps + b) * k + c) = Some r /\ r_lot r = Some a /\ r_chp r = Some b /\ r_dev r = Some c /\
        r_val r = aget init [a; b; c]%nat + total (map (fun nm => gs nm [a; b; c]%nat (X nm)) (dkeys (dp_mechs p))) /\
        forall nm, In nm (dkeys (dp_mechs p)) -> 0 <= X nm /\
          exposed rel_error abs_error (rates_of (rate nm) l1 [a; b; c]%nat) (exposure (rates_of (rate nm) l1 [a; b; c]%nat) (stress_times (units nm) l1)) (X nm).
Proof.
  intros Ee Wd Rg Ws Pn Hp Ad Hk E. injection Ee as <-.
  destruct (simulate_started _ _ _ _ _ _ _ _ _ _ _ _ _ Wd Rg Hp Ad E) as (st0 & w0 & n & ls & init & Sd & Fl & F0 & Hkn).
  exists n, ls, init, (scene_of [] d lots chps (rp_counts rep) name n p ls). pose proof Sd as (Ei & Fi & G1 & G2 & G5 & G6 & G4 & Lk & Si & Hl).
  do 4 (split; [assumption|]). split. { intros nm m Hm. destruct (Hl _ _ Hm) as [lats El]. exists lats. split; auto. unfold scene_of. now rewrite Hm, El. }
  intros l1 m l2 k -> Hin. eapply exposed_reading; eauto.
Qed.

(** ** Two tests of the same devices *)
Lemma readings_agree e d l l' chps lots w st rep w1 st' rep' w2 name p laws units :
  ideal_env = Ok e -> device_wf d -> regular d -> (forall s, In s (l ++ l') -> step_wf s) -> plain_device d ->
  dget d name = Some (PDeg p) -> additive p laws units ->
  (forall k, In (SStrs k) (l ++ l') -> dget (ss_conds k) "time" = None /\ (0 <= ss_dur k)%Z) ->
  simulate e d l chps lots None w = (Ok (st, rep), w1) -> simulate e d l' chps lots None w = (Ok (st', rep'), w2) -> rp_counts rep' = rp_counts rep ->
  exists n ls (init : nd R) (sc : string -> scene R),
    dget (rp_counts rep) name = Some n /\ dget (st_lat st) name = Some ls /\ dget (st_lat st') name = Some ls /\
    dget (st_prm0 st) name = Some (PArr init) /\ dget (st_prm0 st') name = Some (PArr init) /\
    (forall nm m, dget (dp_mechs p) nm = Some m -> exists lats, dget ls nm = Some (PDict lats) /\
       sc nm = Scene e d lots chps (rp_counts rep) name n m lats) /\
    forall la m lb k la' m' lb' k', l = la ++ SMeas m :: lb -> l' = la' ++ SMeas m' :: lb' -> In (name, k) (ms_counts m) -> In (name, k') (ms_counts m') ->
    exists pre g post (found : string -> list (dict (pyval R) * (nd R * nd R))) pre' g' post' (found' : string -> list (dict (pyval R) * (nd R * nd R))),
    rp_meas rep = pre ++ g ++ post /\ labelled lots chps k g /\ stamped (length la) (TD (stress_time la)) (name, k) g /\
    rp_meas rep' = pre' ++ g' ++ post' /\ labelled lots chps k' g' /\ stamped (length la') (TD (stress_time la')) (name, k') g' /\
    (forall nm, In nm (dkeys (dp_mechs p)) -> exists x x', travelled (sc nm) la (nfull [lots; chps; n] 0) (found nm) x /\ travelled (sc nm) la' (nfull [lots; chps; n] 0) (found' nm) x') /\
    forall (gs : string -> list nat -> R -> R) (rate : string -> dict R -> list nat -> R),
      (forall nm, In nm (dkeys (dp_mechs p)) ->
         curves (sc nm) (gs nm) /\ everywhere (sc nm) (fun i => gs nm i 0 = 0) /\
         (forall k0, In (SStrs k0) (la ++ la') -> follows_curve_at (laws nm) (sc nm) (gs nm) (rate nm (ss_conds k0)) (ss_conds k0)) /\
         (forall cs v t, In (cs, (v, t)) (found nm ++ found' nm) -> settles_in (sc nm) cs v) /\
         everywhere (sc nm) (fun i => let x := exposure (rates_of (rate nm) la i) (stress_times (units nm) la) in
           exposure (rates_of (rate nm) la' i) (stress_times (units nm) la') = x /\
           evaluated rel_error abs_error (rates_of (rate nm) la i) x /\ evaluated rel_error abs_error (rates_of (rate nm) la' i) x)) ->
      forall a b c, (a < lots)%nat -> (b < chps)%nat -> (c < k)%nat -> (c < k')%nat -> exists r r' (X X' : string -> R),
        nth_error g ((a * chps + b) * k + c) = Some r /\ r_lot r = Some a /\ r_chp r = Some b /\ r_dev r = Some c /\
        nth_error g' ((a * chps + b) * k' + c) = Some r' /\ r_lot r' = Some a /\ r_chp r' = Some b /\ r_dev r' = Some c /\
        r_val r' - r_val r = total (map (fun nm => gs nm [a; b; c]%nat (X' nm) - gs nm [a; b; c]%nat (X nm)) (dkeys (dp_mechs p))) /\
        forall nm, In nm (dkeys (dp_mechs p)) -> 0 <= X nm /\ 0 <= X' nm /\
          let x := exposure (rates_of (rate nm) la [a; b; c]%nat) (stress_times (units nm) la) in
          exposed rel_error abs_error (rates_of (rate nm) la [a; b; c]%nat) x (X nm) /\ exposed rel_error abs_error (rates_of (rate nm) la' [a; b; c]%nat) x (X' nm).
Proof.
  intros Ee Wd Rg Ws Pn Hp Ad Hk E E' Ec. injection Ee as <-.
  destruct (simulate_started _ _ _ _ _ _ _ _ _ _ _ _ _ Wd Rg Hp Ad E) as (st0 & w0 & n & ls & init & Sd & Fl & F0 & Hkn).
  destruct (simulate_started _ _ _ _ _ _ _ _ _ _ _ _ _ Wd Rg Hp Ad E') as (st0' & w0' & n' & ls' & init' & Sd' & Fl' & F0' & Hkn').
  rewrite Ec in Sd'. pose proof Sd as (Ei & Fi & G1 & G2 & G5 & G6 & G4 & Lk & Si & Hl). pose proof Sd' as (Ei' & _ & G1' & G2' & G5' & _).
  assert (Q : st0 = st0') by congruence. subst st0'. assert (Q : n = n') by congruence. subst n'. assert (Q : ls = ls') by congruence. subst ls'. assert (Q : init = init') by congruence. subst init'.
  exists n, ls, init, (scene_of [] d lots chps (rp_counts rep) name n p ls).
  do 5 (split; [assumption|]). split. { intros nm m Hm. destruct (Hl _ _ Hm) as [lats El]. exists lats. split; auto. unfold scene_of. now rewrite Hm, El. }
  intros la m lb k la' m' lb' k' -> -> Hin Hin'.
  assert (Sd'' : started d chps lots (rp_counts rep') w name p st0 w0' n ls init) by (rewrite Ec; exact Sd').
  destruct (exposed_reading d la m lb chps lots w st rep w1 name p laws units st0 w0 n ls init k Wd Rg) as (pre & g & post & found & A1 & A2 & A3 & A4 & A5); auto.
  { intros s Hs. apply Ws, in_or_app. now left. } { intros s Hs. apply Hk, in_or_app. now left. }
  destruct (exposed_reading d la' m' lb' chps lots w st' rep' w2 name p laws units st0 w0' n ls init k' Wd Rg) as (pre' & g' & post' & found' & A1' & A2' & A3' & A4' & A5'); auto.
  { intros s Hs. apply Ws, in_or_app. now right. } { intros s Hs. apply Hk, in_or_app. now right. }
  rewrite Ec in A4', A5'. set (sc := scene_of [] d lots chps (rp_counts rep) name n p ls) in *.
  exists pre, g, post, found, pre', g', post', found'. do 6 (split; [assumption|]).
  split. { intros nm Hnm. destruct (A4 nm Hnm) as [x Hx]. destruct (A4' nm Hnm) as [x' Hx']. eauto. }
  intros gs rate HX a b c Ha Hb Hc Hc'.
  destruct (A5 gs rate) with (a := a) (b := b) (c := c) as (r & X & R1 & R2 & R3 & R4 & R5 & R6); auto.
  { intros nm Hnm. destruct (HX nm Hnm) as (M1 & M2 & M3 & M4 & M5). split; auto. split; auto. split; [intros; apply M3, in_or_app; now left|].
    split; [intros cs v t Q; eapply M4, in_or_app; left; exact Q|]. intros y1 y2 y3 Q1 Q2 Q3. now apply M5. }
  destruct (A5' gs rate) with (a := a) (b := b) (c := c) as (r' & X' & R1' & R2' & R3' & R4' & R5' & R6'); auto.
  { intros nm Hnm. destruct (HX nm Hnm) as (M1 & M2 & M3 & M4 & M5). split; auto. split; auto. split; [intros; apply M3, in_or_app; now right|].
    split; [intros cs v t Q; eapply M4, in_or_app; right; exact Q|]. intros y1 y2 y3 Q1 Q2 Q3. destruct (M5 y1 y2 y3 Q1 Q2 Q3) as (-> & _ & Q). exact Q. }
  exists r, r', X, X'. do 8 (split; [assumption|]). split.
  - rewrite R5, R5'. clear. induction (dkeys (dp_mechs p)) as [|nm keys IH]; cbn [map total fold_right] in *; [lra|].
    repeat match goal with |- context [fold_right Rplus 0 ?l] => fold (total l) end. unfold total in *. lra.
  - intros nm Hnm. destruct (R6 nm Hnm) as [P1 P2]. destruct (R6' nm Hnm) as [P1' P2']. do 2 (split; [assumption|]). cbv zeta. split; [exact P2|].
    destruct (HX nm Hnm) as (_ & _ & _ & _ & M5). destruct (M5 a b c) as (Q & _); auto.
    + change (c < n)%nat. assert (k <= n)%nat by (apply (Hkn name k n); auto; exists m; split; auto; apply in_or_app; right; now left). lia.
    + rewrite <- Q. exact P2'.
Qed.

(** Tests that ask for the same numbers of samples get them. *)
Lemma counts_agree {V} `{NumOps V} `{Rng V} e e' (d : device V) l l' chps lots w w0 st rep w1 st' rep' w2 : device_wf d -> calc_samples_needed l' = calc_samples_needed l ->
  simulate e d l chps lots None w = (Ok (st, rep), w1) -> simulate e' d l' chps lots None w0 = (Ok (st', rep'), w2) -> rp_counts rep = rp_counts rep'.
Proof.
  intros W Q E E'. apply L_Sim3.simulate_run in E as (s0 & r0 & x0 & R1 & _ & _ & _ & _ & _ & _ & _ & _ & s1 & _ & _ & Q1); auto.
  apply L_Sim3.simulate_run in E' as (s0' & r0' & x0' & R1' & _ & _ & _ & _ & _ & _ & _ & _ & s1' & _ & _ & Q1'); auto.
  apply L_Sim.run_same in R1 as (_ & _ & _ & -> & _). apply L_Sim.run_same in R1' as (_ & _ & _ & -> & _). now rewrite Q1, Q1', Q.
Qed.

(** ** NBTI *)
Lemma nbti_curve (s : scene R) base lats temp vdd : sc_lats s = nbti_dict lats -> dget base "temp" = Some temp -> dget base "vdd" = Some vdd -> dget base "time" = None ->
  0 < vdd -> everywhere s (fun i => 0 < aget (nl_a0 lats) i /\ 0 < aget (nl_n lats) i) ->
  follows_curve_at nbti_form s (fun i x => r_power x (aget (nl_n lats) i)) (nbti_rate lats temp vdd) base.
Proof.
  intros El Et Ev Nt Hv Ha a b c Hl Hc Hd. destruct (Ha a b c Hl Hc Hd) as [A1 A2]. set (i := [a; b; c]) in *.
  assert (P : 0 < nbti_rate lats temp vdd i) by apply exp_pos. split; [exact P|]. intros t Ht.
  rewrite (nbti_device_law s base lats temp vdd i t) by auto. unfold nbti_at. destruct (Req_dec t 0) as [->|N].
  - rewrite law_zero, Rmult_0_r, r_power_0; auto.
  - assert (0 < nbti_rate lats temp vdd i * t) by (apply Rmult_lt_0_compat; lra). rewrite r_power_pos by auto. rewrite law_pos by lra.
    rewrite <- Rpower_mult_distr by lra. f_equal. unfold nbti_rate. rewrite Rpower_mult, Rinv_l by lra. symmetry. apply Rpower_1.
    apply Rmult_lt_0_compat; [apply Rmult_lt_0_compat; [lra|apply exp_pos]|apply exp_pos].
Qed.
Lemma nbti_curves (s : scene R) lats : everywhere s (fun i => 0 < aget (nl_n lats) i) -> curves s (fun i x => r_power x (aget (nl_n lats) i)) /\
  everywhere s (fun i => r_power 0 (aget (nl_n lats) i) = 0).
Proof.
  intros Ha. split; intros a b c Hl Hc Hd; specialize (Ha a b c Hl Hc Hd); cbv beta in Ha; [|now apply r_power_0].
  left. intros x y Hx Hy L. rewrite (r_power_pos y) by lra. destruct (Req_dec x 0) as [->|N].
  - rewrite r_power_0 by auto. apply exp_pos.
  - rewrite r_power_pos by lra. apply Rlt_Rpower_l; lra.
Qed.
Lemma nbti_factor lats temp vdd temp' vdd' i : 0 < temp -> 0 < temp' -> 0 < vdd -> 0 < vdd' -> 0 < aget (nl_a0 lats) i -> 0 < aget (nl_n lats) i ->
  nbti_rate lats temp vdd i / nbti_rate lats temp' vdd' i =
  exp (aget (nl_e lats) i / (aget (nl_n lats) i * boltzmann_ev) * (/ temp - / temp')) * Rpower (vdd / vdd') (aget (nl_alpha lats) i / aget (nl_n lats) i).
Proof.
  intros Ht Ht' Hv Hv' Ha Hn. unfold nbti_rate. set (a0 := aget (nl_a0 lats) i) in *. set (n := aget (nl_n lats) i) in *. set (e := aget (nl_e lats) i). set (al := aget (nl_alpha lats) i).
  assert (Pk : 0 < boltzmann_ev) by (unfold boltzmann_ev; lra).
  assert (L : forall T V, 0 < V -> ln (a0 * exp (e / (boltzmann_ev * T)) * Rpower V al) = ln a0 + e / (boltzmann_ev * T) + al * ln V).
  { intros T V PV. rewrite !ln_mult, ln_exp; auto; try apply exp_pos; [|apply Rmult_lt_0_compat; [lra|apply exp_pos]]. unfold Rpower. now rewrite ln_exp. }
  unfold Rpower at 1 3 5. rewrite !L by auto. unfold Rdiv at 1. rewrite <- exp_Ropp, <- !exp_plus. f_equal.
  assert (Dv : ln (vdd / vdd') = ln vdd - ln vdd') by (unfold Rdiv; rewrite ln_mult, ln_Rinv; try lra; now apply Rinv_0_lt_compat).
  rewrite Dv. field. lra.
Qed.
End L.
