(** C83: readings go in one direction only. *)
From Coq Require Import Reals QArith Qreals Lra.
From Verif Require Import M_Base M_Num M_NumR M_Nd M_RandVar M_Latent M_Time M_TestSpec M_Minimize M_Device M_Report M_Env M_Sim M_Demo M_CookEnv M_Toy
  S_Latent S_TestSpec S_Minimize S_Device S_DeviceR S_Env S_Sim S_Shape S_Sum S_Total S_Reading S_CookEnv S_History S_HistoryR S_Const
  L_Base L_Nd L_Latent L_Device L_DeviceR L_Env L_Env2 L_Shape L_Shape2 L_Total L_Reading L_History L_HistoryR L_Total2 L_Demo L_Demo2 S_Demo L_Const T_Sim T_Shape T_Reading T_Device T_History T_Const.
Open Scope nat_scope.

(** Two measurements of a parameter that is a sum of degradation laws, without process
    variation and measurement error of the environment, with any stresses before and
    between them. If the laws only grow with time (or only fall) under the conditions
    of each stress between the two and no search falls short of the true equivalent
    time by more than the duration of its stress, no device reads less (or more)
    later. *)
Theorem C83_readings_never_recover :
  forall (R0 : Rng R) (Ho : HashOrd) (e : env R) (d : device R) l1 m1 l2 m2 l3 chps lots w st rep w' name (p : degprm R) laws units k1 k2,
  ideal_env = Ok e -> device_wf d -> regular d -> (forall s, In s (l1 ++ SMeas m1 :: l2 ++ SMeas m2 :: l3) -> step_wf s) ->
  (forall q p, dget d q = Some (PDeg p) -> ~ In "init"%string (dkeys (dp_mechs p)) /\ ~ In "cond"%string (dkeys (dp_mechs p))) ->
  dget d name = Some (PDeg p) -> additive p laws units ->
  (forall k, In (SStrs k) l2 -> dget (ss_conds k) "time" = None) ->
  simulate e d (l1 ++ SMeas m1 :: l2 ++ SMeas m2 :: l3) chps lots None w = (Ok (st, rep), w') ->
  In (name, k1) (ms_counts m1) -> In (name, k2) (ms_counts m2) ->
  exists n ls (sc : string -> scene R) pre1 g1 post1 pre2 g2 post2 (before found : string -> list (nd R * nd R)) (x1 x2 : string -> nd R),
    dget (rp_counts rep) name = Some n /\ dget (st_lat st) name = Some ls /\
    (forall nm m, dget (dp_mechs p) nm = Some m -> exists lats, dget ls nm = Some (PDict lats) /\
       sc nm = Scene e d lots chps (rp_counts rep) name n m lats) /\
    rp_meas rep = pre1 ++ g1 ++ post1 /\ labelled lots chps k1 g1 /\ stamped (length l1) (TD (stress_time l1)) (name, k1) g1 /\
    rp_meas rep = pre2 ++ g2 ++ post2 /\ labelled lots chps k2 g2 /\
    stamped (length (l1 ++ SMeas m1 :: l2)) (TD (stress_time (l1 ++ SMeas m1 :: l2))) (name, k2) g2 /\
    (forall nm, In nm (dkeys (dp_mechs p)) ->
       history (sc nm) l1 (nfull [lots; chps; n] 0%R) (before nm) (x1 nm) /\ history (sc nm) l2 (x1 nm) (found nm) (x2 nm)) /\
    forall up, (forall nm, In nm (dkeys (dp_mechs p)) -> Forall2 (goes_on up (laws nm) (units nm) (sc nm)) (stresses l2) (found nm)) ->
    forall a b c, a < lots -> b < chps -> c < k1 -> c < k2 -> exists r1 r2,
      nth_error g1 ((a * chps + b) * k1 + c) = Some r1 /\ r_lot r1 = Some a /\ r_chp r1 = Some b /\ M_Report.r_dev r1 = Some c /\
      nth_error g2 ((a * chps + b) * k2 + c) = Some r2 /\ r_lot r2 = Some a /\ r_chp r2 = Some b /\ M_Report.r_dev r2 = Some c /\
      ordered up (r_val r1) (r_val r2).
Proof. intros R0 Ho e d l1 m1 l2 m2 l3 chps lots w st rep w' name p laws units k1 k2. apply readings_ordered. Qed.
Print Assumptions C83_readings_never_recover.

(** The same in every environment, with whatever process variation, as long as it has
    no instrument for this parameter: the laws then take the conditions that the
    environment drew for the device in this stress. *)
Theorem C83_in_any_environment :
  forall (R0 : Rng R) (Ho : HashOrd) (e : env R) (d : device R) l1 m1 l2 m2 l3 chps lots w st rep w' name (p : degprm R) laws units k1 k2,
  dget e (name ++ "_instm")%string = None -> device_wf d -> regular d -> (forall s, In s (l1 ++ SMeas m1 :: l2 ++ SMeas m2 :: l3) -> step_wf s) ->
  (forall q p, dget d q = Some (PDeg p) -> ~ In "init"%string (dkeys (dp_mechs p)) /\ ~ In "cond"%string (dkeys (dp_mechs p))) ->
  dget d name = Some (PDeg p) -> additive p laws units ->
  simulate e d (l1 ++ SMeas m1 :: l2 ++ SMeas m2 :: l3) chps lots None w = (Ok (st, rep), w') ->
  In (name, k1) (ms_counts m1) -> In (name, k2) (ms_counts m2) ->
  exists n ls (sc : string -> scene R) pre1 g1 post1 pre2 g2 post2 (before found : string -> list (dict (pyval R) * (nd R * nd R))) (x1 x2 : string -> nd R),
    dget (rp_counts rep) name = Some n /\ dget (st_lat st) name = Some ls /\
    (forall nm m, dget (dp_mechs p) nm = Some m -> exists lats, dget ls nm = Some (PDict lats) /\
       sc nm = Scene e d lots chps (rp_counts rep) name n m lats) /\
    rp_meas rep = pre1 ++ g1 ++ post1 /\ labelled lots chps k1 g1 /\ stamped (length l1) (TD (stress_time l1)) (name, k1) g1 /\
    rp_meas rep = pre2 ++ g2 ++ post2 /\ labelled lots chps k2 g2 /\
    stamped (length (l1 ++ SMeas m1 :: l2)) (TD (stress_time (l1 ++ SMeas m1 :: l2))) (name, k2) g2 /\
    (forall nm, In nm (dkeys (dp_mechs p)) ->
       travelled (sc nm) l1 (nfull [lots; chps; n] 0%R) (before nm) (x1 nm) /\ travelled (sc nm) l2 (x1 nm) (found nm) (x2 nm)) /\
    forall up, (forall nm, In nm (dkeys (dp_mechs p)) -> Forall2 (goes_on_in up (laws nm) (units nm) (sc nm)) (stresses l2) (found nm)) ->
    forall a b c, a < lots -> b < chps -> c < k1 -> c < k2 -> exists r1 r2,
      nth_error g1 ((a * chps + b) * k1 + c) = Some r1 /\ r_lot r1 = Some a /\ r_chp r1 = Some b /\ M_Report.r_dev r1 = Some c /\
      nth_error g2 ((a * chps + b) * k2 + c) = Some r2 /\ r_lot r2 = Some a /\ r_chp r2 = Some b /\ M_Report.r_dev r2 = Some c /\
      ordered up (r_val r1) (r_val r2).
Proof. intros R0 Ho e d l1 m1 l2 m2 l3 chps lots w st rep w' name p laws units k1 k2. apply readings_travelled. Qed.
Print Assumptions C83_in_any_environment.

(** The condition on the searches holds if their error is at most the duration of the
    stress ... *)
Theorem C83_small_errors_suffice :
  forall up f u (s : scene R) (k : strs_spec R) (v t : nd R) eps del (tau : list nat -> R),
  (forall i y z, 0 <= y <= z -> ordered up (device_law f s (ss_conds k) i y) (device_law f s (ss_conds k) i z))%R ->
  everywhere s (fun i => 0 <= tau i /\ aget v i = device_law f s (ss_conds k) i (tau i) /\ eps * tau i + del <= td_num u (ss_dur k))%R ->
  accurate f s (ss_conds k) eps del [(v, t)] -> goes_on up f u s k (v, t).
Proof.
  intros up f u s k v t eps del tau Mo Hv Ac a b c Ha Hb Hc. split; [apply Mo|]. destruct (Hv a b c Ha Hb Hc) as (T0 & T1 & T2).
  exists (tau [a; b; c]). split; [|exact T1]. destruct (Ac v t (or_introl eq_refl) a b c Ha Hb Hc (tau [a; b; c]) T0 T1) as [A1 _]. cbn [snd]. lra.
Qed.
Print Assumptions C83_small_errors_suffice.

(** ... and always for a device that has not degraded yet, whatever the search finds. *)
Theorem C83_first_stress_needs_no_accuracy :
  forall (R0 : Rng R) (Ho : HashOrd) up f u (s : scene R) (k : strs_spec R) (q : prm R) l v t found x,
  ideal_env = Ok (sc_env s) -> mc_kind (sc_mech s) = KDeg -> unit_map (mc_unit (sc_mech s)) = Some u -> given_by (lm_eqn (mc_mdl (sc_mech s))) f ->
  dget (sc_counts s) (sc_name s) = Some (sc_num s) -> dget (sc_dev s) (sc_name s) = Some q ->
  dwf (ss_conds k) -> dget (ss_conds k) "time" = None -> (0 <= ss_dur k)%Z ->
  history s (SStrs k :: l) v ((v, t) :: found) x ->
  (forall i y z, 0 <= y <= z -> ordered up (device_law f s (ss_conds k) i y) (device_law f s (ss_conds k) i z))%R ->
  everywhere s (fun i => aget v i = device_law f s (ss_conds k) i 0%R) ->
  goes_on up f u s k (v, t).
Proof.
  intros R0 Ho up f u s k q l v t found x Ee K U F Hn Hq Wk Nk Hd Hi Mo Hv. injection Ee as Ee.
  inversion Hi as [| | |? ? ? ? v1 cs ? ? Pr Ad]; subst.
  pose proof (advanced_law s (ss_conds k) f u (eq_sym Ee) K U F Nk Wk _ _ _ _ _ _ Hn Hq Pr Ad) as Al.
  intros a b c Ha Hb Hc. split; [apply Mo|]. exists 0%R. destruct (Al a b c Ha Hb Hc) as (A1 & _). split; [|now apply Hv]. cbn [snd].
  pose proof (td_num_nn s u U (ss_dur k) Hd). lra.
Qed.
Print Assumptions C83_first_stress_needs_no_accuracy.

(** ** Examples *)
#[local] Existing Instance hord_id.
(** A measurement before and one after a stress of five hours at a law that grows in
    proportion to time and temperature. *)
Example C83_example : forall (R0 : Rng R) w, exists i st rep w' pre1 g1 post1 pre2 g2 post2 r1 r2,
  simulate [] (r_dev i) r_steps2 1 1 None w = (Ok (st, rep), w') /\
  rp_meas rep = pre1 ++ g1 ++ post1 /\ nth_error g1 0 = Some r1 /\ r_step r1 = 0 /\
  rp_meas rep = pre2 ++ g2 ++ post2 /\ nth_error g2 0 = Some r2 /\ r_step r2 = 2 /\ (r_val r1 <= r_val r2)%R.
Proof.
  intros R0 w. destruct (deter_total (V := R) 7%Q) as (i & _ & Oi). destruct (r_runs2 R0 i w Oi) as (st & rep & w' & E & K).
  assert (Hn : forall q p, dget (r_dev i) q = Some (PDeg p) -> ~ In "init"%string (dkeys (dp_mechs p)) /\ ~ In "cond"%string (dkeys (dp_mechs p))).
  { intros q p Hp. apply dget_In in Hp. destruct Hp as [Q|[]]. injection Q as <- <-. split; intros [Q|[]]; discriminate. }
  destruct (C83_readings_never_recover R0 _ [] (r_dev i) [] r_meas [SStrs r_strs] r_meas [] 1 1 w st rep w' "p"%string (r_prm i) (fun _ => r_form) (fun _ => UHours) 1 1)
    as (n & ls & sc & pre1 & g1 & post1 & pre2 & g2 & post2 & before & found & x1 & x2 & A1 & A2 & A3 & A4 & A5 & A6 & A7 & A8 & A9 & A10 & A11); auto.
  { apply r_wf. } { apply r_regular. } { exact r_steps2_wf. } { apply r_additive. } { intros k [Q|[]]. now injection Q as <-. } { now left. } { now left. }
  rewrite K in A1. injection A1 as <-. destruct (A3 "age"%string r_mech eq_refl) as (lats & L1 & L2).
  assert (lats = []) as ->.
  { assert (Hm : has_mech (r_dev i) "p" "age" r_mech) by (exists (r_prm i); split; reflexivity).
    destruct (C78_history _ _ _ _ _ _ _ _ _ _ _ _ _ _ _ _ (r_wf i) (r_regular i) r_steps2_wf Hm (ex_intro _ r_strs (or_intror (or_introl eq_refl))) E)
      as (n' & ls' & lats' & fd & x' & _ & D2 & D3 & D4 & _).
    rewrite A2 in D2. injection D2 as <-. rewrite L1 in D3. injection D3 as <-. destruct lats as [|[z q] l]; auto. destruct (D4 z (or_introl eq_refl)). }
  destruct (A10 "age"%string (or_introl eq_refl)) as [H1 H2]. assert (Q : x1 "age"%string = nfull [1; 1; 1] 0%R) by now inversion H1. rewrite L2, Q in H2.
  destruct (r_search _ _ _ _ _ K (hi_meas _ r_meas _ _ _ _ H2)) as [Fd _].
  pose proof first_guess_small as Fg.
  destruct (A11 true) with (a := 0) (b := 0) (c := 0) as (r1 & r2 & R1 & _ & _ & _ & R2 & _ & _ & _ & R3); auto.
  - intros nm [<-|[]]. change (fst ("age"%string, r_mech)) with "age"%string. rewrite Fd, L2. constructor; [|constructor].
    intros a b c Ha Hb Hc. cbn [sc_lots sc_chps sc_num] in Ha, Hb, Hc. assert (a = 0 /\ b = 0 /\ c = 0) as (-> & -> & ->) by lia.
    cbn [ordered fst snd ss_conds r_strs]. split; [intros y z Hy; rewrite !r_law; lra|].
    exists first_guess. rewrite r_law, r_hours. change (aget (Nd [1; 1; 1] [0%R]) [0; 0; 0]) with 0%R. change (aget (Nd [1; 1; 1] [first_guess]) [0; 0; 0]) with first_guess. lra.
  - exists i, st, rep, w', pre1, g1, post1, pre2, g2, post2, r1, r2. split; [exact E|]. split; [exact A4|]. split; [exact R1|].
    split; [apply nth_error_In in R1; apply (A6 _ R1)|]. split; [exact A7|]. split; [exact R2|]. split; [apply nth_error_In in R2; apply (A9 _ R2)|]. exact R3.
Qed.

(** An equivalent time that is too low by a quarter of an hour does no harm if the
    stress takes five hours. *)
Example C83_small_errors_example : forall i counts, let s := Scene [] (r_dev i) 1 1 counts "p"%string 1 r_mech [] in
  goes_on true r_form UHours s r_strs (Nd [1; 1; 1] [(3 * 2)%R], Nd [1; 1; 1] [(first_guess + 2 - / 4)%R]).
Proof.
  intros i counts s. pose proof first_guess_small as Fg.
  assert (L : forall j y, device_law r_form s (ss_conds r_strs) j y = ((y - first_guess) * 3)%R) by reflexivity.
  apply C83_small_errors_suffice with (eps := 0%R) (del := (/ 4)%R) (tau := fun _ => (first_guess + 2)%R).
  - intros j y z Hy. rewrite !L. cbn [ordered]. lra.
  - intros a b c Ha Hb Hc. cbn [s sc_lots sc_chps sc_num] in Ha, Hb, Hc. assert (a = 0 /\ b = 0 /\ c = 0) as (-> & -> & ->) by lia.
    rewrite L, r_hours. change (aget (Nd [1; 1; 1] [(3 * 2)%R]) [0; 0; 0]) with (3 * 2)%R. lra.
  - intros v t [Q|[]] a b c Ha Hb Hc tau T0 T1. cbn [s sc_lots sc_chps sc_num] in Ha, Hb, Hc. assert (a = 0 /\ b = 0 /\ c = 0) as (-> & -> & ->) by lia.
    rewrite L in T1. injection Q as <- <-. change (aget (Nd [1; 1; 1] [(3 * 2)%R]) [0; 0; 0]) with (3 * 2)%R in T1.
    change (aget (Nd [1; 1; 1] [(first_guess + 2 - / 4)%R]) [0; 0; 0]) with (first_guess + 2 - / 4)%R. lra.
Qed.

(** A law that starts at 0: the first stress of a device. *)
Definition z_form : formula R := FMap2 Rmult (FArg "time") (FArg "temp").
Definition z_eqn : eqn R := Eqn ["time"; "temp"]%string [] None (fun args => lift (fvalue z_form args)).
Definition z_mech : mech R := Mech KDeg (LMdl z_eqn []) 0%R (Some "h"%string).
Definition z_prm (i : lvar R) : degprm R := DegPrm (init_of i) no_cond n0 [("age"%string, z_mech)] (LMdl eqn_basic_sum []).
Definition z_dev (i : lvar R) : device R := [("p"%string, PDeg (z_prm i))].
Lemma z_given : given_by z_eqn z_form.
Proof. repeat split; auto; intros x; cbn; intuition. Qed.
Lemma z_regular i : regular (z_dev i).
Proof.
  intros name p Hp. apply dget_In in Hp. destruct Hp as [Q|[]]. injection Q as <- <-. cbn [z_prm dp_init dp_cond dp_own dp_mechs lm_eqn].
  split; [apply basic_respects|]. split; [apply respects_numeric, const_respects|]. split; [apply respects_follows, basic_sum_respects|].
  intros nm m Hm. apply dget_In in Hm. destruct Hm as [Q|[]]. injection Q as <- <-. exact (formula_numeric _ _ z_given).
Qed.
Lemma z_wf i : device_wf (z_dev i).
Proof.
  split; [repeat constructor; intros []|]. intros name p Hp. apply dget_In in Hp. destruct Hp as [Q|[]]. injection Q as <- <-. repeat constructor; intros [].
Qed.
Lemma z_runs (R0 : Rng R) i w : latent_ok i -> exists st rep w', simulate [] (z_dev i) r_steps 1 1 None w = (Ok (st, rep), w') /\ dget (rp_counts rep) "p" = Some 1.
Proof.
  intros Oi. destruct (one_experiment [] "p"%string (z_prm i) r_steps r_meas 1 1 1 w) as (st & rep & w' & E & _ & _ & K); eauto.
  - split; [now left|]. intros m' [Q|[Q|[]]]; now inversion Q.
  - discriminate.
  - apply basic_empty.
  - apply (prm_of_deg [("age"%string, z_mech)] i (LMdl eqn_basic_sum []) None None); auto.
    + intros x o [].
    + intros x [<-|[]]. split; discriminate.
    + intros x [<-|[<-|[]]]; auto.
    + discriminate.
    + apply computes_now, basic_sum_computes.
    + intros nm m [Q|[]]. injection Q as <- <-. split; [intros x o []|]. split; [left; now left|].
      split; [exact (formula_somehow _ _ z_given)|]. split; [discriminate|].
      intros x [<-|[<-|[]]]; [now left|]. right; right. intros s [Q|[Q|[]]]; try discriminate Q. injection Q as <-. now left.
  - destruct (z_regular i "p"%string (z_prm i) eq_refl) as (A & B & D & G). split; [apply A|]. split; [apply B|]. split; [apply D|]. intros nm m Hm. exact (G nm m Hm 1 1 1).
  - repeat constructor; intros [].
  - intros s [<-|[<-|[]]]; (split; [repeat split; repeat constructor; cbn; intuition discriminate|split; [cbn; intuition (subst; discriminate)|discriminate]]).
Qed.
Example C83_first_stress_example : forall (R0 : Rng R) w, exists i st rep w' counts lats t x,
  simulate [] (z_dev i) r_steps 1 1 None w = (Ok (st, rep), w') /\
  let s := Scene [] (z_dev i) 1 1 counts "p"%string 1 z_mech lats in
  history s r_steps (nfull [1; 1; 1] 0%R) [(nfull [1; 1; 1] 0%R, t)] x /\ goes_on true z_form UHours s r_strs (nfull [1; 1; 1] 0%R, t).
Proof.
  intros R0 w. destruct (deter_total (V := R) 7%Q) as (i & _ & Oi). destruct (z_runs R0 i w Oi) as (st & rep & w' & E & K).
  assert (Hm : has_mech (z_dev i) "p" "age" z_mech) by (exists (z_prm i); split; reflexivity).
  destruct (C78_history _ _ _ _ _ _ _ _ _ _ _ _ _ _ _ _ (z_wf i) (z_regular i) r_steps_wf Hm (ex_intro _ r_strs (or_intror (or_introl eq_refl))) E)
    as (n & ls & lats & found & x & D1 & D2 & D3 & D4 & D5 & D6).
  rewrite K in D1. injection D1 as <-.
  assert (lats = []) as -> by (destruct lats as [|[z q] l]; auto; destruct (D4 z (or_introl eq_refl))).
  inversion D6 as [|? ? ? ? ? D7 | | ]; subst. inversion D7 as [| | |? ? ? t v1 cs fd ? Pr Ad Hi]; subst. inversion Hi; subst.
  exists i, st, rep, w', (rp_counts rep), [], t, x. split; [exact E|]. cbv zeta. split; [exact D6|].
  eapply (C83_first_stress_needs_no_accuracy R0 _ true z_form UHours (Scene [] (z_dev i) 1 1 (rp_counts rep) "p"%string 1 z_mech []) r_strs (PDeg (z_prm i)) [] _ t [] x);
    [reflexivity|reflexivity|reflexivity|exact z_given|exact K|reflexivity|repeat constructor; intros []|reflexivity|discriminate|exact D7| |].
  - intros j y z Hy. change (device_law _ _ _ j y) with (y * 3)%R. change (device_law _ _ _ j z) with (z * 3)%R. cbn [ordered]. lra.
  - intros a b c Ha Hb Hc. change (device_law _ _ _ [a; b; c] 0%R) with (0 * 3)%R. cbn [sc_lots sc_chps sc_num] in *. unfold nfull. cbn [z_mech mc_unitary]. rewrite aget_build3 by auto. lra.
Qed.

(** A test in which the temperature varies from stress to stress, lot to lot, chip to
    chip and device to device; the law grows with the square of the temperature. *)
Definition q_form : formula R := FMap2 Rmult (FArg "time") (FMap2 Rmult (FArg "temp") (FArg "temp")).
Definition q_eqn : eqn R := Eqn ["time"; "temp"]%string [] None (fun args => lift (fvalue q_form args)).
Definition q_mech : mech R := Mech KDeg (LMdl q_eqn []) 0%R (Some "h"%string).
Definition q_prm (i : lvar R) : degprm R := DegPrm (init_of i) no_cond n0 [("age"%string, q_mech)] (LMdl eqn_basic_sum []).
Definition q_dev (i : lvar R) : device R := [("p"%string, PDeg (q_prm i))].
Lemma q_given : given_by q_eqn q_form.
Proof. split; [reflexivity|]. split; [reflexivity|]. split; [intros x; cbn; tauto|reflexivity]. Qed.
Lemma q_regular i : regular (q_dev i).
Proof.
  intros name p Hp. apply dget_In in Hp. destruct Hp as [Q|[]]. injection Q as <- <-. cbn [q_prm dp_init dp_cond dp_own dp_mechs lm_eqn].
  split; [apply basic_respects|]. split; [apply respects_numeric, const_respects|]. split; [apply respects_follows, basic_sum_respects|].
  intros nm m Hm. apply dget_In in Hm. destruct Hm as [Q|[]]. injection Q as <- <-. exact (formula_numeric _ _ q_given).
Qed.
Lemma q_wf i : device_wf (q_dev i).
Proof.
  split; [repeat constructor; intros []|]. intros name p Hp. apply dget_In in Hp. destruct Hp as [Q|[]]. injection Q as <- <-. repeat constructor; intros [].
Qed.
Lemma q_additive i : additive (q_prm i) (fun _ => q_form) (fun _ => UHours).
Proof.
  assert (Z : n0 = 0%R :> R) by apply n0_R. constructor; cbn [q_prm dp_own dp_cond dp_cunit dp_init dp_mechs lm_eqn lm_vars init_of no_cond].
  - auto.
  - rewrite <- Z. auto.
  - discriminate.
  - split; [repeat split; [repeat constructor; intros []|intros [Q|[]]; discriminate..]|]. intros [Q|[]]; discriminate.
  - intros nm m Hm. apply dget_In in Hm. destruct Hm as [Q|[]]. injection Q as <- <-. split; auto. split; auto. split; auto. apply q_given.
Qed.
Lemma q_env (R0 : Rng R) : numpy_accepts R -> exists t e,
  vrtn (M_Demo.normal (fun j => j) 0 0 (2 # 10)) (M_Demo.normal (fun j => j) 1 0 (8 # 10)) (M_Demo.normal (fun j => j) 2 0 (12 # 10)) = Ok t /\
  env_init [t] (RDict [("temp"%string, 0)]) [] RNone = Ok e /\ dget e "p_instm" = None /\ env_ok e r_steps2.
Proof.
  intros Hnp. destruct (vrtn_total (M_Demo.normal (fun j => j) 0 0 (2 # 10)) (M_Demo.normal (fun j => j) 1 0 (8 # 10)) (M_Demo.normal (fun j => j) 2 0 (12 # 10))) as (t & Et & Ot);
    try (apply normal_ok; [exact Hnp|discriminate]).
  assert (E : exists e, env_init [t] (RDict [("temp"%string, 0)]) [] RNone = Ok e /\ dget e "p_instm" = None)
    by (eexists; split; reflexivity).
  destruct E as (e & E & N). exists t, e. split; [exact Et|]. split; [exact E|]. split; [exact N|]. eapply env_init_ok; [| |exact E| |].
  - split; repeat constructor; intros [].
  - split; repeat constructor; intros [].
  - intros n m Gm. cbn [given dget] in Gm. destruct (String.eqb n "temp"); [|discriminate]. injection Gm as <-. exact Ot.
  - intros n i Gi. discriminate Gi.
Qed.
Lemma q_runs (R0 : Rng R) e i w : env_ok e r_steps2 -> latent_ok i -> exists st rep w', simulate e (q_dev i) r_steps2 1 1 None w = (Ok (st, rep), w') /\ dget (rp_counts rep) "p" = Some 1 /\ length (rp_meas rep) = 2.
Proof.
  intros Oe Oi. destruct (one_experiment e "p"%string (q_prm i) r_steps2 r_meas 1 1 1 w) as (st & rep & w' & E & Ln & _ & K); eauto 6.
  - split; [now left|]. intros m' [Q|[Q|[Q|[]]]]; now inversion Q.
  - discriminate.
  - apply (prm_of_deg [("age"%string, q_mech)] i (LMdl eqn_basic_sum []) None None); auto.
    + intros x o [].
    + intros x [<-|[]]. split; discriminate.
    + intros x [<-|[<-|[]]]; auto.
    + discriminate.
    + apply computes_now, basic_sum_computes.
    + intros nm m [Q|[]]. injection Q as <- <-. split; [intros x o []|]. split; [left; now left|].
      split; [exact (formula_somehow _ _ q_given)|]. split; [discriminate|].
      intros x [<-|[<-|[]]]; [now left|]. right; right. intros s [Q|[Q|[Q|[]]]]; try discriminate Q. injection Q as <-. now left.
  - destruct (q_regular i "p"%string (q_prm i) eq_refl) as (A & B & D & G). split; [apply A|]. split; [apply B|]. split; [apply D|]. intros nm m Hm. exact (G nm m Hm 1 1 1).
  - repeat constructor; intros [].
  - intros s [<-|[<-|[<-|[]]]]; (split; [repeat split; repeat constructor; cbn; intuition discriminate|split; [cbn; intuition (subst; discriminate)|discriminate]]).
Qed.
Example C83_any_environment_example : forall (R0 : Rng R) w, numpy_accepts R -> exists t e i st rep w' pre1 g1 post1 pre2 g2 post2 r1 r2,
  vrtn (M_Demo.normal (fun j => j) 0 0 (2 # 10)) (M_Demo.normal (fun j => j) 1 0 (8 # 10)) (M_Demo.normal (fun j => j) 2 0 (12 # 10)) = Ok t /\
  env_init [t] (RDict [("temp"%string, 0)]) [] RNone = Ok e /\
  simulate e (q_dev i) r_steps2 1 1 None w = (Ok (st, rep), w') /\
  rp_meas rep = pre1 ++ g1 ++ post1 /\ nth_error g1 0 = Some r1 /\ r_step r1 = 0 /\
  rp_meas rep = pre2 ++ g2 ++ post2 /\ nth_error g2 0 = Some r2 /\ r_step r2 = 2 /\ (r_val r1 <= r_val r2)%R.
Proof.
  intros R0 w Hnp. destruct (q_env R0 Hnp) as (t & e & Et & Ee & Ni & Oe).
  destruct (deter_total (V := R) 7%Q) as (i & _ & Oi). destruct (q_runs R0 e i w Oe Oi) as (st & rep & w' & E & K & _).
  assert (Hn : forall q p, dget (q_dev i) q = Some (PDeg p) -> ~ In "init"%string (dkeys (dp_mechs p)) /\ ~ In "cond"%string (dkeys (dp_mechs p))).
  { intros q p Hp. apply dget_In in Hp. destruct Hp as [Q|[]]. injection Q as <- <-. split; intros [Q|[]]; discriminate. }
  destruct (C83_in_any_environment R0 _ e (q_dev i) [] r_meas [SStrs r_strs] r_meas [] 1 1 w st rep w' "p"%string (q_prm i) (fun _ => q_form) (fun _ => UHours) 1 1)
    as (n & ls & sc & pre1 & g1 & post1 & pre2 & g2 & post2 & before & found & x1 & x2 & A1 & A2 & A3 & A4 & A5 & A6 & A7 & A8 & A9 & A10 & A11); auto.
  { apply q_wf. } { apply q_regular. } { exact r_steps2_wf. } { apply q_additive. } { now left. } { now left. }
  rewrite K in A1. injection A1 as <-. destruct (A3 "age"%string q_mech eq_refl) as (lats & L1 & L2).
  assert (lats = []) as ->.
  { assert (Hm : has_mech (q_dev i) "p" "age" q_mech) by (exists (q_prm i); split; reflexivity).
    destruct (C78_history _ _ _ _ _ _ _ _ _ _ _ _ _ _ _ _ (q_wf i) (q_regular i) r_steps2_wf Hm (ex_intro _ r_strs (or_intror (or_introl eq_refl))) E)
      as (n' & ls' & lats' & fd & x' & _ & D2 & D3 & D4 & _).
    rewrite A2 in D2. injection D2 as <-. rewrite L1 in D3. injection D3 as <-. destruct lats as [|[z q] l]; auto. destruct (D4 z (or_introl eq_refl)). }
  destruct (A10 "age"%string (or_introl eq_refl)) as [H1 H2]. assert (Q : x1 "age"%string = nfull [1; 1; 1] 0%R) by now inversion H1. rewrite L2, Q in H2.
  inversion H2 as [| | |? ? ? t1 v1 cs fd y1 Pr Ad Hi Q1 Q2 Q3 Q4]. assert (fd = []) as -> by now inversion Hi. subst y1.
  pose proof (advanced_law_in (Scene e (q_dev i) 1 1 (rp_counts rep) "p"%string 1 q_mech []) q_form UHours cs (ss_dur r_strs) _ t1 _ eq_refl eq_refl q_given Ad) as Al.
  destruct (A11 true) with (a := 0) (b := 0) (c := 0) as (r1 & r2 & R1 & _ & _ & _ & R2 & _ & _ & _ & R3); auto.
  - intros nm [<-|[]]. change (fst ("age"%string, q_mech)) with "age"%string. rewrite <- Q3, L2. constructor; [|constructor].
    intros a b c Ha Hb Hc. cbv zeta. cbn [fst snd].
    assert (Ct : dget cs "time" = None).
    { destruct Pr as (all & wa & wb & Ea & Hcs). pose proof (env_conds_ok _ _ _ _ _ _ _ _ _ _ _ (ltac:(repeat constructor; intros []) : dwf (ss_conds r_strs)) Ea) as (_ & _ & G).
      specialize (G _ _ Hcs). destruct (dget cs "time") as [p|] eqn:Ex; auto. assert (Kx : dmem cs "time" = true) by (unfold dmem; now rewrite Ex).
      apply G in Kx as [[Kx|[]] _]. discriminate Kx. }
    assert (L : forall y, law_in q_form (Scene e (q_dev i) 1 1 (rp_counts rep) "p"%string 1 q_mech []) cs [a; b; c] y =
      (y * (match dget cs "temp" with Some p => elem p [a; b; c] | None => n0 end * match dget cs "temp" with Some p => elem p [a; b; c] | None => n0 end))%R).
    { intros y. unfold law_in, q_form. cbn [feval sc_lats dget]. rewrite Ct. reflexivity. }
    split.
    + intros y z Hy. rewrite !L. cbn [ordered]. apply Rmult_le_compat_r; [apply Rle_0_sqr|lra].
    + exists 0%R. rewrite L. destruct (Al a b c Ha Hb Hc) as [Tp _]. split; [rewrite r_hours; lra|]. cbn [sc_lots sc_chps sc_num] in *. unfold nfull. rewrite aget_build3 by auto. lra.
  - exists t, e, i, st, rep, w', pre1, g1, post1, pre2, g2, post2, r1, r2. do 3 (split; [assumption|]). split; [exact A4|]. split; [exact R1|].
    split; [apply nth_error_In in R1; apply (A6 _ R1)|]. split; [exact A7|]. split; [exact R2|]. split; [apply nth_error_In in R2; apply (A9 _ R2)|]. exact R3.
Qed.
