(** C91: under changing conditions the exposure decides. *)
From Coq Require Import Reals QArith Qreals Lra Lia Permutation.
From Verif Require Import M_Base M_Num M_NumR M_Nd M_RandVar M_Latent M_Time M_TestSpec M_Minimize M_Device M_Report M_Env M_Sim M_Demo M_CookEnv M_Cookbook M_CookMech M_Toy
  S_Latent S_TestSpec S_Minimize S_Device S_DeviceR S_Env S_Sim S_Shape S_Sum S_Total S_Reading S_CookEnv S_Cookbook S_CookMech S_History S_HistoryR S_Const S_Search S_Expo
  L_Base L_Nd L_Latent L_Device L_DeviceR L_Env L_Env2 L_Shape L_Shape2 L_Total L_Reading L_History L_HistoryR L_Total2 L_Demo L_Const L_Search L_Search2 L_Golden L_Mixed L_Expo L_Expo2
  T_Sim T_Shape T_Reading T_Device T_History T_Const T_CookMech T_Search.
From Verif Require L_Minimize L_CookMech.
Open Scope nat_scope.

(** Any environment.  [cs] are the conditions that it actually produced for the
    stresses, [rts] their rates. *)
Theorem C91_exposure_decides :
  forall (R0 : Rng R) (Ho : HashOrd) (s : scene R) (f : formula R) u (g : list nat -> R -> R) eps del (rts : list (list nat -> R)) l v found x (X : list nat -> R),
  mc_kind (sc_mech s) = KDeg -> unit_map (mc_unit (sc_mech s)) = Some u -> given_by (lm_eqn (mc_mdl (sc_mech s))) f ->
  (0 <= eps <= 1)%R -> (0 <= del)%R -> (forall k, In (SStrs k) l -> (0 <= ss_dur k)%Z) -> travelled s l v found x ->
  Forall2 (fun rt c => follows_curve f s g rt (fst c)) rts found -> accurate_in f s eps del found ->
  everywhere s (fun i => aget v i = g i (X i) /\ 0 <= X i /\
    evaluated eps del (map (fun rt => rt i) rts) (X i + exposure (map (fun rt => rt i) rts) (stress_times u l)))%R ->
  everywhere s (fun i => exists Y, aget x i = g i Y /\ 0 <= Y /\
    exposed eps del (map (fun rt => rt i) rts) (X i + exposure (map (fun rt => rt i) rts) (stress_times u l)) Y)%R.
Proof. intros R0 Ho s f u g eps del rts l v found x X A1 A2 A3 A4 A5 A6 A7 A8 A9. exact (travelled_exposed s f u A1 A2 A3 g eps del rts l v found x A4 A5 A6 A7 A8 A9 X). Qed.
Print Assumptions C91_exposure_decides.

(** Searches that converge are accurate under all conditions, whatever mixture of
    fresh, hardly aged and aged devices they are for. *)
Theorem C91_searches :
  forall (R0 : Rng R) (Ho : HashOrd) (s : scene R) (f : formula R) u (g : list nat -> R -> R) (rts : list (list nat -> R)) l v found x (X : list nat -> R),
  mc_kind (sc_mech s) = KDeg -> unit_map (mc_unit (sc_mech s)) = Some u -> given_by (lm_eqn (mc_mdl (sc_mech s))) f ->
  (forall k, In (SStrs k) l -> (0 <= ss_dur k)%Z) -> travelled s l v found x ->
  Forall2 (fun rt c => follows_curve f s g rt (fst c)) rts found -> curves s g -> (forall cs v t, In (cs, (v, t)) found -> settles_in s cs v) ->
  everywhere s (fun i => aget v i = g i (X i) /\ 0 <= X i /\
    evaluated rel_error abs_error (map (fun rt => rt i) rts) (X i + exposure (map (fun rt => rt i) rts) (stress_times u l)))%R ->
  accurate_in f s rel_error abs_error found.
Proof. intros R0 Ho s f u g rts l v found x X A1 A2 A3 A4 A5 A6 A7 A8. exact (travelled_accurate s f u A1 A2 A3 g rts l v found x A4 A5 A6 A7 A8 X). Qed.
Print Assumptions C91_searches.

(** Readings of a parameter in the environment without variation. *)
Theorem C91_readings :
  forall (R0 : Rng R) (Ho : HashOrd) (e : env R) (d : device R) l chps lots w st rep w' name (p : degprm R) laws units,
  ideal_env = Ok e -> device_wf d -> regular d -> (forall s, In s l -> step_wf s) ->
  (forall q p, dget d q = Some (PDeg p) -> ~ In "init"%string (dkeys (dp_mechs p)) /\ ~ In "cond"%string (dkeys (dp_mechs p))) ->
  dget d name = Some (PDeg p) -> additive p laws units ->
  (forall k, In (SStrs k) l -> dget (ss_conds k) "time" = None /\ (0 <= ss_dur k)%Z) ->
  simulate e d l chps lots None w = (Ok (st, rep), w') ->
  exists n ls (init : nd R) (sc : string -> scene R),
    dget (rp_counts rep) name = Some n /\ dget (st_lat st) name = Some ls /\ dget (st_prm0 st) name = Some (PArr init) /\
    nshape init = [lots; chps; n] /\
    (forall nm m, dget (dp_mechs p) nm = Some m -> exists lats, dget ls nm = Some (PDict lats) /\
       sc nm = Scene e d lots chps (rp_counts rep) name n m lats) /\
    forall l1 m l2 k, l = l1 ++ SMeas m :: l2 -> In (name, k) (ms_counts m) ->
    exists pre g post (found : string -> list (dict (pyval R) * (nd R * nd R))),
    rp_meas rep = pre ++ g ++ post /\ labelled lots chps k g /\ stamped (length l1) (TD (stress_time l1)) (name, k) g /\
    (forall nm, In nm (dkeys (dp_mechs p)) -> exists x, travelled (sc nm) l1 (nfull [lots; chps; n] 0%R) (found nm) x) /\
    forall (gs : string -> list nat -> R -> R) (rate : string -> dict R -> list nat -> R),
      (forall nm, In nm (dkeys (dp_mechs p)) ->
         curves (sc nm) (gs nm) /\ everywhere (sc nm) (fun i => gs nm i 0%R = 0%R) /\
         (forall k0, In (SStrs k0) l1 -> follows_curve_at (laws nm) (sc nm) (gs nm) (rate nm (ss_conds k0)) (ss_conds k0)) /\
         (forall cs v t, In (cs, (v, t)) (found nm) -> settles_in (sc nm) cs v) /\
         everywhere (sc nm) (fun i => evaluated rel_error abs_error (rates_of (rate nm) l1 i) (exposure (rates_of (rate nm) l1 i) (stress_times (units nm) l1)))) ->
      forall a b c, a < lots -> b < chps -> c < k -> exists r (X : string -> R),
        nth_error g ((a * chps + b) * k + c) = Some r /\ r_lot r = Some a /\ r_chp r = Some b /\ M_Report.r_dev r = Some c /\
        (r_val r = aget init [a; b; c]%nat + total (map (fun nm => gs nm [a; b; c]%nat (X nm)) (dkeys (dp_mechs p))))%R /\
        forall nm, In nm (dkeys (dp_mechs p)) -> (0 <= X nm)%R /\
          exposed rel_error abs_error (rates_of (rate nm) l1 [a; b; c]%nat) (exposure (rates_of (rate nm) l1 [a; b; c]%nat) (stress_times (units nm) l1)) (X nm).
Proof. intros R0 Ho e d l chps lots w st rep w' name p laws units. apply readings_exposed. Qed.
Print Assumptions C91_readings.

(** Two tests that start from the same state of the generators and expose the devices
    equally, e.g. a short one at high and a long one at low temperature. *)
Theorem C91_equal_exposure :
  forall (R0 : Rng R) (Ho : HashOrd) (e : env R) (d : device R) l l' chps lots w st rep w1 st' rep' w2 name (p : degprm R) laws units,
  ideal_env = Ok e -> device_wf d -> regular d -> (forall s, In s (l ++ l') -> step_wf s) ->
  (forall q p, dget d q = Some (PDeg p) -> ~ In "init"%string (dkeys (dp_mechs p)) /\ ~ In "cond"%string (dkeys (dp_mechs p))) ->
  dget d name = Some (PDeg p) -> additive p laws units ->
  (forall k, In (SStrs k) (l ++ l') -> dget (ss_conds k) "time" = None /\ (0 <= ss_dur k)%Z) ->
  simulate e d l chps lots None w = (Ok (st, rep), w1) -> simulate e d l' chps lots None w = (Ok (st', rep'), w2) -> rp_counts rep' = rp_counts rep ->
  exists n ls (init : nd R) (sc : string -> scene R),
    dget (rp_counts rep) name = Some n /\ dget (st_lat st) name = Some ls /\ dget (st_lat st') name = Some ls /\
    dget (st_prm0 st) name = Some (PArr init) /\ dget (st_prm0 st') name = Some (PArr init) /\
    (forall nm m, dget (dp_mechs p) nm = Some m -> exists lats, dget ls nm = Some (PDict lats) /\
       sc nm = Scene e d lots chps (rp_counts rep) name n m lats) /\
    forall la m lb k la' m' lb' k', l = la ++ SMeas m :: lb -> l' = la' ++ SMeas m' :: lb' -> In (name, k) (ms_counts m) -> In (name, k') (ms_counts m') ->
    exists pre g post (found : string -> list (dict (pyval R) * (nd R * nd R))) pre' g' post' (found' : string -> list (dict (pyval R) * (nd R * nd R))),
    rp_meas rep = pre ++ g ++ post /\ labelled lots chps k g /\ stamped (length la) (TD (stress_time la)) (name, k) g /\
    rp_meas rep' = pre' ++ g' ++ post' /\ labelled lots chps k' g' /\ stamped (length la') (TD (stress_time la')) (name, k') g' /\
    (forall nm, In nm (dkeys (dp_mechs p)) -> exists x x', travelled (sc nm) la (nfull [lots; chps; n] 0%R) (found nm) x /\ travelled (sc nm) la' (nfull [lots; chps; n] 0%R) (found' nm) x') /\
    forall (gs : string -> list nat -> R -> R) (rate : string -> dict R -> list nat -> R),
      (forall nm, In nm (dkeys (dp_mechs p)) ->
         curves (sc nm) (gs nm) /\ everywhere (sc nm) (fun i => gs nm i 0%R = 0%R) /\
         (forall k0, In (SStrs k0) (la ++ la') -> follows_curve_at (laws nm) (sc nm) (gs nm) (rate nm (ss_conds k0)) (ss_conds k0)) /\
         (forall cs v t, In (cs, (v, t)) (found nm ++ found' nm) -> settles_in (sc nm) cs v) /\
         everywhere (sc nm) (fun i => let x := exposure (rates_of (rate nm) la i) (stress_times (units nm) la) in
           exposure (rates_of (rate nm) la' i) (stress_times (units nm) la') = x /\
           evaluated rel_error abs_error (rates_of (rate nm) la i) x /\ evaluated rel_error abs_error (rates_of (rate nm) la' i) x)) ->
      forall a b c, a < lots -> b < chps -> c < k -> c < k' -> exists r r' (X X' : string -> R),
        nth_error g ((a * chps + b) * k + c) = Some r /\ r_lot r = Some a /\ r_chp r = Some b /\ M_Report.r_dev r = Some c /\
        nth_error g' ((a * chps + b) * k' + c) = Some r' /\ r_lot r' = Some a /\ r_chp r' = Some b /\ M_Report.r_dev r' = Some c /\
        (r_val r' - r_val r = total (map (fun nm => gs nm [a; b; c]%nat (X' nm) - gs nm [a; b; c]%nat (X nm)) (dkeys (dp_mechs p))))%R /\
        forall nm, In nm (dkeys (dp_mechs p)) -> (0 <= X nm)%R /\ (0 <= X' nm)%R /\
          let x := exposure (rates_of (rate nm) la [a; b; c]%nat) (stress_times (units nm) la) in
          exposed rel_error abs_error (rates_of (rate nm) la [a; b; c]%nat) x (X nm) /\ exposed rel_error abs_error (rates_of (rate nm) la' [a; b; c]%nat) x (X' nm).
Proof. intros R0 Ho e d l l' chps lots w st rep w1 st' rep' w2 name p laws units. apply readings_agree. Qed.
Print Assumptions C91_equal_exposure.

(** The same stresses in another order are such a case. *)
Theorem C91_order : forall (rate : dict R -> list nat -> R) u i (la la' : list (M_TestSpec.step R)), Permutation (stresses la) (stresses la') ->
  exposure (rates_of rate la i) (stress_times u la) = exposure (rates_of rate la' i) (stress_times u la').
Proof.
  intros rate u i la la' P.
  assert (E : forall l : list (M_TestSpec.step R), exposure (rates_of rate l i) (stress_times u l) = total (map (fun k => (rate (ss_conds k) i * td_num u (ss_dur k))%R) (stresses l))).
  { unfold rates_of. induction l as [|[m|k|o] l IH]; auto. change (stresses (SStrs k :: l)) with (k :: stresses l).
    change (stress_times u (SStrs k :: l)) with (td_num (V := R) u (ss_dur k) :: stress_times u l). cbn [map exposure]. rewrite IH. reflexivity. }
  rewrite !E. induction P; cbn [map total fold_right] in *; unfold total in *; lra.
Qed.
Print Assumptions C91_order.

(** The cookbook's NBTI mechanism is of this kind: the shift is the power [n] of the
    exposure.  Ratios of rates are the usual acceleration factors. *)
Theorem C91_nbti :
  (forall (R0 : Rng R) (Ho : HashOrd) (s : scene R) base (x : nbti_lats) temp vdd,
     sc_lats s = nbti_dict x -> dget base "temp" = Some temp -> dget base "vdd" = Some vdd -> dget base "time" = None -> (0 < vdd)%R ->
     everywhere s (fun i => 0 < aget (nl_a0 x) i /\ 0 < aget (nl_n x) i)%R ->
     let g := fun i y => r_power y (aget (nl_n x) i) in
     follows_curve_at nbti_form s g (nbti_rate x temp vdd) base /\ curves s g /\ everywhere s (fun i => g i 0%R = 0%R)) /\
  (forall (x : nbti_lats) temp vdd temp' vdd' i, (0 < temp -> 0 < temp' -> 0 < vdd -> 0 < vdd' -> 0 < aget (nl_a0 x) i -> 0 < aget (nl_n x) i ->
     nbti_rate x temp vdd i / nbti_rate x temp' vdd' i =
     exp (aget (nl_e x) i / (aget (nl_n x) i * boltzmann_ev) * (/ temp - / temp')) * Rpower (vdd / vdd') (aget (nl_alpha x) i / aget (nl_n x) i))%R).
Proof.
  split.
  - intros R0 Ho s base x temp vdd A1 A2 A3 A4 A5 A6 g. split; [now apply nbti_curve|]. apply nbti_curves. intros a b c Ha Hb Hc. now apply A6.
  - intros. now apply nbti_factor.
Qed.
Print Assumptions C91_nbti.

(** ** Example *)
(** One curve, the temperature as rate.  One hour at 1 and five hours at 20000 are an
    exposure of 100001, as are 100001 hours at 1.  All three searches converge. *)
#[local] Existing Instance hord_id.
Definition h_form : formula R := FMap g_law (FMap2 Rmult (FArg "temp") (FArg "time")).
Definition h_eqn : eqn R := Eqn ["temp"; "time"]%string [] None (fun args => lift (fvalue h_form args)).
Definition h_mech : mech R := Mech KDeg (LMdl h_eqn []) 0%R (Some "h"%string).
Definition h_prm (i : lvar R) : degprm R := DegPrm (init_of i) no_cond n0 [("age"%string, h_mech)] (LMdl eqn_basic_sum []).
Definition h_dev (i : lvar R) : device R := [("p"%string, PDeg (h_prm i))].
Definition h_at (temp : R) (hours : Z) : strs_spec R := StrsSpec [("temp"%string, temp)] (hours * 3600000000)%Z "s".
Definition h_first : list (M_TestSpec.step R) := [SMeas r_meas; SStrs (h_at 1 1); SStrs (h_at 20000 5)].
Definition h_other : list (M_TestSpec.step R) := [SMeas r_meas; SStrs (h_at 1 100001)].

Lemma h_given : given_by h_eqn h_form.
Proof. repeat split; auto; intros x; cbn; intuition. Qed.
Lemma h_regular i : regular (h_dev i).
Proof.
  intros name p Hp. apply dget_In in Hp. destruct Hp as [Q|[]]. injection Q as <- <-. cbn [h_prm dp_init dp_cond dp_own dp_mechs lm_eqn].
  split; [apply basic_respects|]. split; [apply respects_numeric, const_respects|]. split; [apply respects_follows, basic_sum_respects|].
  intros nm m Hm. apply dget_In in Hm. destruct Hm as [Q|[]]. injection Q as <- <-. exact (formula_numeric _ _ h_given).
Qed.
Lemma h_wf i : device_wf (h_dev i).
Proof.
  split; [repeat constructor; intros []|]. intros name p Hp. apply dget_In in Hp. destruct Hp as [Q|[]]. injection Q as <- <-. repeat constructor; intros [].
Qed.
Definition h_steps (l : list (M_TestSpec.step R)) : Prop := In (SMeas r_meas) l /\
  forall s, In s l -> s = SMeas r_meas \/ exists temp hours, (0 < temp)%R /\ (0 <= hours)%Z /\ s = SStrs (h_at temp hours).
Lemma h_step_wf l : h_steps l -> forall s, In s l -> step_wf s.
Proof. intros (_ & H) s Hs. destruct (H s Hs) as [->|(t & h & _ & _ & ->)]; repeat split; repeat constructor; intros []. Qed.
Lemma h_first_steps : h_steps (h_first ++ [SMeas r_meas]).
Proof.
  split; [now left|]. intros s Hs. cbn [h_first app In] in Hs. destruct Hs as [<-|[<-|[<-|[<-|[]]]]]; auto; right; eexists _, _; (split; [|split; [|reflexivity]]); try lra; lia.
Qed.
Lemma h_other_steps : h_steps (h_other ++ [SMeas r_meas]).
Proof.
  split; [now left|]. intros s Hs. cbn [h_other app In] in Hs. destruct Hs as [<-|[<-|[<-|[]]]]; auto; right; eexists _, _; (split; [|split; [|reflexivity]]); try lra; lia.
Qed.
Lemma h_runs (R0 : Rng R) i l w : latent_ok i -> h_steps l -> exists st rep w', simulate [] (h_dev i) l 1 1 None w = (Ok (st, rep), w') /\ dget (rp_counts rep) "p" = Some 1.
Proof.
  intros Oi (Hm0 & Hl). destruct (one_experiment [] "p"%string (h_prm i) l r_meas 1 1 1 w) as (st & rep & w' & E & _ & _ & K); eauto.
  - split; auto. intros m' Hm'. destruct (Hl _ Hm') as [Q|(t & h & _ & _ & Q)]; now inversion Q.
  - discriminate.
  - apply basic_empty.
  - apply (prm_of_deg [("age"%string, h_mech)] i (LMdl eqn_basic_sum []) None None); auto.
    + intros x o [].
    + intros x [<-|[]]. split; discriminate.
    + intros x [<-|[<-|[]]]; auto.
    + discriminate.
    + apply computes_now, basic_sum_computes.
    + intros nm m [Q|[]]. injection Q as <- <-. split; [intros x o []|]. split; [left; right; now left|].
      split; [exact (formula_somehow _ _ h_given)|]. split; [discriminate|].
      intros x [<-|[<-|[]]]; [|now left]. right; right. intros s Hs. destruct (Hl _ Hs) as [Q|(t & h & _ & _ & Q)]; [discriminate|]. injection Q as ->. now left.
  - destruct (h_regular i "p"%string (h_prm i) eq_refl) as (A & B & D & G). split; [apply A|]. split; [apply B|]. split; [apply D|]. intros nm m Hm. exact (G nm m Hm 1 1 1).
  - repeat constructor; intros [].
  - intros s Hs. destruct (Hl _ Hs) as [->|(t & h & _ & _ & ->)]; (split; [repeat split; repeat constructor; cbn; intuition discriminate|split; [cbn; intuition (subst; discriminate)|discriminate]]).
Qed.
Lemma h_additive i : additive (h_prm i) (fun _ => h_form) (fun _ => UHours).
Proof.
  assert (Z : n0 = 0%R :> R) by apply n0_R. constructor; cbn [h_prm dp_own dp_cond dp_cunit dp_init dp_mechs lm_eqn lm_vars init_of no_cond].
  - auto.
  - rewrite <- Z. auto.
  - discriminate.
  - split; [repeat split; [repeat constructor; intros []|intros [Q|[]]; discriminate..]|]. intros [Q|[]]; discriminate.
  - intros nm m Hm. apply dget_In in Hm. destruct Hm as [Q|[]]. injection Q as <- <-. split; auto. split; auto. split; auto. apply h_given.
Qed.

Section H.
Variables (R0 : Rng R) (i : lvar R) (counts : dict nat).
Hypothesis Hc : dget counts "p" = Some 1.
Let s := Scene [] (h_dev i) 1 1 counts "p"%string 1 h_mech [].
Let g (_ : list nat) (x : R) := g_law x.
Definition h_rate (base : dict R) (_ : list nat) : R := match dget base "temp" with Some t => t | None => 1%R end.
Lemma h_everywhere (P : list nat -> Prop) : P [0; 0; 0] -> everywhere s P.
Proof.
  intros H a b c Ha Hb Hd. unfold s in Ha, Hb, Hd. cbn [sc_lots sc_chps sc_num] in Ha, Hb, Hd. assert (a = 0 /\ b = 0 /\ c = 0) as (-> & -> & ->) by lia. exact H.
Qed.
Lemma h_curve temp : (0 < temp)%R -> follows_curve_at h_form s g (h_rate [("temp"%string, temp)]) [("temp"%string, temp)].
Proof. intros P. apply h_everywhere. split; [exact P|]. intros t _. reflexivity. Qed.
Lemma h_curves : curves s g.
Proof. apply h_everywhere. left. intros y z Hy _ L. now apply g_rises. Qed.
Lemma h_log temp x : (0 < temp)%R -> (-3 <= x)%R -> (/ 10 < temp)%R -> g_law (temp * Rpower 10 x) = (ln temp / ln 10 + x + 5)%R.
Proof.
  intros P Hx Ht. assert (Q := L_Minimize.ln10_p). assert (E : temp = Rpower 10 (ln temp / ln 10)).
  { unfold Rpower. replace (ln temp / ln 10 * ln 10)%R with (ln temp) by (field; lra). now rewrite exp_ln. }
  rewrite E at 1. rewrite <- Rpower_plus.
  assert (L : (/ 10000 < Rpower 10 (ln temp / ln 10 + x))%R).
  { replace (/ 10000)%R with (Rpower 10 (-4)).
    - apply Rpower_lt; [lra|]. assert (ln (/ 10) < ln temp)%R by (apply ln_increasing; lra). rewrite ln_Rinv in H by lra.
      assert (-1 < ln temp / ln 10)%R; [|lra]. apply (Rmult_lt_reg_r (ln 10)); auto. unfold Rdiv. rewrite Rmult_assoc, Rinv_l, Rmult_1_r by lra. lra.
    - replace (-4)%R with (- INR 4)%R by (cbn; lra). rewrite Rpower_Ropp, Rpower_pow by lra. f_equal. ring. }
  unfold g_law. destruct (Rle_lt_dec _ _); [lra|]. unfold Rpower at 1. rewrite ln_exp. field. lra.
Qed.
Lemma h_settles temp cs y : (/ 10 < temp)%R -> (y <= ln temp / ln 10 + 2)%R -> produced s [("temp"%string, temp)] cs ->
  settles_in s cs (Nd [1; 1; 1] [y]).
Proof.
  intros Pt Hy Pr w r w' E. set (base := [("temp"%string, temp)]) in *.
  assert (Wb : dwf base) by (repeat constructor; intros []).
  pose proof Pr as (all & wa & wb & Ea & Ec).
  assert (Oc : operands 1 1 1 cs) by exact (conds_operands _ _ _ _ _ _ _ _ _ _ _ "p"%string _ cs 1 Wb Ea eq_refl Ec Hc).
  assert (Kc : In "temp"%string (dkeys cs)).
  { pose proof (env_conds_ok _ _ _ _ _ _ _ _ _ _ _ Wb Ea) as (_ & _ & G). specialize (G _ _ Ec). cbn [dev_prm] in G.
    apply dmem_keys, (G "temp"%string). split; [now left|]. right; left. split; auto. exists "age"%string, h_mech. cbn. auto. }
  pose proof (law_one s base h_form eq_refl h_given eq_refl Wb cs _ Hc eq_refl Pr eq_refl eq_refl eq_refl
    (fun x p (Q : In (x, p) []) => match Q with end) Oc (or_intror (or_introl eq_refl)) eq_refl) as Lw.
  destruct (golden_converges (equiv_obj h_mech (PArr (Nd [1; 1; 1] [y])) (Nd [1; 1; 1] [y]) cs [] 1 1 1) (ln temp / ln 10 + 5 - y)%R 1 w) as (r1 & w1 & E1 & C1).
  - lra.
  - intros x w0 Hx. destruct (Lw) with (t := Rpower 10 x) (w := w0) as (w2 & E2); [intros z [<-|[<-|[]]]; auto|].
    exists w2. unfold s in E2. cbn [sc_mech sc_lats sc_lots sc_chps sc_num] in E2.
    change (device_law h_form (Scene [] (h_dev i) 1 1 counts "p"%string 1 h_mech []) base [0; 0; 0] (Rpower 10 x)) with (g_law (temp * Rpower 10 x)) in E2.
    rewrite h_log in E2 by lra.
    rewrite (obj_ok h_mech cs [] (PArr (Nd [1; 1; 1] [y])) [1; 1; 1] [y] [Rpower 10 x] [(ln temp / ln 10 + x + 5)%R] 1 1 1 w0 w2); auto; try discriminate.
    cbn [List.combine map fst snd]. do 3 f_equal. rewrite Rabs_left1; lra.
  - unfold s in E. cbn [sc_mech sc_lats sc_lots sc_chps sc_num ndata length] in E. rewrite E1 in E. injection E as <- _. exact C1.
Qed.
Lemma h_hours n : td_num (V := R) UHours (n * 3600000000)%Z = IZR n.
Proof. rewrite hours_num, mult_IZR. lra. Qed.
Lemma h_zero cs v t dur x : produced s [("temp"%string, 1%R)] cs -> v = Nd [1; 1; 1] [0%R] -> advanced s cs dur v t x -> settles_in s cs v /\ (aget t [0; 0; 0]%nat <= 2 / 1000)%R.
Proof.
  intros Pr -> Ad. assert (St : settles_in s cs (Nd [1; 1; 1] [0%R])) by (apply (h_settles 1); auto; [lra|rewrite ln_1; lra]). split; auto.
  assert (L := law_in_exact s h_form [("temp"%string, 1%R)] cs dur _ t x _ eq_refl h_given eq_refl ltac:(repeat constructor; intros []) Hc eq_refl Pr Ad).
  assert (A := search_accurate_in s h_form eq_refl h_given cs dur _ t x (fun _ => 0%R) Ad St).
  assert (B : everywhere s (fun i => (1 - rel_error) * 0 - abs_error <= aget t i <= (1 + rel_error) * 0 + abs_error)%R).
  { apply A, h_everywhere. specialize (L 0 0 0 ltac:(cbn; lia) ltac:(cbn; lia) ltac:(cbn; lia)). cbv beta in L.
    assert (E : forall y, law_in h_form s cs [0; 0; 0] y = g_law y) by (intros y; rewrite L; cbn; now rewrite Rmult_1_l).
    split; [|split; [|lra]].
    - left. intros y z Hy _ Hl. rewrite !E. now apply g_rises.
    - rewrite E, g_zero. reflexivity. }
  specialize (B 0 0 0 ltac:(cbn; lia) ltac:(cbn; lia) ltac:(cbn; lia)). cbv beta in B. unfold rel_error, abs_error in B. lra.
Qed.
Lemma h_first_settles found x : travelled s h_first (nfull [1; 1; 1] 0%R) found x -> forall cs v t, In (cs, (v, t)) found -> settles_in s cs v.
Proof.
  intros T. inversion T as [|? ? ? ? ? T1| |]; subst. inversion T1 as [| | |k1 l1 v0 t1 v1 cs1 fd1 x1 Pr1 Ad1 T2]; subst.
  inversion T2 as [| | |k2 l2 v2 t2 v3 cs2 fd2 x2 Pr2 Ad2 T3]; subst. inversion T3; subst.
  destruct (h_zero _ _ _ _ _ Pr1 eq_refl Ad1) as (S1 & B1). intros cs v t [Q|[Q|[]]]; injection Q as <- <- <-; auto.
  assert (L := law_in_exact s h_form [("temp"%string, 1%R)] _ _ _ _ _ _ eq_refl h_given eq_refl ltac:(repeat constructor; intros []) Hc eq_refl Pr1 Ad1).
  destruct (advanced_law_in s h_form UHours _ _ _ _ _ eq_refl eq_refl h_given Ad1 0 0 0 ltac:(cbn; lia) ltac:(cbn; lia) ltac:(cbn; lia)) as (P1 & E1 & _).
  specialize (L 0 0 0 ltac:(cbn; lia) ltac:(cbn; lia) ltac:(cbn; lia)). cbv beta in L. unfold h_at in E1. cbn [ss_dur] in E1. rewrite h_hours in E1. specialize (E1 ltac:(lra)). rewrite L in E1.
  assert (E2 : aget v1 [0; 0; 0] = g_law (1 * (aget t1 [0; 0; 0]%nat + 1))%R) by exact E1. clear E1. rename E2 into E1.
  destruct Ad1 as (_ & _ & (F1 & F2) & _). destruct v1 as [sh dat]. cbn [nshape ndata] in F1, F2. subst sh. cbn in F2. destruct dat as [|y [|]]; try discriminate F2.
  assert (Y : aget (Nd [1; 1; 1] [y]) [0; 0; 0] = y) by reflexivity. change (sc_lots s) with 1 in *. change (sc_chps s) with 1 in *. change (sc_num s) with 1 in *. rewrite Y in E1. clear Y.
  apply (h_settles 20000); auto; [lra|].
  assert (Hy : (y < g_law (1 * Rpower 10 1))%R). { rewrite E1, !Rmult_1_l. rewrite Rpower_1 by lra. apply g_rises; lra. }
  rewrite h_log in Hy by lra. rewrite ln_1 in Hy. assert (4 <= ln 20000 / ln 10)%R; [|lra].
  assert (Q := L_Minimize.ln10_p). apply (Rmult_le_reg_r (ln 10)); auto. unfold Rdiv. rewrite Rmult_assoc, Rinv_l, Rmult_1_r by lra.
  replace 4%R with (INR 4) by (cbn; lra). rewrite <- ln_pow by lra. left. apply ln_increasing; lra.
Qed.
Lemma h_other_settles found x : travelled s h_other (nfull [1; 1; 1] 0%R) found x -> forall cs v t, In (cs, (v, t)) found -> settles_in s cs v.
Proof.
  intros T. inversion T as [|? ? ? ? ? T1| |]; subst. inversion T1 as [| | |k1 l1 v0 t1 v1 cs1 fd1 x1 Pr1 Ad1 T2]; subst. inversion T2; subst.
  intros cs v t [Q|[]]; injection Q as <- <- <-. now destruct (h_zero _ _ _ _ _ Pr1 eq_refl Ad1).
Qed.
End H.

Lemma h_first_exposure i : rates_of h_rate h_first i = [1; 20000]%R /\ exposure [1; 20000]%R (stress_times UHours h_first) = 100001%R.
Proof. split; [reflexivity|]. cbn [stress_times h_first flat_map app h_at ss_dur exposure]. rewrite !h_hours. lra. Qed.
Lemma h_other_exposure i : rates_of h_rate h_other i = [1]%R /\ exposure [1]%R (stress_times UHours h_other) = 100001%R.
Proof. split; [reflexivity|]. cbn [stress_times h_other flat_map app h_at ss_dur exposure]. rewrite !h_hours. lra. Qed.

Example C91_example : forall (R0 : Rng R) w, exists i st rep w1 st' rep' w2 pre g post r pre' g' post' r' X X',
  simulate [] (h_dev i) (h_first ++ [SMeas r_meas]) 1 1 None w = (Ok (st, rep), w1) /\
  simulate [] (h_dev i) (h_other ++ [SMeas r_meas]) 1 1 None w = (Ok (st', rep'), w2) /\
  rp_meas rep = pre ++ g ++ post /\ nth_error g 0 = Some r /\ r_step r = 3 /\
  rp_meas rep' = pre' ++ g' ++ post' /\ nth_error g' 0 = Some r' /\ r_step r' = 2 /\
  (r_val r' - r_val r = g_law X' - g_law X /\ 99970 <= X <= 100030 /\ 99998 <= X' <= 100004)%R.
Proof.
  intros R0 w. destruct (deter_total (V := R) 7%Q) as (i & _ & Oi).
  destruct (h_runs R0 i _ w Oi h_first_steps) as (st & rep & w1 & E & K). destruct (h_runs R0 i _ w Oi h_other_steps) as (st' & rep' & w2 & E' & K').
  assert (Hn : forall q p, dget (h_dev i) q = Some (PDeg p) -> ~ In "init"%string (dkeys (dp_mechs p)) /\ ~ In "cond"%string (dkeys (dp_mechs p))).
  { intros q p Hp. apply dget_In in Hp. destruct Hp as [Q|[]]. injection Q as <- <-. split; intros [Q|[]]; discriminate. }
  assert (Hs : forall s, In s ((h_first ++ [SMeas r_meas]) ++ h_other ++ [SMeas r_meas]) -> step_wf s).
  { intros s Hs. apply in_app_or in Hs as [Hs|Hs]; [exact (h_step_wf _ h_first_steps s Hs)|exact (h_step_wf _ h_other_steps s Hs)]. }
  assert (Hk : forall k, In (SStrs k) ((h_first ++ [SMeas r_meas]) ++ h_other ++ [SMeas r_meas]) -> dget (ss_conds k) "time" = None /\ (0 <= ss_dur k)%Z).
  { intros k Hk. assert (D : exists t h, (0 <= h)%Z /\ k = h_at t h).
    { apply in_app_or in Hk as [Hk|Hk]; [destruct (proj2 h_first_steps _ Hk) as [Q|(t & h & _ & Hh & Q)]|destruct (proj2 h_other_steps _ Hk) as [Q|(t & h & _ & Hh & Q)]]; try discriminate; injection Q as ->; eauto. }
    destruct D as (t & h & Hh & ->). split; [reflexivity|]. cbn [h_at ss_dur]. lia. }
  assert (Ct : rp_counts rep' = rp_counts rep) by (eapply counts_agree; [| |apply E'|apply E]; [apply h_wf|reflexivity]).
  destruct (C91_equal_exposure R0 _ [] (h_dev i) _ _ 1 1 w st rep w1 st' rep' w2 "p"%string (h_prm i) (fun _ => h_form) (fun _ => UHours)
    eq_refl (h_wf i) (h_regular i) Hs Hn eq_refl (h_additive i) Hk E E' Ct) as (n & ls & init & sc & A1 & A2 & A2' & A3 & A3' & A5 & A6).
  pose proof A1 as A1'. rewrite K in A1'. injection A1' as <-. destruct (A5 "age"%string h_mech eq_refl) as (lats & L1 & L2).
  destruct (A6 h_first r_meas [] 1 h_other r_meas [] 1 eq_refl eq_refl (or_introl eq_refl) (or_introl eq_refl))
    as (pre & g & post & found & pre' & g' & post' & found' & B1 & _ & Sg & B1' & _ & Sg' & B3 & B4).
  assert (lats = []) as ->.
  { assert (Hm : has_mech (h_dev i) "p" "age" h_mech) by (exists (h_prm i); split; reflexivity).
    destruct (C78_history _ _ _ _ _ _ _ _ _ _ _ _ _ _ _ _ (h_wf i) (h_regular i) (h_step_wf _ h_first_steps) Hm (ex_intro _ (h_at 1 1) (or_intror (or_introl eq_refl))) E)
      as (n' & ls' & lats' & fd & x' & _ & D2 & D3 & D4 & _).
    rewrite A2 in D2. injection D2 as <-. rewrite L1 in D3. injection D3 as <-. destruct lats as [|[z q] l]; auto. destruct (D4 z (or_introl eq_refl)). }
  destruct (B3 "age"%string (or_introl eq_refl)) as (x & x' & Hx & Hx'). rewrite L2 in Hx, Hx'.
  destruct B4 with (gs := fun (_ : string) (_ : list nat) => g_law) (rate := fun _ : string => h_rate) (a := 0) (b := 0) (c := 0)
    as (r & r' & X & X' & C1 & _ & _ & _ & C1' & _ & _ & _ & C5 & C6); auto.
  - intros nm [<-|[]]. change (fst ("age"%string, h_mech)) with "age"%string. rewrite L2. split; [apply h_curves|]. split; [apply h_everywhere, g_zero|]. split; [|split].
    + intros k Hk0. destruct Hk0 as [Q|[Q|[Q|[Q|[Q|[]]]]]]; try discriminate; injection Q as <-; apply h_curve; lra.
    + intros cs v t Hv. apply in_app_or in Hv as [Hv|Hv]; [exact (h_first_settles _ _ _ K _ _ Hx _ _ _ Hv)|exact (h_other_settles _ _ _ K _ _ Hx' _ _ _ Hv)].
    + apply h_everywhere. destruct (h_first_exposure [0; 0; 0]) as (-> & ->). destruct (h_other_exposure [0; 0; 0]) as (-> & ->). cbv zeta. split; [reflexivity|].
      unfold evaluated, rel_error, abs_error. cbn [length pow total fold_right]. split; intros y Hy; cbn [In] in Hy; destruct Hy as [<-|Hy]; try lra; destruct Hy as [<-|[]]; lra.
  - exists i, st, rep, w1, st', rep', w2, pre, g, post, r, pre', g', post', r', (X "age"%string), (X' "age"%string).
    do 4 (split; [assumption|]). split; [apply nth_error_In in C1; apply (Sg _ C1)|]. do 2 (split; [assumption|]). split; [apply nth_error_In in C1'; apply (Sg' _ C1')|].
    destruct (C6 "age"%string (or_introl eq_refl)) as (_ & _ & C7 & C8). destruct (h_first_exposure [0; 0; 0]) as (Q1 & Q2). rewrite Q1, Q2 in C7, C8. destruct (h_other_exposure [0; 0; 0]) as (Q3 & _). rewrite Q3 in C8.
    unfold exposed, rel_error, abs_error in C7, C8. cbn [length pow total fold_right] in C7, C8.
    split; [|lra]. rewrite C5. cbn [h_prm dp_mechs dkeys map fst total fold_right]. lra.
Qed.
