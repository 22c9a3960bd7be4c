(** C82: what the measurements of a test with constant stress conditions show. *)
From Coq Require Import Reals QArith Qreals Lra.
From Verif Require Import M_Base M_Num M_NumR M_Nd M_RandVar M_Latent M_Time M_TestSpec M_Minimize M_Device M_Report M_Env M_Sim M_Demo M_CookEnv M_Toy
  S_Latent S_TestSpec S_Minimize S_Device S_DeviceR S_Env S_Sim S_Shape S_Sum S_Total S_Reading S_CookEnv S_History S_HistoryR S_Const
  L_Base L_Nd L_Latent L_Device L_DeviceR L_Env L_Env2 L_Shape L_Shape2 L_Total L_Reading L_History L_HistoryR L_Total2 L_Demo L_Const T_Sim T_Shape T_Reading T_Device T_History.
Open Scope nat_scope.

(** Without process variation and measurement error of the environment, with
    parameters that are sums of degradation laws and with the same conditions in all
    stresses: every row of every measurement shows the initial value of its device
    plus its laws, each at the stress time up to this measurement, up to the errors
    of the searches for equivalent times. *)
Theorem C82_readings_at_constant_stress :
  forall (R0 : Rng R) (Ho : HashOrd) (e : env R) (d : device R) l chps lots w st rep w' name (p : degprm R) laws units base,
  ideal_env = Ok e -> device_wf d -> regular d -> (forall s, In s l -> step_wf s) ->
  (forall q p, dget d q = Some (PDeg p) -> ~ In "init"%string (dkeys (dp_mechs p)) /\ ~ In "cond"%string (dkeys (dp_mechs p))) ->
  dget d name = Some (PDeg p) -> additive p laws units -> dwf base -> dget base "time" = None ->
  (forall k, In (SStrs k) l -> ss_conds k = base /\ (0 <= ss_dur k)%Z) ->
  simulate e d l chps lots None w = (Ok (st, rep), w') ->
  exists n ls (init : nd R) (sc : string -> scene R),
    dget (rp_counts rep) name = Some n /\ dget (st_lat st) name = Some ls /\ dget (st_prm0 st) name = Some (PArr init) /\
    nshape init = [lots; chps; n] /\
    (forall nm m, dget (dp_mechs p) nm = Some m -> exists lats, dget ls nm = Some (PDict lats) /\
       sc nm = Scene e d lots chps (rp_counts rep) name n m lats) /\
    forall l1 m l2 k, l = l1 ++ SMeas m :: l2 -> In (name, k) (ms_counts m) ->
    exists pre g post (found : string -> list (nd R * nd R)),
      rp_meas rep = pre ++ g ++ post /\ labelled lots chps k g /\ stamped (length l1) (TD (stress_time l1)) (name, k) g /\
      (forall nm, In nm (dkeys (dp_mechs p)) -> exists x, history (sc nm) l1 (nfull [lots; chps; n] 0%R) (found nm) x) /\
      forall eps del (T : string -> list nat -> R), (0 <= eps <= 1 -> 0 <= del ->
        (forall nm, In nm (dkeys (dp_mechs p)) ->
           accurate (laws nm) (sc nm) base eps del (found nm) /\
           everywhere (sc nm) (fun i => device_law (laws nm) (sc nm) base i (T nm i) = 0 /\ 0 <= T nm i /\
             (1 + eps) ^ length (found nm) * (T nm i + total (stress_times (units nm) l1) + INR (length (found nm)) * del) <= 9000000000)) ->
        forall a b c, (a < lots)%nat -> (b < chps)%nat -> (c < k)%nat -> exists r (tau : string -> R),
          nth_error g ((a * chps + b) * k + c) = Some r /\ r_lot r = Some a /\ r_chp r = Some b /\ M_Report.r_dev r = Some c /\
          r_val r = aget init [a; b; c]%nat + total (map (fun nm => device_law (laws nm) (sc nm) base [a; b; c]%nat (tau nm)) (dkeys (dp_mechs p))) /\
          forall nm, In nm (dkeys (dp_mechs p)) ->
            within eps del (length (found nm)) (T nm [a; b; c]%nat + total (stress_times (units nm) l1)) (tau nm))%R.
Proof. intros R0 Ho e d l chps lots w st rep w' name p laws units base. apply constant_stress. Qed.
Print Assumptions C82_readings_at_constant_stress.

(** ... hence between the initial value plus the laws at the least and at the
    greatest of these times if the laws do not decrease with time. *)
Theorem C82_bounds :
  forall (laws : string -> formula R) (sc : string -> scene R) base i eps del (k : string -> nat) (t tau : string -> R) names x0 x,
  (x = x0 + total (map (fun nm => device_law (laws nm) (sc nm) base i (tau nm)) names))%R ->
  (forall nm, In nm names -> within eps del (k nm) (t nm) (tau nm) /\ 0 <= (1 - eps) ^ k nm * t nm - INR (k nm) * del /\
     forall y z, 0 <= y <= z -> device_law (laws nm) (sc nm) base i y <= device_law (laws nm) (sc nm) base i z)%R ->
  (x0 + total (map (fun nm => device_law (laws nm) (sc nm) base i ((1 - eps) ^ k nm * t nm - INR (k nm) * del)) names) <= x <=
   x0 + total (map (fun nm => device_law (laws nm) (sc nm) base i ((1 + eps) ^ k nm * (t nm + INR (k nm) * del))) names))%R.
Proof.
  intros laws sc base i eps del k t tau names x0 x -> Hn.
  enough (total (map (fun nm => device_law (laws nm) (sc nm) base i ((1 - eps) ^ k nm * t nm - INR (k nm) * del)) names) <=
          total (map (fun nm => device_law (laws nm) (sc nm) base i (tau nm)) names) <=
          total (map (fun nm => device_law (laws nm) (sc nm) base i ((1 + eps) ^ k nm * (t nm + INR (k nm) * del))) names))%R by lra.
  induction names as [|nm names IH]; cbn [map total fold_right]; [lra|].
  destruct IH as [I1 I2]; [intros z Hz; apply Hn; now right|]. destruct (Hn nm (or_introl eq_refl)) as ([W1 W2] & N0 & Mo). unfold total in I1, I2.
  pose proof (Mo _ _ (conj N0 W1)). pose proof (Mo (tau nm) _ (conj (Rle_trans _ _ _ N0 W1) W2)). lra.
Qed.
Print Assumptions C82_bounds.

(** ** Example *)
(** One measurement before and one after a stress of five hours: the second reading
    is the initial value plus (5 h) * 3. *)
#[local] Existing Instance hord_id.
Definition r_steps2 : list (step R) := r_steps ++ [SMeas r_meas].
Lemma r_steps2_wf : forall s, In s r_steps2 -> step_wf s.
Proof. intros s [<-|[<-|[<-|[]]]]; repeat split; repeat constructor; intros []. Qed.
Lemma r_runs2 (R0 : Rng R) i w : latent_ok i -> exists st rep w', simulate [] (r_dev i) r_steps2 1 1 None w = (Ok (st, rep), w') /\ dget (rp_counts rep) "p" = Some 1.
Proof.
  intros Oi. destruct (one_experiment [] "p"%string (r_prm i) r_steps2 r_meas 1 1 1 w) as (st & rep & w' & E & _ & _ & K); eauto.
  - split; [now left|]. intros m' [Q|[Q|[Q|[]]]]; now inversion Q.
  - discriminate.
  - apply basic_empty.
  - apply (prm_of_deg [("age"%string, r_mech)] i (LMdl eqn_basic_sum []) None None); auto.
    + intros x o [].
    + intros x [<-|[]]. split; discriminate.
    + intros x [<-|[<-|[]]]; auto.
    + discriminate.
    + apply computes_now, basic_sum_computes.
    + intros nm m [Q|[]]. injection Q as <- <-. split; [intros x o []|]. split; [left; now left|].
      split; [exact (formula_somehow _ _ r_given)|]. split; [discriminate|].
      intros x [<-|[<-|[]]]; [now left|]. right; right. intros s [Q|[Q|[Q|[]]]]; try discriminate Q. injection Q as <-. now left.
  - destruct (r_regular i "p"%string (r_prm i) eq_refl) as (A & B & D & G). split; [apply A|]. split; [apply B|]. split; [apply D|]. intros nm m Hm. exact (G nm m Hm 1 1 1).
  - repeat constructor; intros [].
  - intros s [<-|[<-|[<-|[]]]]; (split; [repeat split; repeat constructor; cbn; intuition discriminate|split; [cbn; intuition (subst; discriminate)|discriminate]]).
Qed.
Lemma r_additive i : additive (r_prm i) (fun _ => r_form) (fun _ => UHours).
Proof.
  assert (Z : n0 = 0%R :> R) by apply n0_R. constructor; cbn [r_prm dp_own dp_cond dp_cunit dp_init dp_mechs lm_eqn lm_vars init_of no_cond].
  - auto.
  - rewrite <- Z. auto.
  - discriminate.
  - split; [repeat split; [repeat constructor; intros []|intros [Q|[]]; discriminate..]|]. intros [Q|[]]; discriminate.
  - intros nm m Hm. apply dget_In in Hm. destruct Hm as [Q|[]]. injection Q as <- <-. split; auto. split; auto. split; auto. apply r_given.
Qed.

Lemma r_reads (R0 : Rng R) i w st rep w' : simulate [] (r_dev i) r_steps2 1 1 None w = (Ok (st, rep), w') -> dget (rp_counts rep) "p" = Some 1 ->
  exists init pre g post r, dget (st_prm0 st) "p" = Some (PArr init) /\
  rp_meas rep = pre ++ g ++ post /\ nth_error g 0 = Some r /\ r_step r = 2 /\ r_val r = (aget init [0; 0; 0]%nat + 15)%R /\
  r_param r = "p"%string /\ r_lot r = Some 0 /\ r_chp r = Some 0 /\ M_Report.r_dev r = Some 0.
Proof.
  intros E K.
  assert (Wb : dwf r_base) by (repeat constructor; intros []).
  assert (Hk : forall k, In (SStrs k) r_steps2 -> ss_conds k = r_base /\ (0 <= ss_dur k)%Z).
  { intros k [Q|[Q|[Q|[]]]]; try discriminate Q. injection Q as <-. split; [reflexivity|]. cbn. lia. }
  assert (Hn : forall q p, dget (r_dev i) q = Some (PDeg p) -> ~ In "init"%string (dkeys (dp_mechs p)) /\ ~ In "cond"%string (dkeys (dp_mechs p))).
  { intros q p Hp. apply dget_In in Hp. destruct Hp as [Q|[]]. injection Q as <- <-. split; intros [Q|[]]; discriminate. }
  destruct (C82_readings_at_constant_stress R0 _ [] (r_dev i) r_steps2 1 1 w st rep w' "p"%string (r_prm i) (fun _ => r_form) (fun _ => UHours) r_base
    eq_refl (r_wf i) (r_regular i) r_steps2_wf Hn eq_refl (r_additive i) Wb eq_refl Hk E) as (n & ls & init & sc & A1 & A2 & A3 & A4 & A5 & A6).
  rewrite K in A1. injection A1 as <-. destruct (A5 "age"%string r_mech eq_refl) as (lats & L1 & L2).
  destruct (A6 r_steps r_meas [] 1 eq_refl (or_introl eq_refl)) as (pre & g & post & found & B1 & B2 & Sg & B3 & B4).
  assert (lats = []) as ->.
  { assert (Hm : has_mech (r_dev i) "p" "age" r_mech) by (exists (r_prm i); split; reflexivity).
    destruct (C78_history _ _ _ _ _ _ _ _ _ _ _ _ _ _ _ _ (r_wf i) (r_regular i) r_steps2_wf Hm (ex_intro _ r_strs (or_intror (or_introl eq_refl))) E)
      as (n' & ls' & lats' & fd & x' & _ & D2 & D3 & D4 & _).
    rewrite A2 in D2. injection D2 as <-. rewrite L1 in D3. injection D3 as <-. destruct lats as [|[z q] l]; auto. destruct (D4 z (or_introl eq_refl)). }
  destruct (B3 "age"%string (or_introl eq_refl)) as (x & Hx). rewrite L2 in Hx. destruct (r_search _ _ _ _ _ K Hx) as [Fd _].
  pose proof first_guess_small as Fg.
  assert (Tt : total (stress_times UHours r_steps) = 5%R) by (cbn [stress_times r_steps flat_map app total]; rewrite r_hours; cbn; lra).
  destruct (B4 0%R 0%R (fun _ _ => first_guess)) with (a := 0) (b := 0) (c := 0) as (r & tau & R1 & R2 & R3 & R4 & R5 & R6); auto; try lra.
  - intros nm [<-|[]]. change (fst ("age"%string, r_mech)) with "age"%string. rewrite Fd, L2, Tt. split.
    + intros v t [Q|[]] l c d Hl Hc Hd tau _ Ht. injection Q as <- <-. cbn [sc_lots sc_chps sc_num] in Hl, Hc, Hd.
      assert (l = 0 /\ c = 0 /\ d = 0) as (-> & -> & ->) by lia. rewrite r_law in Ht.
      change (aget (Nd [1; 1; 1] [0%R]) [0; 0; 0]) with 0%R in Ht. change (aget (Nd [1; 1; 1] [first_guess]) [0; 0; 0]) with first_guess. lra.
    + intros l c d Hl Hc Hd. cbn [sc_lots sc_chps sc_num] in Hl, Hc, Hd. assert (l = 0 /\ c = 0 /\ d = 0) as (-> & -> & ->) by lia.
      rewrite r_law. cbn [length pow INR]. lra.
  - exists init, pre, g, post, r. split; [exact A3|]. split; [exact B1|]. split; [exact R1|].
    split; [apply nth_error_In in R1; apply (Sg _ R1)|]. split.
    + specialize (R6 "age"%string (or_introl eq_refl)). rewrite Fd, Tt in R6. unfold within in R6. cbn [length pow INR] in R6.
      rewrite R5. cbn [r_prm dp_mechs dkeys map fst total fold_right]. rewrite L2, r_law. lra.
    + split; [apply nth_error_In in R1; apply (Sg _ R1)|auto].
Qed.
Example C82_example : forall (R0 : Rng R) w, exists i st rep w' init pre g post r,
  simulate [] (r_dev i) r_steps2 1 1 None w = (Ok (st, rep), w') /\ dget (st_prm0 st) "p" = Some (PArr init) /\
  rp_meas rep = pre ++ g ++ post /\ nth_error g 0 = Some r /\ r_step r = 2 /\ r_val r = (aget init [0; 0; 0]%nat + 15)%R.
Proof.
  intros R0 w. destruct (deter_total (V := R) 7%Q) as (i & _ & Oi). destruct (r_runs2 R0 i w Oi) as (st & rep & w' & E & K).
  destruct (r_reads R0 i w st rep w' E K) as (init & pre & g & post & r & A1 & A2 & A3 & A4 & A5 & _).
  exists i, st, rep, w', init, pre, g, post, r. auto 8.
Qed.
(** ... and the bounds of that reading. *)
Example C82_bounds_example : forall i counts, let s := Scene [] (r_dev i) 1 1 counts "p"%string 1 r_mech [] in
  (1 <= 1 + total (map (fun nm : string => device_law r_form s r_base [0; 0; 0]%nat (first_guess + 5)) ["age"%string]) <= 100)%R.
Proof.
  intros i counts s. pose proof first_guess_small as Fg.
  destruct (C82_bounds (fun _ => r_form) (fun _ => s) r_base [0; 0; 0] 0 0 (fun _ => 1) (fun _ => first_guess + 5)%R (fun _ => first_guess + 5)%R ["age"%string] 1 _ eq_refl) as [B1 B2].
  - intros nm [<-|[]]. unfold within. cbn [pow INR]. split; [lra|]. split; [lra|]. intros y z Hy. unfold s. rewrite !r_law. lra.
  - unfold s in *. cbn [map total fold_right pow INR] in *. rewrite !r_law in *. lra.
Qed.
