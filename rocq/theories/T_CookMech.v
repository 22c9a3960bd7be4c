(** Properties of the prebuilt mechanism: C66. *)
From Coq Require Import Reals QArith Qreals Lra Lia.
From Verif Require Import M_Base M_Num M_NumR M_Nd M_RandVar M_Latent M_Time M_Minimize M_Device M_LatentMdl M_CookMech
  S_Latent S_Minimize S_Device S_DeviceR S_CookMech L_Base L_Latent L_Nd L_Device L_Device2 L_Device3 L_DeviceR L_CookMech.
Open Scope nat_scope.

Lemma jedec_is g (m : mech R) : jedec_nbti_mdl g = Ok m ->
  mc_kind m = KDeg /\ mc_unitary m = Q2R 0 /\ mc_unit m = None /\ lm_eqn (mc_mdl m) = nbti_eqn.
Proof. intros E. injection E as <-. repeat split. Qed.

(** Every sample's shift is the law at its own time, latent values and conditions. *)
Theorem C66_law : forall g (m : mech R) s ps ts L C D w,
  jedec_nbti_mdl g = Ok m -> s <> [] -> length ps = prod s -> Forall physical ps ->
  length ts = prod s -> (forall t, In t ts -> (0 <= t)%R) ->
  call_or_loop (lm_eqn (mc_mdl m)) (mech_args m (PArr (Nd s ts)) (conds_of s ps) (lats_of s ps)) L C D w =
  (Ok (PArr (Nd s (map (fun pt => shift_of (fst pt) (snd pt)) (List.combine ps ts)))), w).
Proof. intros g m s ps ts L C D w Em. intros. apply nbti_call; auto. now apply jedec_is in Em. Qed.
Print Assumptions C66_law.

(** A fresh device has no shift; longer stress and higher voltage shift more, and -
    with a positive apparent activation energy, as here - a higher temperature shifts
    less. *)
Theorem C66_acceleration : forall g (m : mech R) s ps ts ps' ts' L C D w fs fs',
  jedec_nbti_mdl g = Ok m -> s <> [] ->
  length ps = prod s -> Forall physical ps -> length ts = prod s -> (forall t, In t ts -> (0 <= t)%R) ->
  length ps' = prod s -> Forall physical ps' -> length ts' = prod s -> (forall t, In t ts' -> (0 <= t)%R) ->
  call_or_loop (lm_eqn (mc_mdl m)) (mech_args m (PArr (Nd s ts)) (conds_of s ps) (lats_of s ps)) L C D w = (Ok (PArr (Nd s fs)), w) ->
  call_or_loop (lm_eqn (mc_mdl m)) (mech_args m (PArr (Nd s ts')) (conds_of s ps') (lats_of s ps')) L C D w = (Ok (PArr (Nd s fs')), w) ->
  forall i p t p' t' f f', nth_error ps i = Some p -> nth_error ts i = Some t -> nth_error fs i = Some f ->
    nth_error ps' i = Some p' -> nth_error ts' i = Some t' -> nth_error fs' i = Some f' ->
    let same := s_a0 p = s_a0 p' /\ s_e p = s_e p' /\ s_alpha p = s_alpha p' /\ s_n p = s_n p' in
    (t = 0%R -> f = 0%R) /\
    (p = p' -> (t < t')%R -> (f < f')%R) /\
    (same -> s_temp p = s_temp p' -> t = t' -> (0 < t)%R -> (0 < s_alpha p)%R -> (s_vdd p < s_vdd p')%R -> (f < f')%R) /\
    (same -> s_vdd p = s_vdd p' -> t = t' -> (0 < t)%R -> (0 < s_e p)%R -> (s_temp p < s_temp p')%R -> (f' < f)%R).
Proof.
  intros g m s ps ts ps' ts' L C D w fs fs' Em Ns Lp Hp Lt Ht Lp' Hp' Lt' Ht' E E' i p t p' t' f f' P T F P' T' F'.
  rewrite (C66_law g) in E, E' by auto. injection E as <-. injection E' as <-.
  erewrite nth_error_map_combine in F by eauto. erewrite nth_error_map_combine in F' by eauto.
  cbn [fst snd] in F, F'. injection F as <-. injection F' as <-.
  pose proof (proj1 (Forall_forall _ _) Hp p (nth_error_In _ _ P)) as (A1 & A2 & A3 & A4).
  pose proof (proj1 (Forall_forall _ _) Hp' p' (nth_error_In _ _ P')) as (B1 & B2 & B3 & B4).
  pose proof (Ht t (nth_error_In _ _ T)) as Tp. cbn zeta. unfold shift_of. repeat split.
  - intros ->. apply law_zero.
  - intros <- Q. apply law_time; auto.
  - intros (-> & -> & -> & ->) -> <- Q1 Q2 Q3. apply law_vdd; auto.
  - intros (-> & -> & -> & ->) -> <- Q1 Q2 Q3. apply law_temp; auto.
Qed.
Print Assumptions C66_acceleration.

(** The search for the equivalent stress time recovers the time of earlier stress. *)
Theorem C66_equivalent_time : forall g (m : mech R) s ps Ts L C D w,
  jedec_nbti_mdl g = Ok m -> s <> [] -> length ps = prod s -> Forall physical ps ->
  length Ts = prod s -> (forall t, In t Ts -> (/ 1000 <= t <= 10000000000)%R) ->
  let vs := map (fun pt => shift_of (fst pt) (snd pt)) (List.combine ps Ts) in
  exists r w' ys,
    minimize_run (equiv_obj m (PArr (Nd s vs)) (Nd s vs) (conds_of s ps) (lats_of s ps) L C D) (prod s) (/ 1000)%R 10000000000%R (/ 100000)%R mach_64bit_eps 50 true w = (Ok r, w') /\
    mech_equiv_time m (PArr (Nd s vs)) (conds_of s ps) (lats_of s ps) L C D w = (Ok (PArr (Nd s ys)), w') /\ length ys = prod s /\
    (mr_conv r = true -> forall i y t, nth_error ys i = Some y -> nth_error Ts i = Some t ->
       (Rabs (ln y / ln 10 - ln t / ln 10) < 2 * (sqrt mach_64bit_eps * Rabs (ln y / ln 10) + / 300000))%R).
Proof.
  intros g m s ps Ts L C D w Em Ns Lp Hp Lt Ht vs.
  destruct (jedec_is _ _ Em) as (K & _).
  pose (p0 := Pt 1 1 1 1 1 1).
  assert (Nt : forall i, i < prod s -> exists p t, nth_error ps i = Some p /\ nth_error Ts i = Some t /\ nth i ps p0 = p /\ nth i Ts 1%R = t).
  { intros i Hi. destruct (nth_error ps i) eqn:E1; [|apply nth_error_None in E1; lia]. destruct (nth_error Ts i) eqn:E2; [|apply nth_error_None in E2; lia].
    do 2 eexists. repeat split; eauto; now apply nth_error_nth. }
  destruct (equiv_time_inverts_vec m (conds_of s ps) (lats_of s ps) (fun i t => shift_of (nth i ps p0) t) (fun i => nth i Ts 1%R) s vs L C D w K Ns)
    as (r & w' & ys & R1 & R2 & R3 & R4).
  - unfold vs. now apply combine_map_length.
  - intros i Hi. destruct (Nt i Hi) as (p & t & P & T & -> & ->). split; [|split].
    + left. intros x y Hx Hy Q. pose proof (proj1 (Forall_forall _ _) Hp p (nth_error_In _ _ P)) as (A1 & A2 & A3 & A4). apply law_time; auto; lra.
    + apply Ht. eapply nth_error_In; eauto.
    + unfold vs. now erewrite nth_error_map_combine by eauto.
  - intros ts w1 L1 P1. do 2 eexists. split; [eapply C66_law; eauto; intros t Q; apply P1 in Q; lra|].
    split; [now apply combine_map_length|]. intros i t Q. assert (Hi : i < prod s) by (rewrite <- L1; apply nth_error_Some; congruence).
    destruct (Nt i Hi) as (p & t' & P & T & -> & _). now erewrite nth_error_map_combine by eauto.
  - exists r, w', ys. repeat split; auto. intros Cv i y t Y T. specialize (R4 Cv i y Y).
    now rewrite (nth_error_nth _ _ 1%R T) in R4.
Qed.
Print Assumptions C66_equivalent_time.

(** Its four latent values per device are drawn, in this order, from generators of
    their own; chips and lots do not matter. *)
Theorem C66_latent_values : forall (R0 : Rng R) g (m : mech R) D C L w lats w',
  jedec_nbti_mdl g = Ok m -> gen_latents (mc_mdl m) D C L w = (Ok lats, w') ->
  exists xs1 xs2 xs3 xs4 w1 w2 w3,
    lats = [("a_0", PArr (Nd [L; C; D] xs1)); ("e_aa", PArr (Nd [L; C; D] xs2));
            ("alpha", PArr (Nd [L; C; D] xs3)); ("n", PArr (Nd [L; C; D] xs4))]%string /\
    reads (Rv g (DNormal (6 / 1000) (2 / 10000)) None)%R (L * C * D) w xs1 w1 /\
    reads (Rv (g + 1) (DNormal (5 / 100) (2 / 10000)) None)%R (L * C * D) w1 xs2 w2 /\
    reads (Rv (g + 2) (DNormal (34 / 10) (4 / 1000)) None)%R (L * C * D) w2 xs3 w3 /\
    reads (Rv (g + 3) (DNormal (21 / 100) (5 / 1000)) None)%R (L * C * D) w3 xs4 w'.
Proof.
  intros R0 g m D C L w lats w' Em E. injection Em as <-. cbn [mc_mdl] in E. unfold gen_latents in E. cbn [lm_vars] in E.
  assert (NL : neutral_laws (V := R)) by (split; cbn; intros; [rewrite RMicromega.Q2R_0|rewrite RMicromega.Q2R_1]; ring).
  cbn [foldM fst snd] in E.
  apply bind_ok in E as (d1 & w1 & E1 & E). apply bind_ok in E1 as (a1 & w1' & G1 & E1). injection E1 as <- <-.
  apply bind_ok in E as (d2 & w2 & E2 & E). apply bind_ok in E2 as (a2 & w2' & G2 & E2). injection E2 as <- <-.
  apply bind_ok in E as (d3 & w3 & E3 & E). apply bind_ok in E3 as (a3 & w3' & G3 & E3). injection E3 as <- <-.
  apply bind_ok in E as (d4 & w4 & E4 & E). apply bind_ok in E4 as (a4 & w4' & G4 & E4). injection E4 as <- <-.
  injection E as <- <-.
  assert (A1 := fun r q => dev_only_gen _ Scaling r D C L w a1 w1' NL q G1).
  assert (A2 := fun r q => dev_only_gen _ Scaling r D C L w1' a2 w2' NL q G2).
  assert (A3 := fun r q => dev_only_gen _ Scaling r D C L w2' a3 w3' NL q G3).
  assert (A4 := fun r q => dev_only_gen _ Scaling r D C L w3' a4 w4' NL q G4).
  destruct (A1 (Rv g (DNormal (Q2R (6 # 1000)) (Q2R (2 # 10000))) None)) as (xs1 & -> & R1); [repeat split|].
  destruct (A2 (Rv (g + 1) (DNormal (Q2R (5 # 100)) (Q2R (2 # 10000))) None)) as (xs2 & -> & R2); [repeat split|].
  destruct (A3 (Rv (g + 2) (DNormal (Q2R (34 # 10)) (Q2R (4 # 1000))) None)) as (xs3 & -> & R3); [repeat split|].
  destruct (A4 (Rv (g + 3) (DNormal (Q2R (21 # 100)) (Q2R (5 # 1000))) None)) as (xs4 & -> & R4); [repeat split|].
  exists xs1, xs2, xs3, xs4, w1', w2', w3'. split; [reflexivity|].
  split; [exact R1|]. split; [exact R2|]. split; [exact R3|exact R4].
Qed.
Print Assumptions C66_latent_values.

(** Two devices, one hot; the second time twice the first. *)
Definition ex_pts : list sample_pt := [Pt (6 / 1000) (5 / 100) (34 / 10) (21 / 100) 300 1; Pt (6 / 1000) (5 / 100) (34 / 10) (21 / 100) 400 1]%R.
Lemma ex_pts_physical : Forall physical ex_pts.
Proof. repeat constructor; cbn; lra. Qed.
Example C66_example : exists m f1 f2,
  jedec_nbti_mdl 0 = Ok m /\
  call_or_loop (lm_eqn (mc_mdl m)) (mech_args m (PArr (Nd [1; 1; 2] [100; 100]%R)) (conds_of [1; 1; 2] ex_pts) (lats_of [1; 1; 2] ex_pts)) 1 1 2 (fun _ => 0) =
    (Ok (PArr (Nd [1; 1; 2] [f1; f2])), fun _ => 0) /\ (0 < f2 < f1)%R.
Proof.
  do 3 eexists. split; [reflexivity|]. split.
  - rewrite (C66_law 0 _ [1; 1; 2] ex_pts); [cbn [ex_pts List.combine map]; reflexivity|reflexivity|discriminate|reflexivity|apply ex_pts_physical|reflexivity|].
    intros t [<-|[<-|[]]]; lra.
  - cbn [fst snd]. unfold shift_of. cbn [s_a0 s_e s_alpha s_n s_temp s_vdd]. split.
    + rewrite <- (law_zero (6 / 1000) (5 / 100) 400 1 (34 / 10) (21 / 100)). apply law_time; lra.
    + apply law_temp; lra.
Qed.
