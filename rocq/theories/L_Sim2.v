(** Lemmas about the simulator: tables, hard failures, default mechanisms,
    measurements, sample counts. *)
From Coq Require Import QArith Lia Sorted.
From Verif Require Import M_Base M_Num M_Nd M_RandVar M_Latent M_Time M_TestSpec M_Device M_Report M_Env M_Sim
  S_TestSpec S_Device S_Sim L_Base L_Nd L_Latent L_Device L_Device2 L_Device3 L_Sim.
Open Scope nat_scope.

Section L.
Context {V : Type} `{NumOps V} `{Rng V} `{HashOrd}.
Implicit Types (e : env V) (d : device V) (st : simstate V) (rep : report V).

(** ** C41: the parameters and mechanisms of the state *)
Lemma stress_prm_matches conds rep dur st name (p : degprm V) w st' w' d :
  device_wf d -> dget d name = Some (PDeg p) -> matches d st ->
  stress_prm conds rep dur st (name, p) w = (Ok st', w') -> matches d st' /\ dkeys (st_prm st') = dkeys (st_prm st).
Proof.
  intros [W1 W2] Hp M E.
  apply stress_prm_ok in E as (n & mv & cs & m0 & ls & eq & w1 & times & i0 & r & A1 & A2 & A3 & A4 & A5 & A6 & A7 & A8 & A9 & ->).
  apply deg_get in A9 as (K & _); [|eauto]. split.
  - intros nm q Hq. destruct (M _ _ Hq) as (M1 & mv' & M2 & M3). cbn [st_prm st_mech]. rewrite dmem_dset, M1, orb_true_r. split; auto.
    destruct (String.eqb_spec name nm) as [->|N].
    + exists (snd r). rewrite dget_dset_eq. split; auto. congruence.
    + exists mv'. rewrite dget_dset_neq by auto. auto.
  - cbn [st_prm]. rewrite dkeys_dset. destruct (M _ _ Hp) as (-> & _). reflexivity.
Qed.

Lemma run_matches e d l : device_wf d -> forall i st rep w st' rep' w', matches d st ->
  run_steps e d i l st rep w = (Ok (st', rep'), w') -> matches d st' /\ dkeys (st_prm st') = dkeys (st_prm st).
Proof.
  intros W. induction l as [|x l IH]; intros i st rep w st' rep' w' M E.
  - apply ret_ok in E as [E ->]. injection E as -> ->. auto.
  - rewrite run_cons in E. apply bind_ok in E as ([st1 rep1] & w1 & E1 & E2). cbn [fst snd] in E2.
    assert (S : matches d st1 /\ dkeys (st_prm st1) = dkeys (st_prm st)).
    { destruct x as [m|s|o]; cbn [sim_step fst snd] in E1.
      - apply meas_step_ok in E1 as (conds & rows & w2 & _ & _ & -> & ->). auto.
      - apply stress_step_ok in E1 as (conds & st2 & w2 & x & _ & Ef & Ex & -> & ->).
        assert (X : matches d st2 /\ dkeys (st_prm st2) = dkeys (st_prm st)); [|exact X]. revert Ef.
        apply foldM_inv with (P := fun s' : simstate V => matches d s' /\ dkeys (st_prm s') = dkeys (st_prm st)); auto.
        intros s1 [name p] w3 s2 w4 Hin [M1 K1] Es. apply deg_prms_get in Hin; [|apply W].
        eapply stress_prm_matches in Es as [M2 K2]; eauto. split; auto. congruence.
      - apply ret_ok in E1 as [E1 ->]. injection E1 as -> ->. auto. }
    destruct S as [M1 K1]. apply IH in E2 as [M2 K2]; auto. split; auto. congruence.
Qed.

(** ** C43: the summary *)
Lemma summary_row_says name kind i dur start stop (conds : dict V) :
  (forall c, In c (dkeys conds) -> ~ In c columns) ->
  row_says (summary_row name kind i dur start stop conds) name kind i dur start stop.
Proof.
  intros P. unfold summary_row, row_says.
  assert (K : forall c, In c columns -> ~ In c (dkeys (map (fun kv : string * V => (fst kv, CNum (snd kv))) conds))).
  { intros c Hc Hin. unfold dkeys in Hin. rewrite map_map in Hin. cbn [fst] in Hin. exact (P c Hin Hc). }
  repeat split; rewrite dget_dupdate_other; try reflexivity; apply K; cbn; auto 10.
Qed.

Lemma run_summary e d l : forall i st rep w st' rep' w', plain_names l ->
  run_steps e d i l st rep w = (Ok (st', rep'), w') ->
  exists rows, rp_sum rep' = rp_sum rep ++ rows /\ summary_of i (st_elapsed st) l rows.
Proof.
  induction l as [|x l IH]; intros i st rep w st' rep' w' P E.
  - apply ret_ok in E as [E ->]. injection E as -> ->. exists []. rewrite app_nil_r. split; auto. constructor.
  - rewrite run_cons in E. apply bind_ok in E as ([st1 rep1] & w1 & E1 & E2). cbn [fst snd] in E2.
    apply IH in E2 as (rows & R1 & R2); [|intros s c Hs; apply (P s c); now right].
    assert (Px : forall c, In c (step_conds x) -> ~ In c columns) by (intros c; apply P; now left).
    destruct x as [m|s|o]; cbn [sim_step fst snd] in E1.
    + apply meas_step_ok in E1 as (conds & rws & w2 & _ & _ & -> & ->). cbn [add_summary add_measurements rp_sum] in R1.
      rewrite <- app_assoc in R1. eexists. split; [exact R1|]. cbn [app]. constructor; auto. apply summary_row_says; auto.
    + apply stress_step_ok in E1 as (conds & st2 & w2 & x & _ & Ef & Ex & -> & ->).
      apply stress_fold_same in Ef as (_ & Ef & _). rewrite <- Ef, Ex. cbn [add_summary rp_sum set_elapsed st_elapsed] in R1, R2.
      rewrite <- app_assoc in R1. eexists. split; [exact R1|]. cbn [app]. constructor; auto. apply summary_row_says; auto.
    + apply ret_ok in E1 as [E1 ->]. injection E1 as -> ->. exists rows. split; auto. constructor; auto.
Qed.

(** ** C44: the measurements *)
Lemma zip_rows_stamp prm stp time : forall dev chp lot (vals : list V) r,
  In r (zip_rows prm stp time dev chp lot vals) -> r_param r = prm /\ r_step r = stp /\ r_time r = time.
Proof.
  induction dev as [|x dev IH]; intros [|y chp] [|z lot] [|v vals] r Hin; cbn [zip_rows] in Hin; try contradiction.
  destruct Hin as [<-|Hin]; [now repeat split|]. eauto.
Qed.

Lemma format_stamp v prm t i b (rows : list (row V)) : format_measurements v prm t i b = Ok rows ->
  forall r, In r rows -> r_param r = prm /\ r_step r = i /\ r_time r = t.
Proof.
  unfold format_measurements. intros E. apply rbind_ok in E as (a & _ & E). apply rbind_ok in E as ([[nl nc] nv] & _ & E).
  apply rbind_ok in E as (b' & _ & E). injection E as <-. intros r Hin. destruct b.
  - eapply zip_rows_stamp; eauto.
  - apply in_map_iff in Hin as (x & <- & _). now repeat split.
Qed.

Lemma measure_prm_ok e d i conds sc st rep prm k w g w' :
  measure_prm e d i conds sc st rep prm k w = (Ok g, w') ->
  exists v b rows vals wa, format_measurements v prm (st_elapsed st) i b = Ok rows /\
    measure_with e prm (map r_val rows) wa = (Ok vals, w') /\
    g = map (fun rv => Row (r_param (fst rv)) (r_step (fst rv)) (r_dev (fst rv)) (r_chp (fst rv))
                           (r_lot (fst rv)) (r_time (fst rv)) (snd rv)) (combine rows vals).
Proof.
  unfold measure_prm. intros E. apply bind_ok in E as (rows & wa & E1 & E). apply bind_ok in E as (vals & wb & E2 & E).
  apply ret_ok in E as [-> ->].
  assert (X : exists v b, format_measurements v prm (st_elapsed st) i b = Ok rows).
  { destruct (dget (st_prm st) prm) as [cur|], (dget d prm) as [[p|c]|]; try discriminate E1.
    - do 2 mstep E1. mstep E1. apply lift_ok in E1 as [E1 ->]. eauto.
    - do 2 mstep E1. mstep E1. apply lift_ok in E1 as [E1 ->]. eauto.
    - destruct (dmem sc prm); [|discriminate]. do 2 mstep E1. apply lift_ok in E1 as [E1 ->]. eauto. }
  destruct X as (v & b & X). exists v, b, rows, vals, wa. auto.
Qed.

Lemma measure_prm_stamp e d i conds sc st rep prm k w g w' :
  measure_prm e d i conds sc st rep prm k w = (Ok g, w') -> stamped i (st_elapsed st) (prm, k) g.
Proof.
  intros E. apply measure_prm_ok in E as (v & b & rows & vals & wa & F & _ & ->). intros r Hin.
  apply in_map_iff in Hin as ([r0 x] & <- & Hin). apply in_combine_l in Hin. cbn [fst snd r_param r_step r_time].
  eapply format_stamp; eauto.
Qed.

(** The groups of a measurement step. *)
Lemma meas_groups e d i conds sc st rep (P : string * nat -> list (row V) -> Prop) l : forall acc w rows w',
  (forall kv w g w', In kv l -> measure_prm e d i conds sc st rep (fst kv) (snd kv) w = (Ok g, w') -> P kv g) ->
  foldM (fun acc (kv : string * nat) =>
             (r <- measure_prm e d i conds sc st rep (fst kv) (snd kv) ;; ret (acc ++ r))%m) l acc w = (Ok rows, w') ->
  exists gs, rows = acc ++ concat gs /\ Forall2 P l gs.
Proof.
  induction l as [|kv l IH]; intros acc w rows w' Hg E; cbn [foldM] in E.
  - apply ret_ok in E as [-> ->]. exists []. cbn. rewrite app_nil_r. auto.
  - apply bind_ok in E as (a & w1 & E1 & E). apply bind_ok in E1 as (g & w2 & E1 & E2). apply ret_ok in E2 as [-> ->].
    apply IH in E as (gs & -> & F); [|intros; eapply Hg; eauto; now right].
    exists (g :: gs). cbn [concat]. rewrite app_assoc. split; auto. constructor; auto. eapply Hg; eauto. now left.
Qed.

(** General form: [P] is a property of the groups of the measurement steps that
    holds in every state satisfying an invariant. *)
Lemma run_table e d (I : simstate V -> Prop) (group : nat -> tval -> string * nat -> list (row V) -> Prop) rep0
  (HS : forall i s st rep w st' rep' w', same_info rep0 rep -> I st -> stress_step e d i s st rep w = (Ok (st', rep'), w') -> I st')
  (HM : forall i m st rep w conds w1 kv w2 g w3, same_info rep0 rep -> I st ->
     gen_env_cond_vals e (ms_conds m) (PCounts (ms_counts m)) (Some (info_of rep)) (Some d) false 1 1 w = (Ok conds, w1) ->
     In kv (ms_counts m) -> measure_prm e d i conds (ms_conds m) st rep (fst kv) (snd kv) w2 = (Ok g, w3) ->
     group i (st_elapsed st) kv g) l :
  forall i st rep w st' rep' w', same_info rep0 rep -> I st ->
  run_steps e d i l st rep w = (Ok (st', rep'), w') ->
  (exists rows, rp_meas rep' = rp_meas rep ++ rows /\ table_of group i (st_elapsed st) l rows) /\ I st'.
Proof.
  induction l as [|x l IH]; intros i st rep w st' rep' w' Hr Hi E.
  - apply ret_ok in E as [E ->]. injection E as -> ->. split; auto. exists []. rewrite app_nil_r. split; auto. constructor.
  - rewrite run_cons in E. apply bind_ok in E as ([st1 rep1] & w1 & E1 & E2). cbn [fst snd] in E2.
    destruct x as [m|s|o]; cbn [sim_step fst snd] in E1.
    + apply meas_step_ok in E1 as (conds & rws & w2 & Eg & Ef & -> & ->).
      apply IH in E2 as ((rows & R1 & R2) & I'); [|exact Hr|exact Hi]. split; auto. cbn [add_summary add_measurements rp_meas] in R1.
      apply meas_groups with (P := group i (st_elapsed st)) in Ef as (gs & -> & F).
      * exists (concat gs ++ rows). rewrite R1. cbn [app]. rewrite app_assoc. split; auto. now constructor.
      * intros kv w3 g w4 Hin Em. eapply HM; eauto.
    + assert (I1 : I st1) by (eapply HS; eauto).
      apply stress_step_ok in E1 as (conds & st2 & w2 & x & _ & Ef & Ex & -> & ->).
      apply IH in E2 as ((rows & R1 & R2) & I'); auto. split; auto.
      apply stress_fold_same in Ef as (_ & Ef & _). rewrite <- Ef, Ex. cbn [add_summary rp_meas set_elapsed st_elapsed] in R1, R2.
      exists rows. split; auto. now constructor.
    + apply ret_ok in E1 as [E1 ->]. injection E1 as -> ->. apply IH in E2 as ((rows & R1 & R2) & I'); auto. split; auto.
      exists rows. split; auto. now constructor.
Qed.

Lemma run_stamped e d l i st rep w st' rep' w' :
  run_steps e d i l st rep w = (Ok (st', rep'), w') ->
  exists rows, rp_meas rep' = rp_meas rep ++ rows /\ table_of stamped i (st_elapsed st) l rows.
Proof.
  intros E. eapply run_table with (I := fun _ => True) (group := stamped) (rep0 := rep) in E as [X _]; auto.
  - intros. destruct kv. cbn [fst snd] in *. eapply measure_prm_stamp; eauto.
  - now repeat split.
Qed.

(** Reading a table: where a row comes from. *)
Lemma time_after_nil t : time_after (V := V) t [] t.
Proof. right. split; auto. Qed.

Lemma time_after_cons t (x : step V) t1 l t2 :
  (match x with SStrs s => exists y, t = TD y /\ t1 = TD (y + ss_dur s) | _ => t1 = t end) ->
  time_after t1 l t2 -> time_after t (x :: l) t2.
Proof.
  unfold time_after, stress_time. cbn [map total].
  destruct x as [m|s|o]; cbn [step_time].
  - intros -> [(y & -> & ->)|(-> & N)]; [left; eauto|right]. split; auto. intros s [F|Hin]; [discriminate|]. exact (N s Hin).
  - intros (y & -> & ->) [(z & Q & ->)|(-> & N)]; left; exists y; split; auto.
    + injection Q as <-. f_equal. lia.
    + assert (Z : total (map step_time l) = 0%Z); [|rewrite Z; f_equal; lia].
      clear -N. induction l as [|x r IH]; auto. cbn [map total]. rewrite IH by (intros s Hin; apply (N s); now right).
      destruct x; auto. destruct (N s); now left.
  - intros -> [(y & -> & ->)|(-> & N)]; [left; eauto|right]. split; auto. intros s [F|Hin]; [discriminate|]. exact (N s Hin).
Qed.

Lemma table_row i t l (rows : list (row V)) : table_of stamped i t l rows -> forall r, In r rows ->
  exists l1 m l2, l = l1 ++ SMeas m :: l2 /\ r_step r = i + length l1 /\ time_after t l1 (r_time r) /\
    In (r_param r) (dkeys (ms_counts m)).
Proof.
  induction 1 as [i t|i t o l rs Ht IH|i t m l gs rs F Ht IH|i t s l rs Ht IH]; intros r Hin.
  - destruct Hin.
  - destruct (IH _ Hin) as (l1 & m & l2 & -> & A & B & C). exists (SOther o :: l1), m, l2. repeat split; auto.
    + cbn [length]. lia.
    + now apply time_after_cons with t.
  - apply in_app_iff in Hin as [Hin|Hin].
    + apply in_concat in Hin as (g & Hg & Hr). exists [], m, l. clear IH Ht.
      assert (X : exists kv, In kv (ms_counts m) /\ stamped i t kv g).
      { revert Hg. induction F as [|kv g' ks gs' P F IH]; [intros []|]. intros [<-|Hg]; [exists kv; split; auto; now left|].
        destruct (IH Hg) as (kv' & I1 & I2). exists kv'. split; auto. now right. }
      destruct X as (kv & Hk & St). destruct (St r Hr) as (S1 & S2 & S3). split; auto. rewrite S2, S3. cbn [length].
      split; [lia|]. split; [apply time_after_nil|]. rewrite S1. now apply in_map.
    + destruct (IH _ Hin) as (l1 & m' & l2 & -> & A & B & C). exists (SMeas m :: l1), m', l2. repeat split; auto.
      * cbn [length]. lia.
      * now apply time_after_cons with t.
  - destruct (IH _ Hin) as (l1 & m & l2 & -> & A & B & C). exists (SStrs s :: l1), m, l2. repeat split; auto.
    + cbn [length]. lia.
    + eapply time_after_cons; eauto; cbn; eauto.
Qed.

Lemma table_sorted i t l (rows : list (row V)) : table_of stamped i t l rows ->
  StronglySorted (fun a b => r_step a <= r_step b) rows.
Proof.
  intros Ht.
  assert (G : forall i t l (rows : list (row V)), table_of stamped i t l rows -> forall r, In r rows -> i <= r_step r).
  { intros i' t' l' rows' Ht' r Hin. destruct (table_row _ _ _ _ Ht' _ Hin) as (l1 & m & l2 & _ & -> & _). lia. }
  induction Ht as [i t|i t o l rs Ht IH|i t m l gs rs F Ht IH|i t s l rs Ht IH]; auto; [constructor|].
  assert (S : forall r, In r (concat gs) -> r_step r = i).
  { intros r Hin. apply in_concat in Hin as (g & Hg & Hr). clear IH Ht. induction F as [|kv g' ks gs' P F IHF]; [destruct Hg|].
    destruct Hg as [->|Hg]; auto. now apply (P r). }
  induction (concat gs) as [|r c IHc]; auto. cbn [app]. constructor.
  - apply IHc. intros. apply S. now right.
  - apply Forall_forall. intros y Hy. rewrite (S r) by now left. apply in_app_iff in Hy as [Hy|Hy].
    + rewrite (S y) by now right. lia.
    + apply (G _ _ _ _ Ht) in Hy. lia.
Qed.

(** ** C29: hard failures are permanent *)
Lemma stress_step_latched e d i s st rep w st' rep' w' name nm mm a :
  device_wf d -> has_mech d name nm mm -> mc_kind mm = KFail -> mech_val st name nm (PArr a) ->
  stress_step e d i s st rep w = (Ok (st', rep'), w') ->
  exists a', mech_val st' name nm (PArr a') /\ under (nshape a) (nshape a') /\
    forall idx' idx, inside (nshape a') idx' -> shows (nshape a) idx' idx ->
      neqb (aget a idx) (mc_unitary mm) = false -> aget a' idx' = aget a idx.
Proof.
  intros W Hm K (mv & M1 & M2) E.
  apply stress_step_mech with (name := name) (nm := nm) (mm := mm) in E
    as (n & cs & ls & l & v & t & u & t' & x & wa & wb & wc & wd & C1 & C3 & C4 & (mv' & N1 & N2) & C6 & C7 & C8 & C9 & C10); auto.
  rewrite M1 in N1. injection N1 as <-. rewrite M2 in N2. injection N2 as <-.
  apply fail_latched in C9 as (a' & -> & U & G); auto. exists a'. auto.
Qed.

Lemma run_latched e d l name nm mm : device_wf d -> has_mech d name nm mm -> mc_kind mm = KFail ->
  forall i st rep w st' rep' w' a, mech_val st name nm (PArr a) ->
  run_steps e d i l st rep w = (Ok (st', rep'), w') ->
  exists a', mech_val st' name nm (PArr a') /\ under (nshape a) (nshape a') /\
    forall idx' idx, inside (nshape a') idx' -> shows (nshape a) idx' idx ->
      neqb (aget a idx) (mc_unitary mm) = false -> aget a' idx' = aget a idx.
Proof.
  intros W Hm K. induction l as [|x l IH]; intros i st rep w st' rep' w' a Hv E.
  - apply ret_ok in E as [E ->]. injection E as -> ->. exists a. split; auto. split; [apply under_refl|].
    intros idx' idx Hi Hs _. f_equal. apply (shows_bproj _ (nshape a)) in Hs; [|apply under_refl|exact Hi].
    now rewrite bproj_same in Hs.
  - rewrite run_cons in E. apply bind_ok in E as ([st1 rep1] & w1 & E1 & E2). cbn [fst snd] in E2.
    destruct x as [m|s|o]; cbn [sim_step fst snd] in E1.
    + apply meas_step_ok in E1 as (conds & rws & w2 & _ & _ & -> & ->). eauto.
    + apply stress_step_latched with (name := name) (nm := nm) (mm := mm) (a := a) in E1 as (a1 & V1 & U1 & G1); auto.
      apply IH with (a := a1) in E2 as (a2 & V2 & U2 & G2); auto. exists a2. split; auto.
      pose proof (under_trans _ _ _ U1 U2) as U. split; auto.
      intros idx' idx Hi Hs Hf. pose proof Hs as Hs'.
      apply (shows_bproj _ (nshape a2)) in Hs'; auto.
      assert (B : bproj (nshape a) (bproj (nshape a1) idx') = idx).
      { rewrite bproj_comp; auto. pose proof (valid_length _ _ Hi) as Ln. pose proof (under_len _ _ U2). lia. }
      assert (Vi : valid (nshape a1) (bproj (nshape a1) idx')) by (eapply bproj_valid; eauto).
      assert (X : aget a1 (bproj (nshape a1) idx') = aget a idx).
      { apply G1; auto. apply (shows_bproj _ (nshape a1)); auto. }
      rewrite (G2 idx' (bproj (nshape a1) idx')); auto.
      * apply (shows_bproj _ (nshape a2)); auto.
      * now rewrite X.
    + apply ret_ok in E1 as [E1 ->]. injection E1 as -> ->. eauto.
Qed.

(** ** C31: mechanisms whose equation takes no time *)
Lemma run_no_time e d l name nm mm s : device_wf d -> has_mech d name nm mm -> ~ takes_time (lm_eqn (mc_mdl mm)) ->
  In (SStrs s) l -> forall i st rep w r w', run_steps e d i l st rep w <> (Ok r, w').
Proof.
  intros W Hm T. induction l as [|x l IH]; intros Hin i st rep w [st' rep'] w' E; [destruct Hin|].
  rewrite run_cons in E. apply bind_ok in E as ([st1 rep1] & w1 & E1 & E2). cbn [fst snd] in E2.
  destruct Hin as [->|Hin]; [|eapply IH; eauto]. cbn [sim_step fst snd] in E1.
  apply stress_step_mech with (name := name) (nm := nm) (mm := mm) in E1
    as (n & cs & ls & l' & v & t & u & t' & x & wa & wb & wc & wd & C1 & C3 & C4 & _ & C6 & C7 & C8 & C9 & C10); auto.
  eapply mech_deg_no_time_ok; eauto.
Qed.

Lemma simulate_no_time e d l chps lots init name nm mm s w r w' : device_wf d -> has_mech d name nm mm -> ~ takes_time (lm_eqn (mc_mdl mm)) ->
  In (SStrs s) l -> simulate e d l chps lots init w <> (Ok r, w').
Proof.
  intros W Hm T Hin E. unfold simulate in E. destruct init.
  - eapply run_no_time; eauto.
  - apply bind_ok in E as (ir & w1 & _ & E). destruct (ir_report ir); [|discriminate]. eapply run_no_time; eauto.
Qed.

(** The exception itself: the mechanism is the first of its parameter. *)
Lemma stress_no_time_raises conds rep dur st name (p : degprm V) nm mm ms n mv cs m0 ls l a w :
  dget (rp_counts rep) name = Some n -> dget (st_mech st) name = Some mv -> dget conds name = Some cs ->
  dget (st_mech0 st) name = Some m0 -> dget (st_lat st) name = Some ls ->
  dp_mechs p = (nm, mm) :: ms -> mc_kind mm = KDeg -> ~ takes_time (lm_eqn (mc_mdl mm)) ->
  dget mv nm = Some (PArr a) -> dmem m0 nm = true -> dget ls nm = Some (PDict l) ->
  stress_prm conds rep dur st (name, p) w = (Err TypeError, w).
Proof.
  intros A1 A2 A3 A4 A5 Hp K T B1 B2 B3. unfold stress_prm. cbn [fst snd].
  unfold dgetE. rewrite A1, A2, A3, A4, A5. do 5 (erewrite (bind_eval (lift _)) by reflexivity).
  apply bind_eval_err. unfold prm_equiv_times. rewrite Hp. cbn [foldM]. apply bind_eval_err. cbn [fst snd].
  unfold dgetE. apply dmem_Some in B2 as (x & B2). rewrite B1, B2, B3.
  do 2 (erewrite (bind_eval (lift _)) by reflexivity). cbn [rbind as_dict]. erewrite (bind_eval (lift _)) by reflexivity.
  apply bind_eval_err. now apply mech_equiv_no_time.
Qed.

Lemma stress_step_raises e d i s st rep w conds w1 pre x post st1 w2 ex w3 :
  gen_env_cond_vals e (ss_conds s) (PList (map fst (deg_prms d))) (Some (info_of rep)) (Some d) true 1 1 w = (Ok conds, w1) ->
  deg_prms d = pre ++ x :: post ->
  foldM (stress_prm conds rep (ss_dur s)) pre st w1 = (Ok st1, w2) ->
  stress_prm conds rep (ss_dur s) st1 x w2 = (Err ex, w3) ->
  stress_step e d i s st rep w = (Err ex, w3).
Proof.
  intros G D F E. unfold stress_step. rewrite (bind_eval _ _ _ _ _ G). apply bind_eval_err.
  rewrite D, foldM_app, (bind_eval _ _ _ _ _ F). cbn [foldM]. now apply bind_eval_err.
Qed.

(** ** C49: numeric times *)
Lemma stress_numeric e d i s st rep w q r w' : st_elapsed st = TN q ->
  stress_step e d i s st rep w <> (Ok r, w').
Proof.
  intros T E. destruct r. apply stress_step_ok in E as (conds & st1 & w1 & x & _ & Ef & Ex & _).
  apply stress_fold_same in Ef as (_ & Ef & _). congruence.
Qed.

Lemma stress_numeric_raises e d i s st rep w q conds w1 st1 w2 : st_elapsed st = TN q ->
  gen_env_cond_vals e (ss_conds s) (PList (map fst (deg_prms d))) (Some (info_of rep)) (Some d) true 1 1 w = (Ok conds, w1) ->
  foldM (stress_prm conds rep (ss_dur s)) (deg_prms d) st w1 = (Ok st1, w2) ->
  stress_step e d i s st rep w = (Err TypeError, w2).
Proof.
  intros T G F. unfold stress_step. rewrite (bind_eval _ _ _ _ _ G), (bind_eval _ _ _ _ _ F).
  apply stress_fold_same in F as (_ & F & _). rewrite F, T. reflexivity.
Qed.

Lemma init_time (d : device V) counts C L info t w r w' : gen_init_state d counts C L info t w = (Ok r, w') ->
  (forall q, t = TN q -> ~ q == 0 -> st_elapsed (ir_state r) = TN q)%Q /\
  (forall q, t = TN q -> q == 0 -> st_elapsed (ir_state r) = TD 0)%Q /\
  (forall us, t = TD us -> st_elapsed (ir_state r) = TD us).
Proof.
  intros E. assert (G : exists s, st_elapsed s = TD 0 /\ ir_state r = override_elapsed s t).
  { assert (D : forall devs C' L' w sc w', dev_init_state d devs C' L' w = (Ok sc, w') -> st_elapsed (fst sc) = TD 0).
    { intros devs C' L' w1 sc w2 Ed. unfold dev_init_state in Ed. apply bind_ok in Ed as (g & w3 & _ & Ed). apply ret_ok in Ed as [-> _]. reflexivity. }
    unfold gen_init_state in E. destruct counts as [[|kv devs]|], info as [ri|]; try discriminate E;
      try (destruct (augment _ _ _) as [devs1 rc]); apply bind_ok in E as (sc & w1 & Ed & E); apply ret_ok in E as [-> _]; eauto. }
  destruct G as (s & A & ->). unfold override_elapsed. split; [|split].
  - intros q -> N. destruct (Qeq_bool q 0) eqn:Eq; [|reflexivity]. apply Qeq_bool_iff in Eq. contradiction.
  - intros q -> N. apply Qeq_bool_iff in N. now rewrite N.
  - intros us ->. reflexivity.
Qed.
Lemma run_numeric e d l s : In (SStrs s) l -> forall i st rep w q r w', st_elapsed st = TN q ->
  run_steps e d i l st rep w <> (Ok r, w').
Proof.
  induction l as [|x l IH]; intros Hin i st rep w q r w' T E; [destruct Hin|].
  rewrite run_cons in E. apply bind_ok in E as ([st1 rep1] & w1 & E1 & E2). cbn [fst snd] in E2.
  destruct x as [m|s'|o]; cbn [sim_step fst snd] in E1.
  - apply meas_step_ok in E1 as (conds & rws & w2 & _ & _ & -> & ->). destruct Hin as [F|Hin]; [discriminate|]. eapply IH; eauto.
  - eapply stress_numeric; eauto.
  - apply ret_ok in E1 as [E1 ->]. injection E1 as -> ->. destruct Hin as [F|Hin]; [discriminate|]. eapply IH; eauto.
Qed.
End L.
