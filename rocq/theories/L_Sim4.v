(** Lemmas about simulations: measurements do not disturb the rest. *)
From Coq Require Import QArith Lia.
From Verif Require Import M_Base M_Num M_Nd M_RandVar M_Latent M_Time M_TestSpec M_Device M_Report M_Env M_Sim
  S_TestSpec S_Device S_Env S_Sim L_Base L_Nd L_Latent L_Device L_Device2 L_Device3 L_Env L_Env2 L_Sim L_Sim2 L_Sim3.
Open Scope nat_scope.

Section L.
Context {V : Type} `{NumOps V} `{Rng V} `{HashOrd}.
Implicit Types (e : env V) (d : device V) (st : simstate V) (rep : report V).

(** ** Computations that draw nothing *)
Definition still {A} (m : M A) : Prop := forall w, snd (m w) = w.
Lemma still_ret {A} (a : A) : still (ret a). Proof. intros w. reflexivity. Qed.
Lemma still_raise {A} ex : still (raise (A := A) ex). Proof. intros w. reflexivity. Qed.
Lemma still_lift {A} (r : res A) : still (lift r). Proof. intros w. reflexivity. Qed.
Lemma still_bind {A B} (m : M A) (f : A -> M B) : still m -> (forall a, still (f a)) -> still (bind m f).
Proof. intros Hm Hf w. unfold bind. specialize (Hm w). destruct (m w) as [[a|ex] w1]; cbn in *; subst; auto. apply Hf. Qed.
Lemma still_bind_ok {A B} (m : M A) (f : A -> M B) : still m -> (forall w a w', m w = (Ok a, w') -> still (f a)) -> still (bind m f).
Proof. intros Hm Hf w. unfold bind. specialize (Hm w). destruct (m w) as [[a|ex] w1] eqn:E; cbn in *; subst; auto. eapply Hf; eauto. Qed.
Lemma still_foldM {A S} (f : S -> A -> M S) l : (forall s x, In x l -> still (f s x)) -> forall s, still (foldM f l s).
Proof.
  induction l as [|x l IH]; intros Hf s; cbn [foldM]; [apply still_ret|].
  apply still_bind; [apply Hf; now left|]. intros. apply IH. intros. apply Hf. now right.
Qed.
Lemma still_mapM {A B} (f : A -> M B) l : (forall x, still (f x)) -> still (mapM f l).
Proof. intros Hf. induction l; cbn [mapM]; [apply still_ret|]. repeat (apply still_bind; auto; intros). apply still_ret. Qed.
Lemma still_try {A} (m h : M A) : still m -> still h -> still (try_value_error m h).
Proof.
  intros Hm Hh w. unfold try_value_error. specialize (Hm w). destruct (m w) as [[a|ex] w1]; cbn in *; subst; auto.
  destruct ex; auto.
Qed.

Lemma sample_still r n : fixed r -> still (sample (V := V) r n).
Proof. intros [v E] w. unfold sample. rewrite E. reflexivity. Qed.
Lemma call_still (f : eqn V) args : draws_nothing f -> still (call f args).
Proof. intros D w. unfold call. destruct (_ && _); [apply D|reflexivity]. Qed.
Lemma call_or_loop_still (f : eqn V) args L C D : draws_nothing f -> still (call_or_loop f args L C D).
Proof.
  intros Dn. apply still_try; [now apply call_still|]. unfold loop_compute. apply still_bind; [|intros; apply still_ret].
  apply still_mapM. intros idx. unfold loop_elem. destruct idx as [|i [|j [|k [|? ?]]]]; try apply still_raise.
  apply still_bind; [apply still_lift|]. intros. apply still_bind; [now apply call_still|]. intros. apply still_lift.
Qed.

Definition fixed_mdl (m : emdl V) : Prop := fixed (em_bat m) /\ fixed (em_chp m) /\ fixed (em_dev m).
Lemma vrtn_fixed e cond m : fixed_env e -> vrtn_mdl e cond = Ok m -> fixed_mdl m.
Proof.
  intros F E. unfold vrtn_mdl in E. destruct (dget e (cond ++ "_var")) as [[x|i]|] eqn:Eg; try discriminate.
  - injection E as ->. apply dget_In in Eg. exact (F _ _ Eg).
  - cbn in E. injection E as <-. unfold fixed_mdl, fixed. cbn. repeat split; eexists; reflexivity.
Qed.
Lemma gen_batch_still m v : fixed_mdl m -> still (gen_batch m v).
Proof. intros (F & _ & _). apply still_bind; [now apply sample_still|]. intros. apply still_lift. Qed.
Lemma gen_chp_still m b C L : fixed_mdl m -> still (gen_chp m b C L).
Proof.
  intros (_ & F & _). apply still_bind; [apply still_lift|intros]. apply still_bind; [apply still_lift|intros].
  apply still_bind; [now apply sample_still|]. intros. apply still_lift.
Qed.
Lemma gen_dev_still m b D : fixed_mdl m -> still (gen_dev m b D).
Proof.
  intros (_ & _ & F). apply still_bind; [apply still_lift|intros].
  apply still_bind; [now apply sample_still|]. intros. destruct (nshape b) as [|? [|? ?]]; try apply still_raise. apply still_lift.
Qed.

Lemma still_vrtn {B} e cond (f : emdl V -> M B) : fixed_env e -> (forall m, fixed_mdl m -> still (f m)) -> still (bind (lift (vrtn_mdl e cond)) f).
Proof.
  intros F Hf. apply still_bind_ok; [apply still_lift|]. intros w a w' E. apply lift_ok in E as [E _]. apply Hf. eapply vrtn_fixed; eauto.
Qed.

Lemma gen_env_still e base prms info dev stress nc nl : fixed_env e -> still (gen_env_cond_vals e base prms info dev stress nc nl).
Proof.
  intros F. unfold gen_env_cond_vals. apply still_bind; [|intros bc; apply still_bind; [|intros pc]].
  - unfold gen_chip_conds. apply still_foldM. intros s x _. apply still_vrtn; auto. intros m Fm.
    apply still_bind; [now apply gen_batch_still|intros]. apply still_bind; [now apply gen_chp_still|intros]. apply still_ret.
  - destruct prms; [|apply still_ret]. destruct info; [apply still_ret|apply still_raise].
  - apply still_foldM. intros s x _. apply still_bind; [|intros; apply still_ret].
    destruct (match dev with Some d => dget d x | None => None end).
    + unfold gen_prm_conds. apply still_foldM. intros s' c _. apply still_vrtn; auto. intros m Fm.
      apply still_bind; [apply still_lift|intros]. apply still_bind; [apply still_lift|intros].
      apply still_bind; [now apply gen_dev_still|intros]. apply still_ret.
    + unfold gen_sensor_conds. apply still_vrtn; auto. intros m Fm.
      apply still_bind; [apply still_lift|intros]. apply still_bind; [apply still_lift|intros].
      apply still_bind; [now apply gen_chp_still|intros]. apply still_bind; [now apply gen_dev_still|intros]. apply still_ret.
Qed.

Lemma measure_still e prm vals : fixed_env e -> still (measure_with e prm vals).
Proof.
  intros F. unfold measure_with. apply still_bind_ok; [apply still_lift|]. intros w f w' E. apply lift_ok in E as [E _].
  destruct f as [i|]; [|apply still_raise]. unfold measure. apply still_bind.
  - destruct (in_err i) as [r|] eqn:Er; [|apply still_ret]. apply still_bind; [|intros; apply still_ret]. apply sample_still.
    unfold meas_instm in E. destruct (dmem e "meas_instm"); [discriminate|].
    destruct (dget e (prm ++ "_instm")) as [[x|y]|] eqn:Eg; try discriminate.
    + injection E as ->. apply dget_In in Eg. specialize (F _ _ Eg). cbn in F. now rewrite Er in F.
    + destruct (String.eqb _ _); [discriminate|]. injection E as <-. discriminate.
  - intros v1. apply still_bind; [apply still_lift|intros]. apply still_ret.
Qed.

Lemma measure_prm_still e d i conds sc st rep prm k : fixed_env e -> quiet_device d ->
  still (measure_prm e d i conds sc st rep prm k).
Proof.
  intros F Q. unfold measure_prm. apply still_bind.
  - destruct (dget (st_prm st) prm) as [cur|]; destruct (dget d prm) as [[p|c]|] eqn:Ed; try apply still_raise;
      try (apply dget_In in Ed; specialize (Q _ _ Ed); cbn in Q).
    + apply still_bind; [apply still_lift|intros]. apply still_bind; [apply still_lift|intros]. apply still_bind; [|intros; apply still_lift].
      unfold cond_shifted. apply still_bind; [apply still_lift|intros]. apply still_bind; [apply still_lift|intros].
      apply still_bind; [apply still_lift|intros]. apply still_bind; [apply call_or_loop_still; apply Q|intros]. apply call_or_loop_still. apply Q.
    + apply still_bind; [apply still_lift|intros]. apply still_bind; [apply still_lift|intros]. apply still_bind; [|intros; apply still_lift].
      unfold circ_vals. apply still_bind; [now apply call_still|intros []]; try apply still_raise. apply still_lift.
    + destruct (dmem sc prm); [|apply still_raise].
      apply still_bind; [apply still_lift|intros]. apply still_bind; [apply still_lift|intros]. apply still_lift.
  - intros rows. apply still_bind; [now apply measure_still|intros]. apply still_ret.
Qed.

Lemma meas_step_still e d i (m : meas_spec V) st rep : fixed_env e -> quiet_device d -> still (meas_step e d i m st rep).
Proof.
  intros F Q. unfold meas_step. apply still_bind; [now apply gen_env_still|intros]. apply still_bind; [|intros; apply still_ret].
  apply still_foldM. intros s x _. apply still_bind; [now apply measure_prm_still|intros]. apply still_ret.
Qed.

(** ** Step numbers *)
Definition renum (j : nat) (r : row V) : row V := Row (r_param r) j (r_dev r) (r_chp r) (r_lot r) (r_time r) (r_val r).
Lemma renum_same j r : same_row r (renum j r).
Proof. unfold same_row, renum. cbn. auto 8. Qed.

Lemma zip_rows_renum prm i j time : forall dev chp lot (vals : list V),
  zip_rows prm j time dev chp lot vals = map (renum j) (zip_rows prm i time dev chp lot vals).
Proof. induction dev as [|x dev IH]; intros [|y chp] [|z lot] [|v vals]; cbn [zip_rows map]; auto. rewrite IH. reflexivity. Qed.
Lemma format_renum v prm t i j b : format_measurements (V := V) v prm t j b =
  rbind (format_measurements v prm t i b) (fun rows => Ok (map (renum j) rows)).
Proof.
  unfold format_measurements. destruct (match v with PDict _ => Err IndexError | _ => to_nd v end) as [a|]; cbn [rbind]; auto.
  destruct (meas_dims (nshape a)) as [[[nl nc] nv]|]; cbn [rbind]; auto.
  destruct (nreshape _ a) as [b'|]; cbn [rbind]; auto. f_equal. destruct b.
  - apply zip_rows_renum.
  - rewrite map_map. reflexivity.
Qed.

Lemma info_same rep rep2 : same_info rep rep2 -> info_of rep2 = info_of rep.
Proof. intros (A & B & C). unfold info_of. congruence. Qed.

Lemma measure_prm_renum e d i j conds sc st rep rep2 prm k w g w' : same_info rep rep2 ->
  measure_prm e d i conds sc st rep prm k w = (Ok g, w') ->
  measure_prm e d j conds sc st rep2 prm k w = (Ok (map (renum j) g), w').
Proof.
  intros (R1 & R2 & R3) E. unfold measure_prm in *. rewrite R1, R2. apply bind_ok in E as (rows & w1 & E1 & E). apply bind_ok in E as (vals & w2 & E2 & E). apply ret_ok in E as [-> ->].
  erewrite (bind_eval _ _ w (map (renum j) rows) w1).
  - rewrite map_map. cbn [renum r_val]. change (map (fun x : row V => r_val x) rows) with (map r_val rows). rewrite (bind_eval _ _ _ _ _ E2). unfold ret. do 2 f_equal.
    rewrite map_map. clear E1 E2. revert vals. induction rows as [|r rows IH]; intros [|v vals]; cbn [map combine]; auto. f_equal; auto.
  - destruct (dget (st_prm st) prm) as [cur|]; destruct (dget d prm) as [[p|c]|]; try discriminate E1.
    + apply bind_lift_ok in E1 as (cs & A1 & E1). apply bind_lift_ok in E1 as (ls & A2 & E1). apply bind_ok in E1 as (v & w3 & A3 & E1). apply lift_ok in E1 as [E1 ->].
      erewrite (bind_eval (lift _)) by (unfold lift; rewrite A1; reflexivity). erewrite (bind_eval (lift _)) by (unfold lift; rewrite A2; reflexivity).
      rewrite (bind_eval _ _ _ _ _ A3). unfold lift. rewrite (format_renum _ _ _ i j), E1. reflexivity.
    + apply bind_lift_ok in E1 as (cs & A1 & E1). apply bind_lift_ok in E1 as (ls & A2 & E1). apply bind_ok in E1 as (v & w3 & A3 & E1). apply lift_ok in E1 as [E1 ->].
      erewrite (bind_eval (lift _)) by (unfold lift; rewrite A1; reflexivity). erewrite (bind_eval (lift _)) by (unfold lift; rewrite A2; reflexivity).
      rewrite (bind_eval _ _ _ _ _ A3). unfold lift. rewrite (format_renum _ _ _ i j), E1. reflexivity.
    + destruct (dmem sc prm); [|discriminate]. apply bind_lift_ok in E1 as (cs & A1 & E1). apply bind_lift_ok in E1 as (v & A2 & E1). apply lift_ok in E1 as [E1 ->].
      erewrite (bind_eval (lift _)) by (unfold lift; rewrite A1; reflexivity). erewrite (bind_eval (lift _)) by (unfold lift; rewrite A2; reflexivity).
      unfold lift. rewrite (format_renum _ _ _ i j), E1. reflexivity.
Qed.

Lemma meas_fold_renum e d i j conds sc st rep rep2 l : same_info rep rep2 -> forall acc w rows w',
  foldM (fun acc (kv : string * nat) => (r <- measure_prm e d i conds sc st rep (fst kv) (snd kv) ;; ret (acc ++ r))%m) l acc w = (Ok rows, w') ->
  foldM (fun acc (kv : string * nat) => (r <- measure_prm e d j conds sc st rep2 (fst kv) (snd kv) ;; ret (acc ++ r))%m) l (map (renum j) acc) w
    = (Ok (map (renum j) rows), w').
Proof.
  intros S. induction l as [|kv l IH]; intros acc w rows w' E; cbn [foldM] in *.
  - apply ret_ok in E as [-> ->]. reflexivity.
  - apply bind_ok in E as (a & w1 & E1 & E). apply bind_ok in E1 as (g & w2 & E1 & E2). apply ret_ok in E2 as [-> ->].
    apply IH in E. rewrite map_app in E. erewrite bind_eval; [exact E|]. erewrite bind_eval; [|eapply measure_prm_renum; eauto]. reflexivity.
Qed.

Lemma summary_renum name kind i j dur a b (conds : dict V) :
  same_summary (summary_row name kind i dur a b conds) (summary_row name kind j dur a b conds).
Proof.
  unfold summary_row, dupdate.
  assert (G : forall l (c c' : dict (cell V)), same_summary c c' ->
    same_summary (fold_left (fun acc kv => dset acc (fst kv) (snd kv)) l c) (fold_left (fun acc kv => dset acc (fst kv) (snd kv)) l c')).
  { induction l as [|[k v] l IH]; intros c c' S; cbn [fold_left fst snd]; auto. apply IH. destruct S as [K G]. split.
    - rewrite !dkeys_dset. assert (dmem c' k = dmem c k) as ->; [|now rewrite K].
      destruct (dmem c k) eqn:E; [apply dmem_keys in E; rewrite <- K in E; now apply dmem_keys|].
      apply dmem_keys_false in E. rewrite <- K in E. now apply dmem_keys_false.
    - intros x Hx. rewrite !dget_dset. destruct (String.eqb k x); auto. }
  apply G. split; [reflexivity|]. intros x Hx. cbn [dget]. apply String.eqb_neq in Hx. rewrite Hx. reflexivity.
Qed.

Lemma step_renum e d i j x st rep rep2 w st1 rep1 w1 : same_info rep rep2 ->
  sim_step e d (st, rep) (i, x) w = (Ok (st1, rep1), w1) ->
  exists g c c', sim_step e d (st, rep2) (j, x) w =
      (Ok (st1, Report (rp_chps rep2) (rp_lots rep2) (rp_counts rep2) (rp_meas rep2 ++ map (renum j) g) (rp_sum rep2 ++ c')), w1) /\
    rep1 = Report (rp_chps rep) (rp_lots rep) (rp_counts rep) (rp_meas rep ++ g) (rp_sum rep ++ c) /\
    Forall (fun r => r_step r = i) g /\
    match x with SOther _ => c = [] /\ c' = [] | _ => exists y y', c = [y] /\ c' = [y'] /\ same_summary y y' end.
Proof.
  intros S E. pose proof S as (R1 & R2 & R3). destruct x as [m|s|o]; cbn [sim_step fst snd] in *.
  - apply meas_step_ok in E as (conds & rows & w2 & E1 & E2 & -> & ->). pose proof E2 as E3.
    apply meas_groups with (P := stamped i (st_elapsed st)) in E3 as (gs & Er & F); [|intros kv wa g wb _ Em; destruct kv; eapply measure_prm_stamp; eauto].
    eapply (meas_fold_renum e d i j conds (ms_conds m) st rep rep2) in E2; eauto.
    exists rows, [summary_row (ms_name m) "measure" i (TD 0) (st_elapsed st) (st_elapsed st) (ms_conds m)],
      [summary_row (ms_name m) "measure" j (TD 0) (st_elapsed st) (st_elapsed st) (ms_conds m)].
    split; [|split; [reflexivity|split]].
    + unfold meas_step. rewrite (info_same _ _ S). rewrite (bind_eval _ _ _ _ _ E1). cbn [map] in E2. rewrite (bind_eval _ _ _ _ _ E2). reflexivity.
    + subst rows. cbn [app]. apply Forall_concat. clear E1 E2. induction F; constructor; auto. apply Forall_forall. intros r Hr.
      apply H2 in Hr as (_ & Hr & _). exact Hr.
    + do 2 eexists. split; [reflexivity|]. split; [reflexivity|]. apply summary_renum.
  - apply stress_step_ok in E as (conds & st2 & w2 & y & E1 & E2 & E3 & -> & ->).
    exists [], [summary_row (ss_name s) "stress" i (TD (ss_dur s)) (TD y) (TD (y + ss_dur s)) (ss_conds s)],
      [summary_row (ss_name s) "stress" j (TD (ss_dur s)) (TD y) (TD (y + ss_dur s)) (ss_conds s)].
    split; [|split; [|split; [constructor|]]].
    + unfold stress_step. rewrite (info_same _ _ S). rewrite (bind_eval _ _ _ _ _ E1).
      assert (E4 : foldM (stress_prm conds rep2 (ss_dur s)) (deg_prms d) st w2 = (Ok st2, w1)).
      { rewrite <- E2. apply foldM_ext. intros s0 x wx _. unfold stress_prm. now rewrite R1, R2, R3. }
      rewrite (bind_eval _ _ _ _ _ E4). rewrite E3. cbn [add_time_td]. erewrite (bind_eval (lift _)) by reflexivity. cbn [sub_time_td].
      erewrite (bind_eval (lift _)) by reflexivity. cbn [map]. rewrite app_nil_r. unfold add_summary, ret. do 5 f_equal.
      replace (y + ss_dur s - ss_dur s)%Z with y by lia. reflexivity.
    + rewrite app_nil_r. reflexivity.
    + do 2 eexists. split; [reflexivity|]. split; [reflexivity|]. apply summary_renum.
  - apply ret_ok in E as [E ->]. injection E as -> ->. exists [], [], []. cbn [map]. rewrite !app_nil_r. destruct rep, rep2. cbn. auto.
Qed.

(** ** C42 *)
Lemma run_thinned e d : fixed_env e -> quiet_device d -> forall l l', thinned l l' ->
  forall i j st rep rep2 w st' rep' w', same_info rep rep2 ->
  run_steps e d i l st rep w = (Ok (st', rep'), w') ->
  exists rep2' rows rows' sums sums',
    run_steps e d j l' st rep2 w = (Ok (st', rep2'), w') /\
    rp_meas rep' = rp_meas rep ++ rows /\ rp_meas rep2' = rp_meas rep2 ++ rows' /\ tables_agree i j l l' rows rows' /\
    rp_sum rep' = rp_sum rep ++ sums /\ rp_sum rep2' = rp_sum rep2 ++ sums' /\ summaries_agree l l' sums sums'.
Proof.
  intros F Q l l' T. induction T as [|s l l' T IH|m l l' T IH]; intros i j st rep rep2 w st' rep' w' S E.
  - apply ret_ok in E as [E ->]. injection E as -> ->. exists rep2, [], [], [], []. rewrite !app_nil_r. repeat split; auto; constructor.
  - rewrite run_cons in E. apply bind_ok in E as ([st1 rep1] & w1 & E1 & E2). cbn [fst snd] in E2.
    eapply (step_renum e d i j) in E1 as (g & c & c' & E1 & -> & Fg & K); eauto.
    eapply (IH (Datatypes.S i) (Datatypes.S j) _ _ (Report (rp_chps rep2) (rp_lots rep2) (rp_counts rep2) (rp_meas rep2 ++ map (renum j) g) (rp_sum rep2 ++ c'))) in E2
      as (rep2' & rows & rows' & sums & sums' & E2 & A1 & A2 & A3 & A4 & A5 & A6); [|exact S].
    cbn [rp_meas rp_sum] in *. exists rep2', (g ++ rows), (map (renum j) g ++ rows'), (c ++ sums), (c' ++ sums').
    split; [rewrite run_cons; rewrite (bind_eval _ _ _ _ _ E1); exact E2|]. rewrite !app_assoc. do 2 (split; auto). split.
    + constructor; auto.
      * clear. induction g; constructor; auto.
      * clear. induction g; constructor; auto. apply renum_same.
    + split; auto. split; auto. destruct s as [m|s|o].
      * destruct K as (y & y' & -> & -> & K). constructor; auto. discriminate.
      * destruct K as (y & y' & -> & -> & K). constructor; auto. discriminate.
      * destruct K as (-> & ->). now constructor.
  - rewrite run_cons in E. apply bind_ok in E as ([st1 rep1] & w1 & E1 & E2). cbn [fst snd] in E2.
    pose proof (meas_step_still e d i m st rep F Q w) as Sw. cbn [sim_step fst snd] in E1. rewrite E1 in Sw. cbn [snd] in Sw. subst w1.
    assert (st1 = st) as -> by (apply meas_step_ok in E1 as (? & ? & ? & _ & _ & -> & _); auto).
    eapply (step_renum e d i j (SMeas m)) in E1 as (g & c & c' & _ & -> & Fg & (y & y' & -> & -> & K)); [|exact S].
    eapply (IH (Datatypes.S i) j) in E2 as (rep2' & rows & rows' & sums & sums' & E2 & A1 & A2 & A3 & A4 & A5 & A6); [|exact S].
    cbn [rp_meas rp_sum] in *. exists rep2', (g ++ rows), rows', ([y] ++ sums), sums'. rewrite !app_assoc.
    repeat split; auto; now constructor.
Qed.

(** Every longer test whose extra measurements do not raise also runs. *)
Lemma simulate_thinned e d l l' C L init w st' rep' w' : fixed_env e -> quiet_device d -> thinned l l' ->
  calc_samples_needed l' = calc_samples_needed l ->
  simulate e d l C L init w = (Ok (st', rep'), w') ->
  exists rep2', simulate e d l' C L init w = (Ok (st', rep2'), w') /\
    tables_agree 0 0 l l' (rp_meas rep') (rp_meas rep2') /\ summaries_agree l l' (rp_sum rep') (rp_sum rep2').
Proof.
  intros F Q T N E. unfold simulate in *. unfold report_init in *. rewrite N.
  assert (G : forall rep w0 st0, rp_meas rep = [] -> rp_sum rep = [] -> run_steps e d 0 l st0 rep w0 = (Ok (st', rep'), w') ->
    exists rep2', run_steps e d 0 l' st0 rep w0 = (Ok (st', rep2'), w') /\
    tables_agree 0 0 l l' (rp_meas rep') (rp_meas rep2') /\ summaries_agree l l' (rp_sum rep') (rp_sum rep2')).
  { intros rep w0 st0 M0 S0 E0. eapply (run_thinned e d F Q l l' T 0 0 st0 rep rep) in E0; [|repeat split].
    destruct E0 as (rep2' & rows & rows' & sums & sums' & A1 & A2 & A3 & A4 & A5 & A6 & A7). rewrite M0 in *. rewrite S0 in *. cbn [app] in *. subst. eauto. }
  destruct init as [st|]; [eapply G; eauto; reflexivity|].
  apply bind_ok in E as (r & w1 & E1 & E2).
  destruct (ir_report r) as [rep0|] eqn:Er; [|discriminate]. pose proof E1 as E1'.
  unfold gen_init_state in E1. cbn [rp_counts rp_chps rp_lots] in E1. apply bind_ok in E1 as ([s cnt] & w2 & E1 & E3). apply ret_ok in E3 as [-> ->].
  cbn [ir_report] in Er. injection Er as <-. eapply G in E2 as (rep2' & A1 & A2); [|reflexivity|reflexivity]. exists rep2'. split; auto.
  rewrite (bind_eval _ _ _ _ _ E1'). exact A1.
Qed.
End L.
