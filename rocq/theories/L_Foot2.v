(** How the devices age does not depend on what is measured on the way. *)
From Coq Require Import QArith.
From Verif Require Import M_Sim S_Foot L_Base L_Foot.
Open Scope nat_scope.

Section Foot2.
Context {V : Type} `{NumOps V} `{Rng V} `{HashOrd}.
Variable G : nat -> Prop.

Definition agree (w w' : world) : Prop := forall g, G g -> w g = w' g.

Lemma stress_prm_info conds (rep rep' : report V) dur st kv w : info_of rep = info_of rep' ->
  stress_prm conds rep dur st kv w = stress_prm conds rep' dur st kv w.
Proof.
  intros E. unfold info_of in E. injection E as E1 E2 E3. unfold stress_prm. rewrite E1, E2, E3. reflexivity.
Qed.
Lemma foldM_ext {A S} (f f' : S -> A -> M S) l : (forall s a w, f s a w = f' s a w) ->
  forall s w, foldM f l s w = foldM f' l s w.
Proof.
  intros E. induction l as [|a l IH]; intros s w; cbn [foldM]; [reflexivity|].
  unfold bind. rewrite E. destruct (f' s a w) as [[s1|x] w1]; [apply IH | reflexivity].
Qed.

Lemma stress_step_info e (d : device V) i s st rep w st1 rep1 w1 i' rep' :
  stress_step e d i s st rep w = (Ok (st1, rep1), w1) -> info_of rep = info_of rep' ->
  info_of rep1 = info_of rep /\
  exists rep1', stress_step e d i' s st rep' w = (Ok (st1, rep1'), w1) /\ info_of rep1' = info_of rep'.
Proof.
  intros E Ei. unfold stress_step in *. rewrite Ei in E.
  apply bind_ok in E as (conds & w2 & E1 & E). apply bind_ok in E as (st2 & w3 & E2 & E).
  apply bind_lift_ok in E as (t & Et & E). apply bind_lift_ok in E as (t0 & Et0 & E).
  unfold ret in E. injection E as <- <- <-. split; [reflexivity|].
  rewrite (bind_eval _ _ _ _ _ E1). rewrite (foldM_ext _ (stress_prm conds rep' (ss_dur s))) in E2
    by (intros; apply stress_prm_info, Ei).
  rewrite (bind_eval _ _ _ _ _ E2). unfold bind, lift. rewrite Et, Et0. unfold ret.
  eexists; split; reflexivity.
Qed.

Lemma stress_step_agree e (d : device V) i s st rep w st1 rep1 w1 i' rep' w' :
  (forall c, In c (dkeys (ss_conds s)) -> cond_in G e c) ->
  (forall n p, In (n, PDeg p) d -> ageing_in G p) ->
  stress_step e d i s st rep w = (Ok (st1, rep1), w1) -> info_of rep = info_of rep' -> agree w w' ->
  info_of rep1 = info_of rep /\
  exists rep1' w1', stress_step e d i' s st rep' w' = (Ok (st1, rep1'), w1') /\
    info_of rep1' = info_of rep' /\ agree w1 w1'.
Proof.
  intros I Ia E Ei A.
  destruct (confined_stress_step G e d i s st rep I Ia) as [_ R]. destruct (R w w' A) as [R1 R2].
  rewrite E in R1, R2. destruct (stress_step e d i s st rep w') as [r w1'] eqn:E'. cbn [fst snd] in R1, R2.
  subst r. destruct (stress_step_info _ _ _ _ _ _ _ _ _ _ i' rep' E' Ei) as (Ej & rep1' & E1 & E2).
  split; [exact Ej|]. exists rep1', w1'. repeat split; auto.
  intros g Hg; apply R2, A, Hg.
Qed.

Lemma meas_step_spares e (d : device V) i m st rep w st1 rep1 w1 :
  (forall c, In c (dkeys (ms_conds m)) -> cond_in (fun g => ~ G g) e c) ->
  (forall x, In x (dkeys (ms_counts m)) -> error_in (fun g => ~ G g) e x /\
     (forall p, dget d x = Some (PDeg p) -> reading_in (fun g => ~ G g) p) /\
     (forall c, dget d x = Some (PCirc c) -> eqn_in (fun g => ~ G g) (lm_eqn c))) ->
  meas_step e d i m st rep w = (Ok (st1, rep1), w1) ->
  st1 = st /\ info_of rep1 = info_of rep /\ agree w1 w.
Proof.
  intros I J E. repeat split.
  - unfold meas_step in E. apply bind_ok in E as (conds & w2 & E1 & E). apply bind_ok in E as (rows & w3 & E2 & E).
    unfold ret in E. injection E as <- <- <-. reflexivity.
  - unfold meas_step in E. apply bind_ok in E as (conds & w2 & E1 & E). apply bind_ok in E as (rows & w3 & E2 & E).
    unfold ret in E. injection E as <- <- <-. reflexivity.
  - intros g Hg. pose proof (confined_spares _ _ w g (confined_meas_step _ e d i m st rep I J) Hg) as K.
    rewrite E in K. exact K.
Qed.

(** the same stresses, nothing else *)
Lemma run_stresses e (d : device V) l : stressing_in G e d l -> measuring_in (fun g => ~ G g) e d l ->
  forall i st rep w st1 rep1 w1 j rep' w',
  run_steps e d i l st rep w = (Ok (st1, rep1), w1) -> info_of rep = info_of rep' -> agree w w' ->
  info_of rep1 = info_of rep /\
  exists rep1' w1', run_steps e d j (map SStrs (stresses l)) st rep' w' = (Ok (st1, rep1'), w1') /\
    agree w1 w1'.
Proof.
  intros [I Ia] [J1 J2]. unfold run_steps.
  induction l as [|s l IH]; intros i st rep w st1 rep1 w1 j rep' w' E Ei A; cbn [enumerate foldM] in E.
  - unfold ret in E. injection E as <- <- <-. split; [reflexivity|]. cbn. exists rep', w'. split; [reflexivity | exact A].
  - apply bind_ok in E as ([st2 rep2] & w2 & E1 & E).
    assert (IH' := IH (fun s c Hs => I s c (or_intror Hs)) (fun m c Hm => J1 m c (or_intror Hm))
                      (fun m x Hm => J2 m x (or_intror Hm))). clear IH.
    destruct s as [m|s|o]; unfold sim_step in E1; cbn [fst snd] in E1.
    + destruct (meas_step_spares e d i m st rep w st2 rep2 w2 (fun c => J1 m c (or_introl eq_refl))
        (fun x => J2 m x (or_introl eq_refl)) E1) as (-> & Ei2 & A2).
      rewrite <- Ei2 in Ei |- *. apply (IH' _ _ _ _ _ _ _ j rep' w' E Ei).
      intros g Hg. rewrite (A2 g Hg). apply A, Hg.
    + destruct (stress_step_agree e d i s st rep w st2 rep2 w2 j rep' w' (fun c => I s c (or_introl eq_refl)) Ia E1 Ei A)
        as (Ei2 & rep2' & w2' & E2 & Ei2' & A2).
      cbn [stresses flat_map app map enumerate foldM]. rewrite <- Ei2.
      destruct (IH' _ _ _ _ _ _ _ (Datatypes.S j) rep2' w2' E) as (Ei3 & rep3 & w3 & E3 & A3);
        [rewrite Ei2, Ei2'; exact Ei | exact A2|].
      split; [exact Ei3|]. exists rep3, w3. split; [|exact A3].
      unfold sim_step at 1. cbn [fst snd]. rewrite (bind_eval _ _ _ _ _ E2). exact E3.
    + unfold ret in E1. injection E1 as <- <- <-. exact (IH' _ _ _ _ _ _ _ j rep' w' E Ei A).
Qed.


(** ** Another environment with the same variation while stressing *)
Lemma foldM_same {A S} (f f' : S -> A -> M S) l : (forall s a w, In a l -> f s a w = f' s a w) ->
  forall s w, foldM f l s w = foldM f' l s w.
Proof.
  induction l as [|a l IH]; intros E s w; cbn [foldM]; [reflexivity|].
  unfold bind. rewrite E by (left; reflexivity). destruct (f' s a w) as [[s1|x] w1]; [|reflexivity].
  apply IH. intros; apply E; right; assumption.
Qed.
Lemma bind_same {A B} (m m' : M A) (f f' : A -> M B) w : m w = m' w ->
  (forall a w1, f a w1 = f' a w1) -> bind m f w = bind m' f' w.
Proof. intros E F. unfold bind. rewrite E. destruct (m' w) as [[a|] w1]; [apply F | reflexivity]. Qed.
Lemma stress_env_same e e' (d : device V) i s st (rep : report V) w :
  (forall c, In c (dkeys (ss_conds s)) -> vrtn_mdl e' c = vrtn_mdl e c) ->
  stress_step e' d i s st rep w = stress_step e d i s st rep w.
Proof.
  intros Ev. unfold stress_step.
  assert (K : forall w, gen_env_cond_vals e' (ss_conds s) (PList (map fst (deg_prms d))) (Some (info_of rep)) (Some d) true 1 1 w
    = gen_env_cond_vals e (ss_conds s) (PList (map fst (deg_prms d))) (Some (info_of rep)) (Some d) true 1 1 w).
  { clear w. intros w. unfold gen_env_cond_vals. cbn [info_of ti_chps ti_lots ti_counts].
    assert (K1 : gen_chip_conds e' (rp_chps rep) (rp_lots rep) (ss_conds s) w = gen_chip_conds e (rp_chps rep) (rp_lots rep) (ss_conds s) w).
    { unfold gen_chip_conds. apply foldM_same. intros acc [c v] u Hin. cbn [fst snd].
      rewrite (Ev c (in_map fst _ _ Hin)). reflexivity. }
    apply bind_same; [exact K1|]. intros bc w1. unfold bind at 1 3. cbn [ret fst snd].
    apply foldM_same. intros acc x u Hx.
    apply in_map_iff in Hx as ([x' z] & Ex & Hx). cbn [fst] in Ex. subst x'.
    unfold deg_prms in Hx. apply in_flat_map in Hx as ([n y] & Hy & Hx). destruct y as [y|]; [|destruct Hx].
    cbn in Hx. destruct Hx as [Hx|[]]. injection Hx as -> _.
    destruct (dget d x) as [q|] eqn:Eq.
    - apply bind_same; [|reflexivity]. unfold gen_prm_conds. apply foldM_same. intros a c v Hc. rewrite (Ev c (deps_in _ _ _ _ Hc)). reflexivity.
    - exfalso. apply dget_None_keys in Eq. apply Eq. exact (in_map fst _ _ Hy). }
  apply bind_same; [apply K | reflexivity].
Qed.
Lemma run_env_same e e' (d : device V) ss :
  (forall s c, In s ss -> In c (dkeys (ss_conds s)) -> vrtn_mdl e' c = vrtn_mdl e c) ->
  forall i st (rep : report V) w, run_steps e' d i (map SStrs ss) st rep w = run_steps e d i (map SStrs ss) st rep w.
Proof.
  unfold run_steps. induction ss as [|s ss IH]; intros Ev i st rep w; cbn [map enumerate foldM]; [reflexivity|].
  apply bind_same.
  - exact (stress_env_same e e' d i s st rep w (fun c Hc => Ev s c (or_introl eq_refl) Hc)).
  - intros [st1 rep1] w1. apply IH. intros s' c Hs. apply Ev. right; exact Hs.
Qed.

Lemma same_stresses e e' (d : device V) l l' st rep w st1 rep1 w1 rep' st1' rep1' w1' i j :
  (forall s c, In s (stresses l) -> In c (dkeys (ss_conds s)) -> vrtn_mdl e' c = vrtn_mdl e c) ->
  stressing_in G e d l -> measuring_in (fun g => ~ G g) e d l ->
  stressing_in G e' d l' -> measuring_in (fun g => ~ G g) e' d l' ->
  stresses l = stresses l' -> info_of rep = info_of rep' ->
  run_steps e d i l st rep w = (Ok (st1, rep1), w1) ->
  run_steps e' d j l' st rep' w = (Ok (st1', rep1'), w1') -> st1 = st1' /\ agree w1 w1'.
Proof.
  intros Ev I J I' J' Es Ei E E'.
  destruct (run_stresses e d l I J _ _ _ _ _ _ _ 0 rep w E eq_refl (fun _ _ => eq_refl)) as (_ & r2 & w2 & E2 & A2).
  destruct (run_stresses e' d l' I' J' _ _ _ _ _ _ _ 0 rep w E' (eq_sym Ei) (fun _ _ => eq_refl)) as (_ & r3 & w3 & E3 & A3).
  rewrite <- Es, run_env_same with (1 := Ev), E2 in E3. injection E3 as -> -> ->. split; [reflexivity|].
  intros g Hg. rewrite (A2 g Hg). symmetry; apply A3, Hg.
Qed.

Lemma simulate_same_stresses e e' (d : device V) l l' C L init w st1 rep1 w1 st1' rep1' w1' :
  (forall s c, In s (stresses l) -> In c (dkeys (ss_conds s)) -> vrtn_mdl e' c = vrtn_mdl e c) ->
  stressing_in G e d l -> measuring_in (fun g => ~ G g) e d l ->
  stressing_in G e' d l' -> measuring_in (fun g => ~ G g) e' d l' ->
  stresses l = stresses l' -> calc_samples_needed l = calc_samples_needed l' ->
  simulate e d l C L init w = (Ok (st1, rep1), w1) ->
  simulate e' d l' C L init w = (Ok (st1', rep1'), w1') -> st1 = st1'.
Proof.
  intros Ev I J I' J' Es Ec E E'. unfold simulate in *.
  assert (Er : report_init l C L = report_init l' C L :> report V) by (unfold report_init; rewrite Ec; reflexivity).
  destruct init as [st|].
  - exact (proj1 (same_stresses e e' d l l' _ _ _ _ _ _ _ _ _ _ 0 0 Ev I J I' J' Es (f_equal info_of Er) E E')).
  - rewrite Er in E. apply bind_ok in E as (r & w2 & E1 & E). rewrite (bind_eval _ _ _ _ _ E1) in E'.
    destruct (ir_report r) as [rep|]; [|discriminate].
    exact (proj1 (same_stresses e e' d l l' _ _ _ _ _ _ rep _ _ _ 0 0 Ev I J I' J' Es eq_refl E E')).
Qed.

(** ** Measuring again *)
Lemma zip_rows_renumber prm i j t (dev chp lot : list nat) (vals : list V) :
  zip_rows prm j t dev chp lot vals = map (renumber j) (zip_rows prm i t dev chp lot vals).
Proof.
  revert chp lot vals. induction dev as [|a dev IH]; intros [|b chp] [|c lot] [|v vals]; cbn; try reflexivity.
  rewrite IH. reflexivity.
Qed.
Lemma format_renumber (v : pyval V) prm t i j b :
  format_measurements v prm t j b = rbind (format_measurements v prm t i b) (fun rows => Ok (map (renumber j) rows)).
Proof.
  unfold format_measurements. destruct (match v with PDict _ => _ | _ => _ end) as [a|]; [cbn [rbind]|reflexivity].
  destruct (meas_dims (nshape a)) as [[[nl nc] nv]|]; [cbn [rbind]|reflexivity].
  destruct (nreshape _ a) as [x|]; [cbn [rbind]|reflexivity]. destruct b.
  - rewrite (zip_rows_renumber _ i j). reflexivity.
  - rewrite map_map. reflexivity.
Qed.

Lemma measure_prm_renumber e (d : device V) i j conds sc st (rep : report V) x k w :
  measure_prm e d j conds sc st rep x k w =
  bind (measure_prm e d i conds sc st rep x k) (fun rows => ret (map (renumber j) rows)) w.
Proof.
  unfold measure_prm.
  set (mj := match dget (st_prm st) x with Some _ => _ | None => _ end).
  set (mi := match dget (st_prm st) x with Some _ => _ | None => _ end).
  assert (E : mj w = bind mi (fun rows => ret (map (renumber j) rows)) w).
  { subst mi mj. unfold bind, lift, raise, ret.
    destruct (dget (st_prm st) x) as [cur|].
    - destruct (dget d x) as [[p|c]|]; try reflexivity.
      destruct (dgetE conds x) as [cs|]; [|reflexivity]. destruct (dgetE (st_lat st) x) as [ls|]; [|reflexivity].
      destruct (cond_shifted _ _ _ _ _ _ _ _) as [[v|] w1]; [|reflexivity].
      rewrite (format_renumber v x (st_elapsed st) i j true). destruct (format_measurements _ _ _ i _); reflexivity.
    - destruct (dget d x) as [[p|c]|]; try reflexivity.
      + destruct (dgetE conds x) as [cs|]; [|reflexivity]. destruct (dgetE (st_lat st) x) as [ls|]; [|reflexivity].
        destruct (circ_vals _ _ _ _ _ _) as [[v|] w1]; [|reflexivity].
        rewrite (format_renumber v x (st_elapsed st) i j true). destruct (format_measurements _ _ _ i _); reflexivity.
      + destruct (dmem sc x); [|reflexivity]. destruct (dgetE conds x) as [cs|]; [|reflexivity].
        destruct (dgetE cs x) as [v|]; [|reflexivity].
        rewrite (format_renumber v x (st_elapsed st) i j false). destruct (format_measurements _ _ _ i _); reflexivity. }
  clearbody mi mj. unfold bind in *. rewrite E. destruct (mi w) as [[rows|] w1]; [|reflexivity]. cbn [ret].
  assert (Ev : map r_val (map (renumber j) rows) = map r_val rows) by (rewrite map_map; reflexivity).
  rewrite Ev. destruct (measure_with e x (map r_val rows) w1) as [[vals|] w2]; [|reflexivity].
  unfold ret. f_equal. f_equal. clear. revert vals. induction rows as [|r rows IH]; intros [|v vals]; cbn; try reflexivity.
  rewrite IH. reflexivity.
Qed.

Lemma meas_fold_renumber e (d : device V) i j conds sc st (rep rep' : report V) l :
  info_of rep = info_of rep' ->
  forall acc w,
  foldM (fun acc (kv : string * nat) =>
     (r <- measure_prm e d j conds sc st rep' (fst kv) (snd kv) ;; ret (acc ++ r))%m) l (map (renumber j) acc) w =
  bind (foldM (fun acc (kv : string * nat) =>
     (r <- measure_prm e d i conds sc st rep (fst kv) (snd kv) ;; ret (acc ++ r))%m) l acc)
       (fun rows => ret (map (renumber j) rows)) w.
Proof.
  intros Ei.
  assert (K : forall x k w, measure_prm e d j conds sc st rep' x k w =
    bind (measure_prm e d i conds sc st rep x k) (fun rows => ret (map (renumber j) rows)) w).
  { intros x k w. rewrite <- measure_prm_renumber. unfold info_of in Ei. injection Ei as E1 E2 E3.
    unfold measure_prm. rewrite E1, E2. reflexivity. }
  set (Fj := fun acc (kv : string * nat) => (r <- measure_prm e d j conds sc st rep' (fst kv) (snd kv) ;; ret (acc ++ r))%m).
  set (Fi := fun acc (kv : string * nat) => (r <- measure_prm e d i conds sc st rep (fst kv) (snd kv) ;; ret (acc ++ r))%m).
  assert (KF : forall acc kv w, Fj (map (renumber j) acc) kv w = bind (Fi acc kv) (fun rows => ret (map (renumber j) rows)) w).
  { intros acc [x k] w. unfold Fj, Fi. cbn [fst snd]. unfold bind. rewrite K. unfold bind.
    destruct (measure_prm e d i conds sc st rep x k w) as [[r|] w1]; [|reflexivity]. unfold ret. rewrite map_app. reflexivity. }
  clearbody Fi Fj. clear K.
  induction l as [|kv l IH]; intros acc w; cbn [foldM]; [reflexivity|].
  unfold bind at 1. rewrite KF. unfold bind. destruct (Fi acc kv w) as [[r|] w1]; [|reflexivity]. cbn [ret].
  apply IH.
Qed.

Lemma meas_step_renumber e (d : device V) i j m st (rep rep' : report V) w st1 rep1 w1 :
  info_of rep = info_of rep' ->
  meas_step e d i m st rep w = (Ok (st1, rep1), w1) ->
  exists rows rep1', rp_meas rep1 = rp_meas rep ++ rows /\
    meas_step e d j m st rep' w = (Ok (st1, rep1'), w1) /\ rp_meas rep1' = rp_meas rep' ++ map (renumber j) rows.
Proof.
  intros Ei E. unfold meas_step in *. apply bind_ok in E as (conds & w2 & E1 & E).
  apply bind_ok in E as (rows & w3 & E2 & E). unfold ret in E. injection E as <- <- <-.
  exists rows. rewrite Ei in E1. rewrite (bind_eval _ _ _ _ _ E1).
  pose proof (meas_fold_renumber e d i j conds (ms_conds m) st rep rep' (ms_counts m) Ei [] w2) as K.
  rewrite (bind_eval _ _ _ _ _ E2) in K. cbn [map] in K. rewrite (bind_eval _ _ _ _ _ K).
  eexists. repeat split; reflexivity.
Qed.

Lemma quiet_world {A} (m : M A) : confined (fun _ => False) m -> forall w g, snd (m w) g = w g.
Proof. intros [W _] w g. apply W. intros []. Qed.

(** Without any randomness in measuring, measuring again gives the same rows. *)
Lemma measuring_again e (d : device V) m i j st rep w st1 rep1 w1 rep' w' :
  measuring_in (fun _ => False) e d [SMeas m] ->
  meas_step e d i m st rep w = (Ok (st1, rep1), w1) -> info_of rep = info_of rep' ->
  exists rows rep1' w1', rp_meas rep1 = rp_meas rep ++ rows /\
    meas_step e d j m st rep' w' = (Ok (st1, rep1'), w1') /\ rp_meas rep1' = rp_meas rep' ++ map (renumber j) rows.
Proof.
  intros [I J] E Ei.
  destruct (confined_meas_step (fun _ => False) e d i m st rep (fun c => I m c (or_introl eq_refl))
              (fun x => J m x (or_introl eq_refl))) as [_ R].
  destruct (R w w') as [R1 _]; [intros g []|]. rewrite E in R1. cbn [fst] in R1.
  destruct (meas_step e d i m st rep w') as [r w1'] eqn:E'. cbn [fst] in R1. subst r.
  destruct (meas_step_renumber e d i j m st rep rep' w' _ _ _ Ei E') as (rows & rep1' & E1 & E2 & E3).
  exists rows, rep1', w1'. repeat split; assumption.
Qed.
End Foot2.
