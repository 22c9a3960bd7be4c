(** The drawings of basic_use.py and riverbed_erosion.py. *)
From Coq Require Import QArith Lqa Lia.
From Verif Require Import M_Base M_Num M_Nd M_RandVar M_Latent M_Time M_TestSpec M_Device M_Report M_Env M_Sim M_Demo M_Script
  S_TestSpec S_Sim S_Total S_Rows S_Demo S_Export S_Script S_Series L_Base L_TestSpec L_Rows L_Export L_Export2 L_Demo L_Demo2 L_Demo3 L_Demo4 L_Series L_Script L_Script2 L_Draw M_Export.
Open Scope nat_scope.

Lemma filter_length_rel {A B} (P : A -> B -> Prop) f g l l' : (forall a b, P a b -> f a = g b) -> Forall2 P l l' -> filter f l <> [] -> filter g l' <> [].
Proof. intros K F N E. pose proof (filter_rel P f g K l l' F) as X. rewrite E in X. inversion X. auto. Qed.
Lemma Forall2_nil_r {A B} (P : A -> B -> Prop) l l' : Forall2 P l l' -> l <> [] -> l' <> [].
Proof. intros F N ->. inversion F. now subst. Qed.
Lemma loc_map (g : row Q -> row Q) f l : (forall r, f (g r) = f r) -> filter f l <> [] -> loc f (map g l) = Ok (map g (filter f l)).
Proof.
  intros K N. unfold loc. rewrite filter_of_map. replace (filter (fun x => f (g x)) l) with (filter f l) by (apply filter_ext; intros r; now rewrite K). destruct (filter f l) as [|r rs]; [now destruct N|reflexivity].
Qed.
Lemma shown g u l : (forall r, In r l -> shows u r (r_time (g r), r_val (g r))) -> Forall2 (shows u) l (points (map g l)).
Proof. intros K. unfold points. rewrite map_map. now apply Forall2_same. Qed.
Lemma redrawn_points g l l' : (forall r r', row_rel (fun t t' => t' = t) read_back r r' -> r_time (g r') = r_time (g r) /\ r_val (g r) = r_val r /\ r_val (g r') = r_val r') ->
  Forall2 (row_rel (fun t t' => t' = t) read_back) l l' -> Forall2 redrawn (points (map g l)) (points (map g l')).
Proof.
  intros K F. induction F as [|r r' l l' Hr F IH]; cbn; constructor; [|exact IH]. destruct (K r r' Hr) as (A & B & C).
  split; cbn [fst snd]; [exact A|]. rewrite B, C. apply Hr.
Qed.
Lemma rel_times l l' : Forall2 (row_rel (fun t t' => t' = t) read_back) l l' -> map r_time l' = map r_time l.
Proof. induction 1 as [|r r' l l' Hr F IH]; [reflexivity|]. cbn. rewrite IH. f_equal. apply Hr. Qed.
Lemma hourly_rel r r' : row_rel (fun t t' => t' = t) read_back r r' -> r_time (hourly r') = r_time (hourly r) /\ r_val (hourly r) = r_val r /\ r_val (hourly r') = r_val r'.
Proof. intros (_ & _ & _ & _ & _ & E & _). cbn. now rewrite E. Qed.

Section S.
Context {R : Rng Q} {Ho : HashOrd}.

Lemma reported_series l C L name q k w (rep : report Q) w' a b c : reported l C L name q k w rep w' -> a < L -> b < C ->
  Forall2 at_step (asked name c 0 0 l) (series name a b c (rp_meas rep)).
Proof.
  intros (_ & _ & _ & _ & Fs & _ & _ & _ & _ & _ & T) Ha Hb.
  apply (table_series (fun kv g => labelled L C (snd kv) g) L C name a b c Ha Hb) with (t := TD 0) (z := 0%Z) (rows := rp_meas rep) (i := 0) (l := l); auto.
  intros s Hs. apply (Fs s Hs).
Qed.
Lemma reported_covered l C L name q k w (rep : report Q) w' r : reported l C L name q k w rep w' -> In r (rp_meas rep) -> r_param r = name ->
  exists a b c, a < L /\ b < C /\ belongs name a b c r = true.
Proof.
  intros (_ & _ & _ & _ & Fs & _ & _ & _ & _ & _ & T) Hr En. eapply (table_covered (fun kv g => labelled L C (snd kv) g)); eauto.
Qed.
(** With one lot, and with one chip, the numbers of those need not be looked at. *)
Lemma one_lot l C name q k w (rep : report Q) w' b c : reported l C 1 name q k w rep w' ->
  filter (fun r => String.eqb (r_param r) name && num_is (r_dev r) c && num_is (r_chp r) b) (rp_meas rep) = series name 0 b c (rp_meas rep).
Proof.
  intros Rp. unfold series. apply filter_ext_in. intros r Hr. unfold belongs. destruct (String.eqb_spec (r_param r) name) as [En|En]; [|reflexivity].
  destruct (reported_covered _ _ _ _ _ _ _ _ _ r Rp Hr En) as (a & b' & c' & Ha & _ & Hb). apply belongs_iff in Hb as (_ & El & _). rewrite El. assert (a = 0) by lia. subst a.
  cbn [is_no Nat.eqb andb]. unfold num_is, is_no. apply andb_comm.
Qed.
Lemma one_chip l name q k w (rep : report Q) w' c : reported l 1 1 name q k w rep w' ->
  filter (fun r => String.eqb (r_param r) name && num_is (r_dev r) c) (rp_meas rep) = series name 0 0 c (rp_meas rep).
Proof.
  intros Rp. rewrite <- (one_lot _ _ _ _ _ _ _ _ 0 c Rp). apply filter_ext_in. intros r Hr. destruct (String.eqb_spec (r_param r) name) as [En|En]; [|reflexivity].
  destruct (reported_covered _ _ _ _ _ _ _ _ _ r Rp Hr En) as (a & b' & c' & _ & Hb' & Hb). apply belongs_iff in Hb as (_ & _ & Ec & _). rewrite Ec. assert (b' = 0) by lia. subst b'.
  cbn [num_is Nat.eqb]. now rewrite andb_true_r.
Qed.
Lemma series_td name a b c rows : (forall r, In r rows -> has_td r) -> forall r, In r (series name a b c rows) -> has_td r.
Proof. intros K r Hr. apply filter_In in Hr as [Hr _]. auto. Qed.

(** ** basic_use.py *)
Variable gen : nat -> nat.
Variable here : string.
Hypothesis Hnp : numpy_accepts Q.

Definition basic_sel (c : nat) (r : row Q) : bool := String.eqb (r_param r) "example_prm" && num_is (r_dev r) c.
Definition basic_curve (rows : list (row Q)) (c : nat) : list (tval * Q) := points (map hourly (filter (basic_sel c) rows)).
Lemma basic_draw_is o rows : o_hours_table o = Ok (map hourly rows) -> (forall c, c < 5 -> filter (basic_sel c) rows <> []) ->
  basic_draw o = Ok (map (basic_curve rows) (seq 0 5)).
Proof.
  intros E N. unfold basic_draw. rewrite E. cbn [rbind]. apply map_res_ok. intros c Hc. apply in_seq in Hc. fold (basic_sel c).
  rewrite (loc_map hourly (basic_sel c) rows); [reflexivity|reflexivity|apply N; lia].
Qed.
Lemma sel_rel c r r' : row_rel (fun t t' => t' = t) read_back r r' -> basic_sel c r = basic_sel c r'.
Proof. intros (A & _ & B & _). unfold basic_sel. now rewrite A, B. Qed.

Theorem basic_drawing save fs w : exists rep cs fs' w', basic_run gen w = (Ok rep, w') /\ basic_script gen here None save false fs w = (Draws cs, fs', w') /\
  stored (data_path here "basic_report") save (xreport_of "unspecified" "none provided" rep) fs fs' /\
  length cs = 5 /\ forall c curve, nth_error cs c = Some curve ->
    Forall2 (shows an_hour) (series "example_prm" 0 0 c (rp_meas rep)) curve /\ Forall2 reads [0; 100]%Z (map fst curve).
Proof.
  destruct (basic_made gen Hnp w) as (rep & w' & E & Rp & Ti).
  destruct (obtain_made here (basic_run gen) _ _ "basic_report" save fs w rep w' E Ti) as (fs' & Eo & St).
  assert (Q : forall c, filter (basic_sel c) (rp_meas rep) = series "example_prm" 0 0 c (rp_meas rep)) by (intros c; exact (one_chip _ _ _ _ _ _ _ c Rp)).
  assert (As : forall c, c < 5 -> Forall2 at_step [(0, 0%Z); (2, 360000000000%Z)] (series "example_prm" 0 0 c (rp_meas rep))).
  { intros c Hc. assert (X := reported_series _ _ _ _ _ _ _ _ _ 0 0 c Rp (le_n 1) (le_n 1)).
    replace (asked "example_prm" c 0 0 basic_steps) with [(0, 0%Z); (2, 360000000000%Z)] in X; [exact X|]. destruct c as [|[|[|[|[|c]]]]]; [reflexivity..|lia]. }
  exists rep, (map (basic_curve (rp_meas rep)) (seq 0 5)), fs', w'. split; auto. split; [|split; [auto|split; [reflexivity|]]].
  - unfold basic_script. rewrite Eo. f_equal. f_equal. cbn [finish]. rewrite (basic_draw_is _ (rp_meas rep)); [reflexivity|apply made_table, Ti|].
    intros c Hc. rewrite Q. eapply Forall2_nil_r; [apply As, Hc|discriminate].
  - intros c curve Hn. rewrite nth_error_map in Hn. destruct (nth_error (seq 0 5) c) as [c'|] eqn:Ec; [|discriminate]. cbn in Hn. injection Hn as <-.
    assert (Hc : c < 5) by (rewrite <- (seq_length 5 0); apply nth_error_Some; congruence).
    apply (nth_error_nth _ _ 0) in Ec. rewrite seq_nth in Ec by exact Hc. subst c'. unfold basic_curve. cbn [plus]. rewrite Q. split.
    + apply shown. intros r Hr. apply hourly_shows. eapply series_td; [|exact Hr]. intros x Hx. eapply timed_td; eauto.
    + assert (X := As c Hc). inversion X as [|? r0 ? ? (_ & T0) X1]; subst. inversion X1 as [|? r1 ? ? (_ & T1) X2]; subst. inversion X2; subst.
      cbn [map points fst r_time hourly in_row with_time]. rewrite T0, T1. repeat constructor; eexists; (split; [reflexivity|]); rewrite hours_of; reflexivity.
Qed.
(** Drawing the saved report instead shows the same points. *)
Theorem basic_redrawing test save fs w o fs' w1 : basic_script gen here None true test fs w = (o, fs', w1) -> exists cs cs',
  basic_script gen here None true false fs w = (Draws cs, fs', w1) /\
  (forall w2, basic_script gen here (Some (data_path here "basic_report")) save false fs' w2 = (Draws cs', fs', w2)) /\
  Forall2 (Forall2 redrawn) cs cs'.
Proof.
  intros E. destruct (basic_made gen Hnp w) as (rep & w' & Er & Rp & Ti).
  destruct (obtain_made here (basic_run gen) _ _ "basic_report" true fs w rep w' Er Ti) as (fs1 & Eo & (j & Ej & Ef & _)).
  unfold basic_script in E. rewrite Eo in E. injection E as _ <- <-.
  destruct (saved_loads _ _ _ Ti) as (j' & x' & rows' & sums' & Ej' & El & Em & Es & Fr & Fs). assert (j' = j) by congruence. subst j'.
  assert (N : forall c, c < 5 -> filter (basic_sel c) (rp_meas rep) <> []).
  { intros c Hc. change (filter (basic_sel c) (rp_meas rep)) with (filter (fun r => String.eqb (r_param r) "example_prm" && num_is (r_dev r) c) (rp_meas rep)). rewrite (one_chip _ _ _ _ _ _ _ c Rp).
    assert (X := reported_series _ _ _ _ _ _ _ _ _ 0 0 c Rp (le_n 1) (le_n 1)). eapply Forall2_nil_r; [exact X|]. destruct c as [|[|[|[|[|c]]]]]; [discriminate..|lia]. }
  exists (map (basic_curve (rp_meas rep)) (seq 0 5)), (map (basic_curve rows') (seq 0 5)). split; [|split].
  - unfold basic_script. rewrite Eo. f_equal. f_equal. cbn [finish]. rewrite (basic_draw_is _ (rp_meas rep)); [reflexivity|apply made_table, Ti|exact N].
  - intros w2. unfold basic_script, obtain. rewrite (opened_saved _ _ _ _ (data_path_nonempty _ _) Ef El). f_equal. f_equal. cbn [finish].
    rewrite (basic_draw_is _ rows'); [reflexivity|apply loaded_table, Em|]. intros c Hc. eapply filter_length_rel; [apply sel_rel|exact Fr|apply N, Hc].
  - assert (X : forall c, Forall2 redrawn (basic_curve (rp_meas rep) c) (basic_curve rows' c)).
    { intros c. apply redrawn_points; [apply hourly_rel|]. apply filter_rel; [apply sel_rel|exact Fr]. }
    generalize (seq 0 5). intros cs. induction cs as [|c cs IH]; cbn; constructor; auto.
Qed.

(** ** riverbed_erosion.py *)
Definition yearly (r : row Q) : row Q := match r_time (hourly r) with TN q => with_time r (TN (ndiv q (nofQ 8760))) | TD _ => r end.
Lemma yearly_val r : r_val (yearly r) = r_val r.
Proof. unfold yearly. now destruct (r_time (hourly r)). Qed.
Lemma yearly_same r c b : location c b (yearly r) = location c b r.
Proof. unfold yearly, location. now destruct (r_time (hourly r)). Qed.
Lemma years_all rows : (forall r, In r rows -> has_td r) -> map_res years (map hourly rows) = Ok (map yearly rows).
Proof.
  induction rows as [|r rows IH]; intros K; [reflexivity|]. cbn [map map_res]. destruct (K r (or_introl eq_refl)) as [us Eu].
  assert (Ey : years (hourly r) = Ok (yearly r)). { unfold years, yearly. cbn [hourly in_row with_time r_time r_param r_step r_dev r_chp r_lot r_val]. rewrite Eu. reflexivity. }
  rewrite Ey. cbn [rbind]. rewrite IH; [reflexivity|]. intros x Hx. apply K. now right.
Qed.
Lemma year_of us : (ndiv (td_to_num UHours us) (nofQ 8760) == us # a_year)%Q.
Proof. change (ndiv (td_to_num UHours us) (nofQ 8760)) with (Qred (td_to_num UHours us / Qred 8760)). rewrite !Qred_correct, hours_of. change (us * 1 * Z.pos a_year = us * (3600000000 * 8760))%Z. unfold a_year. lia. Qed.
Lemma yearly_time r us : r_time r = TD us -> r_time (yearly r) = TN (ndiv (td_to_num UHours us) (nofQ 8760)).
Proof. intros E. unfold yearly. cbn [hourly in_row with_time r_time]. rewrite E. reflexivity. Qed.
Lemma yearly_shows r : has_td r -> shows a_year r (r_time (yearly r), r_val (yearly r)).
Proof.
  intros [us E]. exists us, (ndiv (td_to_num UHours us) (nofQ 8760)). split; auto. cbn [fst snd]. split; [now apply yearly_time|]. split; [apply year_of|apply yearly_val].
Qed.
Lemma yearly_rel r r' : row_rel (fun t t' => t' = t) read_back r r' -> r_time (yearly r') = r_time (yearly r) /\ r_val (yearly r) = r_val r /\ r_val (yearly r') = r_val r'.
Proof.
  intros (_ & _ & _ & _ & _ & E & _). split; [|split; apply yearly_val]. unfold yearly. cbn [hourly in_row with_time r_time]. rewrite E. destruct (r_time r) as [us|q] eqn:Er; cbn [flip r_time with_time]; congruence.
Qed.
Lemma location_rel c b r r' : row_rel (fun t t' => t' = t) read_back r r' -> location c b r = location c b r'.
Proof. intros (A & _ & B & C & _). unfold location. now rewrite A, B, C. Qed.

Definition river_curve (rows : list (row Q)) (b c : nat) : list (tval * Q) := points (map yearly (filter (location c b) rows)).
Lemma curve_vals rows b c : map snd (river_curve rows b c) = map r_val (map yearly (filter (location c b) rows)).
Proof. unfold river_curve, points. now rewrite map_map. Qed.
Lemma one_river_is rows b : b < 5 -> (forall b c, b < 5 -> c < 10 -> length (filter (location c b) rows) = 11) ->
  exists p, one_river (map yearly rows) b = Ok p /\ rv_curves p = map (river_curve rows b) (seq 0 10) /\ rv_times p = map r_time (map yearly (filter (location 0 0) rows)).
Proof.
  intros Hb Ln. assert (Ne : forall b c, b < 5 -> c < 10 -> filter (location c b) rows <> []) by (intros b' c' Hb' Hc' X; specialize (Ln b' c' Hb' Hc'); rewrite X in Ln; discriminate).
  unfold one_river. rewrite (loc_map yearly (location 0 0) rows (fun r => yearly_same r 0 0)) by (apply Ne; lia). cbn [rbind].
  rewrite (map_res_ok _ (fun c => map yearly (filter (location c b) rows))).
  2:{ intros c Hc. apply in_seq in Hc. apply loc_map; [intros r; apply yearly_same|]. apply Ne; lia. }
  cbn [rbind]. destruct (widen_all_spec 11 (map (map r_val) (map (fun c => map yearly (filter (location c b) rows)) (seq 0 10))) (band0 11)) as (bd & Eb & _).
  - repeat split; apply repeat_length.
  - intros s Hs. apply in_map_iff in Hs as (s' & <- & Hs). apply in_map_iff in Hs as (c & <- & Hc). apply in_seq in Hc. rewrite !map_length. apply Ln; lia.
  - rewrite Eb. cbn [rbind]. eexists. split; [reflexivity|]. cbn [rv_curves rv_times]. rewrite map_map. split; reflexivity.
Qed.
Lemma river_draw_is o rows : o_hours_table o = Ok (map hourly rows) -> (forall r, In r rows -> has_td r) -> (forall b c, b < 5 -> c < 10 -> length (filter (location c b) rows) = 11) ->
  exists ps, river_draw o = Ok ps /\ Forall2 (fun b p => rv_curves p = map (river_curve rows b) (seq 0 10) /\ rv_times p = map r_time (map yearly (filter (location 0 0) rows))) (seq 0 5) ps.
Proof.
  intros E Td Ln. unfold river_draw. rewrite E. cbn [rbind]. rewrite (years_all rows Td). cbn [rbind].
  assert (X : forall l, (forall b, In b l -> b < 5) -> exists ps, map_res (one_river (map yearly rows)) l = Ok ps /\
    Forall2 (fun b p => rv_curves p = map (river_curve rows b) (seq 0 10) /\ rv_times p = map r_time (map yearly (filter (location 0 0) rows))) l ps).
  { induction l as [|b l IH]; intros Hl; [exists []; auto|]. destruct (one_river_is rows b (Hl b (or_introl eq_refl)) Ln) as (p & Ep & Hp).
    destruct IH as (ps & Eps & F); [intros x Hx; apply Hl; now right|]. exists (p :: ps). cbn [map_res]. rewrite Ep. cbn [rbind]. rewrite Eps. split; [reflexivity|auto]. }
  apply X. intros b Hb. apply in_seq in Hb. lia.
Qed.
Lemma rv_band_shows o ps p : river_draw o = Ok ps -> In p ps -> length (rv_curves p) = 10 /\ summarises 11 (map (map snd) (rv_curves p)) (rv_band p) /\
  forall s, In s (rv_curves p) -> length s = 11.
Proof.
  intros E Hp. unfold river_draw in E. destruct (o_hours_table o) as [l|e]; [|discriminate]. cbn [rbind] in E. destruct (map_res years l) as [l'|e]; [|discriminate]. cbn [rbind] in E.
  apply map_res_inv in E. assert (X : exists b, one_river l' b = Ok p).
  { clear -E Hp. induction E as [|b q bs ps Hb E IH]; [destruct Hp|]. destruct Hp as [<-|Hp]; eauto. }
  destruct X as [b X]. unfold one_river in X. destruct (loc (location 0 0) l') as [fst0|e]; [|discriminate]. cbn [rbind] in X.
  destruct (map_res (fun c => loc (location c b) l') (seq 0 10)) as [ss|e] eqn:Es; [|discriminate]. cbn [rbind] in X.
  destruct (widen_all (band0 11) (map (map r_val) ss)) as [bd|e] eqn:Eb; [|discriminate]. injection X as <-. cbn [rv_curves rv_band].
  assert (Ls : length ss = 10). { apply map_res_inv in Es. apply Forall2_length in Es. rewrite seq_length in Es. now symmetry. }
  assert (Ev : map (map snd) (map points ss) = map (map r_val) ss). { rewrite map_map. apply map_ext. intros s. unfold points. now rewrite map_map. }
  assert (Lv : length (map (map r_val) ss) = 10) by (now rewrite map_length).
  destruct (band_summarises 11 10 (map (map r_val) ss) bd) as [Sm Ln]; [intros Z; rewrite Z in Lv; discriminate|rewrite Lv; reflexivity|exact Eb|].
  rewrite map_length. split; [exact Ls|]. rewrite Ev. split; [exact Sm|]. intros s Hs. apply in_map_iff in Hs as (s' & <- & Hs).
  unfold points. rewrite map_length, <- (map_length r_val s'). apply Ln. now apply in_map.
Qed.
Definition river_year (k : nat) : nat * Z := (5 * k, (Z.of_nat k * Z.pos a_year)%Z).
Lemma river_asked c : c < 10 -> asked "riverbed_level" c 0 0 river_steps = map river_year (seq 0 11).
Proof. intros Hc. do 10 (destruct c as [|c]; [vm_compute; reflexivity|]). lia. Qed.
Lemma river_lengths w (rep : report Q) w' : reported river_steps 5 1 "riverbed_level" "riverbed_level" 10 w rep w' ->
  forall b c, b < 5 -> c < 10 -> filter (location c b) (rp_meas rep) = series "riverbed_level" 0 b c (rp_meas rep) /\
    Forall2 at_step (map river_year (seq 0 11)) (series "riverbed_level" 0 b c (rp_meas rep)).
Proof.
  intros Rp b c Hb Hc. split; [exact (one_lot _ _ _ _ _ _ _ _ b c Rp)|]. rewrite <- (river_asked c Hc). exact (reported_series _ _ _ _ _ _ _ _ _ 0 b c Rp (le_n 1) Hb).
Qed.
Lemma year_reads its s : Forall2 at_step (map river_year its) s -> Forall2 (fun k t => reads (Z.of_nat k) t) its (map r_time (map yearly s)).
Proof.
  revert s. induction its as [|k its IH]; intros s F; inversion F as [|? r ? s' (_ & Er) F']; subst; cbn [map]; constructor; [|now apply IH].
  cbn [river_year snd] in Er. rewrite (yearly_time _ _ Er). eexists. split; [reflexivity|]. rewrite year_of. unfold Qeq. cbn [Qnum Qden inject_Z]. lia.
Qed.
Theorem river_drawing fuel save fs w : has_digits Q -> 10 <= fuel ->
  exists rep ps fs' w', river_run gen fuel w = (Ok rep, w') /\ river_script gen here fuel None save false fs w = (Draws ps, fs', w') /\
  stored (data_path here "erosion_report") save (xreport_of "Riverbed Erosion Process" "none provided" rep) fs fs' /\
  length ps = 5 /\ forall b p, nth_error ps b = Some p ->
    length (rv_curves p) = 10 /\
    (forall c curve, nth_error (rv_curves p) c = Some curve -> Forall2 (shows a_year) (series "riverbed_level" 0 b c (rp_meas rep)) curve /\
       Forall2 (fun k t => reads (Z.of_nat k) t) (seq 0 11) (map fst curve)) /\
    Forall2 (fun k t => reads (Z.of_nat k) t) (seq 0 11) (rv_times p).
Proof.
  intros Hd Hf. destruct (river_made gen Hnp fuel w Hd Hf) as (rep & w' & E & Rp & Ti).
  destruct (obtain_made here (river_run gen fuel) _ _ "erosion_report" save fs w rep w' E Ti) as (fs' & Eo & St).
  assert (Td : forall r, In r (rp_meas rep) -> has_td r) by (intros r Hr; eapply timed_td; eauto).
  assert (X := river_lengths _ _ _ Rp).
  assert (Ln : forall b c, b < 5 -> c < 10 -> length (filter (location c b) (rp_meas rep)) = 11).
  { intros b c Hb Hc. destruct (X b c Hb Hc) as [-> F]. apply Forall2_length in F. now rewrite <- F. }
  destruct (river_draw_is (Made (xreport_of "Riverbed Erosion Process" "none provided" rep) (rp_counts rep)) (rp_meas rep)) as (ps & Ep & F); auto; [apply made_table, Ti|].
  exists rep, ps, fs', w'. split; auto. split; [unfold river_script; rewrite Eo; cbn [finish]; now rewrite Ep|]. split; auto.
  split; [now rewrite <- (Forall2_length F), seq_length|]. intros b p Hp.
  assert (Y : b < 5 /\ rv_curves p = map (river_curve (rp_meas rep) b) (seq 0 10) /\ rv_times p = map r_time (map yearly (filter (location 0 0) (rp_meas rep)))).
  { assert (Hb : b < 5) by (rewrite <- (seq_length 5 0), (Forall2_length F); apply nth_error_Some; congruence). split; auto.
    assert (N : nth_error (seq 0 5) b = Some b) by (do 5 (destruct b as [|b]; [reflexivity|]); lia).
    clear -F N Hp. revert ps F Hp. generalize (seq 0 5) N. clear N. generalize b at 1 3. intros i l. revert i. induction l as [|x l IH]; intros [|i] N ps F Hp; try discriminate N; inversion F; subst; cbn in N, Hp.
    - injection N as ->. injection Hp as ->. assumption.
    - eapply IH; eauto. }
  destruct Y as (Hb & Ec & Et). rewrite Ec, Et. rewrite map_length, seq_length. split; [reflexivity|].
  split; [|destruct (X 0 0) as [-> F0]; [lia|lia|apply year_reads, F0]].
  intros c curve Hn. rewrite nth_error_map in Hn. destruct (nth_error (seq 0 10) c) as [c'|] eqn:E'; [|discriminate]. cbn in Hn. injection Hn as <-.
  assert (Hc : c < 10) by (rewrite <- (seq_length 10 0); apply nth_error_Some; congruence).
  apply (nth_error_nth _ _ 0) in E'. rewrite seq_nth in E' by exact Hc. subst c'. cbn [plus]. unfold river_curve. destruct (X b c Hb Hc) as [-> F0]. split.
  - apply shown. intros r Hr. apply yearly_shows. eapply series_td; eauto.
  - unfold points. rewrite map_map. exact (year_reads _ _ F0).
Qed.
Theorem river_redrawing fuel fuel' test save fs w o fs' w1 : has_digits Q -> 10 <= fuel -> river_script gen here fuel None true test fs w = (o, fs', w1) -> exists ps ps',
  river_script gen here fuel None true false fs w = (Draws ps, fs', w1) /\
  (forall w2, river_script gen here fuel' (Some (data_path here "erosion_report")) save false fs' w2 = (Draws ps', fs', w2)) /\
  Forall2 (fun p p' => rv_times p' = rv_times p /\ Forall2 (Forall2 redrawn) (rv_curves p) (rv_curves p')) ps ps'.
Proof.
  intros Hd Hf E. destruct (river_made gen Hnp fuel w Hd Hf) as (rep & w' & Er & Rp & Ti).
  destruct (obtain_made here (river_run gen fuel) _ _ "erosion_report" true fs w rep w' Er Ti) as (fs1 & Eo & (j & Ej & Ef & _)).
  unfold river_script in E. rewrite Eo in E. injection E as _ <- <-.
  destruct (saved_loads _ _ _ Ti) as (j' & x' & rows' & sums' & Ej' & El & Em & Es & Fr & Fs). assert (j' = j) by congruence. subst j'.
  assert (Td : forall r, In r (rp_meas rep) -> has_td r) by (intros r Hr; eapply timed_td; eauto).
  assert (Td' : forall r, In r rows' -> has_td r).
  { intros r Hr. apply in_map with (f := r_time) in Hr. rewrite (rel_times _ _ Fr) in Hr. apply in_map_iff in Hr as (x & Ex & Hx). destruct (Td x Hx) as [us Eu]. exists us. congruence. }
  assert (X := river_lengths _ _ _ Rp).
  assert (Ln : forall b c, b < 5 -> c < 10 -> length (filter (location c b) (rp_meas rep)) = 11).
  { intros b c Hb Hc. destruct (X b c Hb Hc) as [-> F]. apply Forall2_length in F. now rewrite <- F. }
  assert (Fl : forall b c, Forall2 (row_rel (fun t t' => t' = t) read_back) (filter (location c b) (rp_meas rep)) (filter (location c b) rows')).
  { intros b c. apply filter_rel; [apply location_rel|exact Fr]. }
  assert (Ln' : forall b c, b < 5 -> c < 10 -> length (filter (location c b) rows') = 11).
  { intros b c Hb Hc. rewrite <- (Forall2_length (Fl b c)). auto. }
  destruct (river_draw_is (Made (xreport_of "Riverbed Erosion Process" "none provided" rep) (rp_counts rep)) (rp_meas rep)) as (ps & Ep & F); auto; [apply made_table, Ti|].
  destruct (river_draw_is (Loaded x') rows') as (ps' & Ep' & F'); auto; [apply loaded_table, Em|].
  exists ps, ps'. split; [unfold river_script; rewrite Eo; cbn [finish]; now rewrite Ep|]. split.
  - intros w2. unfold river_script, obtain. rewrite (opened_saved _ _ _ _ (data_path_nonempty _ _) Ef El). cbn [finish]. now rewrite Ep'.
  - assert (Rt : map r_time (map yearly (filter (location 0 0) rows')) = map r_time (map yearly (filter (location 0 0) (rp_meas rep)))).
    { rewrite !map_map. generalize (Fl 0 0). generalize (filter (location 0 0) rows') (filter (location 0 0) (rp_meas rep)). intros l' l Fx. induction Fx as [|r r' l l' Hr Fx IH]; [reflexivity|].
      cbn [map]. rewrite IH. f_equal. now apply yearly_rel. }
    assert (Rc : forall b cs, Forall2 (Forall2 redrawn) (map (river_curve (rp_meas rep) b) cs) (map (river_curve rows' b) cs)).
    { intros b cs. induction cs as [|c cs IH]; cbn; constructor; auto. apply redrawn_points; [apply yearly_rel|apply Fl]. }
    revert ps' F' Ep'. clear Ep. revert F. generalize (seq 0 5). intros bs F ps' F' _. revert ps' F'. induction F as [|b p bs ps (Hc & Ht) F IH]; intros ps' F'; inversion F' as [|? p' ? ps0 (Hc' & Ht') F'']; subst; constructor; auto.
    split; [congruence|]. rewrite Hc, Hc'. apply Rc.
Qed.
End S.

Lemma river_averages {R : Rng Q} {Ho : HashOrd} gen here fuel data_file save test fs w ps fs' w' p :
  river_script gen here fuel data_file save test fs w = (Draws ps, fs', w') -> In p ps ->
  length (rv_curves p) = 10 /\ (forall s, In s (rv_curves p) -> length s = 11) /\ summarises 11 (map (map snd) (rv_curves p)) (rv_band p) /\
  forall j avg lo hi, nth_error (b_sum (rv_band p)) j = Some avg -> nth_error (b_min (rv_band p)) j = Some lo -> nth_error (b_max (rv_band p)) j = Some hi ->
    (lo <= avg <= hi)%Q.
Proof.
  intros E Hp. unfold river_script in E. destruct (obtain _ _ _ _ _ _ _ _ _) as [[o fs1] w1]. injection E as E _ _.
  destruct o as [o|f]; cbn [finish] in E; [|discriminate]. destruct test; [destruct (river_checks o); discriminate|].
  destruct (river_draw o) as [ps'|] eqn:Ed; [|discriminate]. injection E as ->.
  destruct (rv_band_shows o ps p Ed Hp) as (A & B & C). split; [exact A|]. split; [exact C|]. split; [exact B|].
  apply average_within with (n := 11) (ss := map (map snd) (rv_curves p)); auto. intros Z. apply map_eq_nil in Z. rewrite Z in A. discriminate A.
Qed.
