(** The drawing of vts_paper_presilicon_variability.py. *)
From Coq Require Import QArith Lqa Lia.
From Verif Require Import M_Base M_Num M_Nd M_RandVar M_Latent M_Time M_TestSpec M_Device M_Report M_Env M_Sim M_Demo M_Script
  S_TestSpec S_Sim S_Total S_Rows S_Demo S_Export S_Script S_Series L_Base L_TestSpec L_Rows L_Export L_Export2 L_Demo L_Demo2 L_Demo3 L_Demo4 L_Series L_Script L_Script2 L_Draw L_Draw2 M_Export.
Open Scope nat_scope.

Lemma places_circuits : places = circuits.
Proof. reflexivity. Qed.
Lemma in_circuits a b c : In (a, b, c) circuits <-> a < 5 /\ b < 5 /\ c < 5.
Proof. unfold circuits. rewrite !in_prod_iff, !in_seq. lia. Qed.
Lemma circuit_series a b c rows : filter (circuit c b a) rows = series "amp_gain" a b c rows.
Proof.
  unfold series. apply filter_ext. intros r. unfold circuit, belongs, num_is, is_no.
  destruct (String.eqb _ _), (match r_dev r with Some m => _ | None => _ end), (match r_chp r with Some m => _ | None => _ end), (match r_lot r with Some m => _ | None => _ end); reflexivity.
Qed.
Lemma circuit_hourly a b c r : circuit c b a (hourly r) = circuit c b a r.
Proof. reflexivity. Qed.
Lemma loc_circuit a b c rows : series "amp_gain" a b c rows <> [] -> loc (circuit c b a) (map hourly rows) = Ok (map hourly (series "amp_gain" a b c rows)).
Proof. intros N. rewrite <- circuit_series in N |- *. now apply loc_map. Qed.
Lemma final_last (l : list Q) : l <> [] -> exists v l0, final_value l = Ok v /\ l = l0 ++ [v].
Proof.
  intros N. unfold final_value. destruct (exists_last N) as (l0 & v & ->). rewrite rev_app_distr. cbn. eauto.
Qed.
Lemma finals_last ss : (forall s, In s ss -> s <> []) -> exists vs, map_res final_value ss = Ok vs /\ Forall2 (fun s v => exists s0, s = s0 ++ [v]) ss vs.
Proof.
  induction ss as [|s ss IH]; intros K; [exists []; auto|]. destruct (final_last s (K s (or_introl eq_refl))) as (v & l0 & E & Es).
  destruct IH as (vs & E' & F); [intros x Hx; apply K; now right|]. exists (v :: vs). cbn [map_res]. rewrite E. cbn [rbind]. rewrite E'. split; [reflexivity|]. constructor; eauto.
Qed.
Lemma one_sim_is sim rows its hours : (forall a b c, a < 5 -> b < 5 -> c < 5 -> Forall2 at_step its (series "amp_gain" a b c rows)) ->
  map snd its = map (fun h => h * Z.pos an_hour)%Z hours -> hours <> [] ->
  exists p, one_sim sim (map hourly rows) = Ok (sim, p) /\ gain_plot hours (negb (ramped sim)) rows p.
Proof.
  intros K Eh Nh. assert (Lh : length its = length hours) by (apply (f_equal (@length Z)) in Eh; now rewrite !map_length in Eh).
  assert (Ne : forall a b c, a < 5 -> b < 5 -> c < 5 -> series "amp_gain" a b c rows <> []).
  { intros a b c Ha Hb Hc. eapply Forall2_nil_r; [exact (K a b c Ha Hb Hc)|]. intros ->. destruct hours; [auto|discriminate]. }
  assert (Ls : forall a b c, a < 5 -> b < 5 -> c < 5 -> length (series "amp_gain" a b c rows) = length hours).
  { intros a b c Ha Hb Hc. now rewrite <- (Forall2_length (K a b c Ha Hb Hc)). }
  assert (Lg : forall s, In s (map (gains rows) circuits) -> length s = length hours).
  { intros s Hs. apply in_map_iff in Hs as ([[a b] c] & <- & Hs). apply in_circuits in Hs as (Ha & Hb & Hc). cbn [gains]. rewrite map_length. auto. }
  assert (L0 : length (map hourly (series "amp_gain" 0 0 0 rows)) = length hours) by (rewrite map_length; apply Ls; lia).
  unfold one_sim. rewrite loc_circuit by (apply Ne; lia). cbn [rbind]. rewrite L0, places_circuits.
  rewrite (map_res_ok _ (gains rows)).
  2:{ intros [[a b] c] Hp. apply in_circuits in Hp as (Ha & Hb & Hc). rewrite loc_circuit by auto. cbn [rbind gains]. rewrite map_map. reflexivity. }
  cbn [rbind]. destruct (widen_all_spec (length hours) (map (gains rows) circuits) (band0 (length hours))) as (bd & Eb & _); auto; [repeat split; apply repeat_length|].
  rewrite Eb. cbn [rbind]. destruct (band_summarises (length hours) 125 (map (gains rows) circuits) bd) as [Sm _]; [discriminate|reflexivity|exact Eb|].
  destruct (finals_last (map (gains rows) circuits)) as (vs & Ev & Fv).
  { intros s Hs Z. apply Lg in Hs. rewrite Z in Hs. destruct hours; [auto|discriminate]. }
  assert (Rt : Forall2 reads hours (map r_time (map hourly (series "amp_gain" 0 0 0 rows)))).
  { assert (F := K 0 0 0 ltac:(lia) ltac:(lia) ltac:(lia)). clear -F Eh. revert hours Eh. generalize (series "amp_gain" 0 0 0 rows) F. clear F. induction its as [|it its IH]; intros rs F [|h hours] Eh; try discriminate Eh;
      inversion F as [|? r ? rs' (_ & Er) F']; subst; cbn [map]; constructor.
    - cbn [hourly in_row with_time r_time]. rewrite Er. cbn [map] in Eh. injection Eh as Eh _. exists (td_to_num UHours (snd it)). split; [reflexivity|]. rewrite hours_of, Eh. unfold Qeq. cbn [Qnum Qden inject_Z]. lia.
    - cbn [map] in Eh. injection Eh as _ Eh. now apply IH. }
  destruct (ramped sim) eqn:Er.
  - cbn [rbind]. eexists. split; [reflexivity|]. unfold gain_plot. cbn [negb]. cbn [si_times si_band si_final]. do 3 (split; [assumption|]). reflexivity.
  - rewrite Ev. cbn [rbind]. eexists. split; [reflexivity|]. unfold gain_plot. cbn [negb]. cbn [si_times si_band si_final]. do 3 (split; [assumption|]). assumption.
Qed.

Section S.
Context {R : Rng Q} {Ho : HashOrd}.
Variable gen : nat -> nat.
Variable here : string.
Hypothesis Hnp : numpy_accepts Q.
Variables (pexp : Q -> Q) (ppow : Q -> Q -> Q).

Lemma ramp_asked c : c < 5 -> map snd (asked "amp_gain" c 0 0 ramp_steps) = map (fun h => h * Z.pos an_hour)%Z ramp_hours.
Proof. intros Hc. do 5 (destruct c as [|c]; [vm_compute; reflexivity|]). lia. Qed.
Lemma long_asked t name c : c < 5 -> map snd (asked "amp_gain" c 0 0 (long_steps t name)) = map (fun h => h * Z.pos an_hour)%Z long_hours.
Proof. intros Hc. do 5 (destruct c as [|c]; [vm_compute; reflexivity|]). lia. Qed.
Lemma ramp_asked_same c : c < 5 -> asked "amp_gain" c 0 0 ramp_steps = asked "amp_gain" 0 0 0 ramp_steps.
Proof. intros Hc. do 5 (destruct c as [|c]; [vm_compute; reflexivity|]). lia. Qed.
Lemma long_asked_same t name c : c < 5 -> asked "amp_gain" c 0 0 (long_steps t name) = asked "amp_gain" 0 0 0 (long_steps t name).
Proof. intros Hc. do 5 (destruct c as [|c]; [vm_compute; reflexivity|]). lia. Qed.
Lemma silicon_sim_is l (rep : report Q) sim hours : silicon_report l rep -> map snd (asked "amp_gain" 0 0 0 l) = map (fun h => h * Z.pos an_hour)%Z hours -> hours <> [] ->
  (forall c, c < 5 -> asked "amp_gain" c 0 0 l = asked "amp_gain" 0 0 0 l) ->
  exists p, one_sim sim (map hourly (rp_meas rep)) = Ok (sim, p) /\ gain_plot hours (negb (ramped sim)) (rp_meas rep) p.
Proof.
  intros (w & w' & Rp) Eh Nh Sa. apply one_sim_is with (its := asked "amp_gain" 0 0 0 l); auto.
  intros a b c Ha Hb Hc. rewrite <- (Sa c Hc). exact (reported_series _ _ _ _ _ _ _ _ _ a b c Rp Ha Hb).
Qed.
Theorem silicon_drawing fuel save fs w : 20 <= fuel -> exists rs ps fs' w', silicon_run gen pexp ppow fuel w = (Ok rs, w') /\
  silicon_script gen here pexp ppow fuel None save false fs w = (Draws ps, fs', w') /\
  stored_all (map (data_path here) (map snd silicon_files)) save (silicon_reports rs) fs fs' /\
  map fst rs = map (fun t => fst (fst t)) tests /\ map fst ps = map (fun t => fst (fst t)) tests /\
  Forall2 (fun t x => gain_plot (snd (fst t)) (snd t) (rp_meas (snd (fst x))) (snd (snd x))) tests (combine rs ps).
Proof.
  intros Hf. destruct (silicon_made gen Hnp pexp ppow fuel w Hf) as (rs & w' & E & En & F & T).
  assert (X : exists fs', (if save then save_all here (combine (map snd silicon_files) (silicon_reports rs)) fs else (None, fs)) = (None, fs') /\
    stored_all (map (data_path here) (map snd silicon_files)) save (silicon_reports rs) fs fs').
  { destruct save; [|exists fs; split; [reflexivity|intros p; reflexivity]]. apply stored_of; auto.
    - destruct rs as [|q0 [|q1 [|q2 [|q3 [|q4 [|q5 [|q6 rs]]]]]]]; try discriminate En. reflexivity.
    - cbn. repeat constructor; cbn; intuition discriminate. }
  destruct X as (fs' & Es & St).
  destruct rs as [|[n0 r0] [|[n1 r1] [|[n2 r2] [|[n3 r3] [|[n4 r4] [|[n5 r5] [|q6 rs]]]]]]]; try discriminate En. pose proof En as En'. injection En' as -> -> -> -> -> ->.
  cbn [map snd] in F. inversion_clear F as [|? ? ? ? R0 F1]. inversion_clear F1 as [|? ? ? ? R1 F2]. inversion_clear F2 as [|? ? ? ? R2 F3].
  inversion_clear F3 as [|? ? ? ? R3 F4]. inversion_clear F4 as [|? ? ? ? R4 F5]. inversion_clear F5 as [|? ? ? ? R5 _].
  assert (Ra : forall r sim, silicon_report ramp_steps r -> exists p, one_sim sim (map hourly (rp_meas r)) = Ok (sim, p) /\ gain_plot ramp_hours (negb (ramped sim)) (rp_meas r) p).
  { intros r sim Rr. eapply silicon_sim_is; [exact Rr|apply ramp_asked; lia|discriminate|apply ramp_asked_same]. }
  assert (Rl : forall t name r sim, silicon_report (long_steps t name) r -> exists p, one_sim sim (map hourly (rp_meas r)) = Ok (sim, p) /\ gain_plot long_hours (negb (ramped sim)) (rp_meas r) p).
  { intros t name r sim Rr. eapply silicon_sim_is; [exact Rr|apply long_asked; lia|discriminate|apply long_asked_same]. }
  assert (Mt : forall l (r : report Q) nm k, silicon_report l r -> row_count (fun _ => 125) l <> 0 -> o_hours_table (Made (xreport_of nm "none provided" r) k) = Ok (map hourly (rp_meas r))).
  { intros l r nm k (v & v' & Rr) N. apply made_table. unfold xreport_of. cbn [x_meas]. assert (Nm : rp_meas r <> []) by (eapply rows_some; eauto). destruct (rp_meas r); [now destruct Nm|reflexivity]. }
  destruct (Ra r0 "Current Process: Ramped Cycling"%string R0) as (p0 & E0 & G0). destruct (Rl _ _ r1 "Current Process: HTOL"%string R1) as (p1 & E1 & G1).
  destruct (Rl _ _ r2 "Current Process: LTOL"%string R2) as (p2 & E2 & G2). destruct (Ra r3 "New Process: Ramped Cycling"%string R3) as (p3 & E3 & G3).
  destruct (Rl _ _ r4 "New Process: HTOL"%string R4) as (p4 & E4 & G4). destruct (Rl _ _ r5 "New Process: LTOL"%string R5) as (p5 & E5 & G5).
  eexists; exists [("Current Process: Ramped Cycling", p0); ("Current Process: HTOL", p1); ("Current Process: LTOL", p2); ("New Process: Ramped Cycling", p3); ("New Process: HTOL", p4); ("New Process: LTOL", p5)]%string, fs', w'. split; [exact E|]. split; [|split; [exact St|split; [exact En|split; [reflexivity|]]]].
  - unfold silicon_script. rewrite E. fold (silicon_reports [("Current Process: Ramped Cycling", r0); ("Current Process: HTOL", r1); ("Current Process: LTOL", r2); ("New Process: Ramped Cycling", r3); ("New Process: HTOL", r4); ("New Process: LTOL", r5)]%string).
    rewrite Es. cbn [finish_all silicon_reports silicon_names combine map fst snd silicon_draw map_res].
    rewrite (Mt _ _ _ _ R0), (Mt _ _ _ _ R1), (Mt _ _ _ _ R2), (Mt _ _ _ _ R3), (Mt _ _ _ _ R4), (Mt _ _ _ _ R5) by discriminate. cbn [rbind map_res fst snd].
    rewrite E0, E1, E2, E3, E4, E5. cbn [rbind]. reflexivity.
  - do 6 (apply Forall2_cons; [assumption|]). apply Forall2_nil.
Qed.
End S.
