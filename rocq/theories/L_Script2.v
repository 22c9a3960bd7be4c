(** Lemmas about the scripts with several reports. *)
From Coq Require Import QArith Lia.
From Verif Require Import M_Base M_Num M_Nd M_RandVar M_Latent M_Time M_TestSpec M_Device M_Report M_Env M_Sim M_Demo M_Script
  S_TestSpec S_Sim S_Total S_Rows S_Demo S_Export S_Script L_Base L_TestSpec L_Rows L_Export L_Export2 L_Demo L_Demo2 L_Demo3 L_Demo4 L_Script M_Export.
Open Scope nat_scope.

Section S.
Context {R : Rng Q} {Ho : HashOrd}.
Variable gen : nat -> nat.
Variable here : string.

(** ** Files *)
Lemma save_all_stored : forall l fs, NoDup (map fst l) -> (forall f x, In (f, x) l -> exists rows sums, timed x rows sums) ->
  exists fs', save_all here l fs = (None, fs') /\
    Forall (fun fx => exists j, export_to_json (snd fx) (Some "hours"%string) = Ok j /\ fs' (data_path here (fst fx)) = Some (Saved j)) l /\
    forall p, ~ In p (map (fun fx => data_path here (fst fx)) l) -> fs' p = fs p.
Proof.
  induction l as [|[f x] l IH]; intros fs ND T; [exists fs; repeat split; auto|].
  destruct (T f x (or_introl eq_refl)) as (rows & sums & Tx). destruct (saved_loads _ _ _ Tx) as (j & _ & _ & _ & Ej & _).
  inversion_clear ND as [|? ? Nf ND']. cbn [save_all]. rewrite Ej.
  destruct (IH (write fs (data_path here f) j) ND') as (fs' & E & A & B); [intros f' x' Hx; apply T with f'; now right|].
  exists fs'. split; [exact E|]. split.
  - constructor; [|exact A]. exists j. split; [exact Ej|]. cbn [fst]. rewrite B; [apply write_same|].
    intros Hp. apply in_map_iff in Hp as ([f' x'] & Q & Hp). cbn [fst] in Q. apply data_path_inj in Q as ->. apply Nf. now apply in_map with (f := fst) in Hp.
  - intros p Hp. cbn [map In fst] in Hp. rewrite B by tauto. apply write_other. intros ->. tauto.
Qed.
Lemma stored_of names xs fs : length names = length xs -> NoDup names -> (forall x, In x xs -> exists rows sums, timed x rows sums) ->
  exists fs', save_all here (combine names xs) fs = (None, fs') /\ stored_all (map (data_path here) names) true xs fs fs'.
Proof.
  intros Ln ND T. assert (Ef : map fst (combine names xs) = names).
  { clear -Ln. revert xs Ln. induction names as [|n names IH]; intros [|x xs] Ln; cbn in *; try discriminate; [reflexivity|]. f_equal. apply IH. lia. }
  destruct (save_all_stored (combine names xs) fs) as (fs' & E & A & B); [now rewrite Ef|intros f x Hx; apply T; eapply in_combine_r; eauto|].
  exists fs'. split; auto. split.
  - clear -A Ln. revert xs Ln A. induction names as [|n names IH]; intros [|x xs] Ln A; cbn in *; try discriminate; constructor; inversion_clear A; auto.
  - intros p Hp. apply B. intros Hq. apply Hp. apply in_map_iff in Hq as ([f x] & <- & Hq). cbn [fst]. apply in_map. eapply in_combine_l; eauto.
Qed.

(** ** A directory given *)
Lemma open_all_length fs : forall paths l, open_all fs paths = inl l -> length l = length paths.
Proof.
  induction paths as [|p paths IH]; cbn [open_all]; intros l E; [injection E as <-; reflexivity|].
  destruct (open_report fs p) as [o|f]; [|discriminate]. destruct (open_all fs paths) as [os|f]; [|discriminate]. injection E as <-. cbn. now rewrite (IH os).
Qed.
Lemma open_all_saved fs : forall paths xs, Forall2 (fun p x => p <> ""%string /\ exists j, fs p = Some (Saved j) /\ load j = Ok x) paths xs -> open_all fs paths = inl (map Loaded xs).
Proof.
  induction 1 as [|p x paths xs (N & j & E & L) _ IH]; [reflexivity|]. cbn [open_all map]. now rewrite (opened_saved _ _ _ _ N E L), IH.
Qed.
Lemma set_fails {K D} fs d names test (check : coll K -> res Z) (draw : coll K -> res D) : names <> [] ->
  (forall l, l <> [] -> check (PySet l) = Err TypeError /\ draw (PySet l) = Err TypeError) ->
  (exists f, open_all fs (map (file_in d) names) = inr f /\ finish_all (open_set fs d names) test check draw = Fails f) \/
  (exists l, open_all fs (map (file_in d) names) = inl l /\ finish_all (open_set fs d names) test check draw = Fails (Raised TypeError)).
Proof.
  intros Nn H. unfold open_set. destruct (open_all fs (map (file_in d) names)) as [l|f] eqn:E; [right; exists l|left; exists f]; split; auto.
  apply open_all_length in E. destruct (H l) as [Hc Hd]; [intros ->; destruct names; [auto|discriminate]|]. cbn [finish_all]. destruct test; [now rewrite Hc|now rewrite Hd].
Qed.
Lemma silicon_set l : l <> [] -> silicon_checks (PySet l) = Err TypeError /\ silicon_draw (PySet l) = Err TypeError.
Proof. intros N. split; [reflexivity|]. destruct l; [now destruct N|reflexivity]. Qed.
Lemma field_set l : l <> [] -> field_checks (PySet l) = Err TypeError /\ field_draw (PySet l) = Err TypeError.
Proof. intros N. split; [reflexivity|]. destruct l; [now destruct N|reflexivity]. Qed.

(** The files of a run can be opened again. *)
Lemma stored_opens names xs fs fs' : (forall x, In x xs -> exists rows sums, timed x rows sums) ->
  stored_all (map (data_path here) names) true xs fs fs' -> exists xs', open_all fs' (map (file_in (join here "data")) names) = inl (map Loaded xs').
Proof.
  intros T (F & _).
  assert (X : exists xs', Forall2 (fun p x => p <> ""%string /\ exists j, fs' p = Some (Saved j) /\ load j = Ok x) (map (file_in (join here "data")) names) xs').
  { revert xs T F. induction names as [|n names IH]; intros [|x xs0] T F; [exists []; inversion F; constructor|inversion F|inversion F|inversion_clear F as [|? ? ? ? (j & Ej & E) F']].
    destruct (T x (or_introl eq_refl)) as (rows & sums & Tx). destruct (saved_loads _ _ _ Tx) as (j' & x' & _ & _ & Ej' & El & _). assert (j' = j) by congruence. subst j'.
    destruct (IH xs0) as (xs' & Fx); [intros z Hz; apply T; now right|exact F'|]. exists (x' :: xs'). cbn [map]. constructor; [|exact Fx].
    rewrite file_in_path. split; [apply data_path_nonempty|eauto]. }
  destruct X as (xs' & Fx). exists xs'. now apply open_all_saved.
Qed.

Hypothesis Hnp : numpy_accepts Q.
Variables (pexp : Q -> Q) (ppow : Q -> Q -> Q).

(** ** vts_paper_presilicon_variability.py *)
Lemma silicon_timed l (rep : report Q) nm ds : silicon_report l rep -> short_test 0 l -> row_count (fun _ => 125) l <> 0 -> timed (xreport_of nm ds rep) (rp_meas rep) (rp_sum rep).
Proof.
  intros (w & w' & Rp) Sh N. eapply reported_timed; eauto. eapply rows_some; eauto.
Qed.
Definition silicon_reports (rs : list (string * report Q)) : list xreport :=
  map (fun p => xreport_of (snd p) "none provided" (snd (fst p))) (combine rs silicon_names).
Lemma silicon_made fuel w : 20 <= fuel -> exists rs w', silicon_run gen pexp ppow fuel w = (Ok rs, w') /\
  map fst rs = map fst silicon_files /\
  Forall2 silicon_report [ramp_steps; long_steps 125 "HTOL Stress"; long_steps (-10) "Low Temperature Stress"; ramp_steps; long_steps 125 "HTOL Stress"; long_steps (-10) "Low Temperature Stress"] (map snd rs) /\
  forall x, In x (silicon_reports rs) -> exists rows sums, timed x rows sums.
Proof.
  intros Hf. destruct (silicon_runs gen pexp ppow Hnp fuel w Hf) as (r0 & r1 & r2 & r3 & r4 & r5 & w' & E & R0 & R1 & R2 & R3 & R4 & R5).
  eexists; exists w'; split; [exact E|]. split; [reflexivity|]. split; [cbn [map snd]; auto 8|].
  assert (A : forall t name (r : report Q) nm ds, silicon_report (long_steps t name) r -> exists rows sums, timed (xreport_of nm ds r) rows sums).
  { intros t name r nm ds Rr. eexists; eexists. eapply silicon_timed; eauto using long_short. discriminate. }
  assert (B : forall (r : report Q) nm ds, silicon_report ramp_steps r -> exists rows sums, timed (xreport_of nm ds r) rows sums).
  { intros r nm ds Rr. eexists; eexists. eapply silicon_timed; eauto using ramp_short. discriminate. }
  intros x Hx. cbn [silicon_reports silicon_names combine map fst snd In] in Hx. decompose [or] Hx; subst; eauto; contradiction.
Qed.
Theorem silicon_status fuel save fs w : 20 <= fuel -> exists rs fs' w', silicon_run gen pexp ppow fuel w = (Ok rs, w') /\
  silicon_script gen here pexp ppow fuel None save true fs w = (Exits 0%Z, fs', w') /\
  stored_all (map (data_path here) (map snd silicon_files)) save (silicon_reports rs) fs fs'.
Proof.
  intros Hf. destruct (silicon_made fuel w Hf) as (rs & w' & E & En & F & T).
  assert (X : exists fs', (if save then save_all here (combine (map snd silicon_files) (silicon_reports rs)) fs else (None, fs)) = (None, fs') /\
    stored_all (map (data_path here) (map snd silicon_files)) save (silicon_reports rs) fs fs').
  { destruct save; [|exists fs; split; [reflexivity|intros p; reflexivity]]. apply stored_of; auto.
    - destruct rs as [|q0 [|q1 [|q2 [|q3 [|q4 [|q5 [|q6 rs]]]]]]]; try discriminate En. reflexivity.
    - cbn. repeat constructor; cbn; intuition discriminate. }
  destruct X as (fs' & Es & St). exists rs, fs', w'. split; auto. split; auto.
  unfold silicon_script. rewrite E. fold (silicon_reports rs). rewrite Es. f_equal. f_equal. cbn [finish_all].
  destruct rs as [|[? r0] [|[? r1] [|[? r2] [|[? r3] [|[? r4] [|[? r5] [|q6 rs]]]]]]]; try discriminate En. injection En as -> -> -> -> -> ->.
  cbn [map snd] in F. inversion_clear F as [|? ? ? ? _ F1]. inversion_clear F1 as [|? ? ? ? R1 F2]. inversion_clear F2 as [|? ? ? ? R2 F3].
  inversion_clear F3 as [|? ? ? ? R3 F4]. inversion_clear F4 as [|? ? ? ? _ F5]. inversion_clear F5 as [|? ? ? ? R5 _].
  apply silicon_facts in R1 as (_ & B1 & _), R2 as (A2 & _ & _), R3 as (_ & B3 & _), R5 as (_ & _ & C5).
  destruct (summary_at _ _ 29 _ B3 eq_refl) as (q3 & N3 & _ & T3). destruct (summary_at _ _ 13 _ B1 eq_refl) as (q1 & N1 & T1 & _).
  destruct T1 as (_ & _ & _ & _ & T1 & _).
  cbn [silicon_reports silicon_names combine map fst snd]. unfold silicon_checks.
  cbn [getitem find fst snd String.eqb Ascii.eqb Bool.eqb rbind]. unfold o_num, o_hours.
  rewrite (made_rows _ _ _ _ 2625 A2), (made_count _ _ _ _ C5), (made_at _ _ _ _ _ "vdd" _ _ N3 (T3 "vdd"%string _ eq_refl)), (made_at _ _ _ _ _ "start time" _ _ N1 T1).
  reflexivity.
Qed.
Theorem silicon_given_dir fuel d save test fs w : exists f, silicon_script gen here pexp ppow fuel (Some d) save test fs w = (Fails f, fs, w).
Proof.
  unfold silicon_script. destruct (set_fails fs d (map snd silicon_files) test silicon_checks silicon_draw ltac:(discriminate) silicon_set) as [(f & _ & ->)|(l & _ & ->)]; eauto.
Qed.
Theorem silicon_own_dir fuel fuel' save test test' fs w o fs' w1 : 20 <= fuel -> silicon_script gen here pexp ppow fuel None true test fs w = (o, fs', w1) -> forall w2,
  silicon_script gen here pexp ppow fuel' (Some (join here "data")) save test' fs' w2 = (Fails (Raised TypeError), fs', w2).
Proof.
  intros Hf E w2. destruct (silicon_made fuel w Hf) as (rs & w' & Er & En & F & T).
  destruct (stored_of (map snd silicon_files) (silicon_reports rs) fs) as (fs1 & Es & St); auto.
  { destruct rs as [|q0 [|q1 [|q2 [|q3 [|q4 [|q5 [|q6 rs]]]]]]]; try discriminate En. reflexivity. }
  { cbn. repeat constructor; cbn; intuition discriminate. }
  unfold silicon_script in E. rewrite Er in E. fold (silicon_reports rs) in E. rewrite Es in E. injection E as _ <- _.
  destruct (stored_opens _ _ _ _ T St) as (xs' & Eo). unfold silicon_script.
  destruct (set_fails fs1 (join here "data") (map snd silicon_files) test' silicon_checks silicon_draw ltac:(discriminate) silicon_set) as [(f & X & _)|(l & _ & ->)]; [congruence|reflexivity].
Qed.

(** ** vts_paper_tddb_model_sensitivity.py *)
Definition field_reports (rs : list (Q * report Q)) : list xreport := map (fun qr => xreport_of "Field Use Sim" field_desc (snd qr)) rs.
Definition distances : list Q := [105 # 100; 1075 # 1000; 11 # 10; 1125 # 1000; 115 # 100]%Q.
Lemma field_made fuel ws : 104 <= fuel -> exists rs, field_run gen ppow fuel ws = Ok rs /\ map fst rs = distances /\
  (forall r, In r (map snd rs) -> exists w w', reported (field_steps 100) 1 1 "tddb" "tddb" 100 w r w') /\
  forall x, In x (field_reports rs) -> exists rows sums, timed x rows sums.
Proof.
  intros Hf. unfold field_run. rewrite (field_test_steps 100 fuel Hf). cbn [rbind].
  assert (F : forall q, exists r, fst (single_test gen ppow q (field_steps 100) (ws q)) = Ok r /\ exists w w', reported (field_steps 100) 1 1 "tddb" "tddb" 100 w r w').
  { intros q. destruct (field_reported gen ppow Hnp 100 q (ws q) ltac:(discriminate)) as (r & w' & E & X). exists r. rewrite E. eauto. }
  cbn [map_res]. destruct (F (105 # 100)%Q) as (r1 & -> & A1). cbn [rbind]. destruct (F (1075 # 1000)%Q) as (r2 & -> & A2). cbn [rbind].
  destruct (F (11 # 10)%Q) as (r3 & -> & A3). cbn [rbind]. destruct (F (1125 # 1000)%Q) as (r4 & -> & A4). cbn [rbind].
  destruct (F (115 # 100)%Q) as (r5 & -> & A5). cbn [rbind]. eexists. split; [reflexivity|]. split; [reflexivity|]. split.
  - intros r Hr. cbn in Hr. decompose [or] Hr; subst; auto; contradiction.
  - assert (B : forall r : report Q, (exists w w', reported (field_steps 100) 1 1 "tddb" "tddb" 100 w r w') -> exists rows sums, timed (xreport_of "Field Use Sim" field_desc r) rows sums).
    { intros r (w & w' & Rr). eexists; eexists. eapply reported_timed; eauto using field_short. eapply rows_some; eauto. rewrite (field_rows gen). discriminate. }
    intros x Hx. cbn [field_reports map snd In] in Hx. decompose [or] Hx; subst; auto; contradiction.
Qed.
Theorem field_status fuel save fs ws : 104 <= fuel -> exists rs fs', field_run gen ppow fuel ws = Ok rs /\
  field_script gen here ppow fuel None save true fs ws = (Exits 0%Z, fs') /\
  stored_all (map (data_path here) field_files) save (field_reports rs) fs fs'.
Proof.
  intros Hf. destruct (field_made fuel ws Hf) as (rs & E & En & F & T).
  assert (X : exists fs', (if save then save_all here (combine field_files (field_reports rs)) fs else (None, fs)) = (None, fs') /\
    stored_all (map (data_path here) field_files) save (field_reports rs) fs fs').
  { destruct save; [|exists fs; split; [reflexivity|intros p; reflexivity]]. apply stored_of; auto.
    - unfold field_reports. rewrite map_length. apply (f_equal (@length Q)) in En. rewrite map_length in En. now rewrite En.
    - cbn. repeat constructor; cbn; intuition discriminate. }
  destruct X as (fs' & Es & St). exists rs, fs'. split; auto. split; auto.
  unfold field_script. rewrite E. fold (field_reports rs). rewrite Es. f_equal. cbn [finish_all].
  destruct rs as [|[? r1] [|[? r2] [|[? r3] [|[? r4] [|[? r5] [|q6 rs]]]]]]; try discriminate En. cbn [map fst] in En. injection En as -> -> -> -> ->.
  cbn [map snd In] in F.
  destruct (F r1) as (? & ? & (_ & _ & _ & _ & _ & _ & _ & _ & B1 & _)); [auto|]. destruct (F r2) as (? & ? & (_ & _ & _ & _ & _ & _ & _ & _ & B2 & _)); [auto|].
  destruct (F r3) as (? & ? & (_ & _ & _ & _ & _ & _ & _ & _ & _ & C3 & _)); [auto|]. destruct (F r5) as (? & ? & (_ & _ & _ & _ & _ & _ & _ & A5 & _)); [auto 6|].
  rewrite (field_rows gen) in A5. change (length (rp_meas r5) = 105 * 100) in A5.
  destruct (summary_at _ _ 339 _ B2 eq_refl) as (s2 & N2 & _ & S2). destruct (summary_at _ _ 31 _ B1 eq_refl) as (s1 & N1 & S1 & _).
  destruct S1 as (_ & _ & _ & S1 & _).
  cbn [field_reports combine map fst snd]. unfold field_checks.
  change (getitem Qeq_bool (PyDict ?l) (115 # 100)%Q) with (Ok (nth 4 (map snd l) Blank)).
  change (getitem Qeq_bool (PyDict ?l) (1075 # 1000)%Q) with (Ok (nth 1 (map snd l) Blank)).
  change (getitem Qeq_bool (PyDict ?l) (105 # 100)%Q) with (Ok (nth 0 (map snd l) Blank)).
  change (getitem Qeq_bool (PyDict ?l) (11 # 10)%Q) with (Ok (nth 2 (map snd l) Blank)).
  cbn [map snd nth rbind]. unfold o_num, o_hours.
  rewrite (made_rows _ _ _ _ _ A5), (made_count _ _ _ _ C3), (made_at _ _ _ _ _ "v_g" _ _ N2 (S2 "v_g"%string _ eq_refl)), (made_at _ _ _ _ _ "duration" _ _ N1 S1).
  reflexivity.
Qed.
Theorem field_given_dir fuel d save test fs ws : exists f, field_script gen here ppow fuel (Some d) save test fs ws = (Fails f, fs).
Proof.
  unfold field_script. destruct (set_fails fs d field_files test field_checks field_draw ltac:(discriminate) field_set) as [(f & _ & ->)|(l & _ & ->)]; eauto.
Qed.
Theorem field_own_dir fuel fuel' save test test' fs ws o fs' : 104 <= fuel -> field_script gen here ppow fuel None true test fs ws = (o, fs') -> forall ws2,
  field_script gen here ppow fuel' (Some (join here "data")) save test' fs' ws2 = (Fails (Raised TypeError), fs').
Proof.
  intros Hf E ws2. destruct (field_made fuel ws Hf) as (rs & Er & En & F & T).
  destruct (stored_of field_files (field_reports rs) fs) as (fs1 & Es & St); auto.
  { unfold field_reports. rewrite map_length. apply (f_equal (@length Q)) in En. rewrite map_length in En. now rewrite En. }
  { cbn. repeat constructor; cbn; intuition discriminate. }
  unfold field_script in E. rewrite Er in E. fold (field_reports rs) in E. rewrite Es in E. injection E as _ <-.
  destruct (stored_opens _ _ _ _ T St) as (xs' & Eo). unfold field_script.
  destruct (set_fails fs1 (join here "data") field_files test' field_checks field_draw ltac:(discriminate) field_set) as [(f & X & _)|(l & _ & ->)]; [congruence|reflexivity].
Qed.
End S.
