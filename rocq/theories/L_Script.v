(** Lemmas about the scripts: options, files and checks. *)
From Coq Require Import QArith Lia Ascii.
From Verif Require Import M_Base M_Num M_Nd M_RandVar M_Latent M_Time M_TestSpec M_Device M_Report M_Env M_Sim M_Demo M_Script
  S_TestSpec S_Sim S_Total S_Rows S_Demo S_Export S_Script L_Base L_TestSpec L_Rows L_Export L_Export2 L_Demo L_Demo2 L_Demo3 L_Demo4 M_Export.
Open Scope nat_scope.

Lemma literals_rat : literals Q.
Proof. split; try split; try reflexivity. intros h [<-|[<-|[<-|[]]]]; reflexivity. Qed.

(** ** Paths *)
Lemma sapp_assoc (a b c : string) : ((a ++ b) ++ c = a ++ b ++ c)%string.
Proof. induction a as [|x a IH]; cbn; [reflexivity|now rewrite IH]. Qed.
Lemma sapp_inj (a b c : string) : (a ++ b = a ++ c)%string -> b = c.
Proof. induction a as [|x a IH]; cbn; intros E; [exact E|]. injection E as E. auto. Qed.
Lemma sapp_len (a b : string) : String.length (a ++ b) = String.length a + String.length b.
Proof. induction a as [|x a IH]; cbn; [reflexivity|now rewrite IH]. Qed.
Lemma sapp_tail (a b c : string) : (a ++ c = b ++ c)%string -> a = b.
Proof.
  intros E. assert (Ln : String.length a = String.length b) by (apply (f_equal String.length) in E; rewrite !sapp_len in E; lia).
  revert b E Ln. induction a as [|x a IH]; intros [|y b] E Ln; cbn in *; try discriminate; [reflexivity|].
  injection E as -> E. f_equal. apply IH; [exact E|lia].
Qed.
Lemma join_app here : exists pre, forall p, join here p = (pre ++ p)%string.
Proof.
  unfold join. destruct (last_char here) as [c|]; [destruct (Ascii.eqb c "/"%char)|].
  - now exists here.
  - exists (here ++ "/")%string. intros p. now rewrite sapp_assoc.
  - exists ""%string. reflexivity.
Qed.
Lemma data_path_inj here n n' : data_path here n = data_path here n' -> n = n'.
Proof.
  unfold data_path. destruct (join_app here) as [pre J]. rewrite !J. intros E. apply sapp_inj in E. apply (sapp_inj "data/") in E. now apply sapp_tail in E.
Qed.
Lemma file_in_path here n : file_in (join here "data") n = data_path here n.
Proof. unfold file_in, data_path. destruct (join_app here) as [pre J]. now rewrite !J, sapp_assoc. Qed.
Lemma sapp_nonempty a c b : (a ++ String c b)%string <> ""%string.
Proof. destruct a; discriminate. Qed.
Lemma data_path_nonempty here n : data_path here n <> ""%string.
Proof. unfold data_path. destruct (join_app here) as [pre J]. rewrite J. apply sapp_nonempty. Qed.
Lemma write_same fs p j : write fs p j p = Some (Saved j).
Proof. unfold write. now rewrite String.eqb_refl. Qed.
Lemma write_other fs p j p' : p' <> p -> write fs p j p' = fs p'.
Proof. intros Ne. unfold write. now rewrite (proj2 (String.eqb_neq p' p) Ne). Qed.

(** ** Reports of the scripts *)
Section S.
Context {R : Rng Q} {Ho : HashOrd}.

Lemma reported_timed l C L name q k w (rep : report Q) w' nm ds : reported l C L name q k w rep w' -> short_test 0 l -> rp_meas rep <> [] ->
  timed (xreport_of nm ds rep) (rp_meas rep) (rp_sum rep).
Proof.
  intros (e & d & st & Wd & Fs & E & _) Sh Ne. eapply (simulated_timed nm ds e d l C L None); eauto.
  - intros s c Hs. apply (Fs s Hs).
Qed.

Lemma same_back us : (Z.abs us < 10 ^ 16)%Z -> TD (back UHours us) = TD us.
Proof. intros B. rewrite back_exact; [reflexivity|exact B|discriminate]. Qed.
Lemma saved_loads x rows sums : timed x rows sums -> exists j x' rows' sums', export_to_json x (Some "hours"%string) = Ok j /\ load j = Ok x' /\
  x_meas x' = Some rows' /\ x_sum x' = Some sums' /\
  Forall2 (row_rel (fun t t' => t' = t) read_back) rows rows' /\ Forall2 (sum_rel (fun t t' => t' = t) read_back) sums sums'.
Proof.
  intros T. destruct (reload_main (fun t t' => t' = t) x (Some "hours"%string) rows sums UHours T eq_refl same_back) as (j & x' & rows' & sums' & A & B & _ & _ & C & D & E & F).
  exists j, x', rows', sums'. auto 8.
Qed.

(** ** Checks *)
Lemma table_at_says sums i c row v : nth_error sums i = Some row -> dget row c = Some v -> table_at sums i c = Ok (Some v).
Proof. intros A B. unfold table_at. now rewrite A, B. Qed.
Lemma made_at nm ds (rep : report Q) k i c row v : nth_error (rp_sum rep) i = Some row -> dget row c = Some v -> o_at (Made (xreport_of nm ds rep) k) i c = Ok (Some v).
Proof.
  intros A B. unfold o_at, xreport_of. cbn [x_sum]. destruct (rp_sum rep) as [|s sums] eqn:E; [destruct i; discriminate A|]. now apply table_at_says with row.
Qed.
Lemma made_rows nm ds (rep : report Q) k n : length (rp_meas rep) = n -> o_rows (Made (xreport_of nm ds rep) k) n = Ok true.
Proof. intros <-. unfold o_rows, xreport_of. cbn [x_meas]. destruct (rp_meas rep); cbn [length]; now rewrite Nat.eqb_refl. Qed.
Lemma made_count x k c n : dget k c = Some n -> o_count (Made x k) c n = Ok true.
Proof. intros G. unfold o_count, dgetE. rewrite G. cbn. now rewrite Nat.eqb_refl. Qed.

(** A report loaded from a file has no device counts. *)
Lemma opened_cases fs f : (exists e, open_report fs f = inr e) \/ (exists x, open_report fs f = inl (Loaded x)) \/ open_report fs f = inl Blank.
Proof.
  unfold open_report. destruct (String.eqb f ""); auto. destruct (fs f) as [[j|]|]; eauto. destruct (load j); eauto.
Qed.
Definition loaded (o : robj) : Prop := match o with Made _ _ => False | _ => True end.
Lemma checks_err l e : (exists pre post, l = pre ++ Err e :: post) -> exists e', checks l = Err e'.
Proof.
  intros (pre & post & ->). unfold checks. enough (X : exists e', map_res (fun r : res bool => r) (pre ++ Err e :: post) = Err e') by (destruct X as [e' ->]; eexists; reflexivity).
  induction pre as [|[b|e0] pre IH]; cbn [app map_res rbind]; try (eexists; reflexivity). destruct IH as [e' ->]. eexists. reflexivity.
Qed.
Lemma count_fails o c n : loaded o -> exists e, o_count o c n = Err e.
Proof. destruct o; intros []; eexists; reflexivity. Qed.
Lemma basic_checks_fail o : loaded o -> exists e, basic_checks o = Err e.
Proof.
  intros Lo. destruct (count_fails o "example_prm" 5 Lo) as [e E]. unfold basic_checks. rewrite E. apply checks_err with e.
  exists [o_rows o 10; o_num o 2 "temp" (29815 # 100); o_hours o 1 "end time" 100], []. reflexivity.
Qed.
Lemma river_checks_fail o : loaded o -> exists e, river_checks o = Err e.
Proof.
  intros Lo. destruct (count_fails o "riverbed_level" 10 Lo) as [e E]. unfold river_checks. rewrite E. apply checks_err with e.
  exists [o_rows o 550; o_str o 33 "step name" "Autumn Season Flow"; o_num o 42 "tau" 4], []. reflexivity.
Qed.
Lemma opened_fails {D} fs f (check : robj -> res Z) (draw : robj -> res D) : (forall o, loaded o -> exists e, check o = Err e) ->
  exists e, finish (open_report fs f) true check draw = Fails e.
Proof.
  intros H. destruct (opened_cases fs f) as [[e E]|[[x E]|E]]; rewrite E; cbn [finish]; [eauto| |];
    match goal with |- context [check ?o] => destruct (H o I) as [e' ->] end; eauto.
Qed.
Lemma opened_saved fs f j x : f <> ""%string -> fs f = Some (Saved j) -> load j = Ok x -> open_report fs f = inl (Loaded x).
Proof. intros N E L. unfold open_report. now rewrite (proj2 (String.eqb_neq _ _) N), E, L. Qed.

(** The cells of a reloaded report. *)
Lemma loaded_at x rows sums x' rows' sums' i c row v : timed x rows sums -> x_sum x' = Some sums' -> x_meas x' = Some rows' ->
  Forall2 (sum_rel (fun t t' => t' = t) read_back) sums sums' -> nth_error sums i = Some row -> dget row c = Some v ->
  exists v', o_at (Loaded x') i c = Ok (Some v') /\ cell_rel (fun t t' => t' = t) read_back v v'.
Proof.
  intros _ Es _ F. revert i. unfold o_at. rewrite Es. intros i N G.
  assert (X : exists row', nth_error sums' i = Some row' /\ sum_rel (fun t t' => t' = t) read_back row row').
  { clear Es. revert i N. induction F as [|a b sums0 sums0' Hab F IH]; intros [|i] N; try discriminate N; [injection N as ->; cbn; eauto|apply IH, N]. }
  destruct X as (row' & N' & _ & K). destruct (K c v G) as (v' & G' & Cr). exists v'. split; auto. now apply table_at_says with row'.
Qed.

(** ** One report *)
Variable gen : nat -> nat.
Variable here : string.

Lemma obtain_made run nm ds file save fs w (rep : report Q) w' : run w = (Ok rep, w') -> timed (xreport_of nm ds rep) (rp_meas rep) (rp_sum rep) ->
  exists fs', obtain here run nm ds file None save fs w = (inl (Made (xreport_of nm ds rep) (rp_counts rep)), fs', w') /\
    stored (data_path here file) save (xreport_of nm ds rep) fs fs'.
Proof.
  intros E T. unfold obtain. rewrite E. destruct save; [|exists fs; split; [reflexivity|intros p; reflexivity]].
  destruct (saved_loads _ _ _ T) as (j & x' & _ & _ & Ej & _). rewrite Ej. exists (write fs (data_path here file) j). split; [reflexivity|].
  exists j. split; auto. split; [apply write_same|]. intros p Hp. now apply write_other.
Qed.

Lemma basic_short : short_test 0 basic_steps.
Proof. split; [lia|]. split; [|reflexivity]. intros s [Q|[Q|[Q|[]]]]; try discriminate Q. injection Q as <-. cbn. lia. Qed.
Lemma cycles_short n (l : list (step Q)) m b : (forall s, In (SStrs s) l -> (0 <= ss_dur s)%Z) -> (Z.of_nat n * stress_time l = b)%Z -> (b < 10 ^ 16)%Z ->
  short_test 0 (SMeas m :: cycles n l).
Proof.
  intros P E B. split; [lia|]. split.
  - intros s [Q|Hs]; [discriminate Q|]. apply cycles_In in Hs. auto.
  - assert (K : stress_time (SMeas m :: cycles n l) = stress_time (cycles n l)) by reflexivity. rewrite K, stress_time_cycles, E. exact B.
Qed.
Lemma river_short : short_test 0 river_steps.
Proof.
  eapply cycles_short; [|reflexivity|reflexivity]. intros s Hs. cbn in Hs.
  repeat match type of Hs with _ \/ _ => destruct Hs as [Hs|Hs] end; try discriminate Hs; try contradiction; injection Hs as <-; cbn; lia.
Qed.
Lemma field_short n : short_test 0 (field_steps n).
Proof.
  eapply cycles_short; [|reflexivity|reflexivity]. intros s Hs. cbn in Hs.
  repeat match type of Hs with _ \/ _ => destruct Hs as [Hs|Hs] end; try discriminate Hs; try contradiction; injection Hs as <-; cbn; lia.
Qed.
Lemma long_short t name : short_test 0 (long_steps t name).
Proof.
  eapply cycles_short; [|reflexivity|reflexivity]. intros s Hs. cbn in Hs.
  repeat match type of Hs with _ \/ _ => destruct Hs as [Hs|Hs] end; try discriminate Hs; try contradiction; injection Hs as <-; cbn; lia.
Qed.
Lemma ramp_short : short_test 0 ramp_steps.
Proof.
  split; [lia|]. split; [|reflexivity]. intros s [Q|Hs]; [discriminate Q|]. apply in_flat_map in Hs as (i & _ & [Q|[Q|[Q|[Q|[]]]]]); try discriminate Q; injection Q as <-; cbn; lia.
Qed.

Hypothesis Hnp : numpy_accepts Q.

Lemma rows_some l C L name q k w (rep : report Q) w' : reported l C L name q k w rep w' -> row_count (fun _ => L * C * k) l <> 0 -> rp_meas rep <> [].
Proof. intros (_ & _ & _ & _ & _ & _ & _ & T & _) N E. rewrite E in T. cbn in T. lia. Qed.

(** *** basic_use.py *)
Lemma basic_made w : exists rep w', basic_run gen w = (Ok rep, w') /\ reported basic_steps 1 1 "example_prm" "example_prm" 5 w rep w' /\
  timed (xreport_of "unspecified" "none provided" rep) (rp_meas rep) (rp_sum rep).
Proof.
  destruct (basic_runs gen Hnp w) as (rep & w' & E & Rp). exists rep, w'. split; auto. split; auto.
  eapply reported_timed; eauto using basic_short. eapply rows_some; eauto. discriminate.
Qed.
Theorem basic_status save fs w : exists rep fs' w', basic_run gen w = (Ok rep, w') /\ basic_script gen here None save true fs w = (Exits 0%Z, fs', w') /\
  stored (data_path here "basic_report") save (xreport_of "unspecified" "none provided" rep) fs fs'.
Proof.
  destruct (basic_made w) as (rep & w' & E & (_ & _ & _ & _ & _ & _ & _ & T & Sm & G & _) & Ti).
  destruct (obtain_made (basic_run gen) _ _ "basic_report" save fs w rep w' E Ti) as (fs' & Eo & St).
  exists rep, fs', w'. split; auto. split; auto. unfold basic_script. rewrite Eo. f_equal. f_equal. cbn [finish].
  unfold basic_checks. rewrite (made_rows _ _ _ _ 10 T), (made_count _ _ _ _ G).
  destruct (summary_at _ _ 2 _ Sm eq_refl) as (r2 & N2 & _ & S2). destruct (summary_at _ _ 1 _ Sm eq_refl) as (r1 & N1 & S1 & _).
  destruct S1 as (_ & _ & _ & _ & _ & S1). unfold o_num, o_hours.
  rewrite (made_at _ _ _ _ _ "temp" _ _ N2 (S2 "temp"%string _ eq_refl)), (made_at _ _ _ _ _ "end time" _ _ N1 S1). reflexivity.
Qed.
Theorem basic_given_file f save fs w : exists e, basic_script gen here (Some f) save true fs w = (Fails e, fs, w).
Proof.
  unfold basic_script, obtain. destruct (opened_fails fs f basic_checks basic_draw basic_checks_fail) as [e E]. rewrite E. eauto.
Qed.
Theorem basic_own_file save test fs w o fs' w1 : basic_script gen here None true test fs w = (o, fs', w1) -> forall w2,
  basic_script gen here (Some (data_path here "basic_report")) save true fs' w2 = (Fails (Raised AttributeError), fs', w2).
Proof.
  intros E w2. destruct (basic_made w) as (rep & w' & Er & (_ & _ & _ & _ & _ & _ & _ & T & Sm & G & _) & Ti).
  destruct (obtain_made (basic_run gen) _ _ "basic_report" true fs w rep w' Er Ti) as (fs1 & Eo & (j & Ej & Ef & _)).
  unfold basic_script in E. rewrite Eo in E. injection E as _ <- _.
  destruct (saved_loads _ _ _ Ti) as (j' & x' & rows' & sums' & Ej' & El & Em & Es & Fr & Fs). assert (j' = j) by congruence. subst j'.
  unfold basic_script, obtain. rewrite (opened_saved _ _ _ _ (data_path_nonempty _ _) Ef El). f_equal. f_equal. cbn [finish].
  destruct (summary_at _ _ 2 _ Sm eq_refl) as (r2 & N2 & _ & S2). destruct (summary_at _ _ 1 _ Sm eq_refl) as (r1 & N1 & S1 & _).
  destruct S1 as (_ & _ & _ & _ & _ & S1). unfold basic_checks, o_num, o_hours.
  destruct (loaded_at _ _ _ _ _ _ 2 "temp" _ _ Ti Es Em Fs N2 (S2 "temp"%string _ eq_refl)) as (v2 & -> & _).
  destruct (loaded_at _ _ _ _ _ _ 1 "end time" _ _ Ti Es Em Fs N1 S1) as (v1 & -> & C1).
  destruct v1 as [t| | |]; try contradiction. cbn in C1. subst t. reflexivity.
Qed.

(** *** riverbed_erosion.py *)
Lemma river_made fuel w : has_digits Q -> 10 <= fuel -> exists rep w', river_run gen fuel w = (Ok rep, w') /\
  reported river_steps 5 1 "riverbed_level" "riverbed_level" 10 w rep w' /\
  timed (xreport_of "Riverbed Erosion Process" "none provided" rep) (rp_meas rep) (rp_sum rep).
Proof.
  intros Hd Hf. destruct (river_runs gen Hnp fuel w Hd Hf) as (rep & w' & E & Rp). exists rep, w'. split; auto. split; auto.
  eapply reported_timed; eauto using river_short. eapply rows_some; eauto. discriminate.
Qed.
Theorem river_status fuel save fs w : has_digits Q -> 10 <= fuel ->
  exists rep fs' w', river_run gen fuel w = (Ok rep, w') /\ river_script gen here fuel None save true fs w = (Exits 0%Z, fs', w') /\
  stored (data_path here "erosion_report") save (xreport_of "Riverbed Erosion Process" "none provided" rep) fs fs'.
Proof.
  intros Hd Hf. destruct (river_made fuel w Hd Hf) as (rep & w' & E & (_ & _ & _ & _ & _ & _ & _ & T & Sm & G & _) & Ti).
  destruct (obtain_made (river_run gen fuel) _ _ "erosion_report" save fs w rep w' E Ti) as (fs' & Eo & St).
  exists rep, fs', w'. split; auto. split; auto. unfold river_script. rewrite Eo. f_equal. f_equal. cbn [finish].
  unfold river_checks. rewrite (made_rows _ _ _ _ 550 T), (made_count _ _ _ _ G).
  destruct (summary_at _ _ 33 _ Sm eq_refl) as (r1 & N1 & S1 & _). destruct (summary_at _ _ 42 _ Sm eq_refl) as (r2 & N2 & _ & S2).
  unfold o_num, o_str.
  rewrite (made_at _ _ _ _ _ "tau" _ _ N2 (S2 "tau"%string _ eq_refl)), (made_at _ _ _ _ _ "step name" _ _ N1 (proj1 S1)). reflexivity.
Qed.
Theorem river_given_file fuel f save fs w : exists e, river_script gen here fuel (Some f) save true fs w = (Fails e, fs, w).
Proof.
  unfold river_script, obtain. destruct (opened_fails fs f river_checks river_draw river_checks_fail) as [e E]. rewrite E. eauto.
Qed.
Theorem river_own_file fuel fuel' save test fs w o fs' w1 : has_digits Q -> 10 <= fuel -> river_script gen here fuel None true test fs w = (o, fs', w1) -> forall w2,
  river_script gen here fuel' (Some (data_path here "erosion_report")) save true fs' w2 = (Fails (Raised AttributeError), fs', w2).
Proof.
  intros Hd Hf E w2. destruct (river_made fuel w Hd Hf) as (rep & w' & Er & (_ & _ & _ & _ & _ & _ & _ & T & Sm & G & _) & Ti).
  destruct (obtain_made (river_run gen fuel) _ _ "erosion_report" true fs w rep w' Er Ti) as (fs1 & Eo & (j & Ej & Ef & _)).
  unfold river_script in E. rewrite Eo in E. injection E as _ <- _.
  destruct (saved_loads _ _ _ Ti) as (j' & x' & rows' & sums' & Ej' & El & Em & Es & Fr & Fs). assert (j' = j) by congruence. subst j'.
  unfold river_script, obtain. rewrite (opened_saved _ _ _ _ (data_path_nonempty _ _) Ef El). f_equal. f_equal. cbn [finish].
  destruct (summary_at _ _ 33 _ Sm eq_refl) as (r1 & N1 & S1 & _). destruct (summary_at _ _ 42 _ Sm eq_refl) as (r2 & N2 & _ & S2).
  unfold river_checks, o_num, o_str.
  destruct (loaded_at _ _ _ _ _ _ 42 "tau" _ _ Ti Es Em Fs N2 (S2 "tau"%string _ eq_refl)) as (v2 & -> & _).
  destruct (loaded_at _ _ _ _ _ _ 33 "step name" _ _ Ti Es Em Fs N1 (proj1 S1)) as (v1 & -> & C1). reflexivity.
Qed.
End S.
