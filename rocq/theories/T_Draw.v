(** Property C94: what the demonstration scripts draw: which points, at which times,
    with which averages and ranges, and the same again from the saved reports. *)
From Coq Require Import QArith Lia.
From Verif Require Import M_Base M_Num M_Nd M_RandVar M_Time M_TestSpec M_Report M_Sim M_Demo M_Toy M_Script
  S_Total S_Demo S_Series S_Export S_Script L_Base L_Demo4 L_Script L_Script2 L_Draw L_Draw2 L_Draw3 T_Sim T_Total T_Demo M_Export.
Open Scope nat_scope.

(** ** demos/basic_use.py *)
Theorem C94_basic_drawing :
  forall (R : Rng Q) (Ho : HashOrd) gen here save fs w, numpy_accepts Q ->
  exists rep cs fs' w', basic_run gen w = (Ok rep, w') /\ basic_script gen here None save false fs w = (Draws cs, fs', w') /\
    stored (data_path here "basic_report") save (xreport_of "unspecified" "none provided" rep) fs fs' /\
    length cs = 5 /\ forall c curve, nth_error cs c = Some curve ->
      Forall2 (shows an_hour) (series "example_prm" 0 0 c (rp_meas rep)) curve /\ Forall2 reads [0; 100]%Z (map fst curve).
Proof. intros R Ho gen here save fs w Hn. exact (basic_drawing gen here Hn save fs w). Qed.
Print Assumptions C94_basic_drawing.
Theorem C94_basic_redrawing :
  forall (R : Rng Q) (Ho : HashOrd) gen here test save fs w o fs' w1, numpy_accepts Q ->
  basic_script gen here None true test fs w = (o, fs', w1) ->
  exists cs cs', basic_script gen here None true false fs w = (Draws cs, fs', w1) /\
    (forall w2, basic_script gen here (Some (data_path here "basic_report")) save false fs' w2 = (Draws cs', fs', w2)) /\
    Forall2 (Forall2 redrawn) cs cs'.
Proof. intros R Ho gen here test save fs w o fs' w1 Hn. exact (basic_redrawing gen here Hn test save fs w o fs' w1). Qed.
Print Assumptions C94_basic_redrawing.

(** ** demos/riverbed_erosion.py *)
(** One curve for each of ten places in each of five rivers, at the beginning and after
    every year. *)
Theorem C94_river_drawing :
  forall (R : Rng Q) (Ho : HashOrd) gen here fuel save fs w, numpy_accepts Q -> has_digits Q -> 10 <= fuel ->
  exists rep ps fs' w', river_run gen fuel w = (Ok rep, w') /\ river_script gen here fuel None save false fs w = (Draws ps, fs', w') /\
    stored (data_path here "erosion_report") save (xreport_of "Riverbed Erosion Process" "none provided" rep) fs fs' /\
    length ps = 5 /\ forall b p, nth_error ps b = Some p ->
      length (rv_curves p) = 10 /\
      (forall c curve, nth_error (rv_curves p) c = Some curve -> Forall2 (shows a_year) (series "riverbed_level" 0 b c (rp_meas rep)) curve /\
         Forall2 (fun k t => reads (Z.of_nat k) t) (seq 0 11) (map fst curve)) /\
      Forall2 (fun k t => reads (Z.of_nat k) t) (seq 0 11) (rv_times p).
Proof. intros R Ho gen here fuel save fs w Hn. exact (river_drawing gen here Hn fuel save fs w). Qed.
Print Assumptions C94_river_drawing.
(** The average and the range are those of the curves, whatever report is drawn. *)
Theorem C94_river_averages :
  forall (R : Rng Q) (Ho : HashOrd) gen here fuel data_file save test fs w ps fs' w' p,
  river_script gen here fuel data_file save test fs w = (Draws ps, fs', w') -> In p ps ->
  length (rv_curves p) = 10 /\ (forall s, In s (rv_curves p) -> length s = 11) /\ summarises 11 (map (map snd) (rv_curves p)) (rv_band p) /\
  forall j avg lo hi, nth_error (b_sum (rv_band p)) j = Some avg -> nth_error (b_min (rv_band p)) j = Some lo -> nth_error (b_max (rv_band p)) j = Some hi ->
    (lo <= avg <= hi)%Q.
Proof. intros R Ho. exact river_averages. Qed.
Print Assumptions C94_river_averages.
Theorem C94_river_redrawing :
  forall (R : Rng Q) (Ho : HashOrd) gen here fuel fuel' test save fs w o fs' w1, numpy_accepts Q -> has_digits Q -> 10 <= fuel ->
  river_script gen here fuel None true test fs w = (o, fs', w1) ->
  exists ps ps', river_script gen here fuel None true false fs w = (Draws ps, fs', w1) /\
    (forall w2, river_script gen here fuel' (Some (data_path here "erosion_report")) save false fs' w2 = (Draws ps', fs', w2)) /\
    Forall2 (fun p p' => rv_times p' = rv_times p /\ Forall2 (Forall2 redrawn) (rv_curves p) (rv_curves p')) ps ps'.
Proof. intros R Ho gen here fuel fuel' test save fs w o fs' w1 Hn. exact (river_redrawing gen here Hn fuel fuel' test save fs w o fs' w1). Qed.
Print Assumptions C94_river_redrawing.

(** ** demos/vts_paper_presilicon_variability.py *)
Theorem C94_silicon_drawing :
  forall (R : Rng Q) (Ho : HashOrd) gen here pexp ppow fuel save fs w, numpy_accepts Q -> 20 <= fuel ->
  exists rs ps fs' w', silicon_run gen pexp ppow fuel w = (Ok rs, w') /\
    silicon_script gen here pexp ppow fuel None save false fs w = (Draws ps, fs', w') /\
    stored_all (map (data_path here) ["curr_ramp_report"; "curr_htol_report"; "curr_ltol_report"; "next_ramp_report"; "next_htol_report"; "next_ltol_report"]%string)
      save (silicon_reports rs) fs fs' /\
    map fst rs = map (fun t => fst (fst t)) tests /\ map fst ps = map (fun t => fst (fst t)) tests /\
    Forall2 (fun t x => gain_plot (snd (fst t)) (snd t) (rp_meas (snd (fst x))) (snd (snd x))) tests (combine rs ps).
Proof. intros R Ho gen here pexp ppow fuel save fs w Hn. exact (silicon_drawing gen here Hn pexp ppow fuel save fs w). Qed.
Print Assumptions C94_silicon_drawing.

(** ** Examples *)
#[local] Existing Instance hord_id.
#[local] Existing Instance ToyRng.
Example C94_basic_example : exists cs cs' fs w', basic_script (fun i => i) "" None true false (fun _ => None) (fun _ => 0) = (Draws cs, fs, w') /\
  basic_script (fun i => i) "" (Some "data/basic_report.json"%string) false false fs w' = (Draws cs', fs, w') /\
  Forall2 (Forall2 redrawn) cs cs' /\ length cs = 5.
Proof.
  destruct (C94_basic_drawing _ _ (fun i => i) "" true (fun _ => None) (fun _ => 0) toy_accepts) as (rep & cs & fs & w' & _ & E & _ & Ln & _).
  destruct (C94_basic_redrawing _ _ _ _ _ false _ _ _ _ _ toy_accepts E) as (cs1 & cs' & E1 & E2 & F). rewrite E in E1. injection E1 as <-.
  exists cs, cs', fs, w'. auto.
Qed.
Example C94_river_example : exists ps fs w' p avg lo hi, river_script (fun i => i) "" 10 None false false (fun _ => None) (fun _ => 0) = (Draws ps, fs, w') /\
  nth_error ps 4 = Some p /\ nth_error (b_sum (rv_band p)) 10 = Some avg /\ nth_error (b_min (rv_band p)) 10 = Some lo /\ nth_error (b_max (rv_band p)) 10 = Some hi /\ (lo <= avg <= hi)%Q.
Proof.
  destruct (C94_river_drawing _ _ (fun i => i) "" 10 false (fun _ => None) (fun _ => 0) toy_accepts digits_Q (le_n _)) as (rep & ps & fs & w' & Er & E & _ & Ln & _).
  destruct (nth_error ps 4) as [p|] eqn:Ep; [|apply nth_error_None in Ep; lia].
  destruct (C94_river_averages _ _ _ _ _ _ _ _ _ _ _ _ _ p E (nth_error_In _ _ Ep)) as (_ & _ & (L1 & L2 & L3 & _) & K).
  destruct (nth_error (b_sum (rv_band p)) 10) as [avg|] eqn:Ea; [|apply nth_error_None in Ea; lia].
  destruct (nth_error (b_min (rv_band p)) 10) as [lo|] eqn:El; [|apply nth_error_None in El; lia].
  destruct (nth_error (b_max (rv_band p)) 10) as [hi|] eqn:Eh; [|apply nth_error_None in Eh; lia].
  exists ps, fs, w', p, avg, lo, hi. do 5 (split; [assumption|]). exact (K 10 avg lo hi Ea El Eh).
Qed.
(** Averages and ranges of given series; values beyond 1000 escape the range. *)
Example C94_band_example : exists b, widen_all (band0 2) [[1; 2000]; [3; 4000]; [-4; 3000]]%Q = Ok b /\ averaged 3 b = Band [0; 3000]%Q [-4; 1000]%Q [3; 4000]%Q.
Proof. eexists. split; reflexivity. Qed.
Example C94_silicon_example : exists ps fs w' p, silicon_script (fun i => i) "" (fun x => x) (fun x _ => x) 20 None false false (fun _ => None) (fun _ => 0) = (Draws ps, fs, w') /\
  nth_error ps 1 = Some ("Current Process: HTOL"%string, p) /\ length (si_final p) = 125 /\ length (si_times p) = 21.
Proof.
  destruct (C94_silicon_drawing _ _ (fun i => i) "" (fun x => x) (fun x _ => x) 20 false (fun _ => None) (fun _ => 0) toy_accepts (le_n _)) as (rs & ps & fs & w' & _ & E & _ & N1 & N2 & F).
  destruct rs as [|[? r0] [|[? r1] rs]]; try discriminate N1. destruct ps as [|[? p0] [|[? p1] ps]]; try discriminate N2. cbn [map fst tests] in N2. injection N2 as -> -> N2.
  exists (("Current Process: Ramped Cycling"%string, p0) :: ("Current Process: HTOL"%string, p1) :: ps), fs, w', p1. split; [exact E|]. split; [reflexivity|].
  cbn [combine tests] in F. inversion_clear F as [|? ? ? ? _ F1]. inversion_clear F1 as [|? ? ? ? G _]. destruct G as (G1 & _ & _ & G4). cbn [fst snd] in G1, G4.
  split; [rewrite <- (Forall2_length G4); apply map_length|rewrite <- (Forall2_length G1); reflexivity].
Qed.
