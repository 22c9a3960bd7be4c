(** Property C93: the options of the demonstration scripts.  Without a data file or
    directory --test ends with status 0, and --save-data leaves the reports in the
    data directory and nothing else.  With one, --test never ends with a status. *)
From Coq Require Import QArith Lia.
From Verif Require Import M_Base M_Num M_Nd M_RandVar M_Time M_TestSpec M_Report M_Sim M_Demo M_Toy M_Script
  S_Total S_Demo S_Script L_Base L_Demo4 L_Script L_Script2 T_Sim T_Total T_Demo M_Export.
Open Scope nat_scope.

(** ** Status and files *)
Theorem C93_basic_status :
  forall (R : Rng Q) (Ho : HashOrd) gen here save fs w, numpy_accepts Q ->
  exists rep fs' w', basic_run gen w = (Ok rep, w') /\ basic_script gen here None save true fs w = (Exits 0%Z, fs', w') /\
    stored (data_path here "basic_report") save (xreport_of "unspecified" "none provided" rep) fs fs'.
Proof. intros R Ho gen here save fs w Hn. exact (basic_status gen here Hn save fs w). Qed.
Print Assumptions C93_basic_status.
Theorem C93_river_status :
  forall (R : Rng Q) (Ho : HashOrd) gen here fuel save fs w, numpy_accepts Q -> has_digits Q -> 10 <= fuel ->
  exists rep fs' w', river_run gen fuel w = (Ok rep, w') /\ river_script gen here fuel None save true fs w = (Exits 0%Z, fs', w') /\
    stored (data_path here "erosion_report") save (xreport_of "Riverbed Erosion Process" "none provided" rep) fs fs'.
Proof. intros R Ho gen here fuel save fs w Hn. exact (river_status gen here Hn fuel save fs w). Qed.
Print Assumptions C93_river_status.
Theorem C93_silicon_status :
  forall (R : Rng Q) (Ho : HashOrd) gen here pexp ppow fuel save fs w, numpy_accepts Q -> 20 <= fuel ->
  exists rs fs' w', silicon_run gen pexp ppow fuel w = (Ok rs, w') /\
    silicon_script gen here pexp ppow fuel None save true fs w = (Exits 0%Z, fs', w') /\
    stored_all (map (data_path here) ["curr_ramp_report"; "curr_htol_report"; "curr_ltol_report"; "next_ramp_report"; "next_htol_report"; "next_ltol_report"]%string)
      save (silicon_reports rs) fs fs'.
Proof. intros R Ho gen here pexp ppow fuel save fs w Hn. exact (silicon_status gen here Hn pexp ppow fuel save fs w). Qed.
Print Assumptions C93_silicon_status.
Theorem C93_field_status :
  forall (R : Rng Q) (Ho : HashOrd) gen here ppow fuel save fs ws, numpy_accepts Q -> 104 <= fuel ->
  exists rs fs', field_run gen ppow fuel ws = Ok rs /\
    field_script gen here ppow fuel None save true fs ws = (Exits 0%Z, fs') /\
    stored_all (map (data_path here) ["tddb_1.05_report"; "tddb_1.075_report"; "tddb_1.1_report"; "tddb_1.125_report"; "tddb_1.15_report"]%string)
      save (field_reports rs) fs fs'.
Proof. intros R Ho gen here ppow fuel save fs ws Hn. exact (field_status gen here Hn ppow fuel save fs ws). Qed.
Print Assumptions C93_field_status.

(** ** A data file and --test *)
(** Whatever the file holds, the script raises. *)
Theorem C93_basic_given_file :
  forall (R : Rng Q) (Ho : HashOrd) gen here f save fs w, exists e, basic_script gen here (Some f) save true fs w = (Fails e, fs, w).
Proof. intros R Ho. exact basic_given_file. Qed.
Print Assumptions C93_basic_given_file.
Theorem C93_river_given_file :
  forall (R : Rng Q) (Ho : HashOrd) gen here fuel f save fs w, exists e, river_script gen here fuel (Some f) save true fs w = (Fails e, fs, w).
Proof. intros R Ho. exact river_given_file. Qed.
Print Assumptions C93_river_given_file.
(** The file the script itself has written is well formed; the report read from it
    lacks the attribute that the last check looks at. *)
Theorem C93_basic_own_file :
  forall (R : Rng Q) (Ho : HashOrd) gen here save test fs w o fs' w1, numpy_accepts Q ->
  basic_script gen here None true test fs w = (o, fs', w1) ->
  forall w2, basic_script gen here (Some (data_path here "basic_report")) save true fs' w2 = (Fails (Raised AttributeError), fs', w2).
Proof. intros R Ho gen here save test fs w o fs' w1 Hn. exact (basic_own_file gen here Hn save test fs w o fs' w1). Qed.
Print Assumptions C93_basic_own_file.
Theorem C93_river_own_file :
  forall (R : Rng Q) (Ho : HashOrd) gen here fuel fuel' save test fs w o fs' w1, numpy_accepts Q -> has_digits Q -> 10 <= fuel ->
  river_script gen here fuel None true test fs w = (o, fs', w1) ->
  forall w2, river_script gen here fuel' (Some (data_path here "erosion_report")) save true fs' w2 = (Fails (Raised AttributeError), fs', w2).
Proof. intros R Ho gen here fuel fuel' save test fs w o fs' w1 Hn. exact (river_own_file gen here Hn fuel fuel' save test fs w o fs' w1). Qed.
Print Assumptions C93_river_own_file.

(** ** A data directory *)
(** With or without --test the scripts of the paper raise: the reports are put in a
    set, which has no keys. *)
Theorem C93_silicon_given_directory :
  forall (R : Rng Q) (Ho : HashOrd) gen here pexp ppow fuel d save test fs w,
  exists f, silicon_script gen here pexp ppow fuel (Some d) save test fs w = (Fails f, fs, w).
Proof. intros R Ho. exact silicon_given_dir. Qed.
Print Assumptions C93_silicon_given_directory.
Theorem C93_field_given_directory :
  forall (R : Rng Q) (Ho : HashOrd) gen here ppow fuel d save test fs ws,
  exists f, field_script gen here ppow fuel (Some d) save test fs ws = (Fails f, fs).
Proof. intros R Ho. exact field_given_dir. Qed.
Print Assumptions C93_field_given_directory.
(** So they do with the files they have written. *)
Theorem C93_silicon_own_directory :
  forall (R : Rng Q) (Ho : HashOrd) gen here pexp ppow fuel fuel' save test test' fs w o fs' w1, numpy_accepts Q -> 20 <= fuel ->
  silicon_script gen here pexp ppow fuel None true test fs w = (o, fs', w1) ->
  forall w2, silicon_script gen here pexp ppow fuel' (Some (join here "data")) save test' fs' w2 = (Fails (Raised TypeError), fs', w2).
Proof. intros R Ho gen here pexp ppow fuel fuel' save test test' fs w o fs' w1 Hn. exact (silicon_own_dir gen here Hn pexp ppow fuel fuel' save test test' fs w o fs' w1). Qed.
Print Assumptions C93_silicon_own_directory.
Theorem C93_field_own_directory :
  forall (R : Rng Q) (Ho : HashOrd) gen here ppow fuel fuel' save test test' fs ws o fs', numpy_accepts Q -> 104 <= fuel ->
  field_script gen here ppow fuel None true test fs ws = (o, fs') ->
  forall ws2, field_script gen here ppow fuel' (Some (join here "data")) save test' fs' ws2 = (Fails (Raised TypeError), fs').
Proof. intros R Ho gen here ppow fuel fuel' save test test' fs ws o fs' Hn. exact (field_own_dir gen here Hn ppow fuel fuel' save test test' fs ws o fs'). Qed.
Print Assumptions C93_field_own_directory.

(** ** Examples *)
#[local] Existing Instance hord_id.
#[local] Existing Instance ToyRng.
Definition no_files : files := fun _ => None.
(** Run with --save-data and --test, then with --data-file and --test. *)
Example C93_basic_example : exists fs w' j,
  basic_script (fun i => i) "/demos" None true true no_files (fun _ => 0) = (Exits 0%Z, fs, w') /\
  fs "/demos/data/basic_report.json"%string = Some (Saved j) /\ fs "/demos/data/erosion_report.json"%string = None /\
  basic_script (fun i => i) "/demos" (Some "/demos/data/basic_report.json"%string) false true fs w' = (Fails (Raised AttributeError), fs, w') /\
  basic_script (fun i => i) "/demos" (Some "basic_report.json"%string) false true fs w' = (Fails FileNotFound, fs, w').
Proof.
  destruct (C93_basic_status _ _ (fun i => i) "/demos" true no_files (fun _ => 0) toy_accepts) as (rep & fs & w' & _ & E & (j & _ & Ef & Eo)).
  exists fs, w', j. split; [exact E|]. split; [exact Ef|]. split; [apply Eo; discriminate|].
  split; [exact (C93_basic_own_file _ _ _ _ false true _ _ _ _ _ toy_accepts E w')|].
  unfold basic_script, obtain, open_report. cbn [String.eqb]. rewrite (Eo "basic_report.json"%string) by discriminate. reflexivity.
Qed.
Example C93_directory_example : exists fs w',
  silicon_script (fun i => i) "demos/" (fun x => x) (fun x _ => x) 20 None true true no_files (fun _ => 0) = (Exits 0%Z, fs, w') /\
  (exists j, fs "demos/data/next_ltol_report.json"%string = Some (Saved j)) /\
  silicon_script (fun i => i) "demos/" (fun x => x) (fun x _ => x) 20 (Some "demos/data"%string) false true fs w' = (Fails (Raised TypeError), fs, w') /\
  silicon_script (fun i => i) "demos/" (fun x => x) (fun x _ => x) 20 (Some "data"%string) false false fs w' = (Fails FileNotFound, fs, w').
Proof.
  destruct (C93_silicon_status _ _ (fun i => i) "demos/" (fun x => x) (fun x _ => x) 20 true no_files (fun _ => 0) toy_accepts (le_n _)) as (rs & fs & w' & _ & E & (F & Eo)).
  exists fs, w'. split; [exact E|]. split; [|split; [exact (C93_silicon_own_directory _ _ _ _ _ _ _ 20 false true true _ _ _ _ _ toy_accepts (le_n _) E w')|]].
  - do 5 (inversion_clear F as [|? ? ? ? _ F0]; rename F0 into F). inversion_clear F as [|? ? ? ? (j & _ & Ej) _]. exists j. exact Ej.
  - unfold silicon_script, open_set. cbn [map snd silicon_files open_all]. unfold open_report at 1. rewrite (Eo (file_in "data" "curr_ramp_report")); [reflexivity|].
    intros [H|[H|[H|[H|[H|[H|[]]]]]]]; discriminate H.
Qed.
