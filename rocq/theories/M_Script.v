(** The demonstration scripts as commands: their options, saved files, checks and the
    data they draw (demos/basic_use.py, riverbed_erosion.py,
    vts_paper_presilicon_variability.py, vts_paper_tddb_model_sensitivity.py), with
    exact rational numbers.  What they simulate is in M_Demo.v, exporting and loading
    in M_Export.v.

    Not modelled: click's parsing of the command line, matplotlib, seaborn and the
    reliability package (only the data handed to them, without colours, labels and
    limits), printing, and failures of the file system when writing. *)
From Coq Require Import QArith Ascii.
From Verif Require Export M_Base M_Num M_Nd M_RandVar M_Latent M_Time M_TestSpec M_Device M_Report M_Env M_Sim M_Demo M_Export.
Open Scope nat_scope.

(** ** Files *)

(** What a path leads to: the JSON of a report, or anything else, which json.load,
    the subscripts of lines 81-86 of reports.py or pandas reject. *)
Inductive content := Saved (j : xjson) | OtherFile.
Definition files := string -> option content.
Definition write (fs : files) (path : string) (j : xjson) : files :=
  fun p => if String.eqb p path then Some (Saved j) else fs p.

(** os.path.join of a directory and a relative path *)
Definition last_char (s : string) : option ascii := get (String.length s - 1) s.
Definition join (dir path : string) : string :=
  match last_char dir with
  | None => path
  | Some c => if Ascii.eqb c "/" then (dir ++ path)%string else (dir ++ "/" ++ path)%string
  end.
(** os.path.join(os.path.dirname(__file__), f'data/{name}.json') *)
Definition data_path (here name : string) : string := join here ("data/" ++ name ++ ".json").
(** f'{data_dir}/{name}.json' *)
Definition file_in (dir name : string) : string := (dir ++ "/" ++ name ++ ".json")%string.

(** How a script ends: sys.exit, after drawing, or with an exception. *)
Inductive failure := Raised (e : exn) | FileNotFound | Unreadable.
Inductive outcome (D : Type) := Exits (status : Z) | Draws (d : D) | Fails (f : failure).
Arguments Exits {D} _. Arguments Draws {D} _. Arguments Fails {D} _.

(** ** Report objects *)

(** A SimReport has the attributes its constructor (reports.py lines 42-93) sets: one
    made for a test, one loaded from a file - without dev_counts, num_chps and
    num_lots - or one of which everything is None. *)
Inductive robj := Made (x : xreport) (counts : dict nat) | Loaded (x : xreport) | Blank.

(** SimReport(file=path); an empty path is no path *)
Definition open_report (fs : files) (path : string) : robj + failure :=
  if String.eqb path "" then inl Blank else
  match fs path with
  | None => inr FileNotFound
  | Some OtherFile => inr Unreadable
  | Some (Saved j) => match load j with Ok x => inl (Loaded x) | Err e => inr (Raised e) end
  end.
Fixpoint open_all (fs : files) (paths : list string) : list robj + failure :=
  match paths with
  | [] => inl []
  | p :: r => match open_report fs p with
              | inr f => inr f
              | inl o => match open_all fs r with inl os => inl (o :: os) | inr f => inr f end
              end
  end.

(** len(report.measurements.index) == n *)
Definition o_rows (o : robj) (n : nat) : res bool :=
  match o with
  | Made x _ | Loaded x => Ok (Nat.eqb (match x_meas x with Some l => length l | None => 0 end) n)
  | Blank => Err AttributeError
  end.
(** report.test_summary.at[i, column]; a cell without entry is NaN ([None]) *)
Definition table_at (sums : list (dict (cell Q))) (i : nat) (column : string) : res (option (cell Q)) :=
  match nth_error sums i with
  | None => Err KeyError
  | Some row => match dget row column with
                | Some c => Ok (Some c)
                | None => if existsb (fun r => dmem r column) sums then Ok None else Err KeyError
                end
  end.
Definition o_at (o : robj) (i : nat) (column : string) : res (option (cell Q)) :=
  match o with
  | Made x _ | Loaded x => table_at (match x_sum x with Some l => l | None => [] end) i column
  | Blank => Err AttributeError
  end.
Definition o_num (o : robj) (i : nat) (column : string) (q : Q) : res bool :=
  rbind (o_at o i column) (fun c => Ok (match c with Some c => is_num c q | None => false end)).
Definition o_str (o : robj) (i : nat) (column s : string) : res bool :=
  rbind (o_at o i column) (fun c => Ok (match c with Some c => is_str c s | None => false end)).
Definition o_hours (o : robj) (i : nat) (column : string) (q : Q) : res bool :=
  rbind (o_at o i column) (fun c => match c with Some c => is_hours c q | None => Err AttributeError end).
(** report.dev_counts[prm] == n *)
Definition o_count (o : robj) (prm : string) (n : nat) : res bool :=
  match o with
  | Made _ counts => rbind (dgetE counts prm) (fun k => Ok (Nat.eqb k n))
  | Loaded _ => Err AttributeError
  | Blank => Err TypeError
  end.

(** report.convert_report_time('hours'); report.measurements *)
Definition o_hours_table (o : robj) : res (list (row Q)) :=
  match o with
  | Made x _ | Loaded x =>
      let '(r, x') := convert_report_time x (Some "hours"%string) in
      rbind r (fun _ => match x_meas x' with Some l => Ok l | None => Err KeyError end)
  | Blank => Err TypeError
  end.

(** ** Collections of reports *)
(** A set cannot be subscripted. *)
Inductive coll (K : Type) := PySet (l : list robj) | PyDict (l : list (K * robj)).
Arguments PySet {K} _. Arguments PyDict {K} _.
Definition getitem {K} (eqb : K -> K -> bool) (c : coll K) (k : K) : res robj :=
  match c with
  | PySet _ => Err TypeError
  | PyDict l => match find (fun kv => eqb (fst kv) k) l with Some kv => Ok (snd kv) | None => Err KeyError end
  end.

(** ** Selecting rows *)
Definition num_is (o : option nat) (n : nat) : bool := match o with Some m => Nat.eqb m n | None => false end.
(** measured.loc[key] after set_index on the columns of the key and sort_index, which
    keeps the order of rows with equal keys.  (For a table in which every key occurs
    once pandas gives one row instead of a table of one row.) *)
Definition loc (f : row Q -> bool) (l : list (row Q)) : res (list (row Q)) :=
  match filter f l with [] => Err KeyError | l' => Ok l' end.
Definition points (l : list (row Q)) : list (tval * Q) := map (fun r => (r_time r, r_val r)) l.

(** A range of curves: np.zeros(n), np.full(n, 1000) and np.full(n, -1000), updated
    with one series after another.  A series of another length is left out of the
    model. *)
Definition nminimum (x y : Q) : Q := if nleb x y then x else y.
Record band := Band { b_sum : list Q; b_min : list Q; b_max : list Q }.
Definition band0 (n : nat) : band := Band (repeat (nofQ 0) n) (repeat (nofQ 1000) n) (repeat (nofQ (-1000)) n).
Definition zip2 (f : Q -> Q -> Q) (l l' : list Q) : list Q := map (fun p => f (fst p) (snd p)) (combine l l').
Definition widen (b : band) (vals : list Q) : res band :=
  if Nat.eqb (length vals) (length (b_sum b))
  then Ok (Band (zip2 nadd (b_sum b) vals) (zip2 nminimum (b_min b) vals) (zip2 nmaximum (b_max b) vals))
  else Err Unmodelled.
Fixpoint widen_all (b : band) (l : list (list Q)) : res band :=
  match l with [] => Ok b | v :: r => rbind (widen b v) (fun b' => widen_all b' r) end.
Definition averaged (k : Q) (b : band) : band := Band (map (fun x => ndiv x (nofQ k)) (b_sum b)) (b_min b) (b_max b).

Section Script.
Context {R : Rng Q} {Ho : HashOrd}.
Variable gen : nat -> nat.
(** the directory of the script *)
Variable here : string.

(** ** Scripts with one report *)
(** lines 93-98 of basic_use.py, 167-172 of riverbed_erosion.py: --data-file takes
    precedence over --save-data *)
Definition obtain (run : M (report Q)) (name desc file : string) (data_file : option string) (save : bool) (fs : files) (w : world)
  : (robj + failure) * files * world :=
  match data_file with
  | Some path => (open_report fs path, fs, w)
  | None =>
      match run w with
      | (Err e, w') => (inr (Raised e), fs, w')
      | (Ok r, w') =>
          let x := xreport_of name desc r in
          if save then
            match export_to_json x (Some "hours"%string) with
            | Err e => (inr (Raised e), fs, w')
            | Ok j => (inl (Made x (rp_counts r)), write fs (data_path here file) j, w')
            end
          else (inl (Made x (rp_counts r)), fs, w')
      end
  end.
Definition finish {D} (o : robj + failure) (test : bool) (check : robj -> res Z) (draw : robj -> res D) : outcome D :=
  match o with
  | inr f => Fails f
  | inl o => if test then match check o with Ok z => Exits z | Err e => Fails (Raised e) end
             else match draw o with Ok d => Draws d | Err e => Fails (Raised e) end
  end.

(** basic_use.py, lines 100-106 *)
Definition basic_checks (o : robj) : res Z :=
  checks [ o_rows o 10; o_num o 2 "temp" (29815 # 100); o_hours o 1 "end time" 100; o_count o "example_prm" 5 ].
(** lines 65-83: one curve for each of the five devices *)
Definition basic_draw (o : robj) : res (list (list (tval * Q))) :=
  rbind (o_hours_table o) (fun l =>
  map_res (fun smpl => rbind (loc (fun r => String.eqb (r_param r) "example_prm" && num_is (r_dev r) smpl) l) (fun rs => Ok (points rs))) (seq 0 5)).
(** TestSpec without name and description, test_specs.py lines 127-128 *)
Definition basic_script (data_file : option string) (save test : bool) (fs : files) (w : world) : outcome (list (list (tval * Q))) * files * world :=
  let '(o, fs', w') := obtain (basic_run gen) "unspecified" "none provided" "basic_report" data_file save fs w in
  (finish o test basic_checks basic_draw, fs', w').

(** riverbed_erosion.py, lines 174-180 *)
Definition river_checks (o : robj) : res Z :=
  checks [ o_rows o 550; o_str o 33 "step name" "Autumn Season Flow"; o_num o 42 "tau" 4; o_count o "riverbed_level" 10 ].
(** lines 105-152: the curve of every location, and for each river the times of the
    first location of the first river with the average and the range *)
Record river_plot := RiverPlot { rv_curves : list (list (tval * Q)); rv_times : list tval; rv_band : band }.
Definition years (r : row Q) : res (row Q) :=
  match r_time r with
  | TN q => Ok (Row (r_param r) (r_step r) (r_dev r) (r_chp r) (r_lot r) (TN (ndiv q (nofQ 8760))) (r_val r))
  | TD _ => Err Unmodelled
  end.
Definition location (smpl rvr : nat) (r : row Q) : bool :=
  String.eqb (r_param r) "riverbed_level" && num_is (r_dev r) smpl && num_is (r_chp r) rvr.
Definition one_river (l : list (row Q)) (rvr : nat) : res river_plot :=
  rbind (loc (location 0 0) l) (fun first =>
  rbind (map_res (fun smpl => loc (location smpl rvr) l) (seq 0 10)) (fun series =>
  rbind (widen_all (band0 11) (map (map r_val) series)) (fun b =>
  Ok (RiverPlot (map points series) (map r_time first) (averaged 10 b))))).
Definition river_draw (o : robj) : res (list river_plot) :=
  rbind (o_hours_table o) (fun l => rbind (map_res years l) (fun l' => map_res (one_river l') (seq 0 5))).
Definition river_script (fuel : nat) (data_file : option string) (save test : bool) (fs : files) (w : world) : outcome (list river_plot) * files * world :=
  let '(o, fs', w') := obtain (river_run gen fuel) "Riverbed Erosion Process" "none provided" "erosion_report" data_file save fs w in
  (finish o test river_checks river_draw, fs', w').

(** ** Scripts with several reports *)
Variables (pexp : Q -> Q) (ppow : Q -> Q -> Q).

(** rprts = {SimReport(file=...) for test in DATA_FILES}: a set *)
Definition open_set {K} (fs : files) (dir : string) (names : list string) : coll K + failure :=
  match open_all fs (map (file_in dir) names) with inl l => inl (PySet l) | inr f => inr f end.
(** The reports are saved one after the other. *)
Fixpoint save_all (l : list (string * xreport)) (fs : files) : option exn * files :=
  match l with
  | [] => (None, fs)
  | (file, x) :: r => match export_to_json x (Some "hours"%string) with
                      | Err e => (Some e, fs)
                      | Ok j => save_all r (write fs (data_path here file) j)
                      end
  end.
Definition finish_all {K D} (o : coll K + failure) (test : bool) (check : coll K -> res Z) (draw : coll K -> res D) : outcome D :=
  match o with
  | inr f => Fails f
  | inl c => if test then match check c with Ok z => Exits z | Err e => Fails (Raised e) end
             else match draw c with Ok d => Draws d | Err e => Fails (Raised e) end
  end.

(** *** vts_paper_presilicon_variability.py *)
(** lines 24-31 *)
Definition silicon_files : list (string * string) :=
  [("Current Process: Ramped Cycling", "curr_ramp_report"); ("Current Process: HTOL", "curr_htol_report"); ("Current Process: LTOL", "curr_ltol_report");
   ("New Process: Ramped Cycling", "next_ramp_report"); ("New Process: HTOL", "next_htol_report"); ("New Process: LTOL", "next_ltol_report")]%string.
(** lines 282-288 *)
Definition silicon_checks (c : coll string) : res Z :=
  let item := getitem String.eqb c in
  checks [ rbind (item "Current Process: LTOL"%string) (fun o => o_rows o 2625);
           rbind (item "New Process: Ramped Cycling"%string) (fun o => o_num o 29 "vdd" (102 # 100));
           rbind (item "Current Process: HTOL"%string) (fun o => o_hours o 13 "start time" 300);
           rbind (item "New Process: LTOL"%string) (fun o => o_count o "v_th" 5) ].
(** lines 181-241: for each simulation the times of its first circuit, the average and
    the range, and the last values.  (The script goes through the simulations for each
    circuit in turn; they do not influence each other.) *)
Record silicon_plot := SiliconPlot { si_times : list tval; si_band : band; si_final : list Q }.
Definition circuit (ind chp lot : nat) (r : row Q) : bool :=
  String.eqb (r_param r) "amp_gain" && num_is (r_dev r) ind && num_is (r_chp r) chp && num_is (r_lot r) lot.
Definition places : list (nat * nat * nat) :=
  flat_map (fun lot => flat_map (fun chp => map (fun ind => (lot, chp, ind)) (seq 0 5)) (seq 0 5)) (seq 0 5).
Definition final_value (l : list Q) : res Q := match rev l with v :: _ => Ok v | [] => Err IndexError end.
Definition ramped (sim : string) : bool :=
  String.eqb sim "Current Process: Ramped Cycling" || String.eqb sim "New Process: Ramped Cycling".
Definition one_sim (sim : string) (l : list (row Q)) : res (string * silicon_plot) :=
  rbind (loc (circuit 0 0 0) l) (fun first =>
  rbind (map_res (fun p => let '(lot, chp, ind) := p in rbind (loc (circuit ind chp lot) l) (fun rs => Ok (map r_val rs))) places) (fun series =>
  rbind (widen_all (band0 (length first)) series) (fun b =>
  rbind (if ramped sim then Ok [] else map_res final_value series) (fun fin =>
  Ok (sim, SiliconPlot (map r_time first) (averaged 125 b) fin))))).
Definition silicon_draw (c : coll string) : res (list (string * silicon_plot)) :=
  match c with
  | PySet [] => Ok []
  | PySet _ => Err TypeError
  | PyDict l => rbind (map_res (fun so => rbind (o_hours_table (snd so)) (fun t => Ok (fst so, t))) l) (fun ts => map_res (fun st => one_sim (fst st) (snd st)) ts)
  end.
(** lines 56, 61 and 66 *)
Definition silicon_names : list string :=
  ["Ramp to Failure Test"; "HTOL Similar Test"; "LTOL Similar Test"; "Ramp to Failure Test"; "HTOL Similar Test"; "LTOL Similar Test"]%string.
Definition silicon_script (fuel : nat) (dir : option string) (save test : bool) (fs : files) (w : world)
  : outcome (list (string * silicon_plot)) * files * world :=
  match dir with
  | Some d => (finish_all (open_set fs d (map snd silicon_files)) test silicon_checks silicon_draw, fs, w)
  | None =>
      match silicon_run gen pexp ppow fuel w with
      | (Err e, w') => (Fails (Raised e), fs, w')
      | (Ok rs, w') =>
          let xs := map (fun p => xreport_of (snd p) "none provided" (snd (fst p))) (combine rs silicon_names) in
          let made := map (fun p => (fst (fst p), Made (snd p) (rp_counts (snd (fst p))))) (combine rs xs) in
          let '(err, fs') := if save then save_all (combine (map snd silicon_files) xs) fs else (None, fs) in
          match err with
          | Some e => (Fails (Raised e), fs', w')
          | None => (finish_all (inl (PyDict made)) test silicon_checks silicon_draw, fs', w')
          end
      end
  end.

(** *** vts_paper_tddb_model_sensitivity.py *)
(** lines 27-33 *)
Definition field_files : list string := ["tddb_1.05_report"; "tddb_1.075_report"; "tddb_1.1_report"; "tddb_1.125_report"; "tddb_1.15_report"]%string.
(** lines 294-300 *)
Definition field_checks (c : coll Q) : res Z :=
  let item := getitem Qeq_bool c in
  checks [ rbind (item (115 # 100)%Q) (fun o => o_rows o (105 * 100));
           rbind (item (1075 # 1000)%Q) (fun o => o_num o 339 "v_g" (87 # 100));
           rbind (item (105 # 100)%Q) (fun o => o_hours o 31 "duration" 122);
           rbind (item (11 # 10)%Q) (fun o => o_count o "tddb" 100) ].
(** lines 216-236: the time to failure of every transistor, in hours, or
    'right-censored'.  The label of a row without device number is not modelled. *)
Inductive event := FailedAt (hours : Q) | Censored.
Fixpoint unique (l : list nat) (seen : list nat) : list nat :=
  match l with
  | [] => []
  | x :: r => if existsb (Nat.eqb x) seen then unique r seen else x :: unique r (x :: seen)
  end.
Definition label (r : row Q) : res nat := match r_dev r with Some n => Ok n | None => Err Unmodelled end.
(** sample_meas.loc[sample_meas['measured'].ne(1).idxmax()]: the first row whose value
    is not 1; the first row if there is none *)
Definition first_change (l : list (row Q)) : res (row Q) :=
  match find (fun r => negb (neqb (r_val r) (nofQ 1))) l with
  | Some r => Ok r
  | None => match l with r :: _ => Ok r | [] => Err ValueError end
  end.
Definition event_of (l : list (row Q)) : res event :=
  rbind (first_change l) (fun r =>
  if neqb (r_val r) (nofQ 0)
  then match r_time r with TD us => Ok (FailedAt (ndiv (nofQ (us # 1000000)) (nofQ 3600))) | TN _ => Err AttributeError end
  else Ok Censored).
Definition events (l : list (row Q)) : res (list event) :=
  rbind (map_res label l) (fun labels => map_res (fun n => event_of (filter (fun r => num_is (r_dev r) n) l)) (unique labels [])).
Definition o_table (o : robj) : res (list (row Q)) :=
  match o with
  | Made x _ | Loaded x => match x_meas x with Some l => Ok l | None => Err KeyError end
  | Blank => Err TypeError
  end.
Definition field_draw (c : coll Q) : res (list (Q * list event)) :=
  match c with
  | PySet [] => Ok []
  | PySet _ => Err TypeError
  | PyDict l => map_res (fun qo => rbind (o_table (snd qo)) (fun t => rbind (events t) (fun es => Ok (fst qo, es)))) l
  end.
(** lines 176-181 *)
Definition field_desc : string :=
  "Test spec designed to represent a         real-world use scenario for a consumer device with downtime and higher stress periods.".
Definition field_script (fuel : nat) (dir : option string) (save test : bool) (fs : files) (ws : Q -> world) : outcome (list (Q * list event)) * files :=
  match dir with
  | Some d => (finish_all (open_set fs d field_files) test field_checks field_draw, fs)
  | None =>
      match field_run gen ppow fuel ws with
      | Err e => (Fails (Raised e), fs)
      | Ok rs =>
          let xs := map (fun qr => xreport_of "Field Use Sim" field_desc (snd qr)) rs in
          let made := map (fun p => (fst (fst p), Made (snd p) (rp_counts (snd (fst p))))) (combine rs xs) in
          let '(err, fs') := if save then save_all (combine field_files xs) fs else (None, fs) in
          match err with
          | Some e => (Fails (Raised e), fs')
          | None => (finish_all (inl (PyDict made)) test field_checks field_draw, fs')
          end
      end
  end.
End Script.
