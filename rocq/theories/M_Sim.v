(** The simulator (gerabaldi/sim.py). *)
From Coq Require Import QArith.
From Verif Require Export M_Base M_Num M_Nd M_Time M_TestSpec M_Device M_Report M_Env.
Open Scope nat_scope.

Section Sim.
Context {V : Type} `{NumOps V} `{Rng V} `{HashOrd}.

(** ** gen_init_state, lines 21-86 *)

(** lines 61-80, the body of the loop over the measured parameters for a circuit
    parameter: [devs] is the dictionary that is modified; when it is not the report's
    own dictionary but a report was given, the report's is updated as well. *)
Definition raise_counts (c : lmdl V) (names : list string) (prm : string)
    (acc : dict nat * option (dict nat)) : dict nat * option (dict nat) :=
  fold_left (fun (acc : dict nat * option (dict nat)) (q : string) =>
    match dget (fst acc) prm with
    | None => acc      (* unreachable: prm comes from a copy of the dictionary *)
    | Some n =>
        let small := match dget (fst acc) q with None => true | Some m => m <? n end in
        if small then (dset (fst acc) q n, option_map (fun r => dset r q n) (snd acc)) else acc
    end) (required_prms c names) acc.

Definition augment (d : device V) (acc : dict nat * option (dict nat)) (measured : list string)
  : dict nat * option (dict nat) :=
  fold_left (fun acc prm =>
    match dget d prm with
    | Some (PCirc c) => raise_counts c (dkeys d) prm acc
    | _ => acc
    end) measured acc.

(** The result: the state, the counts dictionary used as it is afterwards, and the
    report's counts afterwards. *)
Record init_res := InitRes { ir_state : simstate V; ir_counts : dict nat; ir_report : option (report V) }.

Definition set_counts (r : report V) (c : dict nat) : report V :=
  Report (rp_chps r) (rp_lots r) c (rp_meas r) (rp_sum r).

Definition set_elapsed (s : simstate V) (t : tval) : simstate V :=
  SimState t (st_prm s) (st_prm0 s) (st_mech s) (st_mech0 s) (st_lat s).

(** line 83: [elapsed_time != 0] is true of every timedelta *)
Definition override_elapsed (s : simstate V) (t : tval) : simstate V :=
  match t with
  | TN q => if Qeq_bool q 0 then s else set_elapsed s (TN q)
  | TD us => set_elapsed s (TD us)
  end.

Definition gen_init_state (d : device V) (counts : option (dict nat)) (C L : nat)
    (info : option (report V)) (elapsed : tval) : M init_res :=
  match counts, info with
  | None, Some r | Some [], Some r =>
      let devs := fst (augment d (rp_counts r, None) (dkeys (rp_counts r))) in
      (sc <- dev_init_state d devs (rp_chps r) (rp_lots r) ;;
       ret (InitRes (override_elapsed (fst sc) elapsed) (snd sc) (Some (set_counts r (snd sc)))))%m
  | None, None | Some [], None => raise UserConfigError
  | Some devs, _ =>
      let '(devs1, rc) := augment d (devs, option_map rp_counts info) (dkeys devs) in
      (sc <- dev_init_state d devs1 C L ;;
       ret (InitRes (override_elapsed (fst sc) elapsed) (snd sc)
                    (match info, rc with Some r, Some c => Some (set_counts r c) | _, _ => info end)))%m
  end.

(** ** Steps *)

Definition info_of (r : report V) : tinfo := TInfo (rp_chps r) (rp_lots r) (rp_counts r).

(** [sim_state.elapsed += step.duration]: only defined for two timedeltas *)
Definition add_time_td (t : tval) (us : Z) : res tval :=
  match t with TD x => Ok (TD (x + us)) | TN _ => Err TypeError end.
Definition sub_time_td (t : tval) (us : Z) : res tval :=
  match t with TD x => Ok (TD (x - us)) | TN _ => Err TypeError end.

(** lines 96-117: the time in the mechanism's unit is added to every equivalent
    time *)
Definition add_durations (p : degprm V) (dur : Z) (times : dict (pyval V)) : res (dict (pyval V)) :=
  fold_left (fun (acc : res (dict (pyval V))) (kv : string * pyval V) =>
    rbind acc (fun d =>
    rbind (dgetE (dp_mechs p) (fst kv)) (fun m =>
    match unit_map (mc_unit m) with
    | None => Err UserConfigError
    | Some u => rbind (pmap2 nadd (snd kv) (PNum (td_num u dur))) (fun t => Ok (dset d (fst kv) t))
    end))) times (Ok times).

(** lines 96-117 for one degraded parameter *)
Definition stress_prm (conds : dict (dict (pyval V))) (rep : report V) (dur : Z)
    (st : simstate V) (kv : string * degprm V) : M (simstate V) :=
  let name := fst kv in let p := snd kv in
  (n <- lift (dgetE (rp_counts rep) name) ;;
   mv <- lift (dgetE (st_mech st) name) ;;
   cs <- lift (dgetE conds name) ;;
   m0 <- lift (dgetE (st_mech0 st) name) ;;
   ls <- lift (dgetE (st_lat st) name) ;;
   eq <- prm_equiv_times p mv cs m0 ls (rp_lots rep) (rp_chps rep) n ;;
   times <- lift (add_durations p dur eq) ;;
   i0 <- lift (dgetE (st_prm0 st) name) ;;
   r <- prm_deg_vals p times cs i0 ls mv (rp_lots rep) (rp_chps rep) n ;;
   ret (SimState (st_elapsed st) (dset (st_prm st) name (fst r)) (st_prm0 st)
                 (dset (st_mech st) name (snd r)) (st_mech0 st) (st_lat st)))%m.

Definition deg_prms (d : device V) : list (string * degprm V) :=
  flat_map (fun kv : string * prm V => match snd kv with PDeg p => [(fst kv, p)] | PCirc _ => [] end) d.

(** lines 122-131 and 185-193: the summary row *)
Definition summary_row (name kind : string) (i : nat) (dur start stop : tval) (conds : dict V) : dict (cell V) :=
  dupdate [("step name", CStr name); ("step type", CStr kind); ("step number", CNat i);
           ("duration", CTime dur); ("start time", CTime start); ("end time", CTime stop)]%string
          (map (fun kv => (fst kv, CNum (snd kv))) conds).

(** _sim_stress_step, lines 89-136 *)
Definition stress_step (e : env V) (d : device V) (i : nat) (s : strs_spec V)
    (st : simstate V) (rep : report V) : M (simstate V * report V) :=
  (conds <- gen_env_cond_vals e (ss_conds s) (PList (map fst (deg_prms d))) (Some (info_of rep)) (Some d) true 1 1 ;;
   st1 <- foldM (stress_prm conds rep (ss_dur s)) (deg_prms d) st ;;
   t <- lift (add_time_td (st_elapsed st1) (ss_dur s)) ;;
   let st2 := set_elapsed st1 t in
   start <- lift (sub_time_td t (ss_dur s)) ;;
   ret (st2, add_summary rep
               (summary_row (ss_name s) "stress" i (TD (ss_dur s)) start t (ss_conds s))))%m.

(** lines 151-180 for one requested parameter *)
Definition measure_prm (e : env V) (d : device V) (i : nat) (conds : dict (dict (pyval V))) (step_conds : dict V)
    (st : simstate V) (rep : report V) (prm : string) (k : nat) : M (list (row V)) :=
  (rows <- (match dget (st_prm st) prm with
            | Some cur =>
                match dget d prm with
                | Some (PDeg p) =>
                    (cs <- lift (dgetE conds prm) ;;
                     ls <- lift (dgetE (st_lat st) prm) ;;
                     v <- cond_shifted p cs cur ls (rp_lots rep) (rp_chps rep) k ;;
                     lift (format_measurements v prm (st_elapsed st) i true))%m
                | _ => raise AttributeError   (* no such parameter model, or no such method *)
                end
            | None =>
                match dget d prm with
                | Some (PCirc c) =>
                    (cs <- lift (dgetE conds prm) ;;
                     ls <- lift (dgetE (st_lat st) prm) ;;
                     v <- circ_vals c k cs (st_prm st) ls ;;
                     lift (format_measurements v prm (st_elapsed st) i true))%m
                | Some (PDeg _) => raise AttributeError
                | None =>
                    if dmem step_conds prm then
                      (cs <- lift (dgetE conds prm) ;;
                       v <- lift (dgetE cs prm) ;;
                       lift (format_measurements v prm (st_elapsed st) i false))%m
                    else raise MissingParamError
                end
            end) ;;
   vals <- measure_with e prm (map r_val rows) ;;
   ret (map (fun rv => Row (r_param (fst rv)) (r_step (fst rv)) (r_dev (fst rv)) (r_chp (fst rv))
                           (r_lot (fst rv)) (r_time (fst rv)) (snd rv)) (combine rows vals)))%m.

(** _sim_meas_step, lines 139-198 *)
Definition meas_step (e : env V) (d : device V) (i : nat) (m : meas_spec V)
    (st : simstate V) (rep : report V) : M (simstate V * report V) :=
  (conds <- gen_env_cond_vals e (ms_conds m) (PCounts (ms_counts m)) (Some (info_of rep)) (Some d) false 1 1 ;;
   rows <- foldM (fun acc (kv : string * nat) =>
                    (r <- measure_prm e d i conds (ms_conds m) st rep (fst kv) (snd kv) ;; ret (acc ++ r))%m)
                 (ms_counts m) [] ;;
   ret (st, add_summary (add_measurements rep rows)
              (summary_row (ms_name m) "measure" i (TD 0) (st_elapsed st) (st_elapsed st) (ms_conds m))))%m.

(** one pass of the loop of simulate, lines 227-234 *)
Definition sim_step (e : env V) (d : device V) (sr : simstate V * report V) (ix : nat * step V)
  : M (simstate V * report V) :=
  match snd ix with
  | SStrs s => stress_step e d (fst ix) s (fst sr) (snd sr)
  | SMeas m => meas_step e d (fst ix) m (fst sr) (snd sr)
  | SOther _ => ret sr
  end.

(** enumerate(test), numbering from [i] *)
Fixpoint enumerate {A} (i : nat) (l : list A) : list (nat * A) :=
  match l with [] => [] | x :: r => (i, x) :: enumerate (S i) r end.

Definition run_steps (e : env V) (d : device V) (i : nat) (steps : list (step V))
    (st : simstate V) (rep : report V) : M (simstate V * report V) :=
  foldM (sim_step e d) (enumerate i steps) (st, rep).

(** simulate, lines 201-237; the final state is included in the result although the
    code discards it.  A TestSpec and a SimState are always true in a boolean
    context. *)
Definition simulate (e : env V) (d : device V) (steps : list (step V)) (chps lots : nat)
    (init : option (simstate V)) : M (simstate V * report V) :=
  let rep := report_init steps chps lots in
  match init with
  | Some st => run_steps e d 0 steps st rep
  | None =>
      (r <- gen_init_state d None 1 1 (Some rep) (TD 0) ;;
       match ir_report r with
       | Some rep' => run_steps e d 0 steps (ir_state r) rep'
       | None => raise Unmodelled    (* unreachable *)
       end)%m
  end.
End Sim.
Arguments init_res : clear implicits.
