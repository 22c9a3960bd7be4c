(** The range of timedeltas.  The other files let a timedelta be any number of
    microseconds; Python raises OverflowError unless its days are between -999999999
    and 999999999.  Here are the operations that make new timedeltas: the conversion
    of numbers (helpers.py line 125), the sums in append_steps (test_specs.py lines
    190-195) and in _sim_stress_step (sim.py lines 119 and 128).  pandas keeps times in
    a narrower range, which is not modelled. *)
From Verif Require Export M_Base M_Num M_Nd M_RandVar M_Latent M_Time M_TestSpec M_Device M_Report M_Env M_Sim.
Open Scope Z_scope.

Definition us_per_day : Z := 86400000000.
(** The days of a timedelta of [us] microseconds are [us / us_per_day], rounded down. *)
Definition timedelta (us : Z) : res Z :=
  if Z.leb (Z.abs (us / us_per_day)) 999999999 then Ok us else Err OverflowError.
Definition checked (t : tval) : res tval :=
  match t with TD us => rbind (timedelta us) (fun z => Ok (TD z)) | TN q => Ok (TN q) end.

(** _convert_time, helpers.py lines 113-125 *)
Definition convert_time_r (t : tval) (units : option string) : res tval :=
  rbind (convert_time t units) checked.
(** StrsSpec.__init__, test_specs.py lines 72-83 *)
Definition strs_duration_r (d : tval) (units : option string) : res Z :=
  rbind (match d with TD us => Ok (TD us) | TN q => convert_time_r (TN q) units end)
        (fun t => match t with
                  | TD us => if Z.eqb us 0 then Err UserConfigError else Ok us
                  | TN _ => Err Unmodelled (* unreachable *)
                  end).
Definition loop_duration_r (d : tval) (units : option string) : res Z :=
  match d with
  | TD us => Ok us
  | TN q => rbind (convert_time_r (TN q) units) (fun t => match t with TD us => Ok us | TN _ => Err Unmodelled end)
  end.

Section Append.
Context {V : Type}.
(** test_specs.py lines 190-195 *)
Fixpoint sum_r (t : Z) (l : list (step V)) : res Z :=
  match l with
  | [] => Ok t
  | SStrs x :: r => rbind (timedelta (t + ss_dur x)) (fun t' => sum_r t' r)
  | _ :: r => sum_r t r
  end.
Definition add_time_r (t : Z) (a : to_add V) : res Z :=
  match a with
  | Many l => sum_r t l
  | One (SStrs x) => timedelta (t + ss_dur x)
  | One (SOther (Some d)) => timedelta (t + d)
  | One (SOther None) => Err AttributeError
  | One (SMeas _) => Err AttributeError
  end.
Fixpoint append_loop_r (fuel : nat) (steps : list (step V)) (t : Z) (a : to_add V) (dur : Z)
  : option (list (step V) * res Z) :=
  if t <? dur then
    match fuel with
    | O => None
    | S fuel' =>
        let steps' := add_once steps a in
        match add_time_r t a with
        | Err e => Some (steps', Err e)
        | Ok t' => append_loop_r fuel' steps' t' a dur
        end
    end
  else Some (steps, Ok t).
(** append_steps, test_specs.py lines 142-202 *)
Definition append_steps_r (fuel : nat) (steps : list (step V)) (a : to_add V)
    (loop : option tval) (units : option string) : option (list (step V) * res unit) :=
  match loop with
  | None => Some (add_once steps a, Ok tt)
  | Some d =>
      match loop_duration_r d units with
      | Err e => Some (steps, Err e)
      | Ok dur =>
          if dur =? 0 then Some (steps, Err UserConfigError)
          else if only_meas a then Some (steps, Err UserConfigError)
          else match append_loop_r fuel steps 0 a dur with
               | None => None
               | Some (steps', Err e) => Some (steps', Err e)
               | Some (steps', Ok t) =>
                   if t mod dur =? 0 then Some (steps', Ok tt)
                   else Some (steps', Err UserWarningE)
               end
      end
  end.
End Append.

Section Sim.
Context {V : Type} `{NumOps V} `{Rng V} `{HashOrd}.
(** _sim_stress_step, sim.py lines 89-136: the end time and the start time of the step
    are new timedeltas *)
Definition stress_step_r (e : env V) (d : device V) (i : nat) (s : strs_spec V)
    (st : simstate V) (rep : report V) : M (simstate V * report V) :=
  (conds <- gen_env_cond_vals e (ss_conds s) (PList (map fst (deg_prms d))) (Some (info_of rep)) (Some d) true 1 1 ;;
   st1 <- foldM (stress_prm conds rep (ss_dur s)) (deg_prms d) st ;;
   t <- lift (rbind (add_time_td (st_elapsed st1) (ss_dur s)) checked) ;;
   let st2 := set_elapsed st1 t in
   start <- lift (rbind (sub_time_td t (ss_dur s)) checked) ;;
   ret (st2, add_summary rep
               (summary_row (ss_name s) "stress" i (TD (ss_dur s)) start t (ss_conds s))))%m.
Definition sim_step_r (e : env V) (d : device V) (sr : simstate V * report V) (ix : nat * step V)
  : M (simstate V * report V) :=
  match snd ix with
  | SStrs s => stress_step_r e d (fst ix) s (fst sr) (snd sr)
  | SMeas m => meas_step e d (fst ix) m (fst sr) (snd sr)
  | SOther _ => ret sr
  end.
Definition run_steps_r (e : env V) (d : device V) (i : nat) (steps : list (step V))
    (st : simstate V) (rep : report V) : M (simstate V * report V) :=
  foldM (sim_step_r e d) (enumerate i steps) (st, rep).
(** simulate, sim.py lines 201-237 *)
Definition simulate_r (e : env V) (d : device V) (steps : list (step V)) (chps lots : nat)
    (init : option (simstate V)) : M (simstate V * report V) :=
  let rep := report_init steps chps lots in
  match init with
  | Some st => run_steps_r e d 0 steps st rep
  | None =>
      (r <- gen_init_state d None 1 1 (Some rep) (TD 0) ;;
       match ir_report r with
       | Some rep' => run_steps_r e d 0 steps (ir_state r) rep'
       | None => raise Unmodelled    (* unreachable *)
       end)%m
  end.
End Sim.
