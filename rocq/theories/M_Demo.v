(** The demonstration scripts (demos/basic_use.py, riverbed_erosion.py,
    vts_paper_presilicon_variability.py, vts_paper_tddb_model_sensitivity.py): what
    they build, what they simulate, and the checks of their --test option.  Plotting,
    printing and saving are not modelled. *)
From Coq Require Import QArith.
From Verif Require Export M_Base M_Num M_Nd M_RandVar M_Latent M_Time M_TestSpec M_Device M_Report M_Env M_Sim.
Open Scope nat_scope.

Section Demo.
Context {V : Type} `{NumOps V} `{Rng V} `{HashOrd}.

(** The generator of the [i]-th random variable object of a script. *)
Variable gen : nat -> nat.
(** np.exp, and ** on numbers that are not both integers *)
Variables (pexp : V -> V) (ppow : V -> V -> V).

(** ** Constructor calls *)
Definition lit (q : Q) : V := nofQ q.
(** Normal(mu, sigma), Gamma(alpha, beta) *)
Definition normal (i : nat) (mu sigma : Q) : option (rv V) := Some (Rv (gen i) (DNormal (lit mu) (lit sigma)) None).
Definition gamma (i : nat) (alpha beta : Q) : option (rv V) := Some (Rv (gen i) (DGamma (lit alpha) (lit beta)) None).
(** LatentVar(dev, chp, lot), LatentVar(deter_val=v) *)
Definition latent (dev chp lot : option (rv V)) : res (lvar V) := lvar_init dev chp lot None None "scaling".
Definition deter (v : Q) : res (lvar V) := lvar_init None None None (Some (lit v)) None "scaling".
Definition vrtn (dev chp bat : option (rv V)) : res (emdl V) := emdl_init dev chp bat "offset" None.
(** StrsSpec(conds, hours, name, 'h') *)
Definition stress (conds : dict V) (hours : Q) (name : string) : res (step V) :=
  rbind (strs_duration (TN hours) (Some "h"%string)) (fun d => Ok (SStrs (StrsSpec conds d name))).
(** test.append_steps(l, hours, 'h'); a call that does not return and a rejected one
    end the script *)
Definition looped (fuel : nat) (steps l : list (step V)) (hours : Q) : res (list (step V)) :=
  match append_steps fuel steps (Many l) (Some (TN hours)) (Some "h"%string) with
  | None => Err Unmodelled
  | Some (steps', Err e) => Err e
  | Some (steps', Ok _) => Ok steps'
  end.
(** test.append_steps(l) *)
Definition appended (steps l : list (step V)) : list (step V) := steps ++ l.

(** DegMechMdl(f, **lats), FailMechMdl(f, **lats), InitValMdl(init_val=o), CondShiftMdl() *)
Definition mech_of (k : mkind) (f : eqn V) (lats : dict (lvar V)) (unit : option string) : mech V := Mech k (LMdl f lats) n0 unit.
Definition init_of (o : lvar V) : lmdl V := LMdl eqn_basic [("init_val"%string, o)].
Definition no_cond : lmdl V := LMdl (eqn_const n0) [].
(** DegPrmMdl(mechs, ...) as it is after DeviceMdl has handed down the time unit; the
    names given to latent variables play no part in a simulation *)
Definition prm_of (mechs : dict (mech V)) (init own : lmdl V) (prm_unit dev_unit : option string) : prm V :=
  PDeg (DegPrm init no_cond n0
          (map (fun nm => (fst nm, Mech (mc_kind (snd nm)) (mc_mdl (snd nm)) (mc_unitary (snd nm))
                                        (set_time_unit (mc_unit (snd nm)) (or_unit prm_unit dev_unit)))) mechs) own).

(** Python expressions over the arguments of an equation *)
Definition expr := dict (pyval V) -> res (pyval V).
Definition arg (x : string) : expr := fun a => dgetE a x.
Definition num (q : Q) : expr := fun _ => Ok (PNum (lit q)).
Definition un (f : V -> V) (e : expr) : expr := fun a => rbind (e a) (pmap f).
Definition bin (f : V -> V -> V) (e1 e2 : expr) : expr := fun a => rbind (e1 a) (fun x => rbind (e2 a) (pmap2 f x)).
Definition function (names : list string) (e : expr) : eqn V := Eqn names [] None (fun a => lift (e a)).

(** ** Checks *)
(** report.test_summary.at[i, column] *)
Definition at_ (r : report V) (i : nat) (column : string) : res (cell V) :=
  match nth_error (rp_sum r) i with
  | None => Err KeyError
  | Some row => dgetE row column
  end.
Definition is_num (c : cell V) (q : Q) : bool := match c with CNum x => neqb x (lit q) | _ => false end.
Definition is_str (c : cell V) (s : string) : bool := match c with CStr x => String.eqb x s | _ => false end.
(** c.total_seconds() / 3600 == q *)
Definition is_hours (c : cell V) (q : Q) : res bool :=
  match c with
  | CTime (TD us) => Ok (neqb (ndiv (lit (us # 1000000)) (lit 3600)) (lit q))
  | _ => Err AttributeError
  end.
(** sys.exit(0 if all(checks) else 1) *)
Definition checks (l : list (res bool)) : res Z :=
  rbind (map_res (fun r => r) l) (fun bs => Ok (if forallb (fun b => b) bs then 0%Z else 1%Z)).
Definition rows_are (r : report V) (n : nat) : res bool := Ok (Nat.eqb (length (rp_meas r)) n).
Definition count_is (r : report V) (prm : string) (n : nat) : res bool := rbind (dgetE (rp_counts r) prm) (fun k => Ok (Nat.eqb k n)).

(** ** demos/basic_use.py *)
(** lines 48-49: time * -a * temp *)
Definition basic_eqn : eqn V :=
  function ["time"; "temp"; "a"]%string (bin nmul (bin nmul (arg "time") (un nneg (arg "a"))) (arg "temp")).
(** 25 + CELSIUS_TO_KELVIN *)
Definition kelvin (celsius : Q) : V := nadd (lit celsius) (lit (27315 # 100)).
Definition basic_meas : step V := SMeas (MeasSpec [("example_prm"%string, 5)] [("temp"%string, kelvin 25)] "unspecified").
(** lines 36-38, 43, 51-53, 58 *)
Definition basic_test : res (list (step V)) :=
  rbind (stress [("temp"%string, kelvin 125)] 100 "unspecified") (fun s => Ok [basic_meas; s; basic_meas]).
Definition basic_device : res (device V) :=
  rbind (latent (normal 0 (1 # 1000) (2 # 10000)) None None) (fun a =>
  rbind (deter 0) (fun i =>
  Ok [("example_prm"%string,
       prm_of [("linear"%string, mech_of KDeg basic_eqn [("a"%string, a)] (Some "h"%string))]
              (init_of i) (LMdl eqn_basic_sum []) None None)])).
Definition basic_run : M (report V) :=
  (l <- lift basic_test ;; e <- lift (env_init [] RNone [] RNone) ;; d <- lift basic_device ;;
   r <- simulate e d l 1 1 None ;; ret (snd r))%m.
(** lines 100-106 *)
Definition basic_entry : M Z :=
  (r <- basic_run ;;
   lift (checks [ rows_are r 10;
                  rbind (at_ r 2 "temp") (fun c => Ok (is_num c (29815 # 100)));
                  rbind (at_ r 1 "end time") (fun c => is_hours c 100);
                  count_is r "example_prm" 5 ]))%m.

(** ** demos/riverbed_erosion.py *)
(** lines 72-74: time * np.maximum(k_d * ((alpha * tau) - tau_c), 0) *)
Definition nmaximum (x y : V) : V := if neqb x x then if neqb y y then if nleb y x then x else y else y else x.
Definition river_eqn : eqn V :=
  function ["time"; "k_d"; "tau_c"; "alpha"; "tau"]%string
    (bin nmul (arg "time") (bin nmaximum (bin nmul (arg "k_d") (bin nsub (bin nmul (arg "alpha") (arg "tau")) (arg "tau_c"))) (num 0))).
(** lines 76-77: init - erosion + cond *)
Definition river_own : eqn V :=
  function ["init"; "erosion"; "cond"]%string (bin nadd (bin nsub (arg "init") (arg "erosion")) (arg "cond")).
Definition river_meas : step V := SMeas (MeasSpec [("riverbed_level"%string, 10)] [("tau"%string, lit 3)] "Bed Height Sampling").
(** lines 41-51 *)
Definition river_test (fuel : nat) : res (list (step V)) :=
  rbind (stress [("tau"%string, lit 4)] (8760 / 4) "Summer Season Flow") (fun summer =>
  rbind (stress [("tau"%string, lit 2)] (8760 / 4) "Autumn Season Flow") (fun autumn =>
  rbind (stress [("tau"%string, lit 2)] (8760 / 4) "Winter Season Flow") (fun winter =>
  rbind (stress [("tau"%string, lit 7)] (8760 / 4) "Spring Season Flow") (fun spring =>
  looped fuel [river_meas] [spring; summer; autumn; winter; river_meas] (10 * 8760))))).
(** lines 56-65 *)
Definition river_env : res (env V) :=
  rbind (vrtn (normal 0 0 (2 # 10)) (normal 1 0 (8 # 10)) (normal 2 0 (12 # 10))) (fun tau =>
  env_init [tau] (RDict [("tau"%string, 0)]) [Instm None (Some 3%Z) (normal 3 0 (5 # 1000)) None] (RDict [("riverbed_level"%string, 0)])).
(** lines 79-95 *)
Definition river_device : res (device V) :=
  rbind (deter (1 # 100000)) (fun k_d =>
  rbind (latent (normal 4 (24 # 10) (2 # 100)) (normal 5 1 (2 # 10)) None) (fun tau_c =>
  rbind (latent (normal 6 (9 # 10) (1 # 100)) (normal 7 1 (4 # 100)) None) (fun alpha =>
  rbind (latent (normal 8 (-2) (1 # 100)) (normal 9 1 (2 # 100)) None) (fun i =>
  Ok [("riverbed_level"%string,
       prm_of [("erosion"%string, mech_of KDeg river_eqn [("k_d", k_d); ("tau_c", tau_c); ("alpha", alpha)]%string None)]
              (init_of i) (LMdl river_own []) (Some "hours"%string) None)])))).
Definition river_run (fuel : nat) : M (report V) :=
  (l <- lift (river_test fuel) ;; e <- lift river_env ;; d <- lift river_device ;;
   r <- simulate e d l 5 1 None ;; ret (snd r))%m.
(** lines 174-180 *)
Definition river_entry (fuel : nat) : M Z :=
  (r <- river_run fuel ;;
   lift (checks [ rows_are r 550;
                  rbind (at_ r 33 "step name") (fun c => Ok (is_str c "Autumn Season Flow"));
                  rbind (at_ r 42 "tau") (fun c => Ok (is_num c 4));
                  count_is r "riverbed_level" 10 ]))%m.

(** ** demos/vts_paper_presilicon_variability.py *)
(** lines 86-87: a_0 * np.exp(e_aa / (K * temp)) * (vdd**alpha) * (time**n) *)
Definition bti_eqn : eqn V :=
  function ["a_0"; "e_aa"; "temp"; "vdd"; "alpha"; "time"; "n"]%string
    (bin nmul (bin nmul (bin nmul (arg "a_0") (un pexp (bin ndiv (arg "e_aa") (bin nmul (num (8617 # 100000000)) (arg "temp")))))
                        (bin ppow (arg "vdd") (arg "alpha")))
              (bin ppow (arg "time") (arg "n"))).
(** lines 91-92: a_0 * np.exp(-alpha / vdd) * (t_0 * (temp**-beta)) * (time**n) *)
Definition hci_eqn : eqn V :=
  function ["time"; "vdd"; "temp"; "a_0"; "n"; "t_0"; "beta"; "alpha"]%string
    (bin nmul (bin nmul (bin nmul (arg "a_0") (un pexp (bin ndiv (un nneg (arg "alpha")) (arg "vdd"))))
                        (bin nmul (arg "t_0") (bin ppow (arg "temp") (un nneg (arg "beta")))))
              (bin ppow (arg "time") (arg "n"))).
(** lines 95-96: init + bti + hci + cond *)
Definition vth_own : eqn V :=
  function ["init"; "bti"; "hci"; "cond"]%string
    (bin nadd (bin nadd (bin nadd (arg "init") (arg "bti")) (arg "hci")) (arg "cond")).
(** lines 98-106 *)
Definition gain_eqn : eqn V :=
  let v_gs_1 := bin nmul (num (54 # 100)) (arg "vdd") in
  let v_gs_2 := bin nmul (num (69 # 100)) (arg "vdd") in
  let size := bin nmul (bin nmul (arg "u_n") (arg "c_ox")) (bin ndiv (arg "w") (arg "l")) in
  let i_d_1 := bin nmul (bin nmul (num (5 # 10)) size) (bin ppow (bin nsub v_gs_1 (arg "v_th")) (num 2)) in
  let i_d_2 := bin nmul (bin nmul (num (5 # 10)) size) (bin ppow (bin nsub v_gs_2 (arg "v_th")) (num 2)) in
  let g_m := bin ndiv (bin nmul (num 2) i_d_1) (bin nsub v_gs_1 (arg "v_th")) in
  let r_o := bin ndiv (bin nmul (arg "v_e") (arg "l")) i_d_2 in
  function ["v_th"; "u_n"; "c_ox"; "w"; "l"; "v_e"; "vdd"]%string (bin nmul g_m r_o).

Definition tv (temp vdd : V) : dict V := [("temp", temp); ("vdd", vdd)]%string.
(** line 52 *)
Definition full_meas : step V := SMeas (MeasSpec [("amp_gain"%string, 5)] (tv (kelvin 30) (lit (86 # 100))) "Measure All").
(** lines 55-57, 60-62 *)
Definition htol_test (fuel : nat) : res (list (step V)) :=
  rbind (stress (tv (kelvin 125) (lit (92 # 100))) 50 "HTOL Stress") (fun s => looped fuel [full_meas] [s; full_meas] 1000).
Definition ltol_test (fuel : nat) : res (list (step V)) :=
  rbind (stress (tv (kelvin (-10)) (lit (92 # 100))) 50 "Low Temperature Stress") (fun s => looped fuel [full_meas] [s; full_meas] 1000).
(** lines 65-70; str(i + 1) for i < 10 *)
Definition digits (i : nat) : string :=
  nth i ["1"; "2"; "3"; "4"; "5"; "6"; "7"; "8"; "9"; "10"]%string EmptyString.
Definition cycle_stress (i : nat) : res (step V) :=
  let q := inject_Z (Z.of_nat i) in
  stress (tv (kelvin (100 + 10 * q)) (nadd (lit (88 # 100)) (nmul (lit (2 # 100)) (lit q)))) 90 ("Ramp Cycle Stress " ++ digits i).
Fixpoint ramp_cycles (relax : step V) (is_ : list nat) (steps : list (step V)) : res (list (step V)) :=
  match is_ with
  | [] => Ok steps
  | i :: r => rbind (cycle_stress i) (fun s => ramp_cycles relax r (appended steps [s; full_meas; relax; full_meas]))
  end.
Definition ramp_test : res (list (step V)) :=
  rbind (stress (tv (kelvin 30) (lit (86 # 100))) 10 "Ramp Cycle Relax") (fun relax =>
  ramp_cycles relax (seq 0 10) [full_meas]).
(** lines 75-80 *)
Definition silicon_env : res (env V) :=
  rbind (vrtn (normal 0 0 (5 # 100)) (normal 1 0 (2 # 10)) None) (fun temp =>
  rbind (vrtn (normal 2 0 (3 # 10000)) (normal 3 0 (5 # 10000)) None) (fun vdd =>
  env_init [temp; vdd] (RDict [("temp", 0); ("vdd", 1)]%string) [] RNone)).
(** lines 108-150: the three latent variable objects that are changed later are
    arguments *)
Definition bti_alpha : res (lvar V) := latent (normal 4 (95 # 10) (2 # 1000)) (normal 5 1 (5 # 1000)) None.
Definition hci_alpha : res (lvar V) := latent (normal 6 (72 # 10) (3 # 100)) (normal 7 1 (4 # 100)) None.
Definition vth_init : res (lvar V) :=
  lvar_init (normal 8 (42 # 100) (1 # 10000)) (normal 9 0 (2 # 10000)) (normal 10 0 (3 # 10000)) None None "offset".
Definition silicon_device (b_alpha h_alpha i : lvar V) : res (device V) :=
  rbind (latent (normal 11 (6 # 1000) (5 # 10000)) None None) (fun b_a0 =>
  rbind (latent (normal 12 (-5 # 100) (2 # 10000)) (normal 13 1 (3 # 10000)) (normal 14 1 (1 # 10000))) (fun b_e =>
  rbind (latent (normal 15 (4 # 10) (5 # 10000)) None None) (fun b_n =>
  rbind (latent (normal 16 (1 # 10) (4 # 1000)) None None) (fun h_a0 =>
  rbind (latent (normal 17 (62 # 100) (3 # 1000)) None None) (fun h_n =>
  rbind (latent (normal 18 (11 # 10) (2 # 1000)) (normal 19 1 (1 # 1000)) (normal 20 1 (1 # 100))) (fun h_beta =>
  rbind (latent (normal 21 500 (1 # 1000)) None None) (fun h_t0 =>
  rbind (deter 1) (fun u_n => rbind (deter 1) (fun c_ox => rbind (deter 8) (fun w => rbind (deter 2) (fun l_ => rbind (deter 5) (fun v_e =>
  Ok [("v_th"%string,
       prm_of [("bti"%string, mech_of KDeg bti_eqn [("a_0", b_a0); ("e_aa", b_e); ("alpha", b_alpha); ("n", b_n)]%string None);
               ("hci"%string, mech_of KDeg hci_eqn [("a_0", h_a0); ("n", h_n); ("alpha", h_alpha); ("beta", h_beta); ("t_0", h_t0)]%string None)]
              (init_of i) (LMdl vth_own []) None (Some "hours"%string));
      ("amp_gain"%string, PCirc (LMdl gain_eqn [("u_n", u_n); ("c_ox", c_ox); ("w", w); ("l", l_); ("v_e", v_e)]%string))])))))))))))).
(** lines 42-178: the six reports, in the order of DATA_FILES.  The test specifications
    and the environment are used for both processes; the assignments of lines 165-167
    change the latent variable objects the device refers to. *)
Definition silicon_run (fuel : nat) : M (dict (report V)) :=
  (htol <- lift (htol_test fuel) ;; ltol <- lift (ltol_test fuel) ;; ramp <- lift ramp_test ;;
   e <- lift silicon_env ;; ba <- lift bti_alpha ;; ha <- lift hci_alpha ;; i <- lift vth_init ;;
   d <- lift (silicon_device ba ha i) ;;
   r1 <- simulate e d htol 5 5 None ;; r2 <- simulate e d ltol 5 5 None ;; r0 <- simulate e d ramp 5 5 None ;;
   d' <- lift (silicon_device (snd (lvar_assign ba (LChp (normal 22 1 (1 # 100)))))
                              (snd (lvar_assign ha (LChp (normal 23 1 (8 # 100)))))
                              (snd (lvar_assign i (LLot (normal 24 0 (6 # 10000)))))) ;;
   r4 <- simulate e d' htol 5 5 None ;; r5 <- simulate e d' ltol 5 5 None ;; r3 <- simulate e d' ramp 5 5 None ;;
   ret [("Current Process: Ramped Cycling", snd r0); ("Current Process: HTOL", snd r1); ("Current Process: LTOL", snd r2);
        ("New Process: Ramped Cycling", snd r3); ("New Process: HTOL", snd r4); ("New Process: LTOL", snd r5)]%string)%m.
(** lines 282-288 *)
Definition silicon_entry (fuel : nat) : M Z :=
  (rs <- silicon_run fuel ;;
   lift (checks [ rbind (dgetE rs "Current Process: LTOL") (fun r => rows_are r 2625);
                  rbind (dgetE rs "New Process: Ramped Cycling") (fun r => rbind (at_ r 29 "vdd") (fun c => Ok (is_num c (102 # 100))));
                  rbind (dgetE rs "Current Process: HTOL") (fun r => rbind (at_ r 13 "start time") (fun c => is_hours c 300));
                  rbind (dgetE rs "New Process: LTOL") (fun r => count_is r "v_th" 5) ]))%m.

(** ** demos/vts_paper_tddb_model_sensitivity.py *)
(** lines 43-48.  [Uniform()] makes a new generator for every call; its draws are an
    arbitrary sequence, here that of one generator used for nothing else.  The
    comparison with an array is an array, whose truth value exists only for one
    element. *)
Definition one_value (p : pyval V) : res V :=
  match p with
  | PNum v | POth v => Ok v
  | PArr a => match ndata a with [v] => Ok v | _ => Err ValueError end
  | PDict _ => Err TypeError
  end.
Definition defect_prob : expr :=
  bin nmul (arg "time")
    (bin nmul (bin nmul (arg "c") (bin ndiv (arg "v_g") (arg "t_diel")))
              (bin ndiv (bin ppow (arg "temp") (arg "thermal_dist")) (arg "bond_strength"))).
Definition defect_eqn (u : nat) : eqn V :=
  Eqn ["time"; "temp"; "v_g"; "t_diel"; "c"; "bond_strength"; "thermal_dist"]%string [] None
    (fun a => (prob <- lift (defect_prob a) ;;
               xs <- sample (Rv u (DUniform (lit 0) (lit 1)) None) 1 ;;
               p <- lift (one_value prob) ;;
               ret (PNum (match xs with x :: _ => if nltb x p then lit 1 else lit 0 | [] => lit 0 end)))%m).
Definition defects : list string :=
  ["defect0"; "defect1"; "defect2"; "defect3"; "defect4"; "defect5";
   "defect6"; "defect7"; "defect8"; "defect9"; "defect10"; "defect11"]%string.
(** lines 86-117: the defects as a table of three rows of four, above the threshold or
    not; a column full of defects breaks the oxide.  Twelve arrays of more than one
    element each do not fit a table of twelve; that the shapes of arrays of one element
    agree is not checked here. *)
Definition defective (t : V) (v : V) : bool := nltb t v.
Definition column (l : list bool) (i : nat) : list bool := [nth i l false; nth (4 + i) l false; nth (8 + i) l false].
Definition broken (l : list bool) : bool := existsb (fun i => forallb (fun b => b) (column l i)) (seq 0 4).
Definition oxide_eqn : eqn V :=
  Eqn (["init"; "cond"; "threshold"]%string ++ defects) [] None
    (fun a => lift (
       rbind (map_res (fun x => rbind (dgetE a x) one_value) defects) (fun vs =>
       rbind (rbind (dgetE a "threshold") one_value) (fun t =>
       rbind (rbind (dgetE a "init") one_value) (fun i =>
       Ok (PNum (if broken (map (defective t) vs) || neqb i (lit 0) then lit 0 else lit 1))))))).

Definition tg (temp v_g : V) : dict V := [("temp", temp); ("v_g", v_g)]%string.
(** line 174; line 40 sets NUM_SAMPLES to 100 *)
Definition fail_check (n : nat) : step V := SMeas (MeasSpec [("tddb"%string, n)] (tg (kelvin 35) (lit (9 # 10))) "FailCheck").
(** lines 170-184 *)
Definition field_test (n fuel : nat) : res (list (step V)) :=
  rbind (stress (tg (kelvin 65) (lit (9 # 10))) 30 "Moderate Loading") (fun moderate =>
  rbind (stress (tg (kelvin 88) (lit (92 # 100))) 16 "Heavy Loading") (fun heavy =>
  rbind (stress (tg (kelvin 30) (lit (87 # 100))) 122 "Idle State") (fun idle =>
  looped fuel [fail_check n] [moderate; heavy; idle; fail_check n] (24 * 7 * 52 * 2)))).
(** lines 124-130 *)
Definition field_env : res (env V) :=
  rbind (vrtn (gamma 0 2 1) (normal 1 0 (3 # 10)) None) (fun temp =>
  rbind (vrtn (normal 2 0 (1 # 1000)) (normal 3 0 (3 # 1000)) None) (fun v_g =>
  env_init [temp; v_g] (RDict [("temp", 0); ("v_g", 1)]%string)
           [Instm None (Some 4%Z) (normal 4 0 1) (Some (Some (lit (-40)), Some (lit 150)))] (RDict [("temp"%string, 0)]))).
(** lines 135-156: one mechanism object under twelve names *)
Definition field_device (step_val : Q) : res (device V) :=
  rbind (deter (4 # 100000)) (fun c => rbind (deter 3) (fun t_diel =>
  rbind (deter 200) (fun bond => rbind (deter step_val) (fun therm =>
  rbind (deter 1) (fun i => rbind (deter (5 # 10)) (fun threshold =>
  let m := mech_of KFail (defect_eqn (gen 5)) [("c", c); ("t_diel", t_diel); ("bond_strength", bond); ("thermal_dist", therm)]%string None in
  Ok [("tddb"%string,
       prm_of (map (fun x => (x, m)) defects) (init_of i) (LMdl oxide_eqn [("threshold"%string, threshold)]) (Some "hours"%string) None)])))))).
(** lines 120-158 *)
Definition single_test (step_val : Q) (l : list (step V)) : M (report V) :=
  (e <- lift field_env ;; d <- lift (field_device step_val) ;; r <- simulate e d l 1 1 None ;; ret (snd r))%m.
(** lines 190-198: every simulation runs in a process of its own *)
Definition field_run (fuel : nat) (ws : Q -> world) : res (list (Q * report V)) :=
  rbind (field_test 100 fuel) (fun l =>
  map_res (fun q => rbind (fst (single_test q l (ws q))) (fun r => Ok (q, r))) [105 # 100; 1075 # 1000; 11 # 10; 1125 # 1000; 115 # 100]%Q).
Definition of_step (rs : list (Q * report V)) (q : Q) : res (report V) :=
  match find (fun qr => Qeq_bool (fst qr) q) rs with Some qr => Ok (snd qr) | None => Err KeyError end.
(** lines 294-300 *)
Definition field_entry (fuel : nat) (ws : Q -> world) : res Z :=
  rbind (field_run fuel ws) (fun rs =>
  checks [ rbind (of_step rs (115 # 100)) (fun r => rows_are r (105 * 100));
           rbind (of_step rs (1075 # 1000)) (fun r => rbind (at_ r 339 "v_g") (fun c => Ok (is_num c (87 # 100))));
           rbind (of_step rs (105 # 100)) (fun r => rbind (at_ r 31 "duration") (fun c => is_hours c 122));
           rbind (of_step rs (11 # 10)) (fun r => count_is r "tddb" 100) ]).
End Demo.
