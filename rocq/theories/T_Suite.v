(** Validation of the model against the project's own unit tests: every assertion of
    tests/unit_tests and tests/feature_tests that needs neither numpy's generators,
    nor a numerical search, nor powers and logarithms, computed on the model over exact
    rationals.  The Sequential variables of tests/conftest.py return
    start, start + inc, ... on every call; here they are Normal(start, inc) variables
    over a generator that counts its draws, started at 0 for every call. *)
From Coq Require Import QArith.
From Verif Require Import M_Base M_Num M_Nd M_RandVar M_Latent M_LatentMdl M_Time M_TestSpec M_Device M_Report M_Env M_Sim M_Build M_Toy
  M_Cookbook M_CookEnv M_Export M_Demo.
From Verif Require S_TestSpec L_Time T_TestSpec.
From Coq Require Import Lia.
Open Scope nat_scope.
#[local] Instance hord_id : HashOrd := {| hord := nodup String.string_dec;
  hord_ok := fun l => conj (NoDup_nodup _ l) (fun x => nodup_In _ l x) |}.

(** What a call returns when every Sequential variable starts from its beginning. *)
Definition now {A} (m : M A) : res A := fst (m (fun _ => 0)).
Definition seqn (i : nat) (start inc : Q) : option (rv Q) := Some (Rv i (DNormal start inc) None).
Definition fixed (v : Q) : option (rv Q) := Some (Rv 99 (DDeter v) None).
Definition elems {A} (r : res (nd A)) : res (list nat * list A) := rbind r (fun a => Ok (nshape a, ndata a)).
Definition pelems (r : res (pyval Q)) : res (list nat * list Q) := rbind r (fun p => elems (to_nd p)).
Definition of_var (r : res (lvar Q)) (f : lvar Q -> M (nd Q)) : res (list nat * list Q) := rbind r (fun o => elems (now (f o))).
Definition arr (s : list nat) (l : list Q) : pyval Q := PArr (Nd s l).

(** ** devices_test.py *)
Section Devices.
Open Scope string_scope.

(** test_latent_var *)
Definition lv1 := lvar_init (seqn 0 (1#5) (1#5)) None None None None "scaling".
Definition lv3 := lvar_init (seqn 0 1 1) (seqn 1 1 1) (seqn 2 1 1) None None "scaling".
Definition lv_off := lvar_init None (seqn 1 1 1) None (Some 0%Q) None "offset".
Definition lv_uno := lvar_init (seqn 0 0 1) (seqn 1 0 1) (seqn 2 0 1) (Some (1#5)) (Some "uno") "offset".
Example suite_latent_var :
  lvar_init (V := Q) None None None None None "scaling" = Err UserConfigError /\
  lvar_init (fixed 2) None None None None "invalid" = Err InvalidTypeError /\
  rbind lv1 (fun o => Ok (rv_dist (lv_chp o), rv_dist (lv_lot o), lv_name o, lv_deter o)) = Ok (DDeter 1%Q, DDeter 1%Q, None, None) /\
  of_var lv1 (fun o => gen_latent o 1 1 1) = Ok ([1; 1; 1], [1#5]%Q) /\
  of_var lv1 (fun o => gen_latent o 2 2 2) = Ok ([2; 2; 2], [1#5; 2#5; 3#5; 4#5; 1; 6#5; 7#5; 8#5]%Q) /\
  of_var lv3 (fun o => gen_latent o 2 2 2) = Ok ([2; 2; 2], [1; 2; 6; 8; 30; 36; 56; 64]%Q) /\
  of_var (lvar_init None None None (Some 2%Q) None "scaling") (fun o => gen_latent o 1 1 1) = Ok ([1; 1; 1], [2]%Q) /\
  of_var lv_off (fun o => gen_latent o 1 2 1) = Ok ([1; 2; 1], [1; 2]%Q) /\
  rbind lv_uno (fun o => Ok (lv_name o, lv_op o)) = Ok (Some "uno", Some Offset) /\
  of_var lv_uno (fun o => gen_latent o 2 2 2) = Ok ([2; 2; 2], [1#5; 6#5; 16#5; 21#5; 36#5; 41#5; 51#5; 56#5]%Q) /\
  of_var (rbind lv_uno (fun o => set_type o "scaling")) (fun o => gen_latent o 2 2 2) =
    Ok ([2; 2; 2], [0; 0; 0; 0; 8#5; 2; 18#5; 21#5]%Q).
Proof. vm_compute. repeat split. Qed.

(** test_latent_mdl *)
Definition minus := function (V := Q) ["x"; "y"] (bin nsub (arg "x") (arg "y")).
Definition det (v : Q) : res (lvar Q) := lvar_init None None None (Some v) None "scaling".
Example suite_latent_mdl :
  now (call eqn_x [("x", PNum 3%Q)]) = Ok (PNum 3%Q) /\
  now (gen_latents (LMdl (eqn_x (V := Q)) []) 1 1 1) = Ok [] /\
  now (call minus [("x", PNum 2%Q); ("y", PNum 3%Q)]) = Ok (PNum (-1)%Q) /\
  rbind (det 4) (fun o => now (gen_latents (LMdl minus [("y", o)]) 2 1 2)) = Ok [("y", arr [2; 1; 2] [4; 4; 4; 4]%Q)].
Proof. vm_compute. repeat split. Qed.

(** test_init_val_mdl_basic: np.where(auto_fail > 0, base, 0) *)
Definition weird_one := Eqn (V := Q) ["base"; "auto_fail"] [] None
  (fun a => lift (rbind (dgetE a "base") (fun b => rbind (dgetE a "auto_fail") (fun f =>
     pmap2 (fun x y => if nltb 0%Q y then x else 0%Q) b f)))).
Example suite_init_val_mdl :
  rbind (det 3) (fun o => pelems (now (gen_init_vals (LMdl eqn_basic [("init_val", o)]) 2 2 2))) = Ok ([2; 2; 2], repeat 3%Q 8) /\
  rbind (lvar_init None (seqn 1 (1#10) (1#10)) None (Some (3#5)) None "offset") (fun b =>
  rbind (lvar_init (seqn 2 (-2) 1) None None (Some 0%Q) None "offset") (fun f =>
  pelems (now (gen_init_vals (LMdl weird_one [("base", b); ("auto_fail", f)]) 2 2 2)))) =
    Ok ([2; 2; 2], [0; 0; 0; 4#5; 9#10; 9#10; 1; 1]%Q).
Proof. vm_compute. repeat split. Qed.

(** test_conditional_shift_model *)
Definition some_shifting := function (V := Q) ["temp"; "vdd"; "a"; "b"]
  (bin nadd (bin nmul (arg "a") (arg "temp")) (bin nmul (arg "b") (un nneg (arg "vdd")))).
Definition shift_mdl : res (lmdl Q) :=
  rbind (lvar_init (seqn 1 1 (1#10)) None None (Some (1#10)) None "scaling") (fun a =>
  rbind (lvar_init (seqn 2 1 (1#10)) None None (Some (1#2)) None "scaling") (fun b =>
  Ok (LMdl some_shifting [("a", a); ("b", b)]))).
Example suite_cond_shift :
  now (gen_latents (LMdl (eqn_const 0%Q) []) 1 1 1) = Ok [] /\
  now (call (eqn_const 0%Q) []) = Ok (PNum 0%Q) /\
  rbind shift_mdl (fun m => now (gen_latents m 3 1 1)) =
    Ok [("a", arr [1; 1; 3] [1#10; 11#100; 3#25]%Q); ("b", arr [1; 1; 3] [1#2; 11#20; 3#5]%Q)] /\
  rbind shift_mdl (fun m => rbind (now (gen_latents m 3 1 1)) (fun l =>
    pelems (now (call (lm_eqn m) (dupdate [("temp", PNum 25%Q); ("vdd", PNum (9#10)%Q)] l))))) = Ok ([1; 1; 3], [41#20; 451#200; 123#50]%Q) /\
  rbind shift_mdl (fun m => now (calc_cond_vals m [("temp", PNum 350%Q); ("vdd", PNum (1#2)%Q)]
    [("a", PNum (1#100)%Q); ("b", PNum 2%Q)] 1 1 1)) = Ok (PNum (5#2)%Q) /\
  rbind shift_mdl (fun m => now (calc_cond_vals m [("temp", arr [2] [350; 300]%Q); ("vdd", arr [2] [1#2; 1#4]%Q)]
    [("a", arr [2] [1#50; 1#100]%Q); ("b", arr [2] [1; 6]%Q)] 1 1 1)) = Ok (arr [2] [13#2; 3#2]%Q).
Proof. vm_compute. repeat split. Qed.

(** test_deg_mech_mdl, except the back-calculation of a time *)
Definition basic := function (V := Q) ["time"; "y"; "z"] (bin nmul (bin nmul (arg "time") (arg "y")) (arg "z")).
Example suite_deg_mech : now (call basic [("time", PNum (-1)); ("y", PNum 1); ("z", PNum 4)]%Q) = Ok (PNum (-4)%Q).
Proof. reflexivity. Qed.

(** test_fail_mech_mdl: 1 if time * temp * a > 10 else 0, where the truth value of an
    array exists only for one element *)
Definition fail_eqn := Eqn (V := Q) ["time"; "temp"; "a"] [] None
  (fun a => lift (rbind (bin nmul (bin nmul (arg "time") (arg "temp")) (arg "a") a) (fun p => rbind (to_nd p) (fun x =>
     match ndata x with
     | [v] => Ok (PNum (if nltb 10%Q v then 1%Q else 0%Q))
     | _ => Err ValueError
     end)))).
Example suite_fail_mech :
  rbind (lvar_init (fixed 1) None None None None "scaling") (fun a =>
  let m := Mech KFail (LMdl fail_eqn [("a", a)]) 0%Q (Some "h") in
  now (mech_equiv_time m (PNum 1%Q) [("temp", PNum 3%Q)] [("a", PNum 4%Q)] 1 1 3)) = Ok (PNum 0%Q) /\
  rbind (lvar_init (fixed 1) None None None None "scaling") (fun a =>
  let m := Mech KFail (LMdl fail_eqn [("a", a)]) 0%Q (Some "h") in
  now (mech_deg_vals m (arr [1; 1; 3] [3; 4; 5]%Q) (arr [1; 1; 3] [0; 1; 0]%Q) [("temp", arr [1; 1; 3] [4; 2; 3]%Q)]
         [("a", arr [1; 1; 3] [1; 1#5; 1#10]%Q)] 1 1 3)) = Ok (arr [1; 1; 3] [1; 1; 0]%Q).
Proof. vm_compute. repeat split. Qed.
End Devices.

(** ** helpers_test.py *)
Section Helpers.
Open Scope string_scope.
Definition xs := arr [3; 2; 2] [1; 2; 3; 4; 5; 6; 7; 8; 9; 10; 11; 12]%Q.
Definition ys := arr [3; 2; 2] [11; 10; 9; 8; 7; 6; 5; 4; 3; 2; 1; 0]%Q.
Definition times_ := function (V := Q) ["x"; "y"] (bin nmul (arg "x") (arg "y")).
Definition times_less := function (V := Q) ["x"; "y"; "z"] (bin nsub (bin nmul (arg "x") (arg "y")) (arg "z")).
Definition at3 (r : res (pyval Q)) (i j k : nat) : res Q := rbind r (fun p => rbind (to_nd p) (fun a => Ok (aget a [i; j; k]))).
Example suite_loop_compute :
  at3 (now (loop_compute times_ [("x", xs); ("y", ys)] 3 2 2)) 2 1 0 = Ok 11%Q /\
  at3 (now (loop_compute times_ [("x", xs); ("y", ys)] 3 2 2)) 0 1 1 = Ok 32%Q /\
  at3 (now (loop_compute times_less [("x", xs); ("y", ys); ("z", PNum (1#2)%Q)] 3 2 2)) 2 1 0 = Ok (21#2)%Q /\
  at3 (now (loop_compute times_less [("x", xs); ("y", ys); ("z", PNum (1#2)%Q)] 3 2 2)) 0 1 1 = Ok (63#2)%Q.
Proof. vm_compute. repeat split. Qed.
End Helpers.

(** ** phys_envs_test.py *)
Section Envs.
Open Scope string_scope.

(** test_measurement_device: everything but the instrument with a random error *)
Example suite_meas_device :
  let ideal := Instm (V := Q) None None None None in
  let bad := Instm (Some "Bad Vals") (Some 4%Z) None (Some (Some (-2)%Q, Some 1000%Q)) in
  now (measure ideal [3]%Q) = Ok [3]%Q /\ now (measure ideal [-156#100]%Q) = Ok [-156#100]%Q /\
  now (measure ideal [4; 63#10]%Q) = Ok [4; 63#10]%Q /\ now (measure bad [0]%Q) = Ok [0]%Q /\
  now (measure (Instm None (Some 2%Z) None None) [43674#10000]%Q) = Ok [22#5]%Q.
Proof. vm_compute. repeat split. Qed.

(** test_env_vrtn_model; sampling a level shows the value a missing model stands for *)
Definition e_default := emdl_init (V := Q) None None None "offset" None.
Definition of_env (r : res (emdl Q)) (f : emdl Q -> M (nd Q)) : res (list nat * list Q) := rbind r (fun o => elems (now (f o))).
Definition assign (r : res (emdl Q)) (a : eassign Q) : res (emdl Q) :=
  rbind r (fun o => match emdl_assign o a with (Ok _, o') => Ok o' | (Err e, _) => Err e end).
Definition e_scaled := assign (assign e_default (EName (Some "new_name"))) (EType "scaling").
Definition e_back := assign (assign e_scaled (EChp (seqn 7 0 (1#2)))) (EType "offset").
Definition e_seq := assign (assign (assign (emdl_init (seqn 1 0 (1#100)) (seqn 2 0 (1#10)) (seqn 3 1 1) "offset" None) (EType "scaling"))
  (EDev (fixed 3))) (EChp (fixed 2)).
Definition e_off := assign (assign (assign e_seq (EType "offset")) (EDev (seqn 1 1 1))) (EChp (seqn 2 1 1)).
Example suite_env_vrtn :
  rbind e_default (fun o => now (sample (em_bat o) 1)) = Ok [0]%Q /\
  of_env e_default (fun o => gen_env o 15%Q 2 2 1) = Ok ([1; 2; 2], [15; 15; 15; 15]%Q) /\
  rbind e_scaled (fun o => Ok (em_name o)) = Ok (Some "new_name") /\
  rbind e_scaled (fun o => now (sample (em_bat o) 1)) = Ok [1]%Q /\
  of_env e_scaled (fun o => gen_env o 15%Q 2 2 1) = Ok ([1; 2; 2], [15; 15; 15; 15]%Q) /\
  rbind e_back (fun o => now (sample (em_bat o) 1)) = Ok [0]%Q /\
  rbind (assign e_back (EChp None)) (fun o => now (sample (em_chp o) 1)) = Ok [0]%Q /\
  of_env e_seq (fun o => gen_env o 3%Q 1 1 1) = Ok ([1; 1; 1], [18]%Q) /\
  rbind (of_env e_seq (fun o => gen_env o 3%Q 3 2 3)) (fun a => Ok (hd 0%Q (snd a))) = Ok 18%Q /\
  of_env e_off (fun o => gen_batch o 3%Q) = Ok ([1], [4]%Q) /\
  of_env e_off (fun o => gen_chp o (Nd [] [3]%Q) 1 1) = Ok ([1; 1], [4]%Q) /\
  of_env e_off (fun o => gen_chp o (Nd [] [-1]%Q) 2 3) = Ok ([3; 2], [0; 1; 2; 3; 4; 5]%Q) /\
  of_env e_off (fun o => gen_dev_num o 3%Q 1) = Ok ([1; 1; 1], [4]%Q) /\
  of_env e_off (fun o => gen_dev o (Nd [1; 2] [-1; -2]%Q) 3) = Ok ([1; 2; 3], [0; 1; 2; 2; 3; 4]%Q) /\
  rbind e_off (fun o => rbind (now (gen_env o (-3)%Q 2 2 2)) (fun a => Ok (aget a [1; 0; 1]))) = Ok 7%Q.
Proof. vm_compute. repeat split. Qed.

(** test_physical_test_environment, except the values of seeded generators *)
Definition env0 : env Q := match env_init [] RNone [] RNone with Ok e => e | Err _ => [] end.
(** Sequential variables sampled twice, first [cut] times; a Uniform stands for one
    that is sampled twice at each call. *)
Definition restarting (cut : nat) : Rng Q := {|
  rdraw p s := let z := inject_Z (Z.of_nat (if Nat.ltb s cut then s else Nat.sub s cut)) in
    (match p with
     | NNormal m sg => Qred (m + sg * z)
     | NUniform lo hi => if Nat.even s then lo else hi
     | _ => 0%Q
     end, Datatypes.S s);
  rvalid p := true |}.
Definition bti_func := function (V := Q) ["time"; "a"; "b"; "x"]
  (bin nadd (bin nmul (arg "time") (arg "a")) (bin nmul (arg "b") (arg "x"))).
Definition cond_func := function (V := Q) ["base"; "b"; "k"] (bin nadd (arg "base") (bin nmul (arg "b") (arg "k"))).
Definition hci_func := function (V := Q) ["time"; "a"; "y"] (bin nmul (bin ndiv (arg "time") (arg "a")) (arg "y")).
Definition two_prms : res (device Q) :=
  rbind (det 0) (fun i =>
  Ok [("bti", PDeg (DegPrm (init_of i) (LMdl cond_func []) 0%Q [("deg", mech_of KDeg bti_func [] (Some "h"))] (LMdl eqn_basic_sum [])));
      ("hci", PDeg (DegPrm (init_of i) no_cond 0%Q [("deg2", mech_of KDeg hci_func [] (Some "h"))] (LMdl eqn_basic_sum [])))]).
Definition two_report : report Q := report_init [SMeas (MeasSpec [("bti", 2); ("hci", 3); ("b", 2)] [("a", 13); ("b", 7)]%Q "unspecified")] 2 1.
Definition a_seq := emdl_init (seqn 1 (1#10) (1#10)) (seqn 2 1 1) (seqn 3 (1#2) (1#2)) "offset" None.
Definition b_still := emdl_init (V := Q) None None None "offset" None.
Definition b_seq := emdl_init (seqn 4 (1#10) (1#10)) (Some (Rv 5 (DUniform (1#2) 1%Q) None)) (seqn 6 2 1) "offset" None.
Definition two_env (b : res (emdl Q)) : res (env Q) :=
  rbind a_seq (fun a => rbind b (fun b => env_init [a; b] (RDict [("a", 0); ("b", 1)]) [] RNone)).
Definition cond_of (r : res (dict (dict (pyval Q)))) (p c : string) : res (pyval Q) := rbind r (fun d => rbind (dgetE d p) (fun v => dgetE v c)).
Example suite_phys_env :
  is_ok (vrtn_mdl env0 "some_prm") = true /\ is_ok (meas_instm env0 "another_prm") = true /\
  cond_of (now (gen_env_cond_vals env0 [("p1", 125); ("prm2", 31415#10000)]%Q (PCounts [("p1", 1); ("prm2", 1)]) None None true 1 1)) "prm2" "prm2"
    = Ok (arr [1; 1; 1] [6283#2000]%Q) /\
  rbind (two_env b_still) (fun e => now (gen_env_cond_vals e [("a", 3); ("b", 4)]%Q (PList ["a"]) None None true 1 1)) = Err UserConfigError /\
  let conds := rbind (two_env b_still) (fun e => rbind two_prms (fun d =>
    fst (gen_env_cond_vals (H0 := restarting 4) e [("a", 4); ("b", 10)]%Q (PList ["bti"; "hci"]) (Some (info_of two_report)) (Some d) true 1 1 (fun _ => 0)))) in
  cond_of conds "bti" "a" = Ok (arr [1; 2; 2] [28#5; 57#10; 34#5; 69#10]%Q) /\
  cond_of conds "hci" "a" = Ok (arr [1; 2; 3] [28#5; 57#10; 29#5; 69#10; 7; 71#10]%Q) /\
  cond_of conds "hci" "b" = Err KeyError /\
  let conds := rbind (two_env b_seq) (fun e => rbind two_prms (fun d =>
    fst (gen_env_cond_vals (H0 := restarting 4) e [("a", 2); ("b", 10)]%Q (PList ["bti"; "hci"; "b"]) (Some (info_of two_report)) (Some d) false 1 1 (fun _ => 0)))) in
  cond_of conds "bti" "b" = Ok (arr [1; 2; 2] [63#5; 127#10; 133#10; 67#5]%Q) /\
  cond_of conds "b" "b" = Ok (arr [1; 2; 1] [63#5; 66#5]%Q).
Proof. vm_compute. repeat split. Qed.
End Envs.

(** ** random_vars_test.py: test_deterministic_dist, and the parameter names *)
Section RandomVars.
Open Scope string_scope.
Example suite_random_vars :
  let det10 := Rv 0 (DDeter 10%Q) (Some "test") in
  now (sample det10 10) = Ok (repeat 10%Q 10) /\ now (sample (Rv 0 (DDeter 5%Q) None) 2) = Ok [5; 5]%Q /\
  params_numpy (rv_dist det10) = Err NotImplementedErr /\ params_pymc (rv_dist det10) = Err NotImplementedErr /\
  get_cbi_form det10 "pymc" = Err NotImplementedErr /\
  params_pymc (DNormal 4%Q (1#10)%Q) = Ok (MNormal 4 (1#10))%Q /\
  params_numpy (DNormal 4%Q (1#10)%Q) = Ok (NNormal 4 (1#10))%Q /\
  params_numpy (DGamma 4%Q (1#3)%Q) = Ok (NGamma 4 3)%Q /\
  get_cbi_form (Rv 0 (DNormal (-2)%Q 1%Q) (Some "test_name")) "pymc" = Ok (InPymc (Some "test_name") (MNormal (-2)%Q 1%Q)).
Proof. vm_compute. repeat split. Qed.
End RandomVars.

(** ** test_specs_test.py and feature_tests/timescales_test.py *)
Section Specs.
Open Scope string_scope.
Definition hour : Z := 3600000000.
Definition strs (c : dict Q) (t : tval) (u : option string) (n : string) : res (step Q) :=
  rbind (strs_duration t u) (fun d => Ok (SStrs (StrsSpec c d n))).
(** test_strs_spec, test_stress *)
Example suite_stress :
  strs_duration (TD (50 * hour)) (Some "h") = Ok (50 * hour)%Z /\
  strs_duration (TN 40) (Some "h") = Ok (40 * hour)%Z /\
  strs_duration (TN 0) (Some "h") = Err UserConfigError /\
  strs_duration (TN 99) (Some "test_invalid") = Err UserConfigError /\
  strs_duration (TN 99) (Some "hours") = Ok (99 * hour)%Z /\
  strs_duration (TN 99) (Some "s") = Ok 99000000%Z /\ strs_duration (TN 99) (Some "seconds") = Ok 99000000%Z /\
  strs_duration (TN 99) (Some "ms") = Ok 99000%Z /\ strs_duration (TN 99) (Some "milliseconds") = Ok 99000%Z /\
  strs_duration (TN 99) (Some "us") = Ok 99%Z /\ strs_duration (TN 99) (Some "microseconds") = Ok 99%Z /\
  strs_duration (TD (99 * hour)) (Some "h") = Ok (99 * hour)%Z.
Proof. vm_compute. repeat split. Qed.

(** test_test_spec *)
Definition sm : step Q := SMeas (MeasSpec [("delay", 5); ("current", 10)] [("temp", 110)]%Q "GenericMeas").
Definition sm2 : step Q := SMeas (MeasSpec [("delay", 15); ("current", 2)] [("temp", 100)]%Q "GenericMeas2").
Definition ss : step Q := SStrs (StrsSpec [("temp", 125); ("voltage", 6#5)]%Q (100 * hour)%Z "Simple Stuff").
Definition outcome (r : option (list (step Q) * res unit)) : option (nat * res unit) := option_map (fun p => (length (fst p), snd p)) r.
Definition after (r : option (list (step Q) * res unit)) : list (step Q) := match r with Some p => fst p | None => [] end.
Example suite_test_spec :
  let h := Some "h" in
  let t1 := append_steps 100 [] (Many [sm; ss]) (Some (TN 300)) h in
  outcome t1 = Some (6, Ok tt) /\
  outcome (append_steps 100 (after t1) (One ss) (Some (TN 0)) h) = Some (6, Err UserConfigError) /\
  outcome (append_steps 100 (after t1) (One sm) (Some (TN 10)) h) = Some (6, Err UserConfigError) /\
  outcome (append_steps 100 (after t1) (Many [sm; sm; sm]) (Some (TN 10)) h) = Some (6, Err UserConfigError) /\
  outcome (append_steps 100 (after t1) (Many [ss; sm]) (Some (TN 310)) h) = Some (14, Err UserWarningE) /\
  let t2 := append_steps 100 [sm; ss; sm] (One sm2) None h in
  outcome t2 = Some (4, Ok tt) /\ calc_samples_needed (after t2) = [("delay", 15); ("current", 10)].
Proof. vm_compute. repeat split. Qed.

(** test_append_steps *)
Definition one (t : tval) (u : string) : step Q := match strs [("temp", 1%Q)] t (Some u) "unspecified" with Ok s => s | Err _ => SOther None end.
Example suite_append :
  outcome (append_steps 20 [] (One (one (TN 1) "h")) (Some (TN 3)) (Some "test_invalid")) = Some (0, Err UserConfigError) /\
  outcome (append_steps 20 [] (One (one (TN 1) "h")) (Some (TN 3)) (Some "h")) = Some (3, Ok tt) /\
  outcome (append_steps 20 [] (One (one (TN 1) "h")) (Some (TD (3 * hour))) (Some "h")) = Some (3, Ok tt).
Proof. vm_compute. repeat split. Qed.
(** Seconds for three hours: 10800 steps, from C02. *)
Example suite_append_many : exists fuel n,
  outcome (append_steps fuel [] (One (one (TN 1) "s")) (Some (TN 3)) (Some "h")) = Some (n, Ok tt) /\ Z.of_nat n = 10800%Z.
Proof.
  assert (E : exists k, one (TN 1) "s" = SStrs k /\ ss_dur k = 1000000%Z) by (eexists; split; reflexivity). destruct E as (k & -> & Ek).
  assert (St : S_TestSpec.stress_time (S_TestSpec.items (One (SStrs k))) = 1000000%Z) by (cbn; lia).
  destruct (T_TestSpec.C02_looped_append_minimal_cycles Q [] (One (SStrs k)) (TN 3) (Some "h") (3 * hour)%Z) as (n & [(B & _)|(_ & B)] & _ & f & F).
  - exact I.
  - exists 3600000000%Z. split; [cbn; tauto|]. apply L_Time.nearest_even_int. reflexivity.
  - discriminate.
  - rewrite St. lia.
  - vm_compute in B. now destruct B.
  - rewrite St in B. assert (N : Z.of_nat n = 10800%Z) by (unfold hour in B; lia).
    destruct (F f (Nat.le_refl f)) as (out & Ef & [->| ->] & Ew).
    + exists f, n. split; auto. rewrite Ef. cbn [outcome option_map fst snd app]. do 2 f_equal.
      clear. induction n as [|n IH]; cbn [S_TestSpec.cycles S_TestSpec.items app length]; auto.
    + exfalso. apply (proj1 Ew eq_refl). exists 1%Z. assert (G : forall j, S_TestSpec.stress_time (S_TestSpec.cycles j (S_TestSpec.items (One (SStrs k)))) = (Z.of_nat j * 1000000)%Z).
      { induction j as [|j IH]; auto. cbn [S_TestSpec.cycles S_TestSpec.items app] in IH |- *. unfold S_TestSpec.stress_time in *. cbn in *. lia. }
      rewrite G, N. reflexivity.
Qed.

(** test_export_to_json: the units *)
Definition small_report : xreport := XReport "t" "d" None (Some [Row "p" 0 None None None (TD 0) 1%Q]) (Some []).
Definition out_units (r : res xjson) : res string := rbind r (fun j => Ok (j_units j)).
Example suite_export :
  out_units (export_to_json small_report (Some "test_invalid")) = Err UserConfigError /\
  out_units (export_to_json small_report (Some "h")) = Ok "hours" /\ out_units (export_to_json small_report (Some "s")) = Ok "seconds" /\
  out_units (export_to_json small_report (Some "ms")) = Ok "milliseconds" /\ out_units (export_to_json small_report (Some "us")) = Ok "microseconds".
Proof. vm_compute. repeat split. Qed.

(** test_time_unit_propagation *)
Definition mo (n : string) (u : option string) : mechobj Z := MechObj (Some n) u true 0%Z.
Definition h0 : objs Z Z Z := Objs [] [mo "deg_mech_0" (Some "h"); mo "deg_mech_1" (Some "s"); mo "deg_mech_2" None;
  mo "fail_mech_0" (Some "ms"); mo "fail_mech_1" None; mo "deg_mech_3" None] [].
Definition units_with (prm dev : option string) : res (list (option string)) :=
  rbind (new_deg_prm h0 (MDict [("deg_mech_0", 0); ("deg_mech_1", 1); ("deg_mech_2", 2); ("fail_mech_0", 3); ("fail_mech_1", 4)]) None prm [] 0%Z) (fun h1 =>
  rbind (new_deg_prm h1 (MOne 5) None None [] 0%Z) (fun h2 =>
  rbind (new_device h2 (MDict [("prm_mdl_0", 0); ("prm_mdl_1", 1)]) (Some "dev") dev) (fun r =>
  Ok (map mo_unit (ob_mechs (fst r)))))).
Example suite_unit_propagation :
  units_with (Some "us") (Some "s") = Ok [Some "h"; Some "s"; Some "us"; Some "ms"; Some "us"; Some "s"] /\
  units_with (Some "d") None = Ok [Some "h"; Some "s"; Some "d"; Some "ms"; Some "d"; Some "h"].
Proof. vm_compute. repeat split. Qed.
End Specs.

(** ** top_level_test.py *)
Section Top.
Open Scope string_scope.
(** test_init_state_basic, first half *)
Definition silly := function (V := Q) ["time"; "rhyme"] (bin nmul (arg "rhyme") (arg "time")).
Definition some_dev : res (device Q) :=
  rbind (det 2) (fun r => rbind (det 0) (fun i =>
  Ok [("some param", prm_of [("some mech", mech_of KDeg silly [("rhyme", r)] (Some "h"))] (init_of i) (LMdl eqn_basic_sum []) None None)])).
Definition some_state : res (simstate Q) :=
  rbind some_dev (fun d => rbind (now (gen_init_state d (Some [("some param", 10)]) 1 1 None (TN 0))) (fun r => Ok (ir_state r))).
Example suite_init_state :
  rbind some_state (fun s => rbind (dgetE (st_lat s) "some param") (fun l => rbind (dgetE l "some mech") (fun p =>
    match p with PDict d => at3 (dgetE d "rhyme") 0 0 0 | _ => Err Unmodelled end))) = Ok 2%Q /\
  rbind some_state (fun s => at3 (dgetE (st_prm s) "some param") 0 0 9) = Ok 0%Q /\
  rbind some_state (fun s => at3 (dgetE (st_prm0 s) "some param") 0 0 8) = Ok 0%Q /\
  rbind some_state (fun s => Ok (st_elapsed s)) = Ok (TD 0).
Proof. vm_compute. repeat split. Qed.

(** test_sim_meas_step_basic *)
Definition dummy_eqn := function (V := Q) ["temp"] (bin nmul (arg "temp") (num 2)).
Definition cond_eqn := function (V := Q) ["temp"; "c"] (bin nsub (arg "c") (bin nmul (num (1#10000)) (bin nsub (arg "temp") (num 25)))).
Definition cur_dev : res (device Q) :=
  rbind (lvar_init (seqn 1 1 (1#100)) None None (Some (4#100)) None "offset") (fun i =>
  rbind (lvar_init (seqn 2 0 (1#1000)) None None (Some (1#100)) None "offset") (fun c =>
  Ok [("current", PDeg (DegPrm (init_of i) (LMdl cond_eqn [("c", c)]) 0%Q [("dummy", mech_of KDeg dummy_eqn [] (Some "h"))] (LMdl eqn_basic_sum [])))])).
Definition cur_env : res (env Q) :=
  env_init [] RNone [Instm (Some "temp") (Some 2%Z) None None; Instm (Some "current") (Some 5%Z) None None] (RDict [("temp", 0); ("current", 1)]).
Definition cur_spec : meas_spec Q := MeasSpec [("temp", 1); ("current", 8)] [("temp", 125)]%Q "test_meas_spec".
Definition cur_report : res (report Q) :=
  rbind cur_dev (fun d => rbind cur_env (fun e =>
  rbind (now (gen_init_state d (Some [("current", 10)]) 2 1 None (TN 10))) (fun s =>
  rbind (now (meas_step e d 3 cur_spec (ir_state s) (report_init [SMeas cur_spec] 2 1))) (fun r => Ok (snd r))))).
Definition row_at (i : nat) : res (row Q) := rbind cur_report (fun r => match nth_error (rp_meas r) i with Some x => Ok x | None => Err KeyError end).
Example suite_meas_step :
  rbind (row_at 0) (fun x => Ok (r_val x, r_param x)) = Ok (120%Q, "temp") /\
  rbind (row_at 2) (fun x => Ok (r_val x)) = Ok (1051#1000)%Q /\
  rbind (row_at 16) (fun x => Ok (r_chp x, r_step x)) = Ok (Some 1, 3) /\
  rbind (row_at 12) (fun x => Ok (r_val x)) = Ok (1183#1000)%Q /\
  rbind cur_report (fun r => Ok (map (fun d => (dget d "step name", dget d "step type", dget d "step number")) (rp_sum r))) =
    Ok [(Some (CStr "test_meas_spec"), Some (CStr "measure"), Some (CNat 3))].
Proof. vm_compute. repeat split. Qed.
End Top.

(** ** cookbook_tests *)
Section Cook.
Open Scope string_scope.
(** test_htol_test: the default arguments are vdd_nom=1.0, vdd_strs_mult=1.2,
    strs_meas_intrvl=1000, duration=1000, num_chps=77, num_lots=3, temp=125 *)
Definition conds_of (s : step Q) : dict Q := match s with SMeas m => ms_conds m | SStrs s => ss_conds s | SOther _ => [] end.
Definition htol_conds_of (r : option (res (test_spec Q))) : option (res (list (dict Q))) :=
  option_map (fun x => rbind x (fun t => Ok (map conds_of (t_steps t)))) r.
Example suite_htol :
  htol_conds_of (htol 50 [("ring_osc", 100)] 1%Q (6#5)%Q 1000 1000 77 3 125%Q) =
    Some (Ok [[("temp", 5963#20); ("vdd", 1)]; [("temp", 7963#20); ("vdd", 6#5)]; [("temp", 5963#20); ("vdd", 1)]]%Q) /\
  htol 50 [("ring_osc", 100)] 1%Q (6#5)%Q 43 1000 77 3 125%Q = Some (Err UserConfigError) /\
  match htol 50 [("param", 5)] (9#10)%Q (13#10)%Q 200 1000 77 3 125%Q with
  | Some (Ok t) => length (t_steps t) = 13 /\ dget (conds_of (last (t_steps t) (SOther None))) "vdd" = Some (9#10)%Q /\
      dget (conds_of (nth 1 (t_steps t) (SOther None))) "vdd" = Some (117#100)%Q /\ t_chps t = 77%Z /\ t_lots t = 3%Z
  | _ => False
  end.
Proof. vm_compute. repeat split. Qed.

(** test_ideal_env, test_volt_temp_env *)
Example suite_cook_envs :
  rbind (ideal_env (V := Q)) (fun e => now (measure_with e "temp" [6475#10000]%Q)) = Ok [6475#10000]%Q /\
  rbind (volt_and_temp_env (V := Q) 0) (fun e => rbind (vrtn_mdl e "vdd") (fun m => now (sample (em_bat m) 5))) = Ok [0; 0; 0; 0; 0]%Q.
Proof. vm_compute. repeat split. Qed.
End Cook.
