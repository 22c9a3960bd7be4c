(** Property C90: exceptions of equations come out unchanged, and others have their
    reason. *)
From Coq Require Import QArith Lia.
From Verif Require Import M_Sim M_Toy S_Device S_Shape S_Exn L_Base L_Device L_Exn L_Exn2 L_Origin T_Sim.
Open Scope nat_scope.
#[local] Existing Instance hord_id.

(** ** C90 *)
Theorem C90_exceptions_pass_through :
  forall V (O : NumOps V) (R : Rng V) (Ho : HashOrd) (X Y : exn -> Prop), ~ Y ValueError ->
  forall (e : env V) (d d' : device V) l C L init, device_guarded X Y d d' ->
  stops_with (fun x => X x \/ Y x) (simulate e d l C L init) (simulate e d' l C L init).
Proof. intros V O R Ho. exact sw_simulate. Qed.
Print Assumptions C90_exceptions_pass_through.

Theorem C90_where_exceptions_come_from :
  forall V (O : NumOps V) (R : Rng V) (Ho : HashOrd) (X : exn -> Prop) (e : env V) (d : device V) l C L init w x,
  (forall m, In (SMeas m) l -> dwf (ms_conds m)) -> device_raises_only X d ->
  fst (simulate e d l C L init w) = Err x ->
  X x \/ of_python x \/
  (x = ZeroDivisionError /\ exists r, (env_has e r \/ device_has d r) /\ zero_rate r) \/
  (x = UserConfigError /\ unknown_unit d).
Proof.
  intros V O R Ho X e d l C L init w x W N E.
  refine (nev_simulate X (exists r, (env_has e r \/ device_has d r) /\ zero_rate r) (unknown_unit d) e d l C L init _ _ _ N W w x E).
  - intros r Hr Z. exists r. auto.
  - intros r Hr Z. exists r. auto.
  - auto.
Qed.
Print Assumptions C90_where_exceptions_come_from.

Theorem C90_sample_is_no_number :
  forall V (O : NumOps V) (f : eqn V) x L C n args w w1, no_number f x ->
  dwf args -> operands L C n args -> accepts f (dkeys args) -> 0 < L -> 0 < C -> 0 < n ->
  call f args w = (Err ValueError, w1) ->
  exists w', call_or_loop f args L C n w = (Err x, w').
Proof. intros V O. exact no_number_raises. Qed.
Print Assumptions C90_sample_is_no_number.

Theorem C90_result_does_not_fit :
  forall V (O : NumOps V) (m : mech V) (t p b : nd V) s k conds lats L C D w w1,
  nshape t = [L; C; D] -> nshape p = [L; C; D] ->
  nshape b = s ++ [k] -> k <> 1 -> D <> 1 -> k <> D ->
  call (lm_eqn (mc_mdl m)) (mech_args m (PArr t) conds lats) w = (Ok (PArr b), w1) ->
  mech_deg_vals m (PArr t) (PArr p) conds lats L C D w = (Err ValueError, w1).
Proof. intros V O. exact wrong_shape_raises. Qed.
Print Assumptions C90_result_does_not_fit.

(** The failure law refuses temperatures above 350 with an exception of its own: a test
    with stress at 400 raises it, a test without stress is not affected. *)
Definition x_hot (a : dict (pyval Q)) : bool :=
  match dget a "temp" with Some (PArr b) => existsb (fun t => negb (Qle_bool t 350)) (ndata b) | _ => false end.
Definition x_eqn : eqn Q := Eqn ["time"; "temp"]%string [] None
  (fun a => if x_hot a then raise (UserExn 7) else e_body ex_fail_eqn a).
Definition x_dev : device Q := [("vth"%string, PDeg
  (DegPrm (LMdl eqn_basic [("init_val"%string, ex_normal 5 7)]) (LMdl (eqn_const 0%Q) []) 0%Q
     [("fail"%string, Mech KFail (LMdl x_eqn []) 0%Q (Some "h"%string))] (LMdl eqn_basic_sum []))); ("freq"%string, PCirc ex_freq)].
Lemma guarded_refl X (f : eqn Q) : guarded_by X f f.
Proof. repeat split. intros a w. now left. Qed.
Lemma lmdl_refl X (m : lmdl Q) : lmdl_guarded X m m.
Proof. split; [reflexivity|apply guarded_refl]. Qed.
Lemma mech_refl X (m : mech Q) : mech_guarded X m m.
Proof. repeat (split; [reflexivity|]). apply guarded_refl. Qed.
Lemma x_guarded : guarded_by (eq (UserExn 7)) ex_fail_eqn x_eqn.
Proof.
  repeat (split; [reflexivity|]). intros a w. cbn [x_eqn e_body]. destruct (x_hot a); [right; exists (UserExn 7), w; split; reflexivity|left; reflexivity].
Qed.
Example C90_example : device_guarded (fun _ => False) (eq (UserExn 7)) ex_dev x_dev /\
  (exists r w, simulate ex_env ex_dev ex_steps 2 1 None ex_w = (Ok r, w)) /\
  fst (simulate ex_env x_dev ex_steps 2 1 None ex_w) = Err (UserExn 7) /\
  (exists r w, simulate ex_env ex_dev [SMeas ex_meas1] 2 1 None ex_w = (Ok r, w) /\
     fst (simulate ex_env x_dev [SMeas ex_meas1] 2 1 None ex_w) = Ok r).
Proof.
  split; [|split; [exists (ex_st, ex_rep), ex_w'; exact ex_ok|split; [vm_compute; reflexivity|vm_compute; do 2 eexists; split; reflexivity]]].
  constructor; [|constructor; [|constructor]]; (split; [reflexivity|]).
  - split; [apply lmdl_refl|]. split; [apply lmdl_refl|]. split; [reflexivity|]. split; [apply lmdl_refl|].
    constructor; [|constructor]. split; [reflexivity|]. do 4 (split; [reflexivity|]). exact x_guarded.
  - apply lmdl_refl.
Qed.

(** ValueError is the exception: raised for whole arrays it makes the simulation try
    every sample by itself, and whatever comes of that is taken. *)
Definition x_own (strict : bool) : eqn Q := Eqn ["init"; "cond"; "fail"]%string [] None
  (fun a => match dget a "init" with
            | Some (PArr b) => if strict then raise ValueError else ret (PArr (amap (fun v => Qred (v + 1)) b))
            | _ => ret (PNum 0%Q)
            end).
Definition x_own_dev (strict : bool) : device Q := [("vth"%string, PDeg
  (DegPrm (LMdl eqn_basic [("init_val"%string, ex_deter 5)]) (LMdl (eqn_const 0%Q) []) 0%Q
     [("fail"%string, ex_fail)] (LMdl (x_own strict) [])))].
Lemma x_own_guarded : guarded_by (eq ValueError) (x_own false) (x_own true).
Proof.
  repeat (split; [reflexivity|]). intros a w. cbn [x_own e_body].
  destruct (dget a "init") as [[v|v|b|dd]|]; [left; reflexivity|left; reflexivity| |left; reflexivity|left; reflexivity].
  right. exists ValueError, w. split; reflexivity.
Qed.
Theorem C90_value_error_refuted : exists (d d' : device Q) e l w r w1 r' w1',
  device_guarded (fun _ => False) (eq ValueError) d d' /\
  simulate e d l 1 1 None w = (Ok r, w1) /\ simulate e d' l 1 1 None w = (Ok r', w1') /\
  map r_val (rp_meas (snd r)) = [6%Q] /\ map r_val (rp_meas (snd r')) = [0%Q].
Proof.
  exists (x_own_dev false), (x_own_dev true), ex_env, [SMeas ex_meas2], ex_w.
  assert (E : exists r w1 r' w1', simulate ex_env (x_own_dev false) [SMeas ex_meas2] 1 1 None ex_w = (Ok r, w1) /\
    simulate ex_env (x_own_dev true) [SMeas ex_meas2] 1 1 None ex_w = (Ok r', w1') /\
    map r_val (rp_meas (snd r)) = [6%Q] /\ map r_val (rp_meas (snd r')) = [0%Q])
    by (vm_compute; do 4 eexists; repeat split; reflexivity).
  destruct E as (r & w1 & r' & w1' & E). exists r, w1, r', w1'. split; [|exact E].
  constructor; [|constructor]. split; [reflexivity|]. split; [apply lmdl_refl|]. split; [apply lmdl_refl|]. split; [reflexivity|].
  split; [split; [reflexivity|exact x_own_guarded]|]. constructor; [|constructor]. split; [reflexivity|apply mech_refl].
Qed.
Print Assumptions C90_value_error_refuted.

(** All these exceptions occur although no equation raises any. *)
Definition y_eqn (req : list string) (p : pyval Q) : eqn Q := Eqn req [] None (fun _ => ret p).
Definition y_arr (s : list nat) : pyval Q := PArr (nfull s 1%Q).
Definition y_dev (v : dist Q) (init : pyval Q) (unit : string) (arg : string) (name : string) : device Q := [(name, PDeg
  (DegPrm (LMdl (y_eqn ["x"%string] init)
             [("x"%string, LVar None (Some Offset) None 0%Q (Some Offset) (Rv 1 v None) true (Rv 0 (DDeter 0%Q) None) false (Rv 0 (DDeter 0%Q) None) false)])
     (LMdl (eqn_const 0%Q) []) 0%Q
     [("fail"%string, Mech KFail (LMdl (y_eqn ["time"%string] (PNum 0%Q)) []) 0%Q (Some unit))]
     (LMdl (y_eqn ["init"; "cond"; arg]%string init) [])))].
Definition y_test (name : string) : list (step Q) := [SMeas (MeasSpec [(name, 1)] [] "m"); SStrs (StrsSpec [] 3600000000 "s")].
Definition y_test2 : list (step Q) := y_test "vth" ++ y_test "nobody".
Theorem C90_all_these_occur : forall x,
  In x [KeyError; TypeError; AttributeError; ValueError; IndexError; ZeroDivisionError; UserConfigError] ->
  exists (e : env Q) d l w, (forall m, In (SMeas m) l -> dwf (ms_conds m)) /\ device_raises_only (fun _ => False) d /\
    fst (simulate e d l 1 1 None w) = Err x.
Proof.
  assert (G : forall v init unit arg name l x, (forall m, In (SMeas m) l -> dwf (ms_conds m)) ->
    fst (simulate [] (y_dev v init unit arg name) l 1 1 None ex_w) = Err x ->
    exists (e : env Q) d l w, (forall m, In (SMeas m) l -> dwf (ms_conds m)) /\ device_raises_only (fun _ => False) d /\
      fst (simulate e d l 1 1 None w) = Err x).
  { intros v init unit arg name l x W E. exists [], (y_dev v init unit arg name), l, ex_w. split; [exact W|]. split; [|exact E].
    intros k q [I|[]]. injection I as <- <-. repeat split; try (intros a w y Q; discriminate Q).
    intros nm m [I|[]]. injection I as <- <-. intros a w y Q. discriminate Q. }
  assert (T : forall name m, In (SMeas m) (y_test name) -> dwf (ms_conds m)).
  { intros name m [I|[I|[]]]; [|discriminate]. injection I as <-. constructor. }
  intros x [<-|[<-|[<-|[<-|[<-|[<-|[<-|[]]]]]]]].
  - apply (G (DNormal 0 1)%Q (y_arr [1; 1; 1]) "h" "fail" "vth" y_test2)%string;
      [intros m I; apply in_app_iff in I as [I|I]; eauto|vm_compute; reflexivity].
  - apply (G (DNormal 0 1)%Q (y_arr [1; 1; 1]) "h" "nowhere" "vth" (y_test "vth"))%string; [apply T|vm_compute; reflexivity].
  - apply (G (DNormal 0 1)%Q (y_arr [1; 1; 1]) "h" "fail" "meas" (y_test "meas"))%string; [apply T|vm_compute; reflexivity].
  - apply (G (DNormal 0 (-1))%Q (y_arr [1; 1; 1]) "h" "fail" "vth" (y_test "vth"))%string; [apply T|vm_compute; reflexivity].
  - apply (G (DNormal 0 1)%Q (y_arr [1; 1]) "h" "fail" "vth" (y_test "vth"))%string; [apply T|vm_compute; reflexivity].
  - apply (G (DGamma 1 0)%Q (y_arr [1; 1; 1]) "h" "fail" "vth" (y_test "vth"))%string; [apply T|vm_compute; reflexivity].
  - apply (G (DNormal 0 1)%Q (y_arr [1; 1; 1]) "fortnight" "fail" "vth" (y_test "vth"))%string; [apply T|vm_compute; reflexivity].
Qed.
Print Assumptions C90_all_these_occur.

(** An equation that branches on its argument (ValueError for arrays) and returns two
    numbers per sample; a law that returns three numbers for two devices. *)
Definition x_pair : eqn Q := Eqn ["time"]%string [] None
  (fun a => match dget a "time" with Some (PArr _) => raise ValueError | _ => ret (PArr (Nd [2] [1; 2]%Q)) end).
Example C90_sample_example : no_number x_pair ValueError /\
  fst (call_or_loop x_pair [("time"%string, PArr (nfull [1; 1; 2] 0%Q))] 1 1 2 ex_w) = Err ValueError.
Proof.
  split; [|vm_compute; reflexivity]. intros args w W N A.
  assert (Hc : call x_pair args w = e_body x_pair args w).
  { exact (proj1 (L_Device.call_accepts x_pair args) A w). }
  rewrite Hc. cbn [x_pair e_body]. destruct (dget args "time") as [v|] eqn:E.
  - apply dget_In in E. destruct (N _ _ E) as [y ->]. exists (PArr (Nd [2] [1; 2]%Q)), w. split; [reflexivity|]. cbn. split; [discriminate|reflexivity].
  - exists (PArr (Nd [2] [1; 2]%Q)), w. split; [reflexivity|]. cbn. split; [discriminate|reflexivity].
Qed.
Example C90_shape_example :
  fst (mech_deg_vals (Mech KFail (LMdl (y_eqn ["time"%string] (y_arr [3])) []) 0%Q (Some "h"%string))
         (PArr (nfull [1; 1; 2] 1%Q)) (PArr (nfull [1; 1; 2] 0%Q)) [] [] 1 1 2 ex_w) = Err ValueError.
Proof. vm_compute. reflexivity. Qed.
