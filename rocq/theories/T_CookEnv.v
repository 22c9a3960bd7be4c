(** Properties of the prebuilt test environments: C64, C65. *)
From Coq Require Import Reals QArith Lra Lia.
From Verif Require Import M_Base M_Num M_NumR M_Nd M_RandVar M_Latent M_Device M_Report M_Env M_CookEnv M_Toy
  S_Latent S_Env S_EnvR S_CookEnv L_Base L_Latent L_Env L_Env2 L_Env3 L_CookEnv L_CookEnvR T_Env.
Open Scope nat_scope.

(** ** C64 *)

(** The ideal environment answers every request it can, draws nothing, and every
    element of every condition array is the requested value (as long as adding zero
    to that value keeps it, which fails only for -0.0). *)
Theorem C64_conditions_as_requested : forall V (O : NumOps V) (R : Rng V) (Ho : HashOrd)
    (e : env V) base prms info dev stress nc nl w,
  ideal_env = Ok e -> dwf base -> answerable base prms info dev ->
  exists res, gen_env_cond_vals e base prms info dev stress nc nl w = (Ok res, w) /\
    (forall x, dmem res x = true <-> In x (request prms)) /\
    forall x v cond p v0, dget res x = Some v -> dget v cond = Some p -> dget base cond = Some v0 -> nadd v0 n0 = v0 ->
    exists n a, p = PArr a /\ request_count prms info x = Some n /\
      nshape a = (match dev_prm dev x with
                  | Some _ => [match info with Some i => ti_lots i | None => nl end; match info with Some i => ti_chps i | None => nc end; n]
                  | None => [1; n; 1]
                  end) /\ length (ndata a) = prod (nshape a) /\
      forall y, In y (ndata a) -> y = v0.
Proof.
  intros V O R Ho e base prms info dev stress nc nl w Ee W A. injection Ee as <-.
  destruct (ideal_total base prms info dev stress nc nl w W A) as [res E]. exists res. split; [exact E|].
  split; [now apply env_conds_ok in E as (K & _)|].
  intros x v cond p v0 Hx Hc Hb Hz. destruct (ideal_exact _ _ _ _ _ _ _ _ _ _ W E x v cond p v0 Hx Hc Hb) as (n & a & -> & Hn & Sh & Le & El).
  exists n, a. repeat split; auto. intros y Hy. rewrite (El y Hy). now rewrite !Hz.
Qed.
Print Assumptions C64_conditions_as_requested.

(** ... and measures everything exactly, *)
Theorem C64_exact_measurements : forall V (O : NumOps V) (R : Rng V) (e : env V) p vals w,
  ideal_env = Ok e -> p <> "meas"%string -> measure_with e p vals w = (Ok vals, w).
Proof.
  intros V O R e p vals w Ee Hp. injection Ee as <-. unfold measure_with, meas_instm. cbn [dmem dget].
  rewrite instm_meas. destruct (String.eqb_spec p "meas"); [congruence|]. apply measure_ideal.
Qed.
Print Assumptions C64_exact_measurements.
(** ... except a parameter called 'meas', contrary to the documentation. *)
Theorem C64_measures_all_parameters_refuted : exists (e : env Q) p vals w,
  ideal_env = Ok e /\ measure_with e p vals w = (Err AttributeError, w).
Proof. exists [], "meas"%string, [1%Q], (fun _ => 0). split; reflexivity. Qed.
Print Assumptions C64_measures_all_parameters_refuted.

#[local] Existing Instance hord_id.
Example C64_example : exists e, ideal_env = Ok e /\
  gen_env_cond_vals e [("temp", 300%Q); ("vdd", 1%Q)]%string exe_req None (Some exe_dev) true 2 1 (fun g => g) =
  (Ok [("p", [("temp", PArr (Nd [1; 2; 1] [300; 300]%Q))]);
       ("temp", [("temp", PArr (Nd [1; 2; 1] [300; 300]%Q))]);
       ("q", [("temp", PArr (Nd [1; 2; 2] [300; 300; 300; 300]%Q))])]%string, fun g => g) /\
  answerable [("temp", 300%Q); ("vdd", 1%Q)]%string exe_req None (Some exe_dev).
Proof.
  eexists. split; [reflexivity|]. split; [vm_compute; reflexivity|]. split; [exact I|].
  intros x [<-|[<-|[<-|[]]]]; (split; [eexists; reflexivity|]); cbn; intros Q; try discriminate; auto.
Qed.
(** A sensor for something that is not a condition cannot be answered. *)
Example C64_not_answerable : forall e, ideal_env = Ok e ->
  fst (gen_env_cond_vals e [("temp", 300%Q)]%string (PCounts [("humidity"%string, 1)]) None (Some exe_dev) true 1 1 (fun g => g)) = Err KeyError.
Proof. intros e E. injection E as <-. vm_compute. reflexivity. Qed.

(** ** C65 *)

(** Only temperature and voltage vary, by offsets with the advertised spreads, every
    layer drawing from a generator of its own. *)
Theorem C65_variation : forall V (O : NumOps V) (R : Rng V) g, exists e,
  volt_and_temp_env g = Ok e /\
  (exists m, vrtn_mdl e "temp" = Ok m /\ emdl_shows m (ETold Offset
     (Some (Rv (g + 3) (DNormal (nofQ 0) (nofQ (5 # 100))) None))
     (Some (Rv (g + 4) (DNormal (nofQ 0) (nofQ (2 # 10))) None))
     (Some (Rv (g + 5) (DNormal (nofQ 0) (nofQ (5 # 10))) None)))) /\
  (exists m, vrtn_mdl e "vdd" = Ok m /\ emdl_shows m (ETold Offset
     (Some (Rv g (DNormal (nofQ 0) (nofQ (3 # 10000))) None))
     (Some (Rv (g + 1) (DNormal (nofQ 0) (nofQ (5 # 10000))) None))
     (Some (Rv (g + 2) (DNormal (nofQ 0) (nofQ 0)) None)))) /\
  (forall c, c <> "temp"%string -> c <> "vdd"%string -> exists m, vrtn_mdl e c = Ok m /\ emdl_shows m (ETold Offset None None None)) /\
  forall p vals w, p <> "temp"%string -> p <> "vdd"%string -> p <> "meas"%string -> measure_with e p vals w = (Ok vals, w).
Proof.
  intros V O R g. assert (Ex : exists e : env V, volt_and_temp_env g = Ok e) by (eexists; reflexivity). destruct Ex as [e Ee].
  exists e. split; [auto|].
  assert (K : forall n,
    dget e (n ++ "_var") = option_map (fun m => AVar (renamed eset_name (RDict [("temp", 0); ("vdd", 1)]%string) n m))
      (given em_name [match temp_vrtns (V := V) g with Ok t => t | _ => still_mdl end; match volt_vrtns g with Ok t => t | _ => still_mdl end] (RDict [("temp", 0); ("vdd", 1)]%string) n) /\
    dget e (n ++ "_instm") = option_map (fun i => AInst (renamed iset_name (RDict [("temp", 0); ("vdd", 1)]%string) n i))
      (given in_name [temp_meas g; volt_meas g] (RDict [("temp", 0); ("vdd", 1)]%string) n)).
  { apply env_init_get; [| |exact Ee]; (split; [|]); repeat constructor; cbn; intuition discriminate. }
  split; [|split; [|split]].
  - eexists. unfold vrtn_mdl. rewrite (proj1 (K "temp"%string)). split; [reflexivity|]. apply em_rep_shows. repeat split.
  - eexists. unfold vrtn_mdl. rewrite (proj1 (K "vdd"%string)). split; [reflexivity|]. apply em_rep_shows. repeat split.
  - intros c Nt Nv. exists (still_mdl (V := V)). split; [|apply em_rep_shows, still_rep].
    unfold vrtn_mdl. rewrite (proj1 (K c)). cbn [given dget].
    destruct (String.eqb_spec c "temp"); [congruence|]. destruct (String.eqb_spec c "vdd"); [congruence|]. reflexivity.
  - intros p vals w Nt Nv Nm. unfold measure_with, meas_instm. unfold dmem. pose proof (proj2 (K "meas"%string)) as Km. cbn [append] in Km. rewrite Km.
    rewrite (proj2 (K p)). cbn [given dget].
    destruct (String.eqb_spec p "temp"); [congruence|]. destruct (String.eqb_spec p "vdd"); [congruence|]. cbn [option_map].
    rewrite instm_meas. destruct (String.eqb_spec p "meas"); [congruence|]. apply measure_ideal.
Qed.
Print Assumptions C65_variation.

(** Temperature sensor readings: the value in degrees Celsius with an error, to two
    significant figures, limited to -40 .. 180; so from 10 degrees on whole degrees
    and from 100 degrees on multiples of ten. *)
Theorem C65_temperature_readings : forall (R0 : Rng R) g e vals w ys w',
  volt_and_temp_env g = Ok e -> measure_with e "temp" vals w = (Ok ys, w') ->
  length ys = length vals /\
  (exists es, reads (Rv (g + 7) (DNormal (- 27315 / 100) (2 / 10))%R None) (length vals) w es w' /\
    forall k x y, nth_error vals k = Some x -> nth_error ys k = Some y ->
      exists err, nth_error es k = Some err /\ reads_as 2 (-40) 180 x err y) /\
  forall y, In y ys -> ((10 <= Rabs y)%R -> multiple_of 1 y) /\ ((100 <= Rabs y)%R -> multiple_of 10 y).
Proof. intros R0. exact temp_readings. Qed.
Print Assumptions C65_temperature_readings.

(** Voltmeter readings: three significant figures within 0 .. 12; from 1 V on
    multiples of 10 mV, from 10 V on multiples of 100 mV. *)
Theorem C65_voltage_readings : forall (R0 : Rng R) g e vals w ys w',
  volt_and_temp_env g = Ok e -> measure_with e "vdd" vals w = (Ok ys, w') ->
  length ys = length vals /\
  (exists es, reads (Rv (g + 6) (DNormal 0 (2 / 10000))%R None) (length vals) w es w' /\
    forall k x y, nth_error vals k = Some x -> nth_error ys k = Some y ->
      exists err, nth_error es k = Some err /\ reads_as 3 0 12 x err y) /\
  forall y, In y ys -> ((1 <= Rabs y)%R -> multiple_of (1 / 100) y) /\ ((10 <= Rabs y)%R -> multiple_of (1 / 10) y).
Proof. intros R0. exact vdd_readings. Qed.
Print Assumptions C65_voltage_readings.

(** "To the nearest hundredth of a degree" and "to the nearest mV" are wrong: with
    error draws at their means 125 degrees read 120, and 1.234 V read 1.23. *)
Definition mean_rng : Rng Q := {| rdraw := fun p s => match p with NNormal mu _ => (mu, S s) | _ => (0%Q, S s) end; rvalid := fun _ => true |}.
Definition read_one (nm : string) (x : Q) : res (list Q) :=
  match volt_and_temp_env 0 with Ok e => fst (measure_with (H0 := mean_rng) e nm [x] (fun _ => 0)) | Err ex => Err ex end.
Theorem C65_stated_resolution_refuted : exists (celsius volts rt rv : Q),
  read_one "temp" (celsius + (27315 # 100))%Q = Ok [rt] /\ read_one "vdd" volts = Ok [rv] /\
  ((1 # 100) < celsius - rt)%Q /\ ((1 # 1000) < volts - rv)%Q.
Proof. exists 125%Q, (1234 # 1000)%Q, 120%Q, (123 # 100)%Q. vm_compute. repeat split. Qed.
Print Assumptions C65_stated_resolution_refuted.
Example C65_example :
  read_one "temp" (25 + (27315 # 100))%Q = Ok [25%Q] /\ read_one "temp" (- 55 + (27315 # 100))%Q = Ok [(-40)%Q] /\
  read_one "vdd" 15 = Ok [12%Q] /\ read_one "vdd" (8765 # 10000) = Ok [219 # 250]%Q /\ read_one "vth" (8765 # 10000) = Ok [8765 # 10000]%Q.
Proof. vm_compute. repeat split. Qed.
